(** Lemmas for C86. *)
From Coq Require Import Strings.String.
From Verif Require Import PyBase L_PyBase PyDict L_PyDict PyInt Struct M_SofaHeader M_Package S_Wire L_Package L_Frames M_RpcId M_Trace L_Trace L_Trace2 M_SyncClient L_SyncClient M_AioServer S_Server M_System S_System L_System M_Front S_Front L_Front S_Written.
From Verif Require M_AioClient L_System1.
Open Scope Z_scope.

Lemma set_attributes_ok l : set_attributes l = Ok tt -> ~ In (str "__dict__") l /\ ~ In (str "__class__") l /\ ~ In (str "__weakref__") l.
Proof.
  induction l as [|k l IH]; cbn [set_attributes]; [intuition|].
  destruct (pystr_eqb k (str "__dict__")) eqn:E1; [discriminate|]. destruct (pystr_eqb k (str "__class__")) eqn:E2; [discriminate|]. destruct (pystr_eqb k (str "__weakref__")) eqn:E3; [discriminate|].
  intros H. destruct (IH H) as (A & B & C). repeat split; intros [->|K]; try contradiction; vm_compute in E1; vm_compute in E2; vm_compute in E3; discriminate.
Qed.
Lemma absent {V} k (d : dict pystr V) : dmem k d = false -> dget k d = None.
Proof. unfold dmem. destruct (dget k d); [discriminate|reflexivity]. Qed.
Lemma build_says d h : plain d -> build_header (y_baggage d) (y_interface d) (y_method d) (y_app d) (y_uid d) (y_extra d) = Ok h -> says d h.
Proof.
  intros (Wb & We & Np) H. fold (keys (y_baggage d)) in Wb, Np. fold (keys (y_extra d)) in We.
  assert (Hs : dget (str "self") (y_baggage d) = None /\ (forall k, In k hidden_keys -> dget k (y_baggage d) = None) /\ (forall k, In k (keys (y_extra d)) -> ~ In k reserved_names)).
  { unfold build_header in H. destruct (existsb (fun k => mem_str k build_params) (keys (y_extra d))) eqn:E1; [discriminate|]. apply bind_Ok in H as (e & Ee & H). unfold trace_expand in Ee.
    destruct (dmem (str "self") (y_baggage d)) eqn:E2; [discriminate|]. apply bind_Ok in Ee as ([] & Ea & Ee). destruct (dmem (str "expand") (y_baggage d)) eqn:E3; [discriminate|].
    destruct (set_attributes_ok _ Ea) as (A & B & C). cbv zeta in H. set (kw := dupdate (dupdate [] (y_extra d)) e) in *. destruct (existsb (fun k => mem_str k call_params) (keys kw)) eqn:E4; [discriminate|].
    split; [exact (absent _ _ E2)|]. split.
    - unfold hidden_keys. intros k Hk. cbn [map] in Hk. destruct Hk as [<-|[<-|[<-|[<-|[<-|[]]]]]]; try (apply dget_None; assumption). exact (absent _ _ E3).
    - intros k Hk Hr. unfold reserved_names in Hr. apply in_app_iff in Hr as [Hr|Hr].
      + rewrite <- not_true_iff_false in E1. apply E1. apply existsb_exists. exists k. split; [exact Hk|]. apply mem_str_iff. exact Hr.
      + rewrite <- not_true_iff_false in E4. apply E4. apply existsb_exists. exists k. split; [|apply mem_str_iff; exact Hr]. unfold kw. apply keys_dupdate_In. left. apply keys_dupdate_In. right. exact Hk. }
  destruct Hs as (Hs & Hh & Hr). destruct (build_header_spec _ (y_interface d) (y_method d) (y_app d) (y_uid d) _ Wb We Hs Hh Hr) as (h' & E & W & G). assert (h' = h) by congruence. subst h'. split; [exact W|]. match type of G with context [map ?f (y_baggage d)] => pose (B := map f (y_baggage d)); change (map f (y_baggage d)) with B in G end.
  assert (Wp : wf_dict B).
  { unfold B, wf_dict, keys in *. rewrite map_map. cbn [fst]. rewrite <- (map_map fst (fun k => PREFIX ++ k)). apply FinFun.Injective_map_NoDup; [|exact Wb]. intros x y K. apply app_inv_head in K. exact K. }
  change (str "rpc_trace_context.") with PREFIX in *. unfold said.
  change [(str "sofa_head_target_service", y_interface d); (str "sofa_head_method_name", y_method d); (str "sofa_head_target_app", y_app d); (str "service", y_interface d); (str "uid", y_uid d)] with (fixed_part (y_interface d) (y_method d) (y_app d) (y_uid d)).
  set (F := fixed_part (y_interface d) (y_method d) (y_app d) (y_uid d)) in *. assert (Wf : wf_dict F) by apply fixed_wf. change (str "rpc_trace_context.") with PREFIX.
  assert (Kf : forall k v, In (k, v) F -> forall b, k <> PREFIX ++ b) by (intros k v K b; apply reserved_not_prefixed; unfold reserved_names; apply in_app_iff; right; exact (in_map fst _ _ K)).
  intros k v. split.
  - intros Hi. apply (In_dget k v h W) in Hi. rewrite G in Hi. destruct (dget k F) as [x|] eqn:D1; [left; injection Hi as <-; apply dget_In; exact D1|].
    destruct (dget k B) as [x|] eqn:D2.
    + right. left. apply dget_In, in_map_iff in D2 as ((b, w) & D2 & D3). cbn in D2. injection D2 as <- <-. injection Hi as <-. exists b. split; [exact D3|reflexivity].
    + right. right. split; [apply dget_In; exact Hi|]. intros b w Hb E'. rewrite dget_None in D2. apply D2. unfold B, keys. rewrite map_map. apply in_map_iff. exists (b, w). cbn. auto.
  - intros S. apply dget_In. rewrite G. destruct S as [S|[(b & S & ->)|(S & N)]].
    + rewrite (In_dget _ _ _ Wf S). reflexivity.
    + destruct (dget (PREFIX ++ b : pystr) F) as [x|] eqn:D1; [destruct (Kf _ _ (dget_In _ _ _ D1) b eq_refl)|].
      assert (D2 : dget (PREFIX ++ b : pystr) B = Some v) by (apply (In_dget _ _ _ Wp); apply in_map_iff; exists (b, v); auto). rewrite D2. reflexivity.
    + destruct (dget k F) as [x|] eqn:D1; [exfalso; apply (Hr k); [exact (in_map fst _ _ S)|]; unfold reserved_names; apply in_app_iff; right; exact (dget_keys _ _ _ D1)|].
      destruct (dget k B) as [x|] eqn:D2.
      * apply dget_In, in_map_iff in D2 as ((b, w) & D2 & D3). cbn in D2. injection D2 as <- <-. destruct (N b w D3 eq_refl).
      * apply (In_dget _ _ _ We). exact S.
Qed.

(** ** The asyncio client *)
Lemma hist_from U t l : forall o, In o (w_hist (w_run U t l)) ->
  (exists k d rid a, In (k, d, rid, a) (invocations l) /\ o = YCall (entry_call k d) rid a) \/ (In (WSys o) l /\ forall d rid a, o <> YCall d rid a).
Proof.
  induction l as [|x l IH] using rev_ind; [intros o []|]. intros o. unfold w_run. rewrite fold_left_app. cbn [fold_left]. fold (w_run U t l).
  assert (More : In o (w_hist (w_run U t l)) -> (exists k d rid a, In (k, d, rid, a) (invocations (l ++ [x])) /\ o = YCall (entry_call k d) rid a) \/ (In (WSys o) (l ++ [x]) /\ forall d rid a, o <> YCall d rid a)).
  { intros H. destruct (IH o H) as [(k & d & rid & a & A & B)|(A & B)]; [left|right; split; [apply in_app_iff; left; exact A|exact B]]. exists k, d, rid, a. split; [rewrite inv_app; apply in_app_iff; left; exact A|exact B]. }
  destruct x as [k d rid a|x|j|j|j|j]; cbn [w_step].
  - cbv zeta. assert (New : o = YCall (entry_call k d) rid a -> (exists k0 d0 rid0 a0, In (k0, d0, rid0, a0) (invocations (l ++ [WInvoke k d rid a])) /\ o = YCall (entry_call k0 d0) rid0 a0) \/ (In (WSys o) (l ++ [WInvoke k d rid a]) /\ forall d0 rid0 a0, o <> YCall d0 rid0 a0)).
    { intros ->. left. exists k, d, rid, a. split; [rewrite inv_app; apply in_app_iff; right; left; reflexivity|reflexivity]. }
    destruct (entry_ok k d); [|cbn; rewrite app_nil_r; exact More]. destruct (y_request (entry_call k d) rid); [|cbn; rewrite app_nil_r; exact More].
    destruct (callback_ok k d); cbn; intros H; apply in_app_iff in H as [H|[H|[]]]; auto.
  - assert (New : In o (w_hist (w_run U t l) ++ [x]) -> (forall d rid a, x <> YCall d rid a) -> (exists k d rid a, In (k, d, rid, a) (invocations (l ++ [WSys x])) /\ o = YCall (entry_call k d) rid a) \/ (In (WSys o) (l ++ [WSys x]) /\ forall d rid a, o <> YCall d rid a)).
    { intros H N. apply in_app_iff in H as [H|[<-|[]]]; [exact (More H)|]. right. split; [apply in_app_iff; right; left; reflexivity|exact N]. }
    destruct x; cbn [w_hist]; try exact More; intros H; (apply New; [exact H|discriminate]).
  - destruct (nth_error (w_calls (w_run U t l)) j) as [c|]; [|exact More]. destruct (f_fut c), (nth_error (M_AioClient.s_tasks (w_client U t (w_run U t l))) (f_task c)) as [tk|]; try exact More. destruct (M_AioClient.t_pc tk); exact More.
  - destruct (nth_error (w_calls (w_run U t l)) j) as [c|]; [|exact More]. destruct (f_api c), (f_fut c); exact More.
  - destruct (nth_error (w_calls (w_run U t l)) j) as [c|]; [|exact More]. destruct (f_api c), (f_over c); exact More.
  - destruct (nth_error (w_calls (w_run U t l)) j) as [c|]; [|exact More]. destruct (f_api c), (f_over c), (result_now (f_fut c)); exact More.
Qed.
Lemma entry_frame k d rid p bs : y_request (entry_call k d) rid = Ok p -> to_stream p = Ok bs -> frame_of d 1 rid (asked k d) bs.
Proof.
  intros R T. unfold y_request in R. apply bind_Ok in R as (h & Eh & R). cbn [entry_call y_baggage y_interface y_method y_app y_uid y_extra y_content y_ptype y_timeout] in *.
  destruct (request_frame _ _ _ _ _ _ _ R T) as (hb & b & tm & L & P & C & G). injection C as <-. exists hb, h, tm. split; [exact L|]. split; [exact P|]. split; [intros Pl; exact (build_says d h Pl Eh)|].
  unfold asked, given. destruct k; [exact G| |cbn in G; congruence]. unfold py_or in G. destruct (truthy (y_timeout d)) eqn:Tt; [rewrite Tt in G; exact G|]. cbn in G. congruence.
Qed.
Lemma written U t l c bs : In (c, bs) (M_AioClient.s_written (w_client U t (w_run U t l))) ->
  (exists k d rid a, In (k, d, rid, a) (invocations l) /\ frame_of d 1 rid (asked k d) bs) \/ (exists rid, In (WSys (YClient (M_AioClient.Beat rid))) l /\ beat_frame rid bs).
Proof.
  intros H. unfold w_client, y_client in H. rewrite L_System1.run_written in H. apply in_map_iff in H as ((i, x) & E & H). cbn in E. subst x. apply In_nth_error in H as (p & H).
  destruct (L_System1.wlog_task _ _ _ _ _ _ H) as (tk & Hi & _ & T). fold (y_client t (y_run U t (w_hist (w_run U t l)))) in Hi.
  assert (Hx : In (M_AioClient.t_req tk, M_AioClient.t_addr tk) (L_System1.specs (y_client t (y_run U t (w_hist (w_run U t l)))))) by (unfold L_System1.specs; apply in_map_iff; exists tk; split; [reflexivity|eapply nth_error_In; exact Hi]).
  destruct (yi_from _ _ _ _ (yinv_run U t (w_hist (w_run U t l))) _ Hx) as [(d & rid & In1 & Er)|(rid & In1 & Er)]; cbn [fst snd] in *.
  - destruct (hist_from U t l _ In1) as [(k & d' & rid' & a & A & B)|(_ & B)]; [|destruct (B _ _ _ eq_refl)]. injection B as -> -> B. left. exists k, d', rid', a. split; [exact A|exact (entry_frame _ _ _ _ _ Er T)].
  - destruct (hist_from U t l _ In1) as [(k & d' & rid' & a & _ & B)|(A & _)]; [discriminate|]. right. exists rid. split; [exact A|exact (heartbeat_frame _ _ _ Er T)].
Qed.
Lemma never_one_way U t l c bs f : In (c, bs) (M_AioClient.s_written (w_client U t (w_run U t l))) -> request_layout bs f -> fr_type f = 1.
Proof.
  intros H L. assert (E : sval (field 1 1 bs) = 1). { destruct (written U t l c bs H) as [(k & d & rid & a & _ & hb & h & tm & (_ & (_ & E & _) & _) & _)|(rid & _ & (_ & (_ & E & _) & _))]; exact E. }
  destruct L as (_ & (_ & E' & _) & _). congruence.
Qed.

(** ** The synchronous client *)
Lemma unsent_log p la : forall o log, send_loop p la o = (log, None) -> log = [].
Proof.
  induction la as [|a la IH]; intros o log Es; cbn [send_loop] in Es; [congruence|].
  destruct (a_conn a) as [c0|e]; [|destruct e; try congruence; exact (IH _ _ Es)]. destruct (to_stream p) as [bs|e]; [|destruct e; try congruence; exact (IH _ _ Es)].
  destruct (a_send a) as [k|e]; [discriminate|destruct e; try congruence; exact (IH _ _ Es)].
Qed.
Lemma raw_frames d h ptype timeout rid atts log r c x : build_header (y_baggage d) (y_interface d) (y_method d) (y_app d) (y_uid d) (y_extra d) = Ok h ->
  raw_invoke h (PBytes (y_content d)) ptype timeout rid atts = (log, r) -> In (c, x) log -> exists bs k, x = py_take k bs /\ frame_of d ptype rid (given timeout) bs.
Proof.
  intros Eh R Hi. unfold raw_invoke in R. destruct (new_request h (PBytes (y_content d)) ptype (py_or timeout (PInt (-1))) rid) as [p|e] eqn:Ep; [|injection R as <- _; destruct Hi].
  destruct (send_loop p [atts 0%nat; atts 1%nat; atts 2%nat] None) as (log', o) eqn:Es. assert (log' = log) by (destruct o; congruence). subst log'. clear R.
  assert (K : exists bs k, to_stream p = Ok bs /\ x = py_take k bs).
  { destruct o as [c'|]; [destruct (send_loop_log _ _ _ _ _ Es) as [->|(bs & a & k & T & _ & _ & _ & ->)]; [destruct Hi|]; destruct Hi as [Hi|[]]; injection Hi as <- <-; eauto|].
    apply unsent_log in Es. subst log. destruct Hi. }
  destruct K as (bs & k & T & ->). exists bs, k. split; [reflexivity|]. destruct (request_frame _ _ _ _ _ _ _ Ep T) as (hb & b & tm & L & P & C & G). injection C as <-. exists hb, h, tm. split; [exact L|]. split; [exact P|]. split; [intros Pl; exact (build_says d h Pl Eh)|].
  unfold given. unfold py_or in G. destruct (truthy timeout) eqn:Tt; [rewrite Tt in G; exact G|]. cbn in G. congruence.
Qed.
Lemma sync_frames d h timeout rid atts back srv evs log r c x : build_header (y_baggage d) (y_interface d) (y_method d) (y_app d) (y_uid d) (y_extra d) = Ok h ->
  invoke_sync h (PBytes (y_content d)) timeout rid atts back srv evs = (log, r) -> In (c, x) log -> exists bs k, x = py_take k bs /\ frame_of d 1 rid (given timeout) bs.
Proof.
  intros Eh R Hi. unfold invoke_sync in R. destruct timeout; try (injection R as <- _; destruct Hi);
  (destruct (raw_invoke h (PBytes (y_content d)) PTYPE_REQUEST _ rid atts) as (log', o) eqn:Es; assert (log' = log) by (destruct o as [[]|]; congruence); subst log'; exact (raw_frames _ _ _ _ _ _ _ _ _ _ Eh Es Hi)).
Qed.
Lemma oneway_frames d h rid atts back log r c x : build_header (y_baggage d) (y_interface d) (y_method d) (y_app d) (y_uid d) (y_extra d) = Ok h ->
  invoke_oneway h (PBytes (y_content d)) rid atts back = (log, r) -> In (c, x) log -> exists bs k, x = py_take k bs /\ frame_of d 2 rid (fun t => t = -1) bs.
Proof.
  intros Eh R Hi. unfold invoke_oneway in R.
  destruct (raw_invoke h (PBytes (y_content d)) PTYPE_ONEWAY PNone rid atts) as (log', o) eqn:Es; assert (log' = log) by (destruct o as [[]|]; congruence); subst log'; exact (raw_frames _ _ _ _ _ _ _ _ _ _ Eh Es Hi).
Qed.

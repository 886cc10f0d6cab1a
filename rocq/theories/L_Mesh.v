(** Lemmas about the mesh and service map model. *)
From Coq Require Import Strings.String.
From Verif Require Import PyBase L_PyBase PyDict L_PyDict PyInt M_Mesh S_Mesh L_RpcId.

Lemma post_result_ok a r : post_result a = Ok r <-> exists d, r = JObj d /\ a = Answer 200 (Some (JObj d)) /\ dget (str "success") d = Some (JBool true).
Proof.
  unfold post_result. split.
  - destruct a as [|status body]; [discriminate|]. destruct (status =? 200) eqn:E; cbn [negb]; [|discriminate]. apply Z.eqb_eq in E. subst status.
    destruct body as [[ | | | | |d]|]; try discriminate. destruct (dget (str "success") d) as [[ |[] | | | | ]|] eqn:G; try discriminate.
    intros H. exists d. split; [congruence|]. split; [reflexivity|exact G].
  - intros (d & -> & -> & G). cbn [Z.eqb Pos.eqb negb]. change (negb (200 =? 200)) with false. cbn iota. rewrite G. reflexivity.
Qed.

Lemma post_result_accepted a : (exists r, post_result a = Ok r) <-> accepted a.
Proof.
  split.
  - intros [r H]. apply post_result_ok in H as (d & _ & H). exists d. exact H.
  - intros (d & H). exists (JObj d). apply post_result_ok. exists d. split; [reflexivity|exact H].
Qed.

Lemma post_result_raise a e : post_result a = Raise e -> ~ accepted a.
Proof. intros H Ha. apply post_result_accepted in Ha as [r Ha]. congruence. Qed.

(** ** C20 *)
Lemma map_wf l : forall d, wf_dict d -> wf_dict (maprun d l).
Proof.
  induction l as [|o l IH]; intros d Hd; [exact Hd|]. cbn [maprun fold_left]. apply IH. destruct o; cbn [mapstep].
  - unfold imm_set. destruct (dmem k d); [exact Hd|]. apply wf_dset. exact Hd.
  - unfold imm_pop. destruct (dget k d); [apply wf_ddel|]; exact Hd.
Qed.

Lemma map_stays l : forall d k v, dget k d = Some v -> (forall o, In o l -> o <> Remove k) -> dget k (maprun d l) = Some v.
Proof.
  induction l as [|o l IH]; intros d k v Hd Hn; [exact Hd|]. cbn [maprun fold_left]. apply IH; [|intros o' Ho'; apply Hn; right; exact Ho'].
  specialize (Hn o (or_introl eq_refl)). destruct o as [k' v'|k']; cbn [mapstep].
  - unfold imm_set. destruct (dmem k' d) eqn:E; [exact Hd|]. cbn [fst]. rewrite dget_dset_other; [exact Hd|]. intros <-. unfold dmem in E. rewrite Hd in E. discriminate.
  - unfold imm_pop. destruct (dget k' d); [|exact Hd]. cbn [fst]. rewrite dget_ddel_other; [exact Hd|]. congruence.
Qed.

(** ** C22 *)
Definition unsub_dec (ans : nat -> answer) (from : nat) (log : list post) inf : Prop := unsubscribed ans from log inf.

Lemma posted_snoc log x n e d : posted (log ++ [x]) n e d <-> posted log n e d \/ (n = List.length log /\ x = (e, d)).
Proof.
  unfold posted. split.
  - intros H. apply nth_error_snoc in H as [H|[-> H]]; [left; exact H|right; split; [reflexivity|congruence]].
  - intros [H|[-> H]]; [rewrite nth_error_app1; [exact H|apply nth_error_Some; congruence]|].
    rewrite nth_error_app2, Nat.sub_diag by lia. cbn [nth_error]. rewrite H. reflexivity.
Qed.

Definition route_ok (ans : nat -> answer) (st0 st : cstate) : Prop :=
  wf_dict (c_map st) /\ (exists l, c_log st = c_log st0 ++ l) /\
  forall i, (unsubscribed ans (List.length (c_log st0)) (c_log st) i -> get_address (c_map st) i = (str "127.0.0.1", 12220)) /\
            (~ unsubscribed ans (List.length (c_log st0)) (c_log st) i -> get_address (c_map st) i = get_address (c_map st0) i).

Lemma set_mesh_route d k i : get_address (fst (imm_set k mesh_service_address d)) i = get_address d i.
Proof.
  unfold imm_set, get_address. destruct (dmem k d) eqn:E; [reflexivity|]. cbn [fst]. rewrite dget_dset. destruct (eq_dec i k) as [->|]; [|reflexivity].
  unfold dmem in E. destruct (dget k d); [discriminate|reflexivity].
Qed.

Lemma sub1_ok ans st0 st k : route_ok ans st0 st -> route_ok ans st0 (subscribe1 ans st k).
Proof.
  intros (W & [l L] & R).
  assert (Hu : forall i x, unsubscribed ans (List.length (c_log st0)) (c_log st ++ [(EP_sub, x)]) i <-> unsubscribed ans (List.length (c_log st0)) (c_log st) i).
  { intros i x. split; intros (n & Hn & Hp & Ha).
    - apply posted_snoc in Hp as [Hp|[_ Hp]]; [exists n; auto|]. injection Hp as Hp _. vm_compute in Hp. discriminate.
    - exists n. split; [exact Hn|]. split; [|exact Ha]. apply posted_snoc. left. exact Hp. }
  unfold subscribe1, mesh_subscribe, do_post. destruct (post_result (ans (List.length (c_log st)))) as [r|e] eqn:E; split; cbn [c_map c_log].
  - unfold imm_set. destruct (dmem k (c_map st)); [exact W|]. apply wf_dset. exact W.
  - split; [eexists; rewrite L, <- app_assoc; reflexivity|]. intros i. rewrite set_mesh_route, Hu. apply R.
  - exact W.
  - split; [eexists; rewrite L, <- app_assoc; reflexivity|]. intros i. rewrite Hu. apply R.
Qed.

Lemma name_doc_inj a b : name_doc a = JObj [(str "serviceName", JStr b)] -> a = b.
Proof. unfold name_doc. congruence. Qed.

Lemma unsub1_ok ans st0 st k : route_ok ans st0 st -> route_ok ans st0 (unsubscribe1 ans st k).
Proof.
  intros (W & [l L] & R).
  unfold unsubscribe1, mesh_unsubscribe, do_post. destruct (post_result (ans (List.length (c_log st)))) as [r|e] eqn:E; split; cbn [c_map c_log].
  - unfold imm_pop. destruct (dget k (c_map st)); [apply wf_ddel|]; exact W.
  - split; [eexists; rewrite L, <- app_assoc; reflexivity|]. intros i.
    assert (Ha : accepted (ans (List.length (c_log st)))) by (apply post_result_accepted; eauto).
    assert (Hm : get_address (fst (imm_pop k (c_map st))) k = (str "127.0.0.1", 12220)).
    { unfold imm_pop, get_address. destruct (dget k (c_map st)) eqn:G; cbn [fst]; [rewrite dget_ddel_same by exact W|rewrite G]; reflexivity. }
    assert (Ho : i <> k -> get_address (fst (imm_pop k (c_map st))) i = get_address (c_map st) i).
    { intros Hne. unfold imm_pop, get_address. destruct (dget k (c_map st)); [|reflexivity]. cbn [fst]. rewrite dget_ddel_other by exact Hne. reflexivity. }
    split.
    + intros (n & Hn & Hp & Hacc). apply posted_snoc in Hp as [Hp|[_ Hp]].
      * destruct (pystr_eq_dec i k) as [->|Hne]; [exact Hm|]. rewrite Ho by exact Hne. apply R. exists n. auto.
      * injection Hp as Hp. subst. exact Hm.
    + intros Hn. assert (Hne : i <> k).
      { intros ->. apply Hn. exists (List.length (c_log st)). split; [rewrite L, app_length; lia|]. split; [|exact Ha].
        apply posted_snoc. right. split; reflexivity. }
      rewrite Ho by exact Hne. apply R. intros (n & Hn' & Hp & Hacc). apply Hn. exists n. split; [exact Hn'|]. split; [|exact Hacc]. apply posted_snoc. left. exact Hp.
  - exact W.
  - split; [eexists; rewrite L, <- app_assoc; reflexivity|]. intros i.
    assert (Hna : ~ accepted (ans (List.length (c_log st)))) by (eapply post_result_raise; exact E).
    assert (Hu : unsubscribed ans (List.length (c_log st0)) (c_log st ++ [(EP_unsub, name_doc k)]) i <-> unsubscribed ans (List.length (c_log st0)) (c_log st) i).
    { split; intros (n & Hn & Hp & Hacc).
      - apply posted_snoc in Hp as [Hp|[-> _]]; [exists n; auto|]. contradiction.
      - exists n. split; [exact Hn|]. split; [|exact Hacc]. apply posted_snoc. left. exact Hp. }
    rewrite Hu. apply R.
Qed.

Lemma fold_ok {A} (R : cstate -> Prop) (f : cstate -> A -> cstate) l : (forall st a, R st -> R (f st a)) -> forall st, R st -> R (fold_left f l st).
Proof. intros Hf. induction l as [|a l IH]; intros st H; [exact H|]. cbn [fold_left]. apply IH, Hf, H. Qed.

Lemma substep_ok ans st0 st o : route_ok ans st0 st -> route_ok ans st0 (fst (substep ans st o)) /\ snd (substep ans st o) = Ok tt.
Proof.
  intros H. destruct o as [[m|] l|[m|] l]; cbn [substep subscribe unsubscribe fst snd]; (split; [|reflexivity]); try exact H.
  - apply fold_ok; [|exact H]. intros s a Hs. apply sub1_ok. exact Hs.
  - apply fold_ok; [|exact H]. intros s a Hs. apply unsub1_ok. exact Hs.
Qed.

Lemma subrun_ok ans ops : forall st0 st, route_ok ans st0 st ->
  route_ok ans st0 (fst (subrun ans st ops)) /\ forall r, In r (snd (subrun ans st ops)) -> r = Ok tt.
Proof.
  induction ops as [|o ops IH]; intros st0 st H; cbn [subrun]; [split; [exact H|intros r []]|].
  destruct (substep_ok ans st0 st o H) as [H1 H2]. destruct (substep ans st o) as [st1 x]. cbn [fst snd] in H1, H2. subst x.
  destruct (IH st0 st1 H1) as [H3 H4]. destruct (subrun ans st1 ops) as [st2 xs]. cbn [fst snd] in *. split; [exact H3|].
  intros r [<-|Hr]; [reflexivity|apply H4; exact Hr].
Qed.

Lemma route_init ans st : wf_dict (c_map st) -> route_ok ans st st.
Proof.
  intros W. split; [exact W|]. split; [exists []; rewrite app_nil_r; reflexivity|]. intros i. split; [|reflexivity].
  intros (n & Hn & Hp & _). exfalso. unfold posted in Hp. assert (n < List.length (c_log st))%nat by (apply nth_error_Some; congruence). lia.
Qed.

Lemma subscribe_routes ans st0 ops : wf_dict (c_map st0) ->
  let '(st, results) := subrun ans st0 ops in
  (forall r, In r results -> r = Ok tt) /\
  forall i, (unsubscribed ans (List.length (c_log st0)) (c_log st) i -> get_address (c_map st) i = (str "127.0.0.1", 12220)) /\
            (~ unsubscribed ans (List.length (c_log st0)) (c_log st) i -> get_address (c_map st) i = get_address (c_map st0) i).
Proof.
  intros W. destruct (subrun_ok ans ops st0 st0 (route_init ans st0 W)) as [(_ & _ & R) H]. destruct (subrun ans st0 ops) as [st xs]. split; [exact H|exact R].
Qed.

(** Which posts a history of subscribe and unsubscribe calls makes. *)
Definition subop_posts (o : subop) : list post :=
  match o with
  | Sub (Some _) l => map (fun i => (EP_sub, name_doc i)) l
  | Unsub (Some _) l => map (fun i => (EP_unsub, name_doc i)) l
  | _ => []
  end.
Lemma subrun_log ans ops : forall st, c_log (fst (subrun ans st ops)) = c_log st ++ flat_map subop_posts ops.
Proof.
  assert (F1 : forall l st, c_log (fold_left (subscribe1 ans) l st) = c_log st ++ map (fun i => (EP_sub, name_doc i)) l).
  { induction l as [|a l IH]; intros st; cbn [fold_left map]; [rewrite app_nil_r; reflexivity|]. rewrite IH.
    unfold subscribe1, mesh_subscribe, do_post. destruct (post_result (ans (List.length (c_log st)))); cbn [c_log]; rewrite <- app_assoc; reflexivity. }
  assert (F2 : forall l st, c_log (fold_left (unsubscribe1 ans) l st) = c_log st ++ map (fun i => (EP_unsub, name_doc i)) l).
  { induction l as [|a l IH]; intros st; cbn [fold_left map]; [rewrite app_nil_r; reflexivity|]. rewrite IH.
    unfold unsubscribe1, mesh_unsubscribe, do_post. destruct (post_result (ans (List.length (c_log st)))); cbn [c_log]; rewrite <- app_assoc; reflexivity. }
  induction ops as [|o ops IH]; intros st; cbn [subrun flat_map]; [cbn; rewrite app_nil_r; reflexivity|].
  destruct (substep ans st o) as [st1 x] eqn:E. specialize (IH st1). destruct (subrun ans st1 ops) as [st2 xs]. cbn [fst] in *. rewrite IH, app_assoc. f_equal.
  destruct o as [[m|] l|[m|] l]; cbn [substep subscribe unsubscribe subop_posts] in *; injection E as <- _; rewrite ?F1, ?F2, ?app_nil_r; reflexivity.
Qed.

(** ** C23 *)
Definition reg_inv (ans : nat -> answer) (from : nat) (a : appinfo) (lm : list post * mesh) : Prop :=
  let '(log, m) := lm in
  m_info m = a /\ (from <= List.length log)%nat /\
  (m_started m = true <-> registered ans from log) /\
  (forall n doc, (from <= n)%nat -> posted log n EP_app doc -> doc = appinfo_doc a) /\
  (forall n doc n' doc', (from <= n)%nat -> (from <= n')%nat -> posted log n EP_app doc -> accepted (ans n) -> posted log n' EP_app doc' -> (n' <= n)%nat).

Lemma posted_lt log n e d : posted log n e d -> (n < List.length log)%nat.
Proof. unfold posted. intros H. apply nth_error_Some. congruence. Qed.

Lemma reg_other ans from a log m x : fst x <> EP_app -> reg_inv ans from a (log, m) -> reg_inv ans from a (log ++ [x], m).
Proof.
  intros Hx (H1 & H2 & H3 & H4 & H5). assert (P : forall n d, posted (log ++ [x]) n EP_app d <-> posted log n EP_app d).
  { intros n d. rewrite posted_snoc. split; [intros [H|[_ H]]; [exact H|]|auto]. subst x. exfalso. apply Hx. reflexivity. }
  split; [exact H1|]. split; [rewrite app_length; lia|]. split; [|split].
  - rewrite H3. split; intros (n & d & Hn & Hp & Ha); exists n, d; (split; [exact Hn|split; [apply P; exact Hp|exact Ha]]).
  - intros n d Hn Hp. apply P in Hp. eapply H4; eassumption.
  - intros n d n' d' Hn Hn' Hp Ha Hp'. apply P in Hp. apply P in Hp'. exact (H5 n d n' d' Hn Hn' Hp Ha Hp').
Qed.

Lemma reg_step ans from a lm o : reg_inv ans from a lm -> reg_inv ans from a (meshstep ans lm o).
Proof.
  destruct lm as [log m]. intros H. destruct o; cbn [meshstep]; try (apply reg_other; [cbn; intros E; vm_compute in E; discriminate|exact H]).
  unfold startup. destruct (m_started m) eqn:Es; [exact H|]. unfold do_post. destruct H as (H1 & H2 & H3 & H4 & H5).
  assert (Hno : ~ registered ans from log) by (rewrite <- H3, Es; discriminate).
  assert (P5 : forall n d n' d', (from <= n)%nat -> (from <= n')%nat -> posted (log ++ [(EP_app, appinfo_doc (m_info m))]) n EP_app d -> accepted (ans n) ->
     posted (log ++ [(EP_app, appinfo_doc (m_info m))]) n' EP_app d' -> (n' <= n)%nat).
  { intros n d n' d' Hn Hn' Hp Ha Hp'. apply posted_snoc in Hp as [Hp|[-> Hp]]; [exfalso; apply Hno; exists n, d; auto|].
    apply posted_snoc in Hp' as [Hp'|[-> _]]; [apply posted_lt in Hp'; lia|lia]. }
  assert (P4 : forall n doc, (from <= n)%nat -> posted (log ++ [(EP_app, appinfo_doc (m_info m))]) n EP_app doc -> doc = appinfo_doc a).
  { intros n d Hn Hp. apply posted_snoc in Hp as [Hp|[_ Hp]]; [eapply H4; eassumption|]. congruence. }
  destruct (post_result (ans (List.length log))) as [r|e] eqn:E.
  - split; [exact H1|]. split; [rewrite app_length; lia|]. split; [|split; [exact P4|exact P5]]. cbn [m_started]. split; [|reflexivity]. intros _.
    exists (List.length log), (appinfo_doc (m_info m)). split; [exact H2|]. split; [apply posted_snoc; right; split; reflexivity|]. apply post_result_accepted. eauto.
  - split; [exact H1|]. split; [rewrite app_length; lia|]. split; [|split; [exact P4|exact P5]]. rewrite Es. split; [discriminate|].
    intros (n & d & Hn & Hp & Ha). exfalso. apply posted_snoc in Hp as [Hp|[-> _]]; [apply Hno; exists n, d; auto|]. exact (post_result_raise _ _ E Ha).
Qed.

Lemma reg_run ans from a ops : forall lm, reg_inv ans from a lm -> reg_inv ans from a (meshrun ans lm ops).
Proof. induction ops as [|o ops IH]; intros lm H; [exact H|]. cbn [meshrun fold_left]. apply IH, reg_step, H. Qed.

Lemma reg_init ans a log : reg_inv ans (List.length log) a (log, new_mesh a).
Proof.
  split; [reflexivity|]. split; [lia|]. split; [|split].
  - split; [discriminate|]. intros (n & d & Hn & Hp & _). apply posted_lt in Hp. lia.
  - intros n d Hn Hp. apply posted_lt in Hp. lia.
  - intros n d n' d' Hn Hn' Hp. apply posted_lt in Hp. lia.
Qed.

Lemma startup_outcome ans a log0 ops :
  let '(log, m) := meshrun ans (log0, new_mesh a) ops in
  let '(log', m', r) := startup ans log m in
  (registered ans (List.length log0) log -> log' = log /\ r = Ok true) /\
  (~ registered ans (List.length log0) log ->
     log' = log ++ [(EP_app, appinfo_doc a)] /\
     (r = Ok true <-> accepted (ans (List.length log))) /\ (r = Ok true \/ exists e, r = Raise e)) /\
  (r = Ok true <-> registered ans (List.length log0) log').
Proof.
  pose proof (reg_run ans _ a ops _ (reg_init ans a log0)) as H. destruct (meshrun ans (log0, new_mesh a) ops) as [log m].
  pose proof (reg_step ans _ a _ MStartup H) as H'. cbn [meshstep] in H'. destruct H as (H1 & H2 & H3 & H4 & H5).
  unfold startup in *. destruct (m_started m) eqn:Es.
  - assert (R : registered ans (List.length log0) log) by (apply H3; reflexivity). split; [auto|]. split; [contradiction|]. split; auto.
  - assert (R : ~ registered ans (List.length log0) log) by (rewrite <- H3; discriminate). unfold do_post in *. rewrite H1 in *.
    destruct (post_result (ans (List.length log))) as [r|e] eqn:E; (split; [contradiction|]).
    + destruct H' as (_ & _ & H3' & _). cbn [m_started] in H3'. assert (accepted (ans (List.length log))) by (apply post_result_accepted; eauto).
      split; [intros _; split; [reflexivity|]; split; [split; auto|left; reflexivity]|]. rewrite <- H3'. split; reflexivity.
    + destruct H' as (_ & _ & H3' & _). rewrite Es in H3'. pose proof (post_result_raise _ _ E) as Hn. split; [|rewrite <- H3'; split; discriminate].
      intros _. split; [reflexivity|]. split; [|right; eauto]. split; [discriminate|]. intros Ha. contradiction.
Qed.

Lemma once_registered ans a log0 ops : let '(log, _) := meshrun ans (log0, new_mesh a) ops in
  (forall n doc, (List.length log0 <= n)%nat -> posted log n EP_app doc -> doc = appinfo_doc a) /\
  (forall n doc n' doc', (List.length log0 <= n)%nat -> (List.length log0 <= n')%nat -> posted log n EP_app doc -> accepted (ans n) -> posted log n' EP_app doc' -> (n' <= n)%nat).
Proof.
  pose proof (reg_run ans _ a ops _ (reg_init ans a log0)) as H. destruct (meshrun ans (log0, new_mesh a) ops) as [log m].
  destruct H as (_ & _ & _ & H4 & H5). auto.
Qed.

(** ** C25 *)
Lemma post_each_spec ans (f : list post -> pystr -> list post * res json) (mk : pystr -> post) :
  (forall l s, f l s = (l ++ [mk s], post_result (ans (List.length l)))) ->
  forall names log, exists k, (k <= List.length names)%nat /\
  fst (post_each f log names) = log ++ map mk (firstn k names) /\
  (forall i, (S i < k)%nat -> accepted (ans (List.length log + i)%nat)) /\
  match snd (post_each f log names) with
  | Ok _ => k = List.length names /\ forall i, (i < k)%nat -> accepted (ans (List.length log + i)%nat)
  | Raise e => exists j, k = S j /\ ~ accepted (ans (List.length log + j)%nat) /\ post_result (ans (List.length log + j)%nat) = Raise e
  end.
Proof.
  intros Hf. induction names as [|s names IH]; intros log; cbn [post_each].
  - exists 0%nat. cbn. rewrite app_nil_r. repeat split; intros; lia.
  - rewrite Hf. destruct (post_result (ans (List.length log))) as [r|e] eqn:E.
    + assert (A : accepted (ans (List.length log))) by (apply post_result_accepted; eauto).
      destruct (IH (log ++ [mk s])) as (k & Hk & H1 & H2 & H3). rewrite app_length in H2, H3. cbn [List.length] in H2, H3. exists (S k). cbn [List.length]. split; [lia|].
      split; [rewrite H1, <- app_assoc; reflexivity|].
      assert (Sh : forall i, accepted (ans (List.length log + 1 + i)%nat) -> accepted (ans (List.length log + S i)%nat)) by (intros i; replace (List.length log + S i)%nat with (List.length log + 1 + i)%nat by lia; auto).
      split.
      * intros i Hi. destruct i as [|i]; [rewrite Nat.add_0_r; exact A|]. apply Sh, H2. lia.
      * destruct (snd (post_each f (log ++ [mk s]) names)) as [u|e].
        -- destruct H3 as [-> H3]. split; [reflexivity|]. intros i Hi. destruct i as [|i]; [rewrite Nat.add_0_r; exact A|]. apply Sh, H3. lia.
        -- destruct H3 as (j & -> & H3 & H4). exists (S j). split; [reflexivity|]. replace (List.length log + S j)%nat with (List.length log + 1 + j)%nat by lia. auto.
    + exists 1%nat. cbn. split; [lia|]. split; [reflexivity|]. split; [intros; lia|]. exists 0%nat. rewrite Nat.add_0_r. split; [reflexivity|]. split; [|exact E].
      eapply post_result_raise. exact E.
Qed.

(** the registration document *)
Lemma truthy_spec v : json_truthy v = true <-> ~ In v [JNull; JBool false; JNum 0; JStr []; JArr []; JObj []].
Proof.
  split.
  - intros H I. destruct I as [<-|[<-|[<-|[<-|[<-|[<-|[]]]]]]]; discriminate H.
  - intros N. destruct v as [|b|z|s|l|d]; cbn [json_truthy].
    + contradiction N. left. reflexivity.
    + destruct b; [reflexivity|]. contradiction N. cbn. tauto.
    + destruct (Z.eqb_spec z 0) as [->|]; [|reflexivity]. contradiction N. cbn. tauto.
    + destruct s; [|reflexivity]. contradiction N. cbn. tauto.
    + destruct l; [|reflexivity]. contradiction N. cbn. tauto.
    + destruct d; [|reflexivity]. contradiction N. cbn. tauto.
Qed.
Lemma document_fields a : exists d, appinfo_doc a = JObj d /\ forall k v,
  In (k, v) d <-> ~ In v [JNull; JBool false; JNum 0; JStr []; JArr []; JObj []] /\
  In (k, v) [(str "appName", ai_appName a); (str "dataCenter", ai_dataCenter a); (str "zone", ai_zone a);
             (str "registryEndPoint", ai_registryEndPoint a); (str "accessKey", ai_accessKey a); (str "secretKey", ai_secretKey a);
             (str "antShareCloud", ai_antShareCloud a)].
Proof. eexists. split; [reflexivity|]. intros k v. rewrite filter_In, <- truthy_spec. cbn [snd]. unfold appinfo_fields. tauto. Qed.

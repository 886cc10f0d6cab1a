(** Lemmas behind C61: encoder, transport, dispatcher and decoder put together. *)
From Coq Require Import ZifyBool Strings.String.
From Verif Require Import PyBase L_PyBase PyDict L_PyDict PyInt L_PyInt Struct M_SofaHeader L_SofaHeader M_Package L_Package L_Codec M_RpcId S_Rpc L_RpcId M_Trace L_Trace L_Trace2 L_Trace3 S_Wire M_SyncClient L_SyncClient
  M_AioServer S_Server L_AioServer L_AioServer2 L_AioServer3 L_AioServer4 L_AioServer5 L_AioServer6 L_AioServer7 L_AioServer8 L_AioServer9 M_SockServer S_SockServer L_SockServer S_EndToEnd.
From Verif Require M_AioClient L_AioClient2 L_AioClient4.
Open Scope Z_scope.

(** ** The request *)
Lemma expand_keys b e : trace_expand b = Ok e -> dget (str "self") b = None /\ dget (str "expand") b = None /\ forall k, In k attribute_keys -> dget k b = None.
Proof.
  unfold trace_expand, dmem. intros H. destruct (dget (str "self") b); [discriminate|]. apply bind_Ok in H as ([] & A & H). destruct (dget (str "expand") b); [discriminate|].
  split; [reflexivity|]. split; [reflexivity|]. intros k Hk. apply dget_None. exact (proj1 (set_attributes_iff _) A k Hk).
Qed.
Lemma build_keys b i m t u extra h : dget (str "prefix") b = None -> build_header b i m t u extra = Ok h -> wf_dict extra ->
  dget (str "self") b = None /\ (forall k, In k hidden_keys -> dget k b = None) /\ forall k, In k (keys extra) -> ~ In k reserved_names.
Proof.
  intros Hp H He. unfold build_header in H. destruct (existsb (fun k => mem_str k build_params) (keys extra)) eqn:E1; [discriminate|]. apply bind_Ok in H as (e & Ee & H). cbv zeta in H.
  destruct (existsb (fun k => mem_str k call_params) _) eqn:E2; [discriminate|]. clear H. destruct (expand_keys b e Ee) as (K1 & K2 & K3). split; [exact K1|]. split.
  - intros k [<-|[<-|Hk]]; [exact Hp|exact K2|]. apply K3. exact Hk.
  - intros k Hk Hr. unfold reserved_names in Hr. apply in_app_iff in Hr. destruct Hr as [Hr|Hr].
    + rewrite <- not_true_iff_false in E1. apply E1. apply existsb_exists. exists k. split; [exact Hk|]. apply mem_str_iff. exact Hr.
    + rewrite <- not_true_iff_false in E2. apply E2. apply existsb_exists. exists k. split; [|apply mem_str_iff; exact Hr].
      apply keys_dupdate_In. left. change (dupdate [] extra) with (dict_of extra). rewrite (dict_of_id extra He). exact Hk.
Qed.

Lemma request_unit U ops c interface method app uid extra content ptype tmo rid h bs : call_made U ops c interface method app uid extra content ptype tmo rid h bs ->
  interface <> [] -> method <> [] ->
  exists q, one bs (IRequest q) /\ q_type q = ptype /\ q_id q = rid /\ q_header q = h /\ q_body q = content /\ names_service h interface /\ names_method h method.
Proof.
  intros ((b & Hb & Hp & Bh) & He & Hx & p & N & T) Ni Nm. pose proof (reachable_twf U ops) as W. pose proof (text_wf U _ _ _ W Hb) as Hwb.
  destruct (build_keys b interface method app uid extra h Hp Bh He) as (Hs & Hh & Hr).
  destruct (build_header_spec b interface method app uid extra Hwb He Hs Hh Hr) as (h' & E & Wh & G). assert (h' = h) by congruence. subst h'.
  unfold new_request in N. apply mk_package_Ok in N as (M1 & M2 & M3 & M4 & M5 & M6 & M7 & M8 & M9 & M10 & M11 & L).
  rewrite BoltRequest_eq in M1. destruct (req_layout_of p _ bs M1 L T) as (r & tm & ct & A & B & C & Lay).
  rewrite M4 in A. cbn [int_value] in *. injection A as <-. rewrite M3 in C. injection C as <-. injection M7 as M7. injection M8 as M8.
  pose proof L as (_ & _ & _ & _ & _ & _ & L7). rewrite M2 in L7.
  exists (as_request (frame_of p rid tm content) h). split; [|split; [|split; [|split; [|split; [|split]]]]].
  - apply One_request; [exact Lay| | | |].
    + apply to_bytes_strings in L7. exact L7.
    + cbn [frame_of fr_cmdcode]. rewrite <- M8. discriminate.
    + cbn [frame_of fr_cmdcode]. rewrite <- M8. discriminate.
    + cbn [frame_of fr_class]. rewrite M1. reflexivity.
  - cbn. congruence.
  - reflexivity.
  - cbn. apply dict_of_id. exact Wh.
  - reflexivity.
  - split; [exact Ni|]. left. rewrite G. reflexivity.
  - split; [exact Nm|]. rewrite G. reflexivity.
Qed.

Lemma context_arrives U ops c interface method app uid extra content ptype tmo rid h bs sops fresh : tables_ok U -> call_made U ops c interface method app uid extra content ptype tmo rid h bs ->
  exists tr' c', extract U (trun U t_init sops) h fresh = (tr', Ok c') /\ same_context (trun U t_init ops) c tr' c'.
Proof.
  intros HU ((b & Hb & Hp & Bh) & He & Hx & _). destruct (build_keys b interface method app uid extra h Hp Bh He) as (Hs & Hh & Hr).
  destruct (propagates U ops sops c b interface method app uid extra fresh HU Hb Hh He (fun k Hk => conj (Hr k Hk) (Hx k Hk))) as (h' & E & P). assert (h' = h) by congruence. subst h'.
  destruct (P h (or_introl eq_refl)) as (tr' & c' & b' & o & o' & Ex & B' & K & R1 & R2 & R3). exists tr', c'. split; [exact Ex|]. exists b, b', o, o'. auto 10.
Qed.

(** ** The response *)
Lemma response_decodes r rid v : response r rid 2 0 v -> exists p, from_stream BoltResponse r = Ok p /\ p_request_id p = PInt rid /\ p_cmdcode p = CMDCODE_RESPONSE /\ p_respstatus p = ST_SUCCESS /\ p_content p = PBytes v.
Proof.
  intros (f & Lay & Lc & F1 & F2 & F3 & F4 & F5 & Ls & F6). change BoltResponse with (resp_class (cls_name BoltResponse)).
  eexists. split; [apply from_stream_resp_iff; exists f, [], []; split; [exact Lay|]; split; [exact Lc|]; split; [rewrite F4; exact Ls|]; split; [rewrite F6; constructor|]; split; reflexivity|].
  cbn. rewrite F3, F2, F4, F5. repeat split.
Qed.
Lemma sync_client_returns h content timeout rid p bs r v : (exists z, timeout = PInt z) \/ (exists z, timeout = PBool z) \/ (exists a b, timeout = PFloat a b) ->
  new_request h (PBytes content) PTYPE_REQUEST (py_or timeout (PInt (-1))) rid = Ok p -> to_stream p = Ok bs -> response r rid 2 0 v -> sync_returns h content timeout rid bs r v.
Proof.
  intros Ti N T (f & Lay & Lc & F1 & F2 & F3 & F4 & F5 & Ls & F6) atts i cn evs Hi Hj Hc Hsd Fa Hl.
  pose proof (raw_retry h (PBytes content) PTYPE_REQUEST timeout rid atts p bs cn i N T Hi Hj Hc Hsd) as R.
  assert (S : sync_result rid (Ok tt) r evs = Some (Ok (PBytes v))).
  { rewrite <- (app_nil_r r). rewrite (sync_verdict r f [] rid (Ok tt) evs [] Lay Lc); [rewrite F3, Z.eqb_refl, F4, F5; reflexivity|rewrite F4; exact Ls|rewrite F6; constructor|exact Fa|].
    rewrite (proj1 (sync_complete r f [] evs rid (Ok tt) Lay Fa Hl)). discriminate. }
  unfold invoke_sync. destruct Ti as [(z & ->)|[(z & ->)|(x & y & ->)]]; rewrite R, S; reflexivity.
Qed.
Lemma aio_client_returns rid r v : response r rid 2 0 v -> aio_returns rid r v.
Proof.
  intros R t l c l2 i D W C N. destruct (response_decodes r rid v R) as (p & Fs & P1 & P2 & P3 & P4). exists (M_AioClient.RetPkg p). split; [cbn; rewrite P4; reflexivity|].
  destruct (proj1 (L_AioClient4.decided t l c l2 i rid r p D W C Fs P1 N) (conj P2 P3)) as [(tk & Ht & Hd)|(_ & H)]; [|exact H].
  exists tk. split; [|exact Hd]. replace (l ++ M_AioClient.Read c :: l2 ++ [M_AioClient.Wake i]) with ((l ++ M_AioClient.Read c :: l2) ++ [M_AioClient.Wake i]) by (rewrite <- app_assoc; reflexivity).
  unfold M_AioClient.run. rewrite fold_left_app. cbn [fold_left]. fold (M_AioClient.run t (l ++ M_AioClient.Read c :: l2)).
  cbn [M_AioClient.run_step]. rewrite Ht, Hd. exact Ht.
Qed.

(** ** The threaded server *)
Lemma sock_end_to_end U ops c interface method app uid extra content ptype tmo rid h bs fuel reg sops fresh call net rest : tables_ok U ->
  call_made U ops c interface method app uid extra content ptype tmo rid h bs -> interface <> [] -> method <> [] ->
  (1 <= fuel)%nat -> received net = bs ++ rest -> offers reg interface method ->
  exists tr' c', same_context (trun U t_init ops) c tr' c' /\
    forall v, call interface method content c' = Some (Ok (PBytes v)) -> len v <= 4294967295 ->
    exists r, handle fuel U reg (trun U t_init sops) fresh call None net =
        {| o_calls := [(interface, method, content, c')]; o_sent := [r]; o_trace := tr'; o_status := SEnded (Ok tt) |} /\ response r rid 2 0 v.
Proof.
  intros HU Cm Ni Nm Fu Rc Of. destruct (request_unit _ _ _ _ _ _ _ _ _ _ _ _ _ _ Cm Ni Nm) as (q & O & Q1 & Q2 & Q3 & Q4 & Ns & Nn).
  destruct (context_arrives U ops c interface method app uid extra content ptype tmo rid h bs sops fresh HU Cm) as (tr' & c' & Ex & Sc). exists tr', c'. split; [exact Sc|].
  intros v Ca Lv. subst h content rid. destruct (sock_result fuel U reg (trun U t_init sops) fresh call net q interface method tr' c' v Fu (ex_intro _ bs (ex_intro _ rest (conj Rc O))) Ns Nn Ex Of Ca Lv) as (r & R & E).
  exists r. auto.
Qed.

(** ** The asyncio server *)
Lemma trace_step U o s : v_trace (srun_step U o s) = v_trace s \/ exists h f, v_trace (srun_step U o s) = fst (extract U (v_trace s) h f).
Proof.
  assert (Tf : forall i id st s, v_trace (tfail i id st s) = v_trace s) by (intros; unfold tfail; destruct (fail_bytes _ _); reflexivity).
  destruct o as [name sv|bs| | | |ok|i fresh|i ok|j|j r|i|i]; cbn [srun_step]; try (left; reflexivity).
  - left. unfold sread, starved, found, rfail. destruct (v_rd s); cbv zeta; repeat match goal with |- context[match ?x with _ => _ end] => destruct x end; reflexivity.
  - left. unfold sdrain, swrite, swrite_eof. destruct (v_rd s) as [|h|h c|h c sofa|bs| |st| | |]; try reflexivity; [destruct ok; [destruct (v_closed s)|]; reflexivity|].
    cbv zeta. destruct ok; [|reflexivity]. destruct (last_id s) as [id|]; [|reflexivity]. destruct (fail_bytes id st); [|reflexivity]. destruct (v_closed s); reflexivity.
  - destruct (nth_error (v_tasks s) i) as [t|]; [|left; reflexivity]. destruct (a_pc t); try (left; reflexivity). destruct (a_req t) as [q|]; [|left; reflexivity]. unfold dispatch.
    destruct (service_name (q_header q)); [|left; apply Tf]. destruct (method_name (q_header q)); [|left; apply Tf].
    destruct (extract U (v_trace s) (q_header q) fresh) as (tr, x) eqn:Ex. right. exists (q_header q), fresh. rewrite Ex.
    destruct x as [c|e]; [|reflexivity]. cbv zeta. destruct (find_method _ _ _) as [y|e]; [destruct (q_type q =? PTYPE_ONEWAY); reflexivity|]. destruct e; try apply Tf; reflexivity.
  - left. unfold swrite. destruct (nth_error (v_tasks s) i) as [t|]; [|reflexivity]. destruct (a_pc t); try reflexivity; [destruct ok; [destruct (v_closed s); reflexivity|reflexivity]].
  - left. destruct (nth_error (v_jobs s) j) as [b|]; [|reflexivity]. destruct (j_state b); reflexivity.
  - left. destruct (nth_error (v_jobs s) j) as [b|]; [|reflexivity]. destruct (j_state b); reflexivity.
  - left. destruct (nth_error (v_tasks s) i) as [t|]; [|reflexivity]. destruct (a_pc t); try reflexivity. destruct (a_req t) as [q|]; [|reflexivity]. destruct (nth_error (v_jobs s) j) as [b|]; [|reflexivity].
    destruct (j_state b); try reflexivity. unfold conclude. destruct r as [v|e]; [destruct (truthy v); [destruct (result_bytes v (q_id q))|]; reflexivity|destruct e; apply Tf].
  - left. destruct (nth_error (v_tasks s) i) as [t|]; [|reflexivity]. destruct (a_pc t); try reflexivity. destruct (a_req t) as [q|]; [|reflexivity]. destruct (0 <? q_timeout q); [|reflexivity]. rewrite Tf.
    destruct (nth_error (v_jobs s) j) as [b|]; [|reflexivity]. destruct (j_state b); reflexivity.
Qed.
Lemma trace_reachable U reg ops l : exists ops', v_trace (srun U reg (trun U t_init ops) l) = trun U t_init ops'.
Proof.
  induction l as [|o l (ops' & IH)] using rev_ind; [exists ops; reflexivity|]. rewrite srun_app. cbn [sfrom fold_left].
  destruct (trace_step U o (srun U reg (trun U t_init ops) l)) as [E|(h & f & E)].
  - exists ops'. rewrite <- IH. exact E.
  - exists (ops' ++ [TExtract h f]). unfold trun. rewrite fold_left_app. fold (trun U t_init ops'). cbn [fold_left tstep]. rewrite <- IH. exact E.
Qed.

Lemma nth_some_app {A} (l m : list A) n x y : nth_error l n = Some x -> nth_error (l ++ m) n = Some y -> x = y.
Proof. intros H K. rewrite (nth_app_some l m n x H) in K. congruence. Qed.
(** the n-th unit of the stream is what the coroutine for it has *)
Lemma answering_unit U reg tr l i r p pre items a x post : answering (srun U reg tr l) i (List.length items) r p -> fed l = pre ++ a ++ post ->
  cuts pre items [] -> Forall (fun i => ~ fatal i) items -> one a x -> item_for r x.
Proof.
  intros A E Cp Nf O. pose proof (good_run U reg tr l) as G. destruct (answering_item _ _ _ _ _ G A) as (y & Ny & Fy). destruct (run_cuts U reg tr l) as (rest & C).
  assert (C2 : cuts (fed l) (items ++ [x]) post).
  { rewrite E. apply cuts_snoc with (a := a); [|exact Nf|exact O]. pose proof (cuts_join pre items (a ++ post) [] (a ++ post) Cp Nf (Cuts_nil _)) as J. rewrite app_nil_r in J. exact J. }
  assert (Nx : nth_error (items ++ [x]) (List.length items) = Some x) by (rewrite nth_error_app2, Nat.sub_diag by lia; reflexivity).
  destruct (cuts_comparable _ _ _ _ _ C C2) as [(m & Em)|(m & Em)].
  - rewrite Em in Nx. rewrite (nth_some_app _ _ _ _ _ Ny Nx) in Fy. exact Fy.
  - rewrite Em in Ny. rewrite (nth_some_app _ _ _ _ _ Nx Ny). exact Fy.
Qed.

Lemma aio_end_to_end U ops c interface method app uid extra content ptype tmo rid h bs reg sops l1 l2 pre items post i r fresh : tables_ok U ->
  call_made U ops c interface method app uid extra content ptype tmo rid h bs -> interface <> [] -> method <> [] -> ptype <> 2 ->
  let run := srun U reg (trun U t_init sops) in let n := List.length items in let l := l1 ++ Dispatch i fresh :: l2 in
  fed l1 = pre ++ bs ++ post -> cuts pre items [] -> Forall (fun i => ~ fatal i) items ->
  answering (run l1) i n r TStart -> offers (v_reg (run l1)) interface method -> v_closed (run l) = false -> ~ In (Expire i) l2 -> ~ In (Drain i false) l2 ->
  exists c', same_context (trun U t_init ops) c (v_trace (run (l1 ++ [Dispatch i fresh]))) c' /\
    (exists b, In b (v_jobs (run l)) /\ j_frame b = n) /\
    (forall b, In b (v_jobs (run l)) -> j_frame b = n -> j_service b = interface /\ j_method b = method /\ j_body b = content /\ j_ctx b = c') /\
    forall v, ended_with (run l) n (Ok (PBytes v)) -> v <> [] -> len v <= 4294967295 ->
    In (n, interface, method, content) (executions U (sinit reg (trun U t_init sops)) l) /\
    exists a, response a rid 2 0 v /\ (answers n (run l) = [] \/ answers n (run l) = [a]) /\ answers n (run (l ++ [Result i; Drain i true])) = [a].
Proof.
  intros HU Cm Ni Nm Pt run n l Fe Cp Nf An Of Cl Ne Nd. destruct (request_unit _ _ _ _ _ _ _ _ _ _ _ _ _ _ Cm Ni Nm) as (q & O & Q1 & Q2 & Q3 & Q4 & Ns & Nn).
  pose proof (answering_unit _ _ _ _ _ _ _ _ _ _ _ _ An Fe Cp Nf O) as Fr. destruct r as [q'|]; [|destruct Fr as (? & Fr); discriminate]. cbn in Fr. assert (q' = q) by congruence. subst q'. clear Fr.
  destruct (trace_reachable U reg sops l1) as (ops' & Et). destruct (context_arrives U ops c interface method app uid extra content ptype tmo rid h bs ops' fresh HU Cm) as (tr' & c' & Ex & Sc).
  rewrite <- Et in Ex. fold (run l1) in Ex. pose proof (good_run U reg (trun U t_init sops) l1) as G1. fold (run l1) in G1. pose proof (closed_prefix U reg (trun U t_init sops) l1 _ Cl) as Cl1. fold (run l1) in Cl1.
  subst h. destruct (dispatch_submits U (run l1) i n q fresh interface method G1 Cl1 An Ns Nn Of tr' c' Ex) as (J & _). pose proof (good_step U (Dispatch i fresh) _ G1) as G2.
  pose proof (dispatch_named U (run l1) i n q fresh interface method An Ns Nn) as D. rewrite Ex, (find_method_offers _ _ _ Of) in D.
  assert (Tr : v_trace (run (l1 ++ [Dispatch i fresh])) = tr').
  { unfold run. rewrite srun_app. cbn [sfrom fold_left]. fold (run l1). rewrite D. cbv zeta. destruct (q_type q =? PTYPE_ONEWAY); reflexivity. }
  assert (Es : run l = sfrom U (srun_step U (Dispatch i fresh) (run l1)) l2) by (unfold run, l; rewrite srun_app; reflexivity).
  assert (N1 : nth_error (v_jobs (srun_step U (Dispatch i fresh) (run l1))) (List.length (v_jobs (run l1))) = Some (new_job n q interface method c')) by (rewrite J, nth_error_app2, Nat.sub_diag by lia; reflexivity).
  destruct (jobs_from U l2 _ G2 _ _ N1) as (b' & N' & Ej & _). rewrite <- Es in N'. apply jid_inv in Ej as (J1 & J2 & J3 & J4 & J5).
  assert (Un : forall b, In b (v_jobs (run l)) -> j_frame b = n -> b = b').
  { intros b Hb Fb. apply In_nth_error in Hb as (k & Nk). pose proof (good_run U reg (trun U t_init sops) l) as ((_ & _ & Jo) & _). fold (run l) in Jo.
    assert (k = List.length (v_jobs (run l1))) by (apply (NoDup_nth_map j_frame (v_jobs (run l)) k _ b b' (jo_frames _ Jo)); [exact Nk|exact N'|rewrite Fb, J1; reflexivity]). congruence. }
  exists c'. split; [rewrite Tr; exact Sc|]. split; [exists b'; split; [eapply nth_error_In; exact N'|exact J1]|]. split.
  { intros b Hb Fb. rewrite (Un b Hb Fb). cbn in J2, J3, J4, J5. rewrite J2, J3, J4, J5. auto. }
  intros v En Nv Lv. split.
  - destruct En as (b & Hb & Fb & Sb). pose proof (Un b Hb Fb). subst b. destruct (started_executed U l (sinit reg (trun U t_init sops)) _ b' (good_init _ _) N' (or_intror (ex_intro _ _ Sb))) as [E|(y & Ny & _)].
    + unfold call in E. rewrite J1, J2, J3, J4 in E. cbn in E. rewrite Q4 in E. exact E.
    + destruct (List.length (v_jobs (run l1))); discriminate.
  - rewrite <- Q2. apply (success_answer U reg (trun U t_init sops) l1 l2 i n q fresh v); auto; [|congruence]. split; [exact An|]. split; [exists tr', c'; exact Ex|]. exists interface, method. auto.
Qed.
Lemma aio_taken U ops c interface method app uid extra content ptype tmo rid h bs reg tr l pre items post : 
  call_made U ops c interface method app uid extra content ptype tmo rid h bs -> interface <> [] -> method <> [] ->
  fed l = pre ++ bs ++ post -> cuts pre items [] -> Forall (fun i => ~ fatal i) items -> S_Server.waiting (srun U reg tr l) ->
  exists i r p, answering (srun U reg tr l) i (List.length items) r p.
Proof.
  intros Cm Ni Nm Fe Cp Nf W. destruct (request_unit _ _ _ _ _ _ _ _ _ _ _ _ _ _ Cm Ni Nm) as (q & O & _).
  assert (C : cuts (fed l) (items ++ [IRequest q]) post).
  { rewrite Fe. apply cuts_snoc with (a := bs); [|exact Nf|exact O]. pose proof (cuts_join pre items (bs ++ post) [] (bs ++ post) Cp Nf (Cuts_nil _)) as J. rewrite app_nil_r in J. exact J. }
  destruct (taken U reg tr l _ _ (List.length items) q W C) as (i & p & A); [rewrite nth_error_app2, Nat.sub_diag by lia; reflexivity|eauto].
Qed.

(** ** Both clients *)
Lemma both_return U ops c interface method app uid extra content ptype tmo rid h bs r v : call_made U ops c interface method app uid extra content ptype tmo rid h bs ->
  response r rid 2 0 v -> clients_return h content ptype tmo rid bs r v.
Proof.
  intros (_ & _ & _ & p & N & T) R. split; [exact (aio_client_returns rid r v R)|]. intros timeout Nu -> ->. apply (sync_client_returns h content timeout rid p bs r v); auto.
  destruct timeout; try contradiction Nu; eauto.
Qed.

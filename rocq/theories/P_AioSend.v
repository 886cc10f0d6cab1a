(** Property theorems C65-C66: what the asyncio client writes. [sends i (init t) l] is what call i has handed to
    the writers of its connections during the steps [l]: pairs of a connection and the bytes given to
    [writer.write], in order. [fails i l]: how many flushes of call i failed. *)
From Coq Require Import Strings.String ZifyBool.
From Verif Require Import PyBase L_PyBase PyDict L_PyDict M_SofaHeader M_Package L_Package L_Codec S_Wire M_SyncClient L_SyncClient M_AioClient L_AioClient L_AioClient2 L_AioClient3 L_AioClient4 L_AioClient5 L_AioClient6 P_Aio.

(** ** C65 *)
Theorem C65_whole_request_to_the_address : forall t l i tk c bs,
  nth_error (s_tasks (run t l)) i = Some tk -> In (c, bs) (sends i (init t) l) ->
  to_stream (t_req tk) = Ok bs /\ exists k a, t_addr tk = Ok a /\ nth_error (s_links (run t l)) c = Some k /\ k_addr k = a.
Proof.
  intros t l i tk c bs Hi Hs. destruct (o_sent _ _ _ _ (w_tasks _ _ (wr_run t l) i tk Hi) c bs Hs) as (A & a & B & C).
  destruct (addr_link _ _ _ C) as (k & D & E). split; [exact A|]. exists k, a. auto.
Qed.
Print Assumptions C65_whole_request_to_the_address.
Theorem C65_at_most_three_times : forall t l i, (List.length (sends i (init t) l) <= 3)%nat.
Proof.
  intros t l i. destruct (nth_error (s_tasks (run t l)) i) as [tk|] eqn:Hi; [pose proof (o_three _ _ _ _ (w_tasks _ _ (wr_run t l) i tk Hi)); lia|].
  rewrite (w_none _ _ (wr_run t l) i Hi). cbn. lia.
Qed.
Print Assumptions C65_at_most_three_times.
(** no answer is waited for or returned unless the request has been written *)
Theorem C65_sent_before_waiting : forall t l i tk, nth_error (s_tasks (run t l)) i = Some tk ->
  (exists ev, t_pc tk = WaitResp ev) \/ (exists p, t_pc tk = Done (RetPkg p)) -> exists c bs, In (c, bs) (sends i (init t) l).
Proof.
  intros t l i tk Hi Hp. assert (N : sends i (init t) l <> []) by (apply (o_past _ _ _ _ (w_tasks _ _ (wr_run t l) i tk Hi)); destruct Hp as [(ev & ->)|(p & ->)]; exact I).
  destruct (sends i (init t) l) as [|(c, bs) r]; [congruence|]. exists c, bs. left. reflexivity.
Qed.
Print Assumptions C65_sent_before_waiting.
(** nothing else is ever written *)
Theorem C65_nothing_else_is_written : forall t l x, In x (s_written (run t l)) -> exists i tk, nth_error (s_tasks (run t l)) i = Some tk /\ In x (sends i (init t) l).
Proof.
  intros t l x H. apply (w_all _ _ (wr_run t l)) in H as (i & H). exists i. destruct (nth_error (s_tasks (run t l)) i) as [tk|] eqn:Hi; [eauto|].
  rewrite (w_none _ _ (wr_run t l) i Hi) in H. destruct H.
Qed.
Print Assumptions C65_nothing_else_is_written.

(** the first flush fails, the request is written again on a second connection to the same address *)
Definition l65 : list step := [Call req7 (Ok 1); Run 0; Acquire 0; DialOk 0; DrainOk 0; DrainFail 0; Acquire 0; DialOk 0; DrainOk 0; DrainOk 0].
Definition bs7 : bytes := match to_stream req7 with Ok b => b | Raise _ => [] end.
Example C65_case : exists bs, to_stream req7 = Ok bs /\ sends 0 (init NoTimer) l65 = [(0%nat, bs); (1%nat, bs)] /\ pcs (run NoTimer l65) = [WaitResp 0] /\
  s_written (run NoTimer l65) = [(0%nat, bs); (1%nat, bs)] /\ map k_addr (s_links (run NoTimer l65)) = [1; 1].
Proof. exists bs7. vm_compute. repeat split. Qed.

(** ** C66. False of this code: a request whose flush fails is written again, though all of it may have reached
    the server. *)
Theorem C66_sent_again_refuted : exists l i tk bs, nth_error (s_tasks (run NoTimer l)) i = Some tk /\ to_stream (t_req tk) = Ok bs /\
  sends i (init NoTimer) l = [(0%nat, bs); (1%nat, bs)] /\ p_ptype (t_req tk) = PTYPE_REQUEST.
Proof. exists l65, 0%nat, {| t_req := req7; t_addr := Ok 1; t_pc := WaitResp 0 |}, bs7. vm_compute. repeat split. Qed.
Print Assumptions C66_sent_again_refuted.
Theorem C66_once_per_failure_partial : forall t l i, (List.length (sends i (init t) l) <= 1 + fails i l)%nat.
Proof.
  intros t l i. destruct (nth_error (s_tasks (run t l)) i) as [tk|] eqn:Hi; [pose proof (o_fails _ _ _ _ (w_tasks _ _ (wr_run t l) i tk Hi)); lia|].
  rewrite (w_none _ _ (wr_run t l) i Hi). cbn. lia.
Qed.
Print Assumptions C66_once_per_failure_partial.
Theorem C66_once_if_no_flush_fails_partial : forall t l i, ~ In (DrainFail i) l -> (List.length (sends i (init t) l) <= 1)%nat.
Proof.
  intros t l i N. pose proof (C66_once_per_failure_partial t l i) as H. replace (fails i l) with 0%nat in H; [exact H|]. clear H. induction l as [|o l IH]; [reflexivity|].
  unfold fails. cbn [filter]. assert (E : match o with DrainFail j => Nat.eqb j i | _ => false end = false).
  { destruct o; try reflexivity. destruct (Nat.eqb_spec i0 i) as [->|]; [|reflexivity]. contradiction N. left. reflexivity. }
  rewrite E. apply IH. intros H. apply N. right. exact H.
Qed.
Print Assumptions C66_once_if_no_flush_fails_partial.
Example C66_case : ~ In (DrainFail 0) (started req7) /\ List.length (sends 0 (init NoTimer) (started req7)) = 1%nat /\ fails 0 l65 = 1%nat.
Proof. split; [|vm_compute; auto]. unfold started. cbn. intuition discriminate. Qed.

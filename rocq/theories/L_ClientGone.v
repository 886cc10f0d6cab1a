(** Lemmas about callbacks that end the loop of the client (M_Callback), for C122. *)
From Verif Require Import PyBase PyDict PyInt M_SofaHeader M_Package M_RpcId M_Trace M_AioServer S_Server M_System S_System M_Front S_Front L_Front M_Callback S_Callback L_Callback.
From Verif Require M_AioClient.
Open Scope nat_scope.

Lemma gone_estep U t o s : e_loop s = Gone -> let s' := e_step U t o s in
  e_loop s' = Gone /\ stands_still (w_client U t (e_front s)) (w_client U t (e_front s')) /\ quiet (e_front s) (e_front s').
Proof.
  intros E. assert (Keep : e_loop s = Gone /\ stands_still (w_client U t (e_front s)) (w_client U t (e_front s)) /\ quiet (e_front s) (e_front s)) by (split; [exact E|split; [apply still_refl|apply quiet_refl]]).
  destruct o as [f|j|k d rid a|b]; cbn [e_step]; rewrite E; cbn [is_free negb]; try exact Keep. rewrite andb_true_r. destruct (by_loop f) eqn:B; [exact Keep|].
  cbn [e_front e_loop loop_after]. split; [reflexivity|]. split; [apply still_step; exact B|apply quiet_step; exact B].
Qed.
Lemma gone_run U t l l2 : e_loop (e_run U t l) = Gone -> let s := e_run U t l in let s' := e_run U t (l ++ l2) in
  e_loop s' = Gone /\ stands_still (w_client U t (e_front s)) (w_client U t (e_front s')) /\ quiet (e_front s) (e_front s').
Proof.
  rewrite erun_app. generalize (e_run U t l). clear l. induction l2 as [|o l2 IH]; intros s E; [split; [exact E|split; [apply still_refl|apply quiet_refl]]|]. cbn [fold_left].
  destruct (gone_estep U t o s E) as (A & B & C). destruct (IH _ A) as (D & F & G). split; [exact D|]. split; [eapply still_trans; eassumption|eapply quiet_trans; eassumption].
Qed.
Lemma raises_gone U t l j : e_loop (e_run U t l) = InCallback j -> e_loop (e_run U t (l ++ [EEnd true])) = Gone.
Proof. intros E. rewrite erun_snoc. cbn [e_step]. rewrite E. reflexivity. Qed.
Lemma client_gone U t l j l2 : e_loop (e_run U t l) = InCallback j -> let w := e_front (e_run U t l) in let w' := e_front (e_run U t (l ++ EEnd true :: l2)) in
  stands_still (w_client U t w) (w_client U t w') /\ quiet w w'.
Proof.
  intros E. pose proof (gone_run U t (l ++ [EEnd true]) l2 (raises_gone U t l j E)) as (_ & G). rewrite <- app_assoc in G. cbn [app] in G. cbn zeta in *.
  assert (Ef : e_front (e_run U t (l ++ [EEnd true])) = e_front (e_run U t l)) by (rewrite erun_snoc; cbn [e_step]; rewrite E; reflexivity). rewrite Ef in G. exact G.
Qed.
(** nothing else ends it *)
Lemma gone_because U t l : e_loop (e_run U t l) = Gone -> exists l1 j l2, l = l1 ++ EEnd true :: l2 /\ e_loop (e_run U t l1) = InCallback j.
Proof.
  induction l as [|o l IH] using rev_ind; [discriminate|]. intros E. rewrite erun_snoc in E.
  assert (Old : e_loop (e_run U t l) = Gone -> exists l1 j l2, l ++ [o] = l1 ++ EEnd true :: l2 /\ e_loop (e_run U t l1) = InCallback j).
  { intros G. destruct (IH G) as (l1 & j & l2 & -> & H). exists l1, j, (l2 ++ [o]). split; [rewrite <- app_assoc; reflexivity|exact H]. }
  destruct o as [f|j|k d rid a|b]; cbn [e_step] in E.
  - destruct (by_loop f && negb (is_free (e_loop (e_run U t l)))); [exact (Old E)|]. cbn [e_loop loop_after] in E. destruct (e_loop (e_run U t l)) as [|j|j i|] eqn:El; [|discriminate E| |exact (Old eq_refl)].
    + cbn [loop_after] in E. destruct f; try discriminate E. destruct (skipn (List.length (w_log (e_front (e_run U t l)))) _); discriminate E.
    + cbn [loop_after] in E. destruct (over i (w_step U t f (e_front (e_run U t l)))); discriminate E.
  - destruct (is_free (e_loop (e_run U t l))); [discriminate E|exact (Old E)].
  - destruct (e_loop (e_run U t l)) as [|j|j i|] eqn:El; try (rewrite El in E; discriminate E); [|exact (Old eq_refl)]. cbn [e_loop] in E. destruct k; try discriminate E. destruct (over _ _); discriminate E.
  - destruct (e_loop (e_run U t l)) as [|j|j i|] eqn:El; try (rewrite El in E; discriminate E); [|exact (Old eq_refl)]. destruct b; [|discriminate E]. exists l, j, []. auto.
Qed.

(** calls made afterwards *)
Lemma gone_waiting U t o i s : e_loop s = Gone -> waiting i (e_front s) -> let s' := e_step U t o s in waiting i (e_front s') \/ timed_out i (e_front s').
Proof.
  intros E W. destruct o as [f|j|k d rid a|b]; cbn [e_step]; rewrite E; cbn [is_free negb]; try (left; exact W). rewrite andb_true_r. destruct (by_loop f) eqn:B; [left; exact W|].
  cbn [e_front]. destruct (waiting_step U t f i (e_front s) W B) as [?|(_ & ?)]; auto.
Qed.
Lemma gone_fate U t l2 : forall i s, e_loop s = Gone -> waiting i (e_front s) \/ timed_out i (e_front s) -> let s' := fold_left (fun s o => e_step U t o s) l2 s in waiting i (e_front s') \/ timed_out i (e_front s').
Proof.
  induction l2 as [|o l2 IH]; intros i s E H; [exact H|]. cbn [fold_left]. apply IH; [apply gone_estep; exact E|]. destruct H as [H|H]; [apply gone_waiting; assumption|right; apply ended_estep; exact H].
Qed.
Lemma sync_after_gone U t l l2 i d rid : e_loop (e_run U t l) = Gone -> sync_after U t l l2 i d rid -> is_number (y_timeout d) = true -> (exists p, y_request (entry_call ASync d) rid = Ok p) ->
  outcomes i (e_front (e_run U t (l ++ l2))) = [] \/ outcomes i (e_front (e_run U t (l ++ l2))) = [Raise TimeoutError].
Proof.
  intros E (a & b & addr & -> & ->) En (p & Ep). destruct (gone_run U t l a E) as (G & _ & _). set (s := e_run U t (l ++ a)) in *.
  rewrite app_assoc, erun_app. fold s. cbn [fold_left].
  destruct (new_sync U t d rid addr (e_front s) (fresh_outcomes U t (l ++ a))) as [(W & _)|(e & _ & [X|X])]; [|congruence|congruence].
  assert (Es : e_step U t (EOut (WInvoke ASync d rid addr)) s = {| e_front := w_step U t (WInvoke ASync d rid addr) (e_front s); e_loop := Gone |}) by (cbn [e_step by_loop andb]; rewrite G; reflexivity).
  rewrite Es. destruct (gone_fate U t b (List.length (w_calls (e_front s))) {| e_front := w_step U t (WInvoke ASync d rid addr) (e_front s); e_loop := Gone |} eq_refl (or_introl W)) as [(_ & X)|(_ & X)]; auto.
Qed.

(** the callback that runs has been called with the value of its call *)
Lemma log_kept U t o s : exists g, w_log (e_front (e_step U t o s)) = w_log (e_front s) ++ g.
Proof.
  assert (Keep : exists g, w_log (e_front s) = w_log (e_front s) ++ g) by (exists []; symmetry; apply app_nil_r).
  assert (Go : forall f, exists g, w_log (w_step U t f (e_front s)) = w_log (e_front s) ++ g) by (intros f; destruct (log_grows U t f (e_front s)) as (g & G & _); eauto).
  destruct o as [f|j|k d rid a|b]; cbn [e_step].
  - destruct (by_loop f && negb (is_free (e_loop s))); [exact Keep|apply Go].
  - destruct (is_free (e_loop s)); [apply Go|exact Keep].
  - destruct (e_loop s); try exact Keep. apply Go.
  - destruct (e_loop s); exact Keep.
Qed.
Definition runs_callback (j : nat) (x : owner) : Prop := match x with InCallback j' | Blocked j' _ => j' = j | _ => False end.
Lemma called_run U t l : forall j, runs_callback j (e_loop (e_run U t l)) -> exists v, In (ECallback j v) (w_log (e_front (e_run U t l))).
Proof.
  induction l as [|o l IH] using rev_ind; intros j H; [destruct H|]. destruct (log_kept U t o (e_run U t l)) as (g & G). rewrite <- erun_snoc in G.
  assert (Old : runs_callback j (e_loop (e_run U t l)) -> exists v, In (ECallback j v) (w_log (e_front (e_run U t (l ++ [o]))))).
  { intros X. destruct (IH j X) as (v & V). exists v. rewrite G. apply in_or_app. auto. }
  destruct (e_loop (e_run U t l)) as [|j0|j0 i0|] eqn:El.
  - destruct o as [f|j'|k d rid a|b]; try (rewrite erun_snoc in H; cbn [e_step] in H; rewrite El in H; cbn in H; rewrite ?El in H; destruct H).
    assert (K : exists j1, e_loop (e_run U t (l ++ [EOut f])) = InCallback j1).
    { rewrite erun_snoc in H |- *. cbn [e_step] in H |- *. rewrite El in H |- *. cbn [is_free negb] in H |- *. rewrite andb_false_r in H |- *. cbn [e_loop loop_after] in H |- *. destruct f; try destruct H. destruct (skipn (List.length (w_log (e_front (e_run U t l)))) _); [destruct H|eauto]. }
    destruct K as (j1 & K). rewrite K in H. cbn in H. subst j1. pose proof (proj1 (callback_holds U t l f j ltac:(rewrite El; reflexivity)) K) as (v & V). exists v. rewrite V. apply in_or_app. right. left. reflexivity.
  - apply Old. rewrite (callback_goes_on U t l o j0 El) in H. cbn. destruct o as [f|j'|k d rid a|b]; try exact H; [destruct k; try exact H; destruct (over _ _); exact H|destruct b; destruct H].
  - apply Old. rewrite (blocked_until U t l o j0 i0 El) in H. cbn. destruct (over _ _); exact H.
  - pose proof (gone_estep U t o (e_run U t l) El) as (A & _). rewrite erun_snoc, A in H. destruct H.
Qed.

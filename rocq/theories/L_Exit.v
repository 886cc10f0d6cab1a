(** Lemmas for C119. *)
From Coq Require Import ZifyBool Lia.
From Verif Require Import PyBase L_PyBase PyDict PyInt M_RpcId M_Trace M_AioServer S_Server L_AioServer L_AioServer2 L_AioServer3 L_AioServer4 L_AioServer5 L_AioServer6 L_AioServer7 M_Listener S_Listener L_Listener M_Exit S_Exit.
Open Scope nat_scope.

(** ** One connection *)
Lemma task_same U o s i t : good s -> nth_error (v_tasks s) i = Some t -> ~ op_of i o -> nth_error (v_tasks (srun_step U o s)) i = Some t.
Proof.
  intros ((I & T & J) & _) N No. pose proof (step_eff U o s I T) as E. remember (srun_step U o s) as s1 eqn:E1. clear E1.
  destruct E as [o|name sv|bs| | |s' E|ok s' E|o k s' E O|o s' E O]; auto.
  - destruct (rstep_tasks _ _ E) as [Ht|(q & p & Ht & _)]; rewrite Ht; [exact N|apply nth_app_some; exact N].
  - pose proof (deff_same _ _ E) as (_ & _ & _ & _ & _ & _ & St & _). congruence.
  - assert (D : k <> i) by (intros ->; exact (No O)). destruct (teff_tasks _ _ _ _ E) as (p & Ht). rewrite Ht, nth_upd_other by exact D. exact N.
  - pose proof (jeff_same _ _ E) as (_ & _ & _ & St & _). congruence.
Qed.
Lemma teff_wait U s i s' t j : teff U s i s' -> nth_error (v_tasks s') i = Some t -> a_pc t = TWait j -> List.length (v_jobs s) <= j.
Proof.
  intros E N P. destruct E as [i t0 q st bs tr Nt|i t0 q e tr Nt|i t0 q sv m c tr fresh Nt|i t0 q j0 b r p Nt Rq Pc Nj Sj C|i t0 q j0 bs Nt Rq Pc Tm Fb|i t0 bs Nt|i t0 bs e Nt|i t0 p Nt Pc Q].
  5: { rewrite (proj2 (proj2 (expire_out j0 s (TDrain1 bs) i))) in N. rewrite (nth_upd_same _ _ _ _ Nt) in N. injection N as <-. discriminate. }
  all: unfold tgoto in N; cbn [set_tasks set_trace set_jobs set_out v_tasks] in N; rewrite (nth_upd_same _ _ _ _ Nt) in N; injection N as <-; cbn [with_pc a_pc] in P; try discriminate.
  - destruct (Z.eqb (q_type q) 2); [discriminate|]. injection P as <-. lia.
  - destruct (concluded_shape _ _ _ C) as [->|(bs & ->)]; discriminate.
  - destruct Q as [->|(e & ->)]; discriminate.
Qed.
Lemma wait_old U o s i t j : good s -> nth_error (v_tasks (srun_step U o s)) i = Some t -> a_pc t = TWait j -> j < List.length (v_jobs s) -> nth_error (v_tasks s) i = Some t.
Proof.
  intros ((I & T & J) & _) N P Lt. pose proof (step_eff U o s I T) as E. remember (srun_step U o s) as s1 eqn:E1. clear E1.
  destruct E as [o|name sv|bs| | |s' E|ok s' E|o k s' E O|o s' E O]; auto.
  - destruct (rstep_tasks _ _ E) as [Ht|(q & p & Ht & D)]; rewrite Ht in N; [exact N|]. destruct (Nat.lt_ge_cases i (List.length (v_tasks s))) as [H|H]; [rewrite nth_error_app1 in N by exact H; exact N|].
    rewrite nth_error_app2 in N by exact H. destruct (i - List.length (v_tasks s)) as [|x]; [|destruct x; discriminate]. cbn in N. injection N as <-. cbn [a_pc] in P. destruct D as [(r & _ & ->)|(_ & bs & ->)]; discriminate.
  - pose proof (deff_same _ _ E) as (_ & _ & _ & _ & _ & _ & St & _). congruence.
  - destruct (Nat.eq_dec k i) as [->|D]; [pose proof (teff_wait U s i s' t j E N P); lia|]. destruct (teff_tasks _ _ _ _ E) as (p & Ht). rewrite Ht, nth_upd_other in N by exact D. exact N.
  - pose proof (jeff_same _ _ E) as (_ & _ & _ & St & _). congruence.
Qed.

(** ** All of them *)
Lemma conn_moves2 U o s c k : nth_error (n_conns s) c = Some k ->
  exists k', nth_error (n_conns (lrun_step U o s)) c = Some k' /\ (k' = k \/ exists o', k' = srun_step U o' k /\ (o = LConn c o' \/ (exists n sv, o' = Register n sv) \/ exists j, o' = JobRun j)).
Proof.
  intros E. destruct o as [tr|name sv|c0 o0|].
  - exists k. split; [|auto]. cbn [lrun_step n_conns]. rewrite nth_error_app1 by (apply nth_error_Some; congruence). exact E.
  - exists (srun_step U (Register name sv) k). split; [|right; eexists; split; [reflexivity|eauto]]. cbn [lrun_step n_conns]. rewrite nth_error_map, E. reflexivity.
  - assert (P : plain o0 \/ ~ plain o0) by (destruct o0; cbn; tauto). destruct P as [P|P]; [|exists k; rewrite (conn_ignored U c0 o0 s P); auto].
    destruct (nth_error (n_conns s) c0) as [k0|] eqn:E0; [|exists k; rewrite (conn_none U c0 o0 s E0); auto].
    rewrite (conn_step U c0 o0 s k0 P E0). cbn [n_conns]. destruct (Nat.eq_dec c0 c) as [->|N]; [|exists k; rewrite nth_upd_other by exact N; auto].
    rewrite (nth_upd_same _ _ _ _ E0). assert (k0 = k) by congruence. subst k0. eexists; split; [reflexivity|]; right; eexists; split; [reflexivity|eauto].
  - destruct (Nat.lt_ge_cases (workers s) MAX_WORKER) as [W|W]; [|exists k; rewrite (take_full U s W); auto]. destruct (n_queue s) as [|(c0, j0) q] eqn:Q; [exists k; rewrite (take_empty U s Q); auto|].
    cbn [lrun_step]. destruct (Nat.ltb_spec (workers s) MAX_WORKER); [|lia]. rewrite Q. cbn [on_conn n_conns]. destruct (Nat.eq_dec c0 c) as [->|N]; [|exists k; rewrite nth_upd_other by exact N; auto].
    rewrite (nth_upd_same _ _ _ _ E). eexists; split; [reflexivity|]; right; eexists; split; [reflexivity|eauto].
Qed.
Lemma op_step c i o : op_of i o -> step_of (LConn c o) c i.
Proof. intros [->|[->|[(f & ->)|(ok & ->)]]]; unfold step_of; eauto 6. Qed.
Lemma l_task_same U o s c k i t : lok s -> nth_error (n_conns s) c = Some k -> nth_error (v_tasks k) i = Some t -> ~ step_of o c i ->
  exists k', nth_error (n_conns (lrun_step U o s)) c = Some k' /\ nth_error (v_tasks k') i = Some t.
Proof.
  intros L E N No. destruct (conn_moves2 U o s c k E) as (k' & E' & M). exists k'. split; [exact E'|]. destruct M as [->|(o' & -> & M)]; [exact N|]. apply task_same; [exact (proj1 (nth_good s c k L E))|exact N|].
  intros O. destruct M as [->|[(n & sv & ->)|(j & ->)]]; [exact (No (op_step c i o' O))| |]; destruct O as [O|[O|[(f & O)|(ok & O)]]]; discriminate.
Qed.
Lemma l_wait_old U o s c k' i t j : lok s -> call_state s c j <> None -> nth_error (n_conns (lrun_step U o s)) c = Some k' -> nth_error (v_tasks k') i = Some t -> a_pc t = TWait j ->
  exists k, nth_error (n_conns s) c = Some k /\ nth_error (v_tasks k) i = Some t.
Proof.
  intros L C E' N P. destruct (nth_error (n_conns s) c) as [k|] eqn:E; [|rewrite call_jst, E in C; contradiction]. exists k. split; [reflexivity|].
  destruct (conn_moves2 U o s c k E) as (k1 & E1 & M). assert (k1 = k') by congruence. subst k1. destruct M as [->|(o' & -> & M)]; [exact N|]. apply (wait_old U o' k i t j (proj1 (nth_good s c k L E)) N P).
  rewrite call_jst, E in C. rewrite <- jst_length. apply nth_error_Some. exact C.
Qed.
Lemma ended_stays U o s c j r : lok s -> call_state s c j = Some (JEnded r) -> call_state (lrun_step U o s) c j = Some (JEnded r).
Proof. intros L H. destruct (step_call U o s c j L) as [M|[(M & r' & M1 & Eo)|[(M & M1)|[(M & M1 & _)|(M & M1)]]]]; congruence. Qed.
Lemma job_ends U s c j r : lok s -> call_state s c j = Some JRunning -> call_state (lrun_step U (LConn c (JobEnd j r)) s) c j = Some (JEnded r).
Proof.
  intros L H. rewrite call_jst in *. destruct (nth_error (n_conns s) c) as [k|] eqn:E; [|discriminate]. rewrite (conn_step U c (JobEnd j r) s k Logic.I E). cbn [n_conns]. rewrite (nth_upd_same _ _ _ _ E).
  rewrite jst_end, H. apply (nth_upd_same (fun _ => JEnded r) _ _ _ H).
Qed.

(** ** The invariant *)
Notation FELL := (JEnded (Raise OtherError)).
Record xok (U : tables) (reg : registry) (l : list xstep) : Prop := {
  xo_l : lok (x_l (x_run U reg l));
  xo_raised : forall c j b, In (c, j, b) (x_raised (x_run U reg l)) -> call_state (x_l (x_run U reg l)) c j = Some FELL /\
    exists l1 l2, l = l1 ++ XRaise c j b :: l2 /\ call_state (x_l (x_run U reg l1)) c j = Some JRunning /\
    forall k i t, nth_error (n_conns (x_l (x_run U reg l))) c = Some k -> nth_error (v_tasks k) i = Some t -> a_pc t = TWait j ->
      exists k1, nth_error (n_conns (x_l (x_run U reg l1))) c = Some k1 /\ nth_error (v_tasks k1) i = Some t;
  xo_gone : forall c i, In (c, i) (x_gone (x_run U reg l)) ->
    exists k n q j, nth_error (n_conns (x_l (x_run U reg l))) c = Some k /\ answering k i n (Some q) (TWait j) /\ call_state (x_l (x_run U reg l)) c j = Some FELL /\ exists b l2, hit U reg l c i j b l2;
  xo_dead : x_dead (x_run U reg l) = true -> exists c i j l2, hit U reg l c i j Stops l2 /\ In (XStep (LConn c (Result i))) l2
}.
Lemma x_run_snoc U reg l o : x_run U reg (l ++ [o]) = x_step U o (x_run U reg l).
Proof. unfold x_run. rewrite fold_left_app. reflexivity. Qed.
Lemma hit_snoc U reg l c i j b l2 o : hit U reg l c i j b l2 -> hit U reg (l ++ [o]) c i j b (l2 ++ [o]).
Proof. intros (l1 & n & q & -> & A). exists l1, n, q. split; [rewrite <- app_assoc; reflexivity|exact A]. Qed.
Lemma same_eq p q : same p q = true -> p = q.
Proof. destruct p, q. unfold same. cbn. intros H. apply andb_true_iff in H as (A & B). apply Nat.eqb_eq in A, B. congruence. Qed.
Lemma same_refl p : same p p = true.
Proof. destruct p. unfold same. cbn. now rewrite !Nat.eqb_refl. Qed.
Lemma raised_in c j s b : raised c j s = Some b -> In (c, j, b) (x_raised s).
Proof. unfold raised. intros H. destruct (find _ _) as [((c0, j0), b0)|] eqn:F; [|discriminate]. cbn in H. injection H as ->. apply find_some in F as (F1 & F2). cbn [fst] in F2. apply same_eq in F2. injection F2 as -> ->. exact F1. Qed.
Lemma runs_step o p : runs_task o = Some p -> step_of o (fst p) (snd p).
Proof. unfold step_of. destruct o as [| |c o|]; try discriminate. destruct o; try discriminate; cbn; intros [= <-]; cbn; eauto 6. Qed.
Lemma step_runs o c i : step_of o c i -> runs_task o = Some (c, i).
Proof. intros [->|[->|[(f & ->)|(ok & ->)]]]; reflexivity. Qed.
Lemma gone_step o s c i : is_gone o s = false -> In (c, i) (x_gone s) -> ~ step_of o c i.
Proof. intros G H O. apply step_runs in O. unfold is_gone in G. rewrite O in G. assert (K : existsb (same (c, i)) (x_gone s) = true) by (apply existsb_exists; exists (c, i); split; [exact H|apply same_refl]). congruence. Qed.
Lemma is_gone_in o s : is_gone o s = true -> exists c i, step_of o c i /\ In (c, i) (x_gone s).
Proof. unfold is_gone. intros H. destruct (runs_task o) as [(c, i)|] eqn:R; [|discriminate]. apply existsb_exists in H as ((c0, i0) & H1 & H2). apply same_eq in H2. injection H2 as <- <-. exists c, i. split; [exact (runs_step o _ R)|exact H1]. Qed.

(** what a coroutine gets was raised while it waited *)
Lemma gets_hit U reg l o c i b : xok U reg l -> gets o (x_run U reg l) = Some (c, i, b) ->
  o = LConn c (Result i) /\ exists k n q j l2, nth_error (n_conns (x_l (x_run U reg l))) c = Some k /\ answering k i n (Some q) (TWait j) /\ call_state (x_l (x_run U reg l)) c j = Some FELL /\ hit U reg l c i j b l2.
Proof.
  intros X G. destruct o as [| |c0 o|]; try discriminate. destruct o; try discriminate. cbn [gets] in G. destruct (nth_error (n_conns (x_l (x_run U reg l))) c0) as [k|] eqn:E; [|discriminate].
  destruct (nth_error (v_tasks k) i0) as [t|] eqn:N; [|discriminate]. destruct (a_pc t) as [| |j| | |] eqn:P; try discriminate. destruct (a_req t) as [q|] eqn:Q; [|discriminate].
  destruct (raised c0 j (x_run U reg l)) as [b0|] eqn:R; [|discriminate]. cbn in G. injection G as -> -> ->. split; [reflexivity|]. apply raised_in in R. destruct (xo_raised _ _ _ X _ _ _ R) as (F & l1 & l2 & El & Ru & Old).
  assert (A : forall k', nth_error (v_tasks k') i = Some t -> answering k' i (a_frame t) (Some q) (TWait j)) by (intros k' H; unfold answering; rewrite H; destruct t; cbn in *; congruence).
  exists k, (a_frame t), q, j, l2. split; [exact E|]. split; [exact (A k N)|]. split; [exact F|]. exists l1, (a_frame t), q. split; [exact El|]. split; [|exact Ru]. destruct (Old k i t E N P) as (k1 & E1 & N1). exists k1. split; [exact E1|exact (A k1 N1)].
Qed.

Lemma raised_on U reg l o (o' : xstep) s' : xok U reg l -> x_run U reg (l ++ [o']) = s' -> x_l s' = lrun_step U o (x_l (x_run U reg l)) ->
  forall c j b, In (c, j, b) (x_raised (x_run U reg l)) -> call_state (x_l s') c j = Some FELL /\
    exists l1 l2, l ++ [o'] = l1 ++ XRaise c j b :: l2 /\ call_state (x_l (x_run U reg l1)) c j = Some JRunning /\
    forall k i t, nth_error (n_conns (x_l s')) c = Some k -> nth_error (v_tasks k) i = Some t -> a_pc t = TWait j ->
      exists k1, nth_error (n_conns (x_l (x_run U reg l1))) c = Some k1 /\ nth_error (v_tasks k1) i = Some t.
Proof.
  intros X _ -> c j b H. destruct (xo_raised _ _ _ X _ _ _ H) as (F & l1 & l2 & El & Ru & Old). split; [apply ended_stays; [apply X|exact F]|]. exists l1, (l2 ++ [o']). split; [rewrite El, <- app_assoc; reflexivity|]. split; [exact Ru|].
  intros k i t E N P. destruct (l_wait_old U o _ c k i t j (xo_l _ _ _ X) ltac:(congruence) E N P) as (k0 & E0 & N0). exact (Old k0 i t E0 N0 P).
Qed.
Lemma gone_on U reg l o (o' : xstep) s' : xok U reg l -> x_l s' = lrun_step U o (x_l (x_run U reg l)) -> forall c i, In (c, i) (x_gone (x_run U reg l)) -> ~ step_of o c i ->
    exists k n q j, nth_error (n_conns (x_l s')) c = Some k /\ answering k i n (Some q) (TWait j) /\ call_state (x_l s') c j = Some FELL /\ exists b l2, hit U reg (l ++ [o']) c i j b l2.
Proof.
  intros X -> c i H No. destruct (xo_gone _ _ _ X c i H) as (k & n & q & j & E & A & F & b & l2 & Hi). destruct (l_task_same U o _ c k i _ (xo_l _ _ _ X) E A No) as (k' & E' & A'). exists k', n, q, j.
  split; [exact E'|]. split; [exact A'|]. split; [apply ended_stays; [apply X|exact F]|]. exists b, (l2 ++ [o']). apply hit_snoc, Hi.
Qed.
Lemma raised_still U reg l o (X : xok U reg l) : forall c j b, In (c, j, b) (x_raised (x_run U reg l)) -> call_state (x_l (x_run U reg l)) c j = Some FELL /\
    exists l1 l2, l ++ [o] = l1 ++ XRaise c j b :: l2 /\ call_state (x_l (x_run U reg l1)) c j = Some JRunning /\
    forall k i t, nth_error (n_conns (x_l (x_run U reg l))) c = Some k -> nth_error (v_tasks k) i = Some t -> a_pc t = TWait j ->
      exists k1, nth_error (n_conns (x_l (x_run U reg l1))) c = Some k1 /\ nth_error (v_tasks k1) i = Some t.
Proof. intros c j b H. destruct (xo_raised _ _ _ X _ _ _ H) as (F & l1 & l2 & El & Ru & Old). split; [exact F|]. exists l1, (l2 ++ [o]). split; [rewrite El, <- app_assoc; reflexivity|auto]. Qed.
Lemma gone_still U reg l o (X : xok U reg l) : forall c i, In (c, i) (x_gone (x_run U reg l)) ->
    exists k n q j, nth_error (n_conns (x_l (x_run U reg l))) c = Some k /\ answering k i n (Some q) (TWait j) /\ call_state (x_l (x_run U reg l)) c j = Some FELL /\ exists b l2, hit U reg (l ++ [o]) c i j b l2.
Proof. intros c i H. destruct (xo_gone _ _ _ X c i H) as (k & n & q & j & E & A & F & b & l2 & Hi). exists k, n, q, j. repeat (split; [assumption|]). exists b, (l2 ++ [o]). apply hit_snoc, Hi. Qed.
Lemma dead_still U reg l o (X : xok U reg l) : x_dead (x_run U reg l) = true -> exists c i j l2, hit U reg (l ++ [o]) c i j Stops l2 /\ In (XStep (LConn c (Result i))) l2.
Proof. intros H. destruct (xo_dead _ _ _ X H) as (c & i & j & l2 & Hi & Hr). exists c, i, j, (l2 ++ [o]). split; [apply hit_snoc, Hi|apply in_or_app; left; exact Hr]. Qed.

Lemma running_state s c j : (match nth_error (n_conns s) c with Some k => match option_map j_state (nth_error (v_jobs k) j) with Some JRunning => true | _ => false end | None => false end) = true -> call_state s c j = Some JRunning.
Proof. unfold call_state. destruct (nth_error (n_conns s) c); [|discriminate]. destruct (option_map _ _) as [[]|]; try discriminate. reflexivity. Qed.
Lemma not_job_end c j r c' i : ~ step_of (LConn c (JobEnd j r)) c' i.
Proof. intros [O|[O|[(f & O)|(ok & O)]]]; discriminate. Qed.

Lemma xok_step U reg l o : xok U reg l -> xok U reg (l ++ [o]).
Proof.
  intros X. destruct o as [o|c j b].
  - pose proof (x_run_snoc U reg l (XStep o)) as E. cbn [x_step] in E. destruct (x_dead (x_run U reg l) && by_loop o) eqn:D.
    { cbn [orb] in E. constructor; rewrite E; [apply X|apply raised_still, X|apply gone_still, X|apply dead_still, X]. }
    destruct (is_gone o (x_run U reg l)) eqn:G; cbn [orb] in E.
    { constructor; rewrite E; [apply X|apply raised_still, X|apply gone_still, X|apply dead_still, X]. }
    destruct (gets o (x_run U reg l)) as [((c, i), b)|] eqn:Ge.
    + destruct (gets_hit U reg l o c i b X Ge) as (-> & k & n & q & j & l2 & Ek & A & F & Hi). destruct b.
      * constructor; rewrite E; cbn [x_l x_raised x_gone x_dead]; [apply X|apply raised_still, X|apply gone_still, X|]. intros _. exists c, i, j, (l2 ++ [XStep (LConn c (Result i))]). split; [apply hit_snoc, Hi|]. apply in_or_app. right. left. reflexivity.
      * constructor; rewrite E; cbn [x_l x_raised x_gone x_dead]; [apply X|apply raised_still, X| |apply dead_still, X]. intros c0 i0 [[= <- <-]|H]; [|exact (gone_still U reg l _ X c0 i0 H)].
        exists k, n, q, j. repeat (split; [assumption|]). exists Passes, (l2 ++ [XStep (LConn c (Result i))]). apply hit_snoc, Hi.
      * constructor; rewrite E; [apply X|apply raised_still, X|apply gone_still, X|apply dead_still, X].
    + constructor; rewrite E; cbn [x_l x_raised x_gone x_dead]; [apply lok_step, X| | |apply dead_still, X].
      * exact (raised_on U reg l o (XStep o) {| x_l := lrun_step U o (x_l (x_run U reg l)); x_raised := x_raised (x_run U reg l); x_gone := x_gone (x_run U reg l); x_dead := x_dead (x_run U reg l) |} X E eq_refl).
      * intros c i H. exact (gone_on U reg l o (XStep o) {| x_l := lrun_step U o (x_l (x_run U reg l)); x_raised := x_raised (x_run U reg l); x_gone := x_gone (x_run U reg l); x_dead := x_dead (x_run U reg l) |} X eq_refl c i H (gone_step o _ c i G H)).
  - pose proof (x_run_snoc U reg l (XRaise c j b)) as E. cbn [x_step] in E.
    remember (match nth_error (n_conns (x_l (x_run U reg l))) c with Some k => match option_map j_state (nth_error (v_jobs k) j) with Some JRunning => true | _ => false end | None => false end) as ru eqn:Ru.
    set (o := LConn c (JobEnd j (Raise OtherError))) in *. remember (x_run U reg (l ++ [XRaise c j b])) as s' eqn:Es.
    assert (El : x_l s' = lrun_step U o (x_l (x_run U reg l))) by (rewrite E; reflexivity).
    constructor; rewrite <- ?Es.
    + rewrite El. apply lok_step, X.
    + intros c0 j0 b0 H. rewrite E in H. cbn [x_raised] in H. assert (H' : (ru = true /\ (c, j, b) = (c0, j0, b0)) \/ In (c0, j0, b0) (x_raised (x_run U reg l))) by (destruct ru; [destruct H; auto|auto]).
      destruct H' as [(Rt & [= <- <- <-])|H']; [|exact (raised_on U reg l o (XRaise c j b) s' X (eq_sym Es) El c0 j0 b0 H')].
      subst ru. apply running_state in Rt. rewrite El. split; [apply job_ends; [apply X|exact Rt]|]. exists l, []. split; [reflexivity|]. split; [exact Rt|].
      intros k i t Ek N P. exact (l_wait_old U o _ c k i t j (xo_l _ _ _ X) ltac:(congruence) Ek N P).
    + intros c0 i0 H. rewrite E in H. cbn [x_gone] in H. exact (gone_on U reg l o (XRaise c j b) s' X El c0 i0 H (not_job_end _ _ _ _ _)).
    + intros H. rewrite E in H. cbn [x_dead] in H. exact (dead_still U reg l _ X H).
Qed.
Lemma xok_run U reg l : xok U reg l.
Proof. induction l as [|o l IH] using rev_ind; [|apply xok_step, IH]. constructor; cbn; [apply lok_init|intros; contradiction|intros; contradiction|discriminate]. Qed.

(** ** The listener stops *)
Lemma still_out U o s c : by_loop o = false -> out_on (lrun_step U o s) c = out_on s c.
Proof.
  intros B. unfold out_on. destruct o as [tr|name sv|c0 o|]; try discriminate.
  - cbn [lrun_step n_conns]. rewrite nth_error_map. destruct (nth_error (n_conns s) c); reflexivity.
  - destruct o; try discriminate. destruct (nth_error (n_conns s) c0) as [k|] eqn:E; [|rewrite (conn_none U _ _ _ E); reflexivity]. rewrite (conn_step U c0 (JobEnd j r) s k Logic.I E). cbn [n_conns].
    destruct (Nat.eq_dec c0 c) as [->|N]; [|rewrite nth_upd_other by exact N; reflexivity]. rewrite (nth_upd_same _ _ _ _ E), E. cbn [option_map srun_step]. destruct (nth_error (v_jobs k) j) as [x|]; [|reflexivity]. destruct (j_state x); reflexivity.
  - cbn [lrun_step]. destruct (Nat.ltb _ _); [|reflexivity]. destruct (n_queue s) as [|(c0, j) q]; [reflexivity|]. cbn [on_conn n_conns]. destruct (nth_error (n_conns s) c0) as [k|] eqn:E.
    + destruct (Nat.eq_dec c0 c) as [->|N]; [|rewrite nth_upd_other by exact N; reflexivity]. rewrite (nth_upd_same _ _ _ _ E), E. cbn [option_map srun_step]. destruct (nth_error (v_jobs k) j) as [x|]; [|reflexivity]. destruct (j_state x); reflexivity.
    + destruct (nth_error (upd c0 (srun_step U (JobRun j)) (n_conns s)) c) as [y|] eqn:Ey; [apply nth_upd_inv in Ey as [(<- & x & Ex & _)|(_ & Ey)]; [congruence|rewrite Ey; reflexivity]|].
      apply nth_error_None in Ey. rewrite length_upd in Ey. apply nth_error_None in Ey. rewrite Ey. reflexivity.
Qed.
Lemma gets_quiet o s : by_loop o = false -> gets o s = None.
Proof. destruct o as [| |c o|]; try discriminate; try reflexivity. destruct o; try discriminate; reflexivity. Qed.
Lemma dead_step U o s c : x_dead s = true -> x_dead (x_step U o s) = true /\ out_on (x_l (x_step U o s)) c = out_on (x_l s) c.
Proof.
  intros D. destruct o as [o|c0 j b]; cbn [x_step].
  - rewrite D. cbn [andb]. destruct (by_loop o) eqn:B; cbn [orb]; [auto|]. destruct (is_gone o s); [auto|]. rewrite (gets_quiet o s B). cbn [x_l x_dead]. split; [reflexivity|apply still_out; exact B].
  - cbn [x_l x_dead]. split; [exact D|apply still_out; reflexivity].
Qed.
Lemma dead_from U l c : forall s, x_dead s = true -> out_on (x_l (fold_left (fun s o => x_step U o s) l s)) c = out_on (x_l s) c.
Proof. induction l as [|o l IH]; intros s D; [reflexivity|]. cbn [fold_left]. destruct (dead_step U o s c D) as (D' & W). rewrite IH by exact D'. exact W. Qed.

Lemma awaits_running s c i n q j : awaits s c i n q j -> exists k, nth_error (n_conns s) c = Some k /\ answering k i n (Some q) (TWait j) /\ option_map j_state (nth_error (v_jobs k) j) = Some JRunning.
Proof. intros ((k & E & A) & C). exists k. split; [exact E|]. split; [exact A|]. unfold call_state in C. rewrite E in C. exact C. Qed.
Lemma raise_state U reg l c i n q j b : awaits (x_l (x_run U reg l)) c i n q j ->
  exists k, x_run U reg (l ++ [XRaise c j b]) = {| x_l := lrun_step U (LConn c (JobEnd j (Raise OtherError))) (x_l (x_run U reg l)); x_raised := (c, j, b) :: x_raised (x_run U reg l); x_gone := x_gone (x_run U reg l); x_dead := x_dead (x_run U reg l) |} /\
    nth_error (n_conns (lrun_step U (LConn c (JobEnd j (Raise OtherError))) (x_l (x_run U reg l)))) c = Some k /\ answering k i n (Some q) (TWait j).
Proof.
  intros Aw. destruct (awaits_running _ _ _ _ _ _ Aw) as (k & E & A & R). destruct (l_task_same U (LConn c (JobEnd j (Raise OtherError))) _ c k i _ (xo_l _ _ _ (xok_run U reg l)) E A (not_job_end _ _ _ _ _)) as (k' & E' & A').
  exists k'. split; [|split; [exact E'|exact A']]. rewrite x_run_snoc. cbn [x_step]. rewrite E, R. reflexivity.
Qed.
Lemma not_gone U reg l c i n q j : awaits (x_l (x_run U reg l)) c i n q j -> ~ In (c, i) (x_gone (x_run U reg l)).
Proof. intros ((k & E & A) & C) H. destruct (xo_gone _ _ _ (xok_run U reg l) c i H) as (k' & n' & q' & j' & E' & A' & F & _). assert (k' = k) by congruence. subst k'. unfold answering in A, A'. assert (j' = j) by congruence. subst j'. congruence. Qed.
Lemma result_state U reg l c i n q j b : awaits (x_l (x_run U reg l)) c i n q j -> x_dead (x_run U reg l) = false ->
  let s1 := x_run U reg (l ++ [XRaise c j b]) in x_run U reg (l ++ [XRaise c j b; XStep (LConn c (Result i))]) =
    match b with Stops => {| x_l := x_l s1; x_raised := x_raised s1; x_gone := x_gone s1; x_dead := true |} | Passes => {| x_l := x_l s1; x_raised := x_raised s1; x_gone := (c, i) :: x_gone s1; x_dead := x_dead s1 |} | Lost => s1 end.
Proof.
  intros Aw D s1. change [XRaise c j b; XStep (LConn c (Result i))] with ([XRaise c j b] ++ [XStep (LConn c (Result i))]). rewrite app_assoc, x_run_snoc. fold s1.
  destruct (raise_state U reg l c i n q j b Aw) as (k & Es & E & A). fold s1 in Es. pose proof (not_gone U reg l c i n q j Aw) as Ng.
  assert (Gf : is_gone (LConn c (Result i)) s1 = false).
  { destruct (is_gone (LConn c (Result i)) s1) eqn:G; [|reflexivity]. exfalso. apply is_gone_in in G as (c0 & i0 & O & H). apply step_runs in O. cbn in O. injection O as <- <-. rewrite Es in H. exact (Ng H). }
  assert (Ge : gets (LConn c (Result i)) s1 = Some (c, i, b)).
  { rewrite Es. cbn [gets x_l]. rewrite E. unfold answering in A. rewrite A. cbn [a_pc a_req]. unfold raised. cbn [x_raised find fst]. rewrite same_refl. reflexivity. }
  cbn [x_step]. rewrite Gf, Ge. replace (x_dead s1) with false by (rewrite Es; symmetry; exact D). cbn [andb orb]. destruct b; [reflexivity| |reflexivity]. replace (x_dead s1) with false by (rewrite Es; symmetry; exact D). reflexivity.
Qed.
Lemma x_run_app U reg l1 l2 : x_run U reg (l1 ++ l2) = fold_left (fun s o => x_step U o s) l2 (x_run U reg l1).
Proof. apply fold_left_app. Qed.
Lemma exit_stops U reg l1 l2 c i n q j c' : awaits (x_l (x_run U reg l1)) c i n q j ->
  out_on (x_l (x_run U reg (l1 ++ [XRaise c j Stops; XStep (LConn c (Result i))] ++ l2))) c' = out_on (x_l (x_run U reg l1)) c'.
Proof.
  intros Aw. destruct (x_dead (x_run U reg l1)) eqn:D; [rewrite x_run_app; apply dead_from; exact D|].
  rewrite app_assoc, x_run_app. rewrite (result_state U reg l1 c i n q j Stops Aw D). rewrite dead_from by reflexivity. cbn [x_l]. rewrite x_run_snoc. cbn [x_step x_l]. apply still_out. reflexivity.
Qed.

(** ** A coroutine that has ended so *)
Lemma x_l_step U o s : x_l (x_step U o s) = x_l s \/ exists o', x_l (x_step U o s) = lrun_step U o' (x_l s) /\ plain_step o = o' /\ is_gone o' s = false.
Proof.
  destruct o as [o|c j b]; cbn [x_step].
  - destruct (_ && _); cbn [orb]; [auto|]. destruct (is_gone o s) eqn:G; [auto|]. destruct (gets o s) as [((c, i), [| |])|]; [auto|auto|auto|]. right. exists o. auto.
  - right. eexists. split; [reflexivity|]. split; reflexivity.
Qed.
Lemma gone_grows U o s c i : In (c, i) (x_gone s) -> In (c, i) (x_gone (x_step U o s)).
Proof. intros H. destruct o as [o|c0 j b]; cbn [x_step]; [|exact H]. destruct (_ || _); [exact H|]. destruct (gets o s) as [((c0, i0), [| |])|]; cbn [x_gone]; try exact H. right. exact H. Qed.
Lemma gone_from U l : forall s c i k n q j, lok (x_l s) -> In (c, i) (x_gone s) -> nth_error (n_conns (x_l s)) c = Some k -> answering k i n (Some q) (TWait j) ->
  let s' := fold_left (fun s o => x_step U o s) l s in lok (x_l s') /\ exists k', nth_error (n_conns (x_l s')) c = Some k' /\ answering k' i n (Some q) (TWait j).
Proof.
  induction l as [|o l IH]; intros s c i k n q j L G E A; [cbn; eauto|]. cbn [fold_left]. pose proof (gone_grows U o s c i G) as G'. destruct (x_l_step U o s) as [El|(o' & El & _ & Gn)].
  - apply (IH _ c i k n q j); rewrite ?El; assumption.
  - destruct (l_task_same U o' _ c k i _ L E A (gone_step o' s c i Gn G)) as (k' & E' & A'). apply (IH _ c i k' n q j); rewrite ?El; auto. apply lok_step, L.
Qed.
Lemma passes_unanswered U reg l1 l2 c i n q j k : awaits (x_l (x_run U reg l1)) c i n q j -> x_dead (x_run U reg l1) = false ->
  nth_error (n_conns (x_l (x_run U reg (l1 ++ [XRaise c j Passes; XStep (LConn c (Result i))] ++ l2)))) c = Some k -> v_closed k = false -> answering k i n (Some q) (TWait j) /\ answers n k = [].
Proof.
  intros Aw D Ek Cl. rewrite app_assoc, x_run_app in Ek. rewrite (result_state U reg l1 c i n q j Passes Aw D) in Ek. destruct (raise_state U reg l1 c i n q j Passes Aw) as (k0 & Es & E & A).
  match type of Ek with context [fold_left _ l2 ?s0] => set (s := s0) in * end.
  assert (Es0 : x_l s = lrun_step U (LConn c (JobEnd j (Raise OtherError))) (x_l (x_run U reg l1))) by (unfold s; cbn [x_l]; rewrite Es; reflexivity).
  destruct (gone_from U l2 s c i k0 n q j) as (L & k' & E' & A'); [rewrite Es0; apply lok_step, xok_run|left; reflexivity|rewrite Es0; exact E|exact A|].
  assert (k' = k) by congruence. subst k'. split; [exact A'|]. exact (unanswered k i n _ _ (proj1 (nth_good _ c k L E')) Cl A' Logic.I).
Qed.

(** ** Everybody else *)
Lemma part_snoc_keep {A} (P : A -> Prop) a b x : part_but P a b -> part_but P (a ++ [x]) (b ++ [x]).
Proof. induction 1; cbn; [apply part_keep, part_nil|apply part_keep; assumption|apply part_skip; assumption]. Qed.
Lemma part_snoc_skip {A} (P : A -> Prop) a b x : P x -> part_but P a b -> part_but P a (b ++ [x]).
Proof. intros H. induction 1; cbn; [apply part_skip, part_nil; exact H|apply part_keep; assumption|apply part_skip; assumption]. Qed.
Lemma part_impl {A} (P Q : A -> Prop) a b : (forall x, P x -> Q x) -> part_but P a b -> part_but Q a b.
Proof. intros H. induction 1; [apply part_nil|apply part_keep; assumption|apply part_skip; auto]. Qed.
Lemma part_none {A} (P : A -> Prop) a b : (forall x, ~ P x) -> part_but P a b -> a = b.
Proof. intros H. induction 1; [reflexivity|congruence|contradiction (H x)]. Qed.
Lemma of_hit_snoc U reg l o x : of_hit U reg l x -> of_hit U reg (l ++ [o]) x.
Proof. intros (c & i & j & b & l2 & O & H). exists c, i, j, b, (l2 ++ [o]). split; [exact O|apply hit_snoc, H]. Qed.
Lemma dead_back U o s : x_dead (x_step U o s) = false -> x_dead s = false.
Proof. intros H. destruct (x_dead s) eqn:D; [|reflexivity]. destruct (dead_step U o s 0 D) as (D' & _). congruence. Qed.
Lemma others U reg l : x_dead (x_run U reg l) = false -> exists l', part_but (of_hit U reg l) l' (map plain_step l) /\ x_l (x_run U reg l) = lrun U reg l'.
Proof.
  induction l as [|o l IH] using rev_ind; intros D; [exists []; split; [apply part_nil|reflexivity]|]. rewrite x_run_snoc in *. pose proof (dead_back U o _ D) as D0. destruct (IH D0) as (l' & P & E). apply (part_impl _ (of_hit U reg (l ++ [o]))) in P; [|apply of_hit_snoc].
  rewrite map_app. cbn [map]. pose proof (xok_run U reg l) as X.
  assert (Keep : x_l (x_step U o (x_run U reg l)) = lrun_step U (plain_step o) (x_l (x_run U reg l)) -> exists l'0, part_but (of_hit U reg (l ++ [o])) l'0 (map plain_step l ++ [plain_step o]) /\ x_l (x_step U o (x_run U reg l)) = lrun U reg l'0).
  { intros K. exists (l' ++ [plain_step o]). split; [apply part_snoc_keep, P|]. rewrite K, E, lrun_app. reflexivity. }
  assert (Skip : x_l (x_step U o (x_run U reg l)) = x_l (x_run U reg l) -> of_hit U reg l (plain_step o) -> exists l'0, part_but (of_hit U reg (l ++ [o])) l'0 (map plain_step l ++ [plain_step o]) /\ x_l (x_step U o (x_run U reg l)) = lrun U reg l'0).
  { intros K H. exists l'. split; [apply part_snoc_skip; [apply of_hit_snoc, H|exact P]|]. rewrite K. exact E. }
  destruct o as [o|c j b]; [|apply Keep; reflexivity]. cbn [x_step plain_step] in *. rewrite D0 in *. cbn [andb orb] in *. destruct (is_gone o (x_run U reg l)) eqn:G.
  - apply Skip; [reflexivity|]. apply is_gone_in in G as (c & i & O & H). destruct (xo_gone _ _ _ X c i H) as (k & n & q & j & _ & _ & _ & b & l2 & Hi). exists c, i, j, b, l2. auto.
  - destruct (gets o (x_run U reg l)) as [((c, i), b)|] eqn:Ge; [|apply Keep; reflexivity]. destruct (gets_hit U reg l o c i b X Ge) as (-> & k & n & q & j & l2 & _ & _ & _ & Hi).
    destruct b; apply Skip; try reflexivity; exists c, i, j; eexists _, l2; (split; [left; reflexivity|exact Hi]).
Qed.
Lemma dead_means U reg l : x_dead (x_run U reg l) = true -> exists c i j l2, hit U reg l c i j Stops l2 /\ In (XStep (LConn c (Result i))) l2.
Proof. apply xok_run. Qed.
Lemma harmless U reg l : (forall c i j b l2, ~ hit U reg l c i j b l2) -> x_dead (x_run U reg l) = false /\ x_l (x_run U reg l) = lrun U reg (map plain_step l).
Proof.
  intros H. assert (D : x_dead (x_run U reg l) = false). { destruct (x_dead (x_run U reg l)) eqn:D; [|reflexivity]. destruct (dead_means U reg l D) as (c & i & j & l2 & Hi & _). contradiction (H c i j Stops l2). }
  split; [exact D|]. destruct (others U reg l D) as (l' & P & E). apply part_none in P; [congruence|]. intros o (c & i & j & b & l2 & _ & Hi). exact (H _ _ _ _ _ Hi).
Qed.

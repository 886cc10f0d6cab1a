(** Lemmas for C126: how long the asyncio listener takes. *)
From Verif Require Import PyBase PyDict PyInt M_SofaHeader M_Package M_RpcId M_Trace S_Wire M_SyncTime M_AioServer S_Server L_AioServer L_AioServer2 L_AioServer3 L_AioServer4 L_AioServer5 L_AioServer6 L_AioServer7 L_AioServer8 L_AioServer9 L_Settle2 S_Settle S_SrvTime.
From Verif Require S_SyncTime L_SyncTime.
Open Scope Z_scope.

Lemma after_snoc U reg tr x t o : after U reg tr (x ++ [(t, o)]) = srun_step U o (after U reg tr x).
Proof. unfold after. rewrite map_app. apply srun_snoc. Qed.
Lemma after_good U reg tr x : good (after U reg tr x).
Proof. apply good_run. Qed.
Lemma after_open U reg tr x y : v_closed (after U reg tr (x ++ y)) = false -> v_closed (after U reg tr x) = false.
Proof. unfold after. rewrite map_app. apply closed_prefix. Qed.
Lemma now_snoc t0 x t o : now t0 (x ++ [(t, o)]) = t.
Proof. unfold now. rewrite map_app. cbn [map fst]. apply last_last. Qed.
(** times of a run *)
Lemma now_mono t0 x till : ticking t0 x till -> forall y z w, x = y ++ z ++ w -> now t0 y <= now t0 (y ++ z).
Proof.
  intros (_ & T) y z. induction z as [|[t o] z IH] using rev_ind; intros w E; [rewrite app_nil_r; lia|].
  rewrite app_assoc, now_snoc. rewrite <- !app_assoc in E. cbn [app] in E. specialize (IH _ E). assert (K := T (y ++ z) t o w). rewrite <- app_assoc in K. specialize (K E). lia.
Qed.
(** the task stays, and moves by its own steps only *)
Lemma answering_step U o s i n r p : good s -> v_closed (srun_step U o s) = false -> answering s i n r p ->
  answering (srun_step U o s) i n r p \/ exists p', answering (srun_step U o s) i n r p' /\ p' <> p /\ teff U s i (srun_step U o s) /\ op_of i o.
Proof.
  intros G C A. destruct (step_task U o s i _ G A C) as [(N & _)|(E & O)]; [left; exact N|right].
  destruct (teff_tasks _ _ _ _ E) as (p' & T). exists p'. split; [unfold answering; rewrite T; erewrite nth_upd_same by exact A; reflexivity|]. split; [|auto].
  assert (K : forall p1, answering (srun_step U o s) i n r p1 -> p1 = p') by (intros p1 H; unfold answering in H; rewrite T in H; erewrite nth_upd_same in H by exact A; injection H as <-; reflexivity).
  intros ->. remember (srun_step U o s) as s1 eqn:E1. clear E1.
  inversion E as [i0 t q st bs0 tr0 Nt Rq Pc Rf Fb|i0 t q e tr0 Nt Rq Pc Ex|i0 t q sv m c tr0 fresh Nt Rq Pc Ns Nm Of Ex|i0 t q j b r0 p0 Nt Rq Pc Nj Sj Co|i0 t q j bs0 Nt Rq Pc To Fb|i0 t bs0 Nt Pc Cl0|i0 t bs0 e Nt Pc|i0 t p0 Nt Pc Hp0]; subst i0; unfold answering in A; rewrite A in Nt; injection Nt as <-; cbn [a_req a_pc a_frame] in *; subst p; subst s1.
  - specialize (K (TDrain1 bs0) (answering_tgoto s i n r TStart _ _ A eq_refl)). discriminate.
  - specialize (K (TRaised e) (answering_tgoto s i n r TStart _ _ A eq_refl)). discriminate.
  - specialize (K _ (answering_tgoto s i n r TStart _ _ A eq_refl)). destruct (q_type q =? 2); discriminate.
  - specialize (K _ (answering_tgoto s i n r (TWait j) p0 s A eq_refl)). destruct (concluded_shape _ _ _ Co) as [->|(bs & ->)]; discriminate.
  - specialize (K (TDrain1 bs0) (answering_tgoto s i n r (TWait j) _ (expire_job j s) A (proj1 (proj2 (expire_job_same j s))))). discriminate.
  - specialize (K TDrain2 (answering_tgoto s i n r (TDrain1 bs0) _ _ A eq_refl)). discriminate.
  - specialize (K (TRaised e) (answering_tgoto s i n r (TDrain1 bs0) _ s A eq_refl)). discriminate.
  - specialize (K p0 (answering_tgoto s i n r TDrain2 _ s A eq_refl)). destruct Hp0 as [->|(e & ->)]; discriminate.
Qed.
Lemma answering_fun s i n r p p' : answering s i n r p -> answering s i n r p' -> p = p'.
Proof. unfold answering. congruence. Qed.
(** the step with which it moves on *)
Lemma moves U reg tr i n r p z : forall y w, v_closed (after U reg tr (y ++ z ++ w)) = false -> answering (after U reg tr y) i n r p -> ~ answering (after U reg tr (y ++ z)) i n r p ->
  exists z1 t o z2 p', z = z1 ++ (t, o) :: z2 /\ answering (after U reg tr (y ++ z1)) i n r p /\ answering (after U reg tr (y ++ z1 ++ [(t, o)])) i n r p' /\ p' <> p /\
    teff U (after U reg tr (y ++ z1)) i (srun_step U o (after U reg tr (y ++ z1))) /\ op_of i o.
Proof.
  induction z as [|[t o] z IH]; intros y w C A N; [rewrite app_nil_r in N; destruct (N A)|].
  assert (C1 : v_closed (after U reg tr (y ++ [(t, o)])) = false) by (apply (after_open U reg tr _ (z ++ w)); rewrite <- app_assoc; exact C).
  rewrite after_snoc in C1. destruct (answering_step U o _ i n r p (after_good U reg tr y) C1 A) as [K|(p' & K & D & E & O)].
  - rewrite <- (after_snoc U reg tr y t o) in K. replace (y ++ (t, o) :: z) with ((y ++ [(t, o)]) ++ z) in N by (rewrite <- app_assoc; reflexivity).
    replace (y ++ ((t, o) :: z) ++ w) with ((y ++ [(t, o)]) ++ z ++ w) in C by (rewrite <- app_assoc; reflexivity).
    destruct (IH (y ++ [(t, o)]) w C K N) as (z1 & t1 & o1 & z2 & p1 & -> & B1 & B2 & B3 & B4 & B5). exists ((t, o) :: z1), t1, o1, z2, p1. rewrite <- !app_assoc in *. cbn [app] in *. auto 8.
  - exists [], t, o, z, p'. rewrite app_nil_r. split; [reflexivity|]. split; [exact A|]. cbn [app]. rewrite after_snoc. auto.
Qed.
(** where each place leads *)
Lemma from_start U s o i n q p' : good s -> q_type q <> 2 -> (forall fresh, traceable U s q fresh) -> (forall sv, ~ broken (v_reg s) sv CancelledError) -> answering s i n (Some q) TStart -> v_closed (srun_step U o s) = false ->
  answering (srun_step U o s) i n (Some q) p' -> p' <> TStart -> (exists bs, p' = TDrain1 bs) \/ exists j, p' = TWait j.
Proof.
  intros G T Tr Br A C A' D. assert (O : op_of i o /\ srun_step U o s <> s) by (destruct (answering_step U o s i n _ _ G C A) as [K|(p1 & K & D1 & _ & O)]; [destruct (D (answering_fun _ _ _ _ _ _ A' K))|split; [exact O|intros E; rewrite E in A'; exact (D (answering_fun _ _ _ _ _ _ A' A))]]).
  destruct O as ([->|[->|[(f & ->)|(ok & ->)]]] & O); cbn [srun_step] in O, A'; rewrite A in O, A'; cbn [a_pc a_req] in O, A'; try (destruct (O eq_refl)). cbn [a_frame] in *.
  assert (F : forall st, p' <> TStart -> answering (tfail i (q_id q) st s) i n (Some q) p' \/ (exists tr0, answering (tfail i (q_id q) st (set_trace s tr0)) i n (Some q) p') -> legal_status st -> exists bs, p' = TDrain1 bs).
  { intros st _ H L. destruct (fail_bytes_Ok (q_id q) st (answering_id s i n q _ G A) L) as (bs & E & _). exists bs. unfold tfail in H. rewrite E in H.
    destruct H as [H|(tr0 & H)]; exact (answering_fun _ _ _ _ _ _ H (answering_tgoto s i n (Some q) TStart _ _ A eq_refl)). }
  destruct legal_statuses as (S2 & S3 & S6 & S7 & S8 & S9 & S16). unfold dispatch in A'.
  destruct (service_name (q_header q)) as [sv|] eqn:Es; [|left; exact (F _ D (or_introl A') S8)]. destruct (method_name (q_header q)) as [m|] eqn:Em; [|left; exact (F _ D (or_introl A') S8)].
  destruct (Tr f) as (tr0 & c & Ex). rewrite Ex in A'. destruct (find_method (v_reg (set_trace s tr0)) sv m) as [u|e] eqn:Ef.
  - apply Z.eqb_neq in T. unfold PTYPE_ONEWAY in A'. rewrite T in A'. right. eexists. exact (answering_fun _ _ _ _ _ _ A' (answering_tgoto s i n (Some q) TStart _ _ A eq_refl)).
  - left. change (v_reg (set_trace s tr0)) with (v_reg s) in Ef. destruct (find_method_Raise _ _ _ _ Ef) as [(-> & _)|(_ & _ & B)]; [exact (F _ D (or_intror (ex_intro _ tr0 A')) S6)|].
    destruct e; try exact (F _ D (or_intror (ex_intro _ tr0 A')) S2); try exact (F _ D (or_intror (ex_intro _ tr0 A')) S6). destruct (Br sv B).
Qed.
Lemma unsendable q v : concluded q (Ok v) TDone -> id_ok (q_id q) -> ~ sendable v.
Proof.
  intros C I (c & -> & N & L). destruct c as [|b c]; [destruct (N eq_refl)|]. unfold concluded in C. change (truthy (PBytes (b :: c))) with true in C. cbv iota in C. destruct C as [(? & ? & _ & _ & C)|(C & _)]; [discriminate|].
  destruct (result_bytes_Ok (b :: c) (q_id q) I L) as (bs & E & _). exact (C bs E).
Qed.
Lemma from_wait U s o i n q j p' : good s -> answering s i n (Some q) (TWait j) -> v_closed (srun_step U o s) = false -> answering (srun_step U o s) i n (Some q) p' -> p' <> TWait j ->
  (exists bs, p' = TDrain1 bs) \/ (exists v, ended_with (srun_step U o s) n (Ok v) /\ ~ sendable v).
Proof.
  intros G A C A' D. destruct (answering_step U o s i n _ _ G C A) as [K|(p1 & K & D1 & E & O)]; [destruct (D (answering_fun _ _ _ _ _ _ A' K))|].
  rewrite (answering_fun _ _ _ _ _ _ A' K) in *. clear p' A' D. remember (srun_step U o s) as s1 eqn:E1. clear E1.
  inversion E as [i0 t q0 st bs0 tr0 Nt Rq Pc Rf Fb|i0 t q0 e tr0 Nt Rq Pc Ex|i0 t q0 sv m c tr0 fresh Nt Rq Pc Ns Nm Of Ex|i0 t q0 j0 b r0 p0 Nt Rq Pc Nj Sj Co|i0 t q0 j0 bs0 Nt Rq Pc To Fb|i0 t bs0 Nt Pc Cl0|i0 t bs0 e Nt Pc|i0 t p0 Nt Pc Hp0]; subst i0; unfold answering in A; rewrite A in Nt; injection Nt as <-; cbn [a_req a_pc a_frame] in *; try discriminate; injection Pc as <-; injection Rq as <-; subst s1.
  - pose proof (answering_fun _ _ _ _ _ _ K (answering_tgoto s i n (Some q) (TWait j) p0 s A eq_refl)) as ->. destruct (concluded_shape _ _ _ Co) as [->|(bs & ->)]; [right|left; eauto].
    destruct r0 as [v|e]; [|destruct Co as (bs & _ & Co); discriminate]. exists v. split; [|exact (unsendable q v Co (answering_id s i n q _ G A))].
    destruct G as ((_ & _ & J) & _). destruct (jo_wait _ J i _ j A eq_refl) as (b' & q' & Nb & Fb & _). rewrite Nj in Nb. injection Nb as <-. exists b. split; [exact (nth_error_In _ _ Nj)|]. auto.
  - left. exists bs0. exact (answering_fun _ _ _ _ _ _ K (answering_tgoto s i n (Some q) (TWait j) _ (expire_job j s) A (proj1 (proj2 (expire_job_same j s))))).
Qed.
Lemma from_drain U s o i n r bs p' : good s -> o <> Drain i false -> answering s i n r (TDrain1 bs) -> v_closed (srun_step U o s) = false -> answering (srun_step U o s) i n r p' -> p' <> TDrain1 bs ->
  answers n (srun_step U o s) = [bs].
Proof.
  intros G Nd A C A' D. assert (C0 := closed_step U o s G C).
  destruct (answering_step U o s i n _ _ G C A) as [K|(p1 & K & D1 & _ & O)]; [destruct (D (answering_fun _ _ _ _ _ _ A' K))|].
  assert (N : srun_step U o s <> s) by (intros E; rewrite E in A'; exact (D (answering_fun _ _ _ _ _ _ A' A))).
  destruct O as [->|[->|[(f & ->)|(ok & ->)]]].
  - cbn [srun_step] in N. rewrite A in N. cbn [a_pc] in N. destruct (N eq_refl).
  - cbn [srun_step] in N. rewrite A in N. cbn [a_pc] in N. destruct (N eq_refl).
  - cbn [srun_step] in N. rewrite A in N. cbn [a_pc] in N. destruct (N eq_refl).
  - destruct ok; [|destruct (Nd eq_refl)]. apply (fate_write U s i n r bs G C0); [left; split; [exact A|exact (unanswered s i n r _ G C0 A Logic.I)]|intros e H; pose proof (answering_fun _ _ _ _ _ _ H A); discriminate].
Qed.
Lemma given s i n q p bs : good s -> v_closed s = false -> answering s i n (Some q) p -> answers n s = [bs] -> exists st c, told s n q bs st c.
Proof.
  intros G C A An. pose proof (open_out s G C) as Oo. assert (Io : In (n, bs) (v_out s)).
  { assert (K : In bs (answers n s)) by (rewrite An; left; reflexivity). unfold answers in K. apply in_map_iff in K as ((n' & b') & E & F). cbn in E. subst b'. apply filter_In in F as (F & E). apply Nat.eqb_eq in E. cbn in E. subst n'. exact F. }
  destruct (oo_answers _ _ _ Oo n bs Io) as (x & Nx & At). destruct (answering_item s i n _ _ G A) as (x' & Nx' & F). rewrite Nx in Nx'. injection Nx' as <-. cbn in F. subst x.
  destruct At as (st & c & R & K). exists st, c. split; [exact An|]. split; [exact R|]. destruct K as [(-> & (j & b & Nb & Fb & Eb) & _)|([K|(K & _)] & _)].
  - left. split; [reflexivity|]. exists b. split; [exact (nth_error_In _ _ Nb)|auto].
  - right. cbn in *. intuition.
  - right. cbn in *. intuition.
Qed.
(** where a task was made *)
Lemma born U reg tr i n q x : forall p, v_closed (after U reg tr x) = false -> answering (after U reg tr x) i n (Some q) p -> exists y z, x = y ++ z /\ answering (after U reg tr y) i n (Some q) TStart.
Proof.
  induction x as [|[t o] x IH] using rev_ind; intros p C A; [unfold after, answering in A; cbn in A; destruct i; discriminate|].
  pose proof (after_open _ _ _ _ _ C) as C0. pose proof A as A0. rewrite after_snoc in A, C. destruct (answering_before U o _ i n _ p (after_good U reg tr x) C A) as [(p0 & K)|(_ & [(q0 & _ & ->)|(F & _)])].
  - destruct (IH p0 C0 K) as (y & z & -> & B). exists y, (z ++ [(t, o)]). rewrite app_assoc. auto.
  - exists (x ++ [(t, o)]), []. rewrite app_nil_r. auto.
  - discriminate.
Qed.
(** the part of a run in which it moves from p to another place, with the place *)
Lemma step_on U reg tr t0 x till d y z w i n q p : ticking t0 x till -> v_closed (after U reg tr x) = false -> x = y ++ z ++ w -> now t0 (y ++ z) <= d -> answering (after U reg tr y) i n (Some q) p ->
  ~ answering (after U reg tr (y ++ z)) i n (Some q) p ->
  exists z1 t o z2 p', z = z1 ++ (t, o) :: z2 /\ x = (y ++ z1 ++ [(t, o)]) ++ (z2 ++ w) /\ now t0 (y ++ z1 ++ [(t, o)]) <= d /\ answering (after U reg tr (y ++ z1)) i n (Some q) p /\
    answering (srun_step U o (after U reg tr (y ++ z1))) i n (Some q) p' /\ p' <> p /\ after U reg tr (y ++ z1 ++ [(t, o)]) = srun_step U o (after U reg tr (y ++ z1)) /\ v_closed (srun_step U o (after U reg tr (y ++ z1))) = false /\ op_of i o.
Proof.
  intros T C E L A N. pose proof C as C'. rewrite E in C'. destruct (moves U reg tr i n (Some q) p z y w C' A N) as (z1 & t & o & z2 & p' & -> & B1 & B2 & B3 & B4 & B5).
  assert (E' : x = (y ++ z1 ++ [(t, o)]) ++ (z2 ++ w)) by (rewrite E, <- !app_assoc; reflexivity).
  assert (Es : after U reg tr (y ++ z1 ++ [(t, o)]) = srun_step U o (after U reg tr (y ++ z1))) by (rewrite app_assoc; apply after_snoc).
  exists z1, t, o, z2, p'. split; [reflexivity|]. split; [exact E'|]. split.
  - pose proof (now_mono t0 x till T (y ++ z1 ++ [(t, o)]) z2 w E') as M. replace ((y ++ z1 ++ [(t, o)]) ++ z2) with (y ++ z1 ++ (t, o) :: z2) in M by (rewrite <- !app_assoc; reflexivity). lia.
  - rewrite Es in B2. split; [exact B1|]. split; [exact B2|]. split; [exact B3|]. split; [exact Es|]. split; [|exact B5]. rewrite <- Es. apply (after_open U reg tr _ (z2 ++ w)). rewrite <- E'. exact C.
Qed.
(** ** The answer is written in time *)
Lemma written U reg tr t0 x till lag y z i n q bs : ticking t0 x till -> prompt U reg tr t0 x till lag -> v_closed (after U reg tr x) = false -> (forall k, ~ In (Drain k false) (map snd x)) ->
  x = y ++ z -> now t0 y + lag <= till -> answering (after U reg tr y) i n (Some q) (TDrain1 bs) ->
  exists y' z' st c, x = y' ++ z' /\ now t0 y' <= now t0 y + lag /\ told (after U reg tr y') n q bs st c.
Proof.
  intros T P C D E L A. destruct (pr_goes _ _ _ _ _ _ _ P y z i n _ _ E L A (or_intror (ex_intro _ bs eq_refl))) as (y1 & z1 & -> & L1 & N).
  destruct (step_on U reg tr t0 x till _ y y1 z1 i n q _ T C E L1 A N) as (a & t & o & b & p' & -> & E' & L2 & A1 & A2 & Np & Es & C2 & _).
  assert (An : answers n (srun_step U o (after U reg tr (y ++ a))) = [bs]).
  { refine (from_drain U _ o i n (Some q) bs p' (after_good U reg tr _) _ A1 C2 A2 Np). intros ->. apply (D i). rewrite E', !map_app, !in_app_iff. left. right. right. left. reflexivity. }
  destruct (given _ i n q p' bs (good_step U o _ (after_good U reg tr _)) C2 A2 An) as (st & c & Gv). exists (y ++ a ++ [(t, o)]), (b ++ z1), st, c. rewrite Es. auto.
Qed.
Lemma answered_in_time U reg tr t0 x till lag x1 x2 n q :
  ticking t0 x till -> prompt U reg tr t0 x till lag -> timers U reg tr t0 x till lag -> v_closed (after U reg tr x) = false -> (forall k, ~ In (Drain k false) (map snd x)) -> in_order U reg tr x q ->
  x = x1 ++ x2 -> has_come x1 n q -> q_type q <> 2 -> 0 < q_timeout q -> now t0 x1 + ms (q_timeout q) + 4 * lag <= till ->
  exists y z, x = y ++ z /\ now t0 y <= now t0 x1 + ms (q_timeout q) + 4 * lag /\
    ((exists bs st c, told (after U reg tr y) n q bs st c) \/ exists v, ended_with (after U reg tr y) n (Ok v) /\ ~ sendable v).
Proof.
  intros T P Ti C D (Tr & Br) E (items & rest & Cu & Nq) Ty Tq L. pose proof (pr_lag _ _ _ _ _ _ _ P) as Lg. assert (Hm : 0 < ms (q_timeout q)) by (unfold ms; change (SECOND / 1000) with 1000; lia).
  destruct (pr_reads _ _ _ _ _ _ _ P x1 x2 E ltac:(lia)) as (r & w & -> & Lr & W).
  assert (C1 : v_closed (after U reg tr (x1 ++ r)) = false) by (apply (after_open U reg tr _ w); rewrite <- app_assoc, <- E; exact C).
  assert (Cu1 : cuts (fed (map snd (x1 ++ r))) items (rest ++ fed (map snd r))) by (rewrite map_app; unfold fed; rewrite map_app, concat_app; apply cuts_more; exact Cu).
  destruct (taken U reg tr (map snd (x1 ++ r)) items _ n q W Cu1 Nq) as (i & p & A). destruct (born U reg tr i n q (x1 ++ r) p C1 A) as (a & b & Ea & Aa).
  assert (Ex : x = a ++ (b ++ w)) by (rewrite E, app_assoc, Ea, app_assoc; reflexivity).
  assert (La : now t0 a <= now t0 x1 + lag) by (pose proof (now_mono t0 x till T a b w Ex) as M; rewrite <- Ea in M; lia).
  (* it is dispatched *)
  assert (Go : may_go (Some q) TStart) by (left; split; [reflexivity|discriminate]). assert (La' : now t0 a + lag <= till) by lia.
  destruct (pr_goes _ _ _ _ _ _ _ P a (b ++ w) i n _ _ Ex La' Aa Go) as (y1 & z1 & E1 & L1 & N1).
  assert (Ex1 : x = a ++ y1 ++ z1) by (rewrite Ex, E1; reflexivity).
  destruct (step_on U reg tr t0 x till _ a y1 z1 i n q _ T C Ex1 L1 Aa N1) as (c1 & t1 & o1 & d1 & p1 & _ & Ex2 & L2 & B1 & B2 & Np1 & Es1 & Cl1 & _).
  assert (Tr1 : forall fresh, traceable U (after U reg tr (a ++ c1)) q fresh) by (intros fresh; exact (clear_any U _ _ fresh Tr)).
  assert (Br1 : forall sv, ~ broken (v_reg (after U reg tr (a ++ c1))) sv CancelledError) by (intros sv; apply (Br (a ++ c1) ((t1, o1) :: d1 ++ z1)); rewrite Ex2, <- !app_assoc; reflexivity).
  destruct (from_start U _ o1 i n q p1 (after_good U reg tr _) Ty Tr1 Br1 B1 Cl1 B2 Np1) as [(bs & ->)|(j & ->)].
  { rewrite <- Es1 in B2, Cl1. destruct (written U reg tr t0 x till lag _ _ i n q bs T P C D Ex2 ltac:(lia) B2) as (y & z & st & c & Ey & Ly & Tl). exists y, z. split; [exact Ey|]. split; [lia|]. left. eauto. }
  (* it waits *)
  rewrite <- Es1 in B2, Cl1. set (x3 := a ++ c1 ++ [(t1, o1)]) in *. assert (Bg : begins U reg tr x3 i n q j).
  { split; [exact B2|]. unfold x3. rewrite app_assoc, removelast_last. intros K. pose proof (answering_fun _ _ _ _ _ _ K B1). discriminate. }
  destruct (ti_ends _ _ _ _ _ _ _ Ti x3 (d1 ++ z1) i n q j Ex2 Bg Tq ltac:(lia)) as (y2 & z2 & E2 & L3 & N2).
  assert (Ex3 : x = x3 ++ y2 ++ z2) by (rewrite Ex2, E2; reflexivity).
  destruct (step_on U reg tr t0 x till _ x3 y2 z2 i n q _ T C Ex3 L3 B2 N2) as (c2 & t2 & o2 & d2 & p2 & _ & Ex4 & L4 & B3 & B4 & Np2 & Es2 & Cl2 & _).
  destruct (from_wait U _ o2 i n q j p2 (after_good U reg tr _) B3 Cl2 B4 Np2) as [(bs & ->)|(v & Ev & Nv)].
  - rewrite <- Es2 in B4, Cl2. destruct (written U reg tr t0 x till lag _ _ i n q bs T P C D Ex4 ltac:(lia) B4) as (y & z & st & c & Ey & Ly & Tl). exists y, z. split; [exact Ey|]. split; [lia|]. left. eauto.
  - eexists _, _. split; [exact Ex4|]. split; [lia|]. right. exists v. rewrite Es2. auto.
Qed.
(** ** Where an answer comes from *)
Lemma handed_back U reg tr i n q bs x : forall p, v_closed (after U reg tr x) = false -> answering (after U reg tr x) i n (Some q) p -> answers n (after U reg tr x) = [bs] \/ p = TDrain1 bs ->
  exists y t o z p0, x = y ++ (t, o) :: z /\ answering (after U reg tr y) i n (Some q) p0 /\ p0 <> TDrain1 bs /\ answering (srun_step U o (after U reg tr y)) i n (Some q) (TDrain1 bs) /\ v_closed (srun_step U o (after U reg tr y)) = false.
Proof.
  induction x as [|[t o] x IH] using rev_ind; intros p C A H; [unfold after, answering in A; cbn in A; destruct i; discriminate|].
  pose proof (after_open _ _ _ _ _ C) as C0. rewrite after_snoc in A, C, H. pose proof (after_good U reg tr x) as G. set (s := after U reg tr x) in *.
  assert (Up : forall y t1 o1 z p0, x = y ++ (t1, o1) :: z /\ answering (after U reg tr y) i n (Some q) p0 /\ p0 <> TDrain1 bs /\ answering (srun_step U o1 (after U reg tr y)) i n (Some q) (TDrain1 bs) /\ v_closed (srun_step U o1 (after U reg tr y)) = false ->
    exists y t0 o0 z p0, x ++ [(t, o)] = y ++ (t0, o0) :: z /\ answering (after U reg tr y) i n (Some q) p0 /\ p0 <> TDrain1 bs /\ answering (srun_step U o0 (after U reg tr y)) i n (Some q) (TDrain1 bs) /\ v_closed (srun_step U o0 (after U reg tr y)) = false).
  { intros y t1 o1 z p0 (E & B). exists y, t1, o1, (z ++ [(t, o)]), p0. split; [rewrite E, <- app_assoc; reflexivity|exact B]. }
  destruct (answering_before U o s i n _ p G C A) as [(p0 & K)|(_ & [(q0 & _ & ->)|(F & _)])]; [|destruct H as [H|H]; [rewrite (unanswered _ i n _ _ (good_step U o s G) C A Logic.I) in H|]; discriminate|discriminate].
  assert (D0 : p0 = TDrain1 bs \/ p0 <> TDrain1 bs) by (destruct p0; try (right; discriminate); destruct (list_eq_dec Byte.byte_eq_dec bs0 bs); [left; congruence|right; congruence]).
  assert (D1 : p = TDrain1 bs \/ p <> TDrain1 bs) by (destruct p; try (right; discriminate); destruct (list_eq_dec Byte.byte_eq_dec bs0 bs); [left; congruence|right; congruence]).
  destruct D0 as [->|N0]; [destruct (IH _ C0 K (or_intror eq_refl)) as (? & ? & ? & ? & ? & B); exact (Up _ _ _ _ _ B)|].
  destruct D1 as [->|N1]; [exists x, t, o, [], p0; auto|].
  destruct H as [H|H]; [|destruct (N1 H)]. cut (answers n s = [bs]); [intros H0; destruct (IH _ C0 K (or_introl H0)) as (? & ? & ? & ? & ? & B); exact (Up _ _ _ _ _ B)|].
  destruct (step_task U o s i _ G K C) as [(_ & An)|(E & _)]; [cbn [a_frame] in An; rewrite <- An; exact H|]. clear Up IH.
  remember (srun_step U o s) as s1 eqn:E1. clear E1.
  inversion E as [i0 t' q0 st bs0 tr0 Nt Rq Pc Rf Fb|i0 t' q0 e tr0 Nt Rq Pc Ex|i0 t' q0 sv m c tr0 fresh Nt Rq Pc Ns Nm Of Ex|i0 t' q0 j0 b r0 p1 Nt Rq Pc Nj Sj Co|i0 t' q0 j0 bs0 Nt Rq Pc To Fb|i0 t' bs0 Nt Pc Cl0|i0 t' bs0 e Nt Pc|i0 t' p1 Nt Pc Hp0]; subst i0; unfold answering in K; rewrite K in Nt; injection Nt as <-; cbn [a_req a_pc a_frame] in *; subst s1; try exact H.
  - destruct (expire_job_same j0 s) as (_ & _ & E2 & _). unfold answers in *. cbn [tgoto set_tasks v_out] in H. rewrite E2 in H. exact H.
  - exfalso. rewrite Pc in K. pose proof (unanswered s i n _ _ G C0 K Logic.I) as Un. unfold answers in *. cbn [tgoto set_tasks set_out v_out] in H. rewrite filter_app, map_app, Un in H. cbn [filter fst] in H. rewrite Nat.eqb_refl in H. cbn in H. congruence.
Qed.
Lemma wait_begins U reg tr i n q j x : v_closed (after U reg tr x) = false -> answering (after U reg tr x) i n (Some q) (TWait j) ->
  exists y t o z, x = y ++ (t, o) :: z /\ begins U reg tr (y ++ [(t, o)]) i n q j /\ answering (after U reg tr y) i n (Some q) TStart.
Proof.
  induction x as [|[t o] x IH] using rev_ind; intros C A; [unfold after, answering in A; cbn in A; destruct i; discriminate|].
  pose proof (after_open _ _ _ _ _ C) as C0. pose proof A as A0. rewrite after_snoc in A, C. pose proof (after_good U reg tr x) as G.
  destruct (answering_before U o _ i n _ _ G C A) as [(p0 & K)|(_ & [(q0 & _ & E)|(F & _)])]; [|discriminate|discriminate].
  assert (D0 : p0 = TWait j \/ p0 <> TWait j) by (destruct p0; try (right; discriminate); destruct (Nat.eq_dec j0 j); [left; congruence|right; congruence]).
  destruct D0 as [->|N0]; [destruct (IH C0 K) as (y & t1 & o1 & z & -> & B); exists y, t1, o1, (z ++ [(t, o)]); split; [rewrite <- app_assoc; reflexivity|exact B]|].
  exists x, t, o, []. split; [reflexivity|]. split; [split; [exact A0|rewrite removelast_last; intros B; exact (N0 (answering_fun _ _ _ _ _ _ K B))]|].
  destruct (answering_step U o _ i n _ _ G C K) as [B|(p1 & B & D & E & _)]; [destruct (N0 (answering_fun _ _ _ _ _ _ B A))|].
  pose proof (answering_fun _ _ _ _ _ _ B A) as ->. remember (srun_step U o (after U reg tr x)) as s1 eqn:E1. clear E1. set (s := after U reg tr x) in *.
  inversion E as [i0 t' q0 st bs0 tr0 Nt Rq Pc Rf Fb|i0 t' q0 e tr0 Nt Rq Pc Ex|i0 t' q0 sv m c tr0 fresh Nt Rq Pc Ns Nm Of Ex|i0 t' q0 j0 b r0 p1 Nt Rq Pc Nj Sj Co|i0 t' q0 j0 bs0 Nt Rq Pc To Fb|i0 t' bs0 Nt Pc Cl0|i0 t' bs0 e Nt Pc|i0 t' p1 Nt Pc Hp0]; subst i0; unfold answering in K; rewrite K in Nt; injection Nt as <-; cbn [a_req a_pc a_frame] in *; try (rewrite Pc in K; exact K); subst s1; exfalso.
  - pose proof (answering_fun _ _ _ _ _ _ A (answering_tgoto s i n (Some q) p0 p1 s K eq_refl)) as <-. destruct (concluded_shape _ _ _ Co) as [X|(bs & X)]; discriminate.
  - pose proof (answering_fun _ _ _ _ _ _ A (answering_tgoto s i n (Some q) p0 _ (expire_job j0 s) K (proj1 (proj2 (expire_job_same j0 s))))). discriminate.
  - pose proof (answering_fun _ _ _ _ _ _ A (answering_tgoto s i n (Some q) p0 TDrain2 _ K eq_refl)). discriminate.
  - pose proof (answering_fun _ _ _ _ _ _ A (answering_tgoto s i n (Some q) p0 (TRaised e) s K eq_refl)). discriminate.
  - pose proof (answering_fun _ _ _ _ _ _ A (answering_tgoto s i n (Some q) p0 p1 s K eq_refl)) as <-. destruct Hp0 as [X|(e & X)]; discriminate.
Qed.
Lemma refused_not_7 reg q st : refused reg q st -> st <> 7 /\ legal_status st.
Proof. unfold legal_status. intros [(-> & _)|(sv & m & _ & _ & [(-> & _)|(-> & _)])]; lia. Qed.
(** ** Not too early *)
Lemma not_early U reg tr t0 x till lag n q bs c :
  ticking t0 x till -> timers U reg tr t0 x till lag -> v_closed (after U reg tr x) = false -> has_come x n q -> told (after U reg tr x) n q bs 7 c ->
  (exists y z e, x = y ++ z /\ ended_with (after U reg tr y) n (Raise e) /\ (e = TimeoutError \/ e = CancelledError)) \/
  (exists y z, x = y ++ z /\ has_come y n q /\ now t0 y + ms (q_timeout q) <= now t0 x).
Proof.
  intros T Ti C (items & rest & Cu & Nq) (An & R & _). pose proof (after_good U reg tr x) as G.
  (* the task *)
  pose proof (open_out _ G C) as Oo. assert (In (n, bs) (v_out (after U reg tr x))) as Io.
  { assert (K : In bs (answers n (after U reg tr x))) by (rewrite An; left; reflexivity). unfold answers in K. apply in_map_iff in K as ((n' & b') & E & F). cbn in E. subst b'. apply filter_In in F as (F & E). apply Nat.eqb_eq in E. cbn in E. subst n'. exact F. }
  destruct (oo_answers _ _ _ Oo n bs Io) as (it & Ni & _). destruct (run_cuts U reg tr (map snd x)) as (r' & Cu').
  assert (Ni' : nth_error (v_items (after U reg tr x)) n = Some (IRequest q)).
  { destruct (cuts_comparable _ _ _ _ _ Cu Cu') as [(m & E)|(m & E)].
    - change (srun U reg tr (map snd x)) with (after U reg tr x) in E. rewrite E. apply nth_app_some. exact Nq.
    - rewrite E in Nq. change (srun U reg tr (map snd x)) with (after U reg tr x) in Nq. rewrite (nth_app_some _ _ _ _ Ni) in Nq. rewrite Ni. exact Nq. }
  destruct (proj1 (answering_exists _ n _ G Ni') q eq_refl) as (i & p & A).
  destruct (handed_back U reg tr i n q bs x p C A (or_introl An)) as (y & t & o & z & p0 & -> & A0 & N0 & A1 & C1).
  pose proof (after_good U reg tr y) as Gy. pose proof (closed_step U o _ Gy C1) as Cy. pose proof (answering_id _ i n q _ Gy A0) as Hid.
  assert (Lt : t <= now t0 (y ++ (t, o) :: z)).
  { pose proof (now_mono t0 _ till T (y ++ [(t, o)]) z [] ltac:(rewrite <- app_assoc, app_nil_r; reflexivity)) as M. rewrite now_snoc, <- app_assoc in M. exact M. }
  destruct (answering_step U o _ i n _ _ Gy C1 A0) as [B|(p1 & B & D & E & Op)]; [destruct (N0 (answering_fun _ _ _ _ _ _ B A1))|].
  pose proof (answering_fun _ _ _ _ _ _ B A1) as ->. clear B D.
  destruct p0 as [|j|bs0| | |e0] eqn:Ep.
  - (* refused *) exfalso. remember (srun_step U o (after U reg tr y)) as s1 eqn:E1. clear E1 Op. set (s := after U reg tr y) in *.
    inversion E as [i0 t' q0 st bs0 tr0 Nt Rq Pc Rf Fb|i0 t' q0 e tr0 Nt Rq Pc Ex|i0 t' q0 sv m c0 tr0 fresh Nt Rq Pc Ns Nm Of Ex|i0 t' q0 j0 b r0 p1 Nt Rq Pc Nj Sj Co|i0 t' q0 j0 bs0 Nt Rq Pc To Fb|i0 t' bs0 Nt Pc Cl0|i0 t' bs0 e Nt Pc|i0 t' p1 Nt Pc Hp0]; subst i0; unfold answering in A0; rewrite A0 in Nt; injection Nt as <-; cbn [a_req a_pc a_frame] in *; try discriminate; subst s1.
    + pose proof (answering_fun _ _ _ _ _ _ A1 (answering_tgoto s i n (Some q) TStart _ _ A0 eq_refl)) as K. injection K as <-. injection Rq as <-. destruct (refused_not_7 _ _ _ Rf) as (N7 & Ls).
      destruct (fail_bytes_Ok (q_id q) st Hid Ls) as (b' & Fb' & R'). rewrite Fb in Fb'. injection Fb' as <-. destruct (response_fun _ _ _ _ _ _ _ _ _ R R') as (_ & _ & X & _). congruence.
    + pose proof (answering_fun _ _ _ _ _ _ A1 (answering_tgoto s i n (Some q) TStart _ _ A0 eq_refl)). discriminate.
    + pose proof (answering_fun _ _ _ _ _ _ A1 (answering_tgoto s i n (Some q) TStart _ _ A0 eq_refl)) as K. destruct (q_type q0 =? 2); discriminate.
  - (* it waited *)
    assert (Oe : o = Expire i \/ o <> Expire i) by (destruct o; try (right; discriminate); destruct (Nat.eq_dec i0 i); [left; congruence|right; congruence]).
    destruct Oe as [->|No].
    + right. destruct (wait_begins U reg tr i n q j y Cy A0) as (y1 & t1 & o1 & z1 & -> & Bg & As).
      assert (Ex : (y1 ++ (t1, o1) :: z1) ++ (t, Expire i) :: z = (y1 ++ [(t1, o1)]) ++ z1 ++ (t, Expire i) :: z) by (rewrite <- !app_assoc; reflexivity).
      assert (Aw : answering (after U reg tr ((y1 ++ [(t1, o1)]) ++ z1)) i n (Some q) (TWait j)) by (rewrite <- app_assoc; exact A0).
      pose proof (ti_not_before _ _ _ _ _ _ _ Ti (y1 ++ [(t1, o1)]) z1 t z i n q j Ex Bg Aw) as Lw. rewrite now_snoc in Lw.
      assert (L1 : now t0 y1 <= t1) by (apply (proj2 T y1 t1 o1 (z1 ++ (t, Expire i) :: z)); rewrite <- app_assoc; reflexivity).
      destruct (run_cuts U reg tr (map snd y1)) as (r1 & Cu1). exists y1, ((t1, o1) :: z1 ++ (t, Expire i) :: z).
      split; [rewrite <- app_assoc; reflexivity|]. split; [|lia]. exists (v_items (after U reg tr y1)), r1. split; [exact Cu1|].
      destruct (answering_item _ i n _ _ (after_good U reg tr y1) As) as (it1 & Ni1 & F1). rewrite Ni1. cbn in F1. rewrite F1. reflexivity.
    + left. assert (W : waits (after U reg tr y) i n q j) by (split; [exact A0|exact (unanswered _ i n _ _ Gy Cy A0 Logic.I)]).
      destruct (waits_step U o _ i n q j Gy C1 No W) as [(K & _)|(b & r & Nj & Sj & Ld)]; [pose proof (answering_fun _ _ _ _ _ _ K A1); discriminate|].
      destruct (jo_wait _ (proj2 (proj2 (proj1 Gy))) i _ j A0 eq_refl) as (b' & q' & Nb & Fb & _). rewrite Nj in Nb. injection Nb as <-.
      destruct Ld as [(b0 & Co & Ft & _)|(_ & K & _)]; [|pose proof (answering_fun _ _ _ _ _ _ K A1); discriminate].
      assert (b0 = bs) as -> by (destruct Ft as [(K & _)|[([K|[K|(e & K)]] & _)|((e & K) & _)]]; pose proof (answering_fun _ _ _ _ _ _ K A1); congruence).
      destruct r as [v|e].
      * exfalso. unfold concluded in Co. destruct (truthy v); [|discriminate]. destruct Co as [(c0 & b1 & -> & Er & Eb)|(_ & X)]; [|discriminate]. injection Eb as <-. destruct (result_bytes_inv _ _ _ Er) as (c1 & _ & _ & R').
        destruct (response_fun _ _ _ _ _ _ _ _ _ R R') as (_ & _ & X & _). discriminate.
      * exists y, ((t, o) :: z), e. split; [reflexivity|]. split; [exists b; split; [exact (nth_error_In _ _ Nj)|auto]|].
        destruct Co as (b1 & Fb1 & Eb). injection Eb as <-. destruct legal_statuses as (_ & S3 & _). destruct (fail_bytes_Ok (q_id q) 3 Hid S3) as (b3 & F3 & R3).
        assert (X : fail_bytes (q_id q) 3 = Ok bs -> False) by (intros X; rewrite F3 in X; injection X as <-; destruct (response_fun _ _ _ _ _ _ _ _ _ R R3) as (_ & _ & X & _); discriminate).
        destruct e; auto; destruct (X Fb1).
  - exfalso. remember (srun_step U o (after U reg tr y)) as s1 eqn:E1. clear E1 Op. set (s := after U reg tr y) in *.
    inversion E as [i0 t' q0 st bs1 tr0 Nt Rq Pc Rf Fb|i0 t' q0 e tr0 Nt Rq Pc Ex|i0 t' q0 sv m c0 tr0 fresh Nt Rq Pc Ns Nm Of Ex|i0 t' q0 j0 b r0 p1 Nt Rq Pc Nj Sj Co|i0 t' q0 j0 bs1 Nt Rq Pc To Fb|i0 t' bs1 Nt Pc Cl0|i0 t' bs1 e Nt Pc|i0 t' p1 Nt Pc Hp0]; subst i0; unfold answering in A0; rewrite A0 in Nt; injection Nt as <-; cbn [a_req a_pc a_frame] in *; try discriminate; subst s1.
    + pose proof (answering_fun _ _ _ _ _ _ A1 (answering_tgoto s i n (Some q) _ TDrain2 _ A0 eq_refl)). discriminate.
    + pose proof (answering_fun _ _ _ _ _ _ A1 (answering_tgoto s i n (Some q) _ (TRaised e) s A0 eq_refl)). discriminate.
  - exfalso. remember (srun_step U o (after U reg tr y)) as s1 eqn:E1. clear E1 Op. set (s := after U reg tr y) in *.
    inversion E as [i0 t' q0 st bs1 tr0 Nt Rq Pc Rf Fb|i0 t' q0 e tr0 Nt Rq Pc Ex|i0 t' q0 sv m c0 tr0 fresh Nt Rq Pc Ns Nm Of Ex|i0 t' q0 j0 b r0 p1 Nt Rq Pc Nj Sj Co|i0 t' q0 j0 bs1 Nt Rq Pc To Fb|i0 t' bs1 Nt Pc Cl0|i0 t' bs1 e Nt Pc|i0 t' p1 Nt Pc Hp0]; subst i0; unfold answering in A0; rewrite A0 in Nt; injection Nt as <-; cbn [a_req a_pc a_frame] in *; try discriminate; subst s1.
    pose proof (answering_fun _ _ _ _ _ _ A1 (answering_tgoto s i n (Some q) _ p1 s A0 eq_refl)) as <-. destruct Hp0 as [X|(e & X)]; discriminate.
  - exfalso. remember (srun_step U o (after U reg tr y)) as s1 eqn:E1. clear E1. inversion E as [i0 t' q0 st bs1 tr0 Nt Rq Pc|i0 t' q0 e tr0 Nt Rq Pc|i0 t' q0 sv m c0 tr0 fresh Nt Rq Pc|i0 t' q0 j0 b r0 p1 Nt Rq Pc|i0 t' q0 j0 bs1 Nt Rq Pc|i0 t' bs1 Nt Pc|i0 t' bs1 e Nt Pc|i0 t' p1 Nt Pc]; subst i0; unfold answering in A0; rewrite A0 in Nt; injection Nt as <-; discriminate Pc.
  - exfalso. remember (srun_step U o (after U reg tr y)) as s1 eqn:E1. clear E1. inversion E as [i0 t' q0 st bs1 tr0 Nt Rq Pc|i0 t' q0 e tr0 Nt Rq Pc|i0 t' q0 sv m c0 tr0 fresh Nt Rq Pc|i0 t' q0 j0 b r0 p1 Nt Rq Pc|i0 t' q0 j0 bs1 Nt Rq Pc|i0 t' bs1 Nt Pc|i0 t' bs1 e Nt Pc|i0 t' p1 Nt Pc]; subst i0; unfold answering in A0; rewrite A0 in Nt; injection Nt as <-; discriminate Pc.
Qed.
(** ** A synchronous call *)
Lemma answered_later d d' w bs : S_SyncTime.answered_by d w bs -> d <= d' -> S_SyncTime.answered_by d' w bs.
Proof. intros (k & E & L & F) H. exists k. split; [exact E|]. split; [exact L|]. revert F. apply Forall_impl. intros a Ha. lia. Qed.
Lemma told_verdict s n q bs st c w start timeout cn snd rounds bt : told s n q bs st c -> S_SyncTime.answered_by (start + timeout + SECOND) w bs -> len bs <= len rounds ->
  exists t, S_SyncTime.returned (timed_call w start timeout (q_id q) (Some cn) snd rounds (Ok tt) bt) = Some (t, if st =? 0 then Ok (PBytes c) else Raise ServerError).
Proof.
  intros (_ & (f & Lf & Lc & _ & _ & Ei & Es & Ec & Ls & Eh) & _) A L. assert (H : header_pairs (fr_header f) []) by (rewrite Eh; constructor; constructor). rewrite <- Es in Ls.
  destruct (L_SyncTime.call_in_time w start timeout (q_id q) cn snd rounds bt bs f [] Lf Lc Ls H A L) as (t & E). exists t. rewrite E. unfold S_SyncTime.verdict. rewrite Ei, Es, Ec, Z.eqb_refl. reflexivity.
Qed.
Lemma call_told U reg tr t0 x till lag x1 x2 n q w start u d cn snd rounds bt :
  ticking t0 x till -> prompt U reg tr t0 x till lag -> timers U reg tr t0 x till lag -> v_closed (after U reg tr x) = false -> (forall k, ~ In (Drain k false) (map Datatypes.snd x)) -> in_order U reg tr x q ->
  x = x1 ++ x2 -> has_come x1 n q -> q_type q <> 2 -> 0 < q_timeout q -> now t0 x1 + ms (q_timeout q) + 4 * lag <= till ->
  now t0 x1 <= start + u -> u + 4 * lag + d <= SECOND ->
  (forall y z bs, x = y ++ z -> answers n (after U reg tr y) = [bs] -> S_SyncTime.answered_by (now t0 y + d) w bs /\ len bs <= len rounds) ->
  exists y z, x = y ++ z /\
    ((exists t bs st c, told (after U reg tr y) n q bs st c /\
        S_SyncTime.returned (timed_call w start (ms (q_timeout q)) (q_id q) (Some cn) snd rounds (Ok tt) bt) = Some (t, if st =? 0 then Ok (PBytes c) else Raise ServerError)) \/
     exists v, ended_with (after U reg tr y) n (Ok v) /\ ~ sendable v).
Proof.
  intros T P Ti C D O E Hc Ty Tq L Hu Hs Net. destruct (answered_in_time U reg tr t0 x till lag x1 x2 n q T P Ti C D O E Hc Ty Tq L) as (y & z & Ey & Ly & [(bs & st & c & Tl)|K]); exists y, z; (split; [exact Ey|]); [left|right; exact K].
  destruct (Net y z bs Ey (proj1 Tl)) as (A & Lr). destruct (told_verdict _ n q bs st c w start (ms (q_timeout q)) cn snd rounds bt Tl) as (t & Et); [apply (answered_later _ _ _ _ A); lia|exact Lr|]. exists t, bs, st, c. auto.
Qed.
(** ** For the examples *)
Lemma split_firstn {A} (x y z : list A) : x = y ++ z -> y = firstn (List.length y) x /\ (List.length y <= List.length x)%nat.
Proof. intros ->. rewrite firstn_app, Nat.sub_diag, firstn_all, app_nil_r, app_length. split; [reflexivity|lia]. Qed.
Lemma firstn_plus {A} k : forall m (x : list A), (k <= m)%nat -> firstn m x = firstn k x ++ firstn (m - k) (skipn k x).
Proof.
  induction k as [|k IH]; intros m x L; [rewrite Nat.sub_0_r; reflexivity|]. destruct m as [|m]; [lia|]. destruct x as [|a x]; [rewrite skipn_nil, !firstn_nil; reflexivity|].
  cbn [firstn skipn app Nat.sub]. f_equal. apply IH. lia.
Qed.
Lemma within_intro t0 x k m d (P : trun -> Prop) : (k <= m)%nat -> now t0 (firstn m x) <= d -> P (firstn m x) -> forall x2, x = firstn k x ++ x2 -> within t0 (firstn k x) x2 d P.
Proof.
  intros L N H x2 E. assert (E2 : x2 = skipn k x) by (rewrite <- (firstn_skipn k x) in E at 1; apply app_inv_head in E; congruence).
  assert (F : firstn m x = firstn k x ++ firstn (m - k) x2).
  { rewrite E2. apply firstn_plus. exact L. }
  exists (firstn (m - k) x2), (skipn (m - k) x2). rewrite firstn_skipn, <- F. auto.
Qed.
Lemma prompt_intro U reg tr t0 x till lag : 0 <= lag ->
  (forall k, (k <= List.length x)%nat -> exists m, (k <= m)%nat /\ now t0 (firstn m x) <= now t0 (firstn k x) + lag /\ waiting (after U reg tr (firstn m x))) ->
  (forall k i t, (k <= List.length x)%nat -> nth_error (v_tasks (after U reg tr (firstn k x))) i = Some t -> may_go (a_req t) (a_pc t) ->
     exists m, (k <= m)%nat /\ now t0 (firstn m x) <= now t0 (firstn k x) + lag /\ nth_error (v_tasks (after U reg tr (firstn m x))) i <> Some t) -> prompt U reg tr t0 x till lag.
Proof.
  intros Lg R Go. constructor; [exact Lg| |].
  - intros x1 x2 E _. destruct (split_firstn _ _ _ E) as (E1 & L). rewrite E1 in E |- *. destruct (R _ L) as (m & Lm & Nm & W). exact (within_intro t0 x _ m _ (fun y => waiting (after U reg tr y)) Lm Nm W x2 E).
  - intros x1 x2 i n r p E _ A M. destruct (split_firstn _ _ _ E) as (E1 & L). rewrite E1 in E, A |- *. destruct (Go _ i _ L A M) as (m & Lm & Nm & W). exact (within_intro t0 x _ m _ (fun y => ~ answering (after U reg tr y) i n r p) Lm Nm W x2 E).
Qed.
Lemma ticking_intro t0 x till : now t0 x <= till -> (forall k, (k < List.length x)%nat -> now t0 (firstn k x) <= now t0 (firstn (S k) x)) -> ticking t0 x till.
Proof.
  intros L H. split; [exact L|]. intros x1 t o x2 E. assert (E1 : x = (x1 ++ [(t, o)]) ++ x2) by (rewrite E, <- app_assoc; reflexivity). destruct (split_firstn _ _ _ E) as (F & _). destruct (split_firstn _ _ _ E1) as (F1 & L1).
  rewrite app_length in F1, L1. cbn [List.length] in *. specialize (H (List.length x1) ltac:(lia)). rewrite Nat.add_1_r in F1. rewrite <- F, <- F1, now_snoc in H. exact H.
Qed.
Lemma timers_intro U reg tr t0 x till lag :
  (forall k i n q j, (k <= List.length x)%nat -> begins U reg tr (firstn k x) i n q j -> 0 < q_timeout q ->
     exists m, (k <= m)%nat /\ now t0 (firstn m x) <= now t0 (firstn k x) + ms (q_timeout q) + lag /\ ~ answering (after U reg tr (firstn m x)) i n (Some q) (TWait j)) ->
  (forall k m i t n q j, (k <= m)%nat -> nth_error x m = Some (t, Expire i) -> begins U reg tr (firstn k x) i n q j -> now t0 (firstn k x) + ms (q_timeout q) <= t) -> timers U reg tr t0 x till lag.
Proof.
  intros H1 H2. constructor.
  - intros x1 x2 i n q j E B Tq _. destruct (split_firstn _ _ _ E) as (E1 & L). rewrite E1 in E, B |- *. destruct (H1 _ i n q j L B Tq) as (m & Lm & Nm & W). exact (within_intro t0 x _ m _ (fun y => ~ answering (after U reg tr y) i n (Some q) (TWait j)) Lm Nm W x2 E).
  - intros x1 x2 t x3 i n q j E B _. destruct (split_firstn _ _ _ E) as (E1 & L). rewrite E1 in B |- *. apply (H2 _ (List.length (x1 ++ x2)) i t n q j); [rewrite app_length; lia| |exact B].
    rewrite E, app_assoc, nth_error_app2, Nat.sub_diag by lia. reflexivity.
Qed.

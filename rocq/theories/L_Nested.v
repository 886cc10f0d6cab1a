(** Lemmas about methods that wait for other calls (S_Nested). *)
From Coq Require Import ZifyBool.
From Verif Require Import PyBase L_PyBase PyDict PyInt M_RpcId M_Trace S_Wire M_AioServer S_Server L_AioServer L_AioServer2 L_AioServer3 L_AioServer4 L_AioServer5 L_AioServer6 L_AioServer7 M_Listener S_Listener L_Listener S_Nested.
Open Scope nat_scope.

Lemma obeys_app U needs l1 : forall s l2, obeys U needs s (l1 ++ l2) <-> obeys U needs s l1 /\ obeys U needs (lfrom U s l1) l2.
Proof. induction l1 as [|o l1 IH]; intros s l2; [cbn; tauto|]. cbn [app obeys]. rewrite IH. change (lfrom U s (o :: l1)) with (lfrom U (lrun_step U o s) l1). tauto. Qed.

(** ** All workers wait *)
Lemma deadlock_step U needs o s x : lok s -> executing s x -> 30 <= List.length x ->
  (forall c j, In (c, j) x -> exists d e, needs (c, j) = Some (d, e) /\ unstarted (call_state s d e)) -> obeys U needs s [o] ->
  executing (lrun_step U o s) x /\ forall c j, unstarted (call_state s c j) -> unstarted (call_state (lrun_step U o s) c j).
Proof.
  intros L E Len N (Ob & _). split.
  - destruct E as (D & F). split; [exact D|]. apply Forall_forall. intros (c, j) H. rewrite Forall_forall in F. pose proof (F _ H) as R. cbn [fst snd] in *.
    destruct (step_call U o s c j L) as [M|[(M & r & M1 & Eo)|[(M & M1)|[(M & M1 & _)|(M & M1)]]]]; try congruence. exfalso. subst o.
    destruct (N c j H) as (d & e & Nd & Un). destruct (Ob R d e Nd) as (r' & X). unfold unstarted in Un. destruct Un as [Un|[Un|Un]]; congruence.
  - intros c j H. unfold unstarted in *. destruct (step_call U o s c j L) as [M|[(M & r & M1 & Eo)|[(M & M1)|[(M & M1 & Eo & W & Q)|(M & M1)]]]];
      [rewrite M; exact H|destruct H as [H|[H|H]]; congruence|auto|apply executing_le in E; unfold MAX_WORKER in W; lia|auto].
Qed.

Lemma deadlock_from U needs l : forall s x, lok s -> executing s x -> 30 <= List.length x ->
  (forall c j, In (c, j) x -> exists d e, needs (c, j) = Some (d, e) /\ unstarted (call_state s d e)) -> obeys U needs s l ->
  executing (lfrom U s l) x /\ forall c j, unstarted (call_state s c j) -> unstarted (call_state (lfrom U s l) c j).
Proof.
  induction l as [|o l IH]; intros s x L E Len N Ob; [split; [exact E|auto]|]. change (lfrom U s (o :: l)) with (lfrom U (lrun_step U o s) l).
  destruct Ob as [Ob1 Ob2]. destruct (deadlock_step U needs o s x L E Len N) as [E1 K]; [split; [exact Ob1|exact Logic.I]|].
  destruct (IH (lrun_step U o s) x (lok_step U o s L) E1 Len) as [E2 K2].
  - intros c j H. destruct (N c j H) as (d & e & Nd & Un). exists d, e. auto.
  - exact Ob2.
  - split; [exact E2|]. auto.
Qed.

Lemma deadlock U reg l1 l2 x needs : let s := lrun U reg l1 in let s' := lrun U reg (l1 ++ l2) in
  executing s x -> List.length x = 30 -> (forall c j, In (c, j) x -> exists d e, needs (c, j) = Some (d, e) /\ not_begun s d e) -> obeys U needs s l2 ->
  executing s' x /\ forall c j, not_begun s c j -> call_state s' c j <> Some JRunning /\ forall r, call_state s' c j <> Some (JEnded r).
Proof.
  intros s s' E Len N Ob. unfold s'. rewrite lrun_app. fold s. destruct (deadlock_from U needs l2 s x (lok_run U reg l1) E ltac:(lia)) as [A B].
  - intros c j H. destruct (N c j H) as (d & e & Nd & Un). exists d, e. split; [exact Nd|]. unfold unstarted. destruct Un; auto.
  - exact Ob.
  - split; [exact A|]. intros c j H. assert (Un : unstarted (call_state s c j)) by (unfold unstarted; destruct H; auto). specialize (B c j Un). unfold unstarted in B. split; [|intros r]; destruct B as [B|[B|B]]; congruence.
Qed.

(** ** A worker is left *)
Lemma waiters_step U needs o s w : lok s -> only_workers o -> waiters needs s w -> waiters needs (lrun_step U o s) w.
Proof.
  intros L O W c j H Nn. destruct (call_state s c j) as [x|] eqn:E.
  - apply W; [|exact Nn]. destruct (step_call U o s c j L) as [M|[(M & r & M1 & Eo)|[(M & M1)|[(M & M1 & _)|(M & M1)]]]]; rewrite E in *; try (rewrite M in H; tauto); try tauto; destruct H; congruence.
  - exfalso. assert (K : call_state (lrun_step U o s) c j = None).
    { destruct o as [tr|name sv|c0 o0|]; cbn in O; try contradiction.
      - destruct o0 as [| | | | | | | | |j0 r0| |]; try contradiction. destruct (nth_error (n_conns s) c0) as [k|] eqn:Ek; [|rewrite (conn_none U c0 _ s Ek); exact E].
        rewrite (conn_step U c0 (JobEnd j0 r0) s k Logic.I Ek). rewrite call_jst in *. cbn [n_conns]. destruct (Nat.eq_dec c0 c) as [<-|Nc]; [|rewrite nth_upd_other by exact Nc; exact E].
        rewrite (nth_upd_same _ _ _ _ Ek), jst_end. rewrite Ek in E. destruct (nth_error (jst k) j0) as [[]|] eqn:E0; try exact E. rewrite nth_upd_other; [exact E|]. intros ->. congruence.
      - destruct (step_queue U LTake s L) as [(new & Q1 & Q2 & Q3 & Q4)|(_ & _ & c1 & j1 & _ & _ & Q)]; [|exact (Q c j E)].
        destruct (step_call U LTake s c j L) as [M|[(M & _)|[(M & _)|[(M & _)|(_ & M)]]]]; try congruence.
        specialize (Q3 c j E M). exfalso. destruct (Nat.lt_ge_cases (workers s) MAX_WORKER) as [Wk|Wk].
        + destruct (n_queue s) as [|y q] eqn:Eq; [rewrite (take_empty U s Eq) in M; congruence|]. rewrite (take_queue U s y q L Wk Eq) in Q1.
          apply (f_equal (@List.length _)) in Q1. rewrite app_length in Q1. cbn in Q1. lia.
        + rewrite (take_full U s Wk) in M. congruence. }
    rewrite K in H. destruct H; discriminate.
Qed.
Lemma waiters_from U needs l : forall s w, lok s -> Forall only_workers l -> waiters needs s w -> waiters needs (lfrom U s l) w.
Proof.
  induction l as [|o l IH]; intros s w L F W; [exact W|]. inversion F; subst. change (lfrom U s (o :: l)) with (lfrom U (lrun_step U o s) l).
  apply IH; [apply lok_step; exact L|assumption|apply waiters_step; assumption].
Qed.

Lemma pigeon (a w : list (nat * nat)) : NoDup a -> List.length w < List.length a -> exists x, In x a /\ ~ In x w.
Proof.
  intros D Len. assert (Dec : forall x y : nat * nat, {x = y} + {x <> y}) by (decide equality; apply Nat.eq_dec).
  destruct (Exists_dec (fun x => ~ In x w) a) as [E|E].
  - intros x. destruct (in_dec Dec x w); [right|left]; tauto.
  - apply Exists_exists in E. exact E.
  - exfalso. assert (I : incl a w). { intros x Hx. destruct (in_dec Dec x w) as [H|H]; [exact H|]. exfalso. apply E, Exists_exists. eauto. }
    pose proof (NoDup_incl_length D I). lia.
Qed.

(** ending a running call *)
Lemma end_call U s c j r : lok s -> call_state s c j = Some JRunning -> let s' := lrun_step U (LConn c (JobEnd j r)) s in
  call_state s' c j = Some (JEnded r) /\ workers s' < workers s /\ n_queue s' = n_queue s /\ forall d e, (d, e) <> (c, j) -> call_state s' d e = call_state s d e.
Proof.
  intros L R s'. unfold s'. pose proof R as R'. rewrite call_jst in R'. destruct (nth_error (n_conns s) c) as [k|] eqn:E; [|discriminate]. destruct (end_step U s c j r k L E R') as (K1 & K2).
  split; [|split; [exact K1|split; [exact K2|]]]; rewrite (conn_step U c (JobEnd j r) s k Logic.I E).
  - rewrite call_jst. cbn [n_conns]. rewrite (nth_upd_same _ _ _ _ E), jst_end, R', (nth_upd_same _ _ _ _ R'). reflexivity.
  - intros d e Ne. rewrite !call_jst. cbn [n_conns]. destruct (Nat.eq_dec c d) as [<-|N]; [|rewrite nth_upd_other by exact N; reflexivity].
    rewrite (nth_upd_same _ _ _ _ E), E, jst_end, R'. apply nth_upd_other. congruence.
Qed.

Lemma make_room2 U needs w s : lok s -> waiters needs s w -> List.length w < 30 -> exists l, Forall only_workers l /\ obeys U needs s l /\
  let s' := lfrom U s l in workers s' < MAX_WORKER /\ n_queue s' = n_queue s /\ forall c j, call_state s c j = Some JQueued -> call_state s' c j = Some JQueued.
Proof.
  intros L W Len. destruct (Nat.lt_ge_cases (workers s) MAX_WORKER) as [Wk|Wk]; [exists []; split; [constructor|]; split; [exact Logic.I|]; cbv zeta; auto|].
  destruct (pigeon (all_running s) w (all_running_nodup s)) as ((c0, j0) & H & Hn); [rewrite all_running_length; unfold MAX_WORKER in Wk; lia|].
  apply all_running_in in H. assert (Nn : needs (c0, j0) = None) by (destruct (needs (c0, j0)) as [z|] eqn:En; [exfalso; apply Hn, W; [auto|congruence]|reflexivity]).
  exists [LConn c0 (JobEnd j0 (Ok PNone))]. split; [repeat constructor|]. split.
  - cbn [obeys]. split; [|exact Logic.I]. intros _ d e Nd. congruence.
  - cbv zeta. change (lfrom U s [LConn c0 (JobEnd j0 (Ok PNone))]) with (lrun_step U (LConn c0 (JobEnd j0 (Ok PNone))) s).
    destruct (end_call U s c0 j0 (Ok PNone) L H) as (_ & K1 & K2 & K3). split; [pose proof (lk_bound s L); unfold MAX_WORKER in *; lia|]. split; [exact K2|].
    intros c j Q. rewrite K3; [exact Q|]. intros X. injection X as -> ->. congruence.
Qed.

Lemma can_start2 U needs w q : forall s c j, lok s -> waiters needs s w -> List.length w < 30 -> n_queue s = q -> call_state s c j = Some JQueued ->
  exists l, Forall only_workers l /\ obeys U needs s l /\ call_state (lfrom U s l) c j = Some JRunning.
Proof.
  induction q as [|(c0, j0) q IH]; intros s c j L W Len Q H; [apply (lk_queued s L) in H; rewrite Q in H; destruct H|].
  destruct (make_room2 U needs w s L W Len) as (l & F & Ob & Wk & Q' & Keep). pose proof (Keep c j H) as H'. set (s1 := lfrom U s l) in *. assert (L1 : lok s1) by (apply lok_from; exact L). rewrite Q in Q'.
  assert (Next : call_state (lrun_step U LTake s1) c j = Some JRunning \/ call_state (lrun_step U LTake s1) c j = Some JQueued).
  { destruct (step_call U LTake s1 c j L1) as [M|[(M & r & M1 & _)|[(M & M1)|[(M & M1 & _)|(M & M1)]]]]; try congruence; [right; congruence| |left; exact M1].
    exfalso. revert M1. assert (X : call_state s1 c0 j0 <> None) by (apply (lk_exist s1 L1); rewrite Q'; left; reflexivity). rewrite call_jst in X. destruct (nth_error (n_conns s1) c0) as [k|] eqn:E; [|congruence].
    rewrite (take_step U s1 c0 j0 q k Wk Q' E). rewrite call_jst in M |- *. cbn [n_conns]. destruct (Nat.eq_dec c0 c) as [<-|N]; [|rewrite nth_upd_other by exact N; congruence].
    rewrite (nth_upd_same _ _ _ _ E), jst_run. rewrite E in M. destruct (nth_error (jst k) j0) as [[]|] eqn:E0; try congruence. destruct (Nat.eq_dec j0 j) as [<-|N]; [rewrite (nth_upd_same _ _ _ _ E0); discriminate|rewrite nth_upd_other by exact N; congruence]. }
  assert (W1 : waiters needs (lrun_step U LTake s1) w) by (apply waiters_step; [exact L1|exact Logic.I|apply waiters_from; assumption]).
  destruct Next as [Nx|Nx].
  - exists (l ++ [LTake]). split; [apply Forall_app; split; [exact F|repeat constructor]|]. split; [apply obeys_app; split; [exact Ob|cbn; auto]|]. rewrite lfrom_app. exact Nx.
  - destruct (IH (lrun_step U LTake s1) c j (lok_step U LTake s1 L1) W1 Len (take_queue U s1 (c0, j0) q L1 Wk Q') Nx) as (l2 & F2 & Ob2 & K). exists (l ++ LTake :: l2).
    split; [apply Forall_app; split; [exact F|constructor; [exact Logic.I|exact F2]]|]. split; [apply obeys_app; split; [exact Ob|cbn [obeys]; auto]|]. rewrite lfrom_app. exact K.
Qed.

(** a call that waits for nothing ends *)
Lemma leaf_ends U needs w s c j : lok s -> waiters needs s w -> List.length w < 30 -> call_state s c j = Some JQueued \/ call_state s c j = Some JRunning ->
  (forall d e, needs (c, j) = Some (d, e) -> exists x, call_state s d e = Some (JEnded x)) ->
  exists l r, Forall only_workers l /\ obeys U needs s l /\ call_state (lfrom U s l) c j = Some (JEnded r).
Proof.
  intros L W Len H Nd.
  assert (S1 : exists l, Forall only_workers l /\ obeys U needs s l /\ call_state (lfrom U s l) c j = Some JRunning).
  { destruct H as [H|H]; [exact (can_start2 U needs w _ s c j L W Len eq_refl H)|]. exists []. split; [constructor|]. split; [exact Logic.I|exact H]. }
  destruct S1 as (l & F & Ob & R). exists (l ++ [LConn c (JobEnd j (Ok PNone))]), (Ok PNone). split; [apply Forall_app; split; [exact F|repeat constructor]|].
  rewrite lfrom_app. split; [apply obeys_app; split; [exact Ob|]|].
  - cbn [obeys]. split; [|exact Logic.I]. intros _ d e Hn. destruct (Nd d e Hn) as (x & Hx). exists x. clear - L Hx. revert s L Hx. induction l as [|o l IH]; intros s L Hx; [exact Hx|].
    change (lfrom U s (o :: l)) with (lfrom U (lrun_step U o s) l). apply IH; [apply lok_step; exact L|].
    destruct (step_call U o s d e L) as [M|[(M & r & M1 & _)|[(M & M1)|[(M & M1 & _)|(M & M1)]]]]; congruence.
  - change (lfrom U (lfrom U s l) [LConn c (JobEnd j (Ok PNone))]) with (lrun_step U (LConn c (JobEnd j (Ok PNone))) (lfrom U s l)).
    exact (proj1 (end_call U _ c j (Ok PNone) (lok_from U l s L) R)).
Qed.

(** only workers: a call that waits or runs goes on to wait, run or end *)
Lemma workers_keep U l : forall s c j, lok s -> Forall only_workers l -> call_state s c j = Some JQueued \/ call_state s c j = Some JRunning ->
  call_state (lfrom U s l) c j = Some JQueued \/ call_state (lfrom U s l) c j = Some JRunning \/ exists r, call_state (lfrom U s l) c j = Some (JEnded r).
Proof.
  induction l as [|o l IH]; intros s c j L F H; [tauto|]. inversion F as [|? ? F1 F2]; subst. change (lfrom U s (o :: l)) with (lfrom U (lrun_step U o s) l).
  assert (K : call_state (lrun_step U o s) c j = Some JQueued \/ call_state (lrun_step U o s) c j = Some JRunning \/ exists r, call_state (lrun_step U o s) c j = Some (JEnded r)).
  { destruct (step_call U o s c j L) as [M|[(M & r & M1 & _)|[(M & M1)|[(M & M1 & _)|(M & M1)]]]]; [rewrite M; tauto|eauto| |auto|destruct H; congruence].
    exfalso. destruct o as [tr|name sv|c0 o0|]; cbn in F1; try contradiction.
    - destruct o0 as [| | | | | | | | |j0 r0| |]; try contradiction. destruct (nth_error (n_conns s) c0) as [k|] eqn:Ek; [|rewrite (conn_none U c0 _ s Ek) in M1; congruence].
      rewrite (conn_step U c0 (JobEnd j0 r0) s k Logic.I Ek) in M1. rewrite call_jst in *. cbn [n_conns] in M1. destruct (Nat.eq_dec c0 c) as [<-|Nc]; [|rewrite nth_upd_other in M1 by exact Nc; congruence].
      rewrite (nth_upd_same _ _ _ _ Ek), jst_end in M1. rewrite Ek in M. destruct (nth_error (jst k) j0) as [[]|] eqn:E0; try congruence. destruct (Nat.eq_dec j0 j) as [<-|Nj]; [congruence|rewrite nth_upd_other in M1 by exact Nj; congruence].
    - destruct (Nat.lt_ge_cases (workers s) MAX_WORKER) as [Wk|Wk]; [|rewrite (take_full U s Wk) in M1; congruence]. destruct (n_queue s) as [|(c0, j0) q] eqn:Q; [rewrite (take_empty U s Q) in M1; congruence|].
      assert (X : call_state s c0 j0 <> None) by (apply (lk_exist s L); rewrite Q; left; reflexivity). rewrite call_jst in X. destruct (nth_error (n_conns s) c0) as [k|] eqn:E; [|congruence].
      rewrite (take_step U s c0 j0 q k Wk Q E) in M1. rewrite call_jst in M, M1. cbn [n_conns] in M1. destruct (Nat.eq_dec c0 c) as [<-|N]; [|rewrite nth_upd_other in M1 by exact N; congruence].
      rewrite (nth_upd_same _ _ _ _ E), jst_run in M1. rewrite E in M. destruct (nth_error (jst k) j0) as [[]|] eqn:E0; try congruence. destruct (Nat.eq_dec j0 j) as [<-|N]; [rewrite (nth_upd_same _ _ _ _ E0) in M1; discriminate|rewrite nth_upd_other in M1 by exact N; congruence]. }
  destruct K as [K|[K|(r & K)]]; [apply IH; auto; apply lok_step; exact L|apply IH; auto; apply lok_step; exact L|].
  right. right. exists r. assert (L' : lok (lrun_step U o s)) by (apply lok_step; exact L). revert L' K. generalize (lrun_step U o s). clear. induction l as [|o l IH]; intros s L K; [exact K|].
  change (lfrom U s (o :: l)) with (lfrom U (lrun_step U o s) l). apply IH; [apply lok_step; exact L|]. destruct (step_call U o s c j L) as [M|[(M & r' & M1 & _)|[(M & M1)|[(M & M1 & _)|(M & M1)]]]]; congruence.
Qed.

Lemma nested_ends U reg l needs w c j : let s := lrun U reg l in waiters needs s w -> List.length w < 30 ->
  call_state s c j = Some JQueued \/ call_state s c j = Some JRunning ->
  (forall d e, needs (c, j) = Some (d, e) -> needs (d, e) = None /\ call_state s d e <> None /\ call_state s d e <> Some JCancelled) ->
  exists l2 r, Forall only_workers l2 /\ obeys U needs s l2 /\ call_state (lrun U reg (l ++ l2)) c j = Some (JEnded r).
Proof.
  intros s W Len H Nd. assert (L : lok s) by apply lok_run.
  assert (G : exists l2 r, Forall only_workers l2 /\ obeys U needs s l2 /\ call_state (lfrom U s l2) c j = Some (JEnded r)).
  { destruct (needs (c, j)) as [(d, e)|] eqn:En; [|apply (leaf_ends U needs w s c j L W Len H); intros; congruence].
    destruct (Nd d e eq_refl) as (N1 & N2 & N3).
    assert (First : exists l1 x, Forall only_workers l1 /\ obeys U needs s l1 /\ call_state (lfrom U s l1) d e = Some (JEnded x)).
    { destruct (call_state s d e) as [[| |x|]|] eqn:Ed; try congruence.
      - apply (leaf_ends U needs w s d e L W Len (or_introl Ed)). intros; congruence.
      - apply (leaf_ends U needs w s d e L W Len (or_intror Ed)). intros; congruence.
      - exists [], x. split; [constructor|]. split; [exact Logic.I|exact Ed]. }
    destruct First as (l1 & x & F1 & Ob1 & E1). pose proof (lok_from U l1 s L) as L1.
    destruct (workers_keep U l1 s c j L F1 H) as [K|[K|(r & K)]]; [| |exists l1, r; auto].
    - destruct (leaf_ends U needs w (lfrom U s l1) c j L1 (waiters_from U needs l1 s w L F1 W) Len (or_introl K)) as (l2 & r & F2 & Ob2 & E2).
      + intros d' e' Hn. assert (d' = d /\ e' = e) as [-> ->] by (split; congruence). eauto.
      + exists (l1 ++ l2), r. split; [apply Forall_app; auto|]. split; [apply obeys_app; auto|]. rewrite lfrom_app. exact E2.
    - destruct (leaf_ends U needs w (lfrom U s l1) c j L1 (waiters_from U needs l1 s w L F1 W) Len (or_intror K)) as (l2 & r & F2 & Ob2 & E2).
      + intros d' e' Hn. assert (d' = d /\ e' = e) as [-> ->] by (split; congruence). eauto.
      + exists (l1 ++ l2), r. split; [apply Forall_app; auto|]. split; [apply obeys_app; auto|]. rewrite lfrom_app. exact E2. }
  destruct G as (l2 & r & F & Ob & E). exists l2, r. rewrite lrun_app. auto.
Qed.

Lemma calls_bound s c n : option_map (fun k => List.length (v_jobs k)) (nth_error (n_conns s) c) = Some n -> forall j, call_state s c j <> None -> j < n.
Proof.
  intros E j H. unfold call_state in H. destruct (nth_error (n_conns s) c) as [k|]; [|discriminate]. cbn in E. injection E as <-.
  apply nth_error_Some. intros X. rewrite X in H. apply H. reflexivity.
Qed.

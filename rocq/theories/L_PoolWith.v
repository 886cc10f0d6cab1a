(** Lemmas behind C140. *)
From Coq Require Import ZifyBool Sorting.Permutation.
From Verif Require Import PyBase L_PyBase PyDict L_PyDict M_Lru L_Lru M_ConnPool S_Pool L_ConnPool L_ConnPool2 M_PoolManager L_PoolManager M_PoolWith S_PoolWith.

(** ** Programs that leave closing pools to the manager *)
Lemma plain_run {K} {E : EqDec K} mp cfg mk : forall (l : list (stm K)) w, Forall hands_off l -> exists ops, Forall ordinary ops /\ fst (run_stms mp cfg mk l w) = fold_left (mstep mp cfg mk) ops w.
Proof.
  induction l as [|s l IH]; intros w F; [exists []; split; [constructor|reflexivity]|]. inversion F as [|x y O F' Ex]; subst. cbn [run_stms]. destruct s as [o|e|k body]; [|exists []; split; [constructor|reflexivity]|destruct O].
  assert (Oo : ordinary o) by (destruct o; cbn in *; auto). cbn [run_stm]. unfold op_do at 1. destruct (match o with MLookup _ => _ | _ => _ end) as [u|e].
  - destruct (IH (mstep mp cfg mk w o) F') as (ops & Fo & Eo). exists (o :: ops). split; [constructor; assumption|exact Eo].
  - exists [o]. split; [constructor; [exact Oo|constructor]|reflexivity].
Qed.
Lemma manager_exit (K : Type) (E : EqDec K) mp cfg mk (pre : list (mop K)) (l : list (stm K)) : Forall ordinary pre -> Forall hands_off l -> let w := mrun mp cfg mk pre in let '(w1, r) := with_manager (run_stms mp cfg mk l) w in
  r = snd (run_stms mp cfg mk l w) /\ w_lru w1 = [] /\ forall i, made w1 i -> is_closed w1 i.
Proof.
  intros Fp F w. unfold with_manager. destruct (plain_run mp cfg mk l w F) as (ops & Fo & Eo). destruct (run_stms mp cfg mk l w) as (w1, r). cbn [fst snd] in *.
  assert (Ew : w1 = mrun mp cfg mk (pre ++ ops)) by (rewrite mrun_app; exact Eo). assert (Fa : Forall ordinary (pre ++ ops)) by (apply Forall_app; split; assumption).
  destruct (run_good mp cfg mk (pre ++ ops) w_init Fa (init_good _)) as (G & _). fold (mrun mp cfg mk (pre ++ ops)) in G. rewrite <- Ew in G.
  destruct (manager_clear w1) as (w2, c) eqn:Ec. destruct (clear_good _ _ _ _ G Ec) as (_ & -> & _). split; [reflexivity|].
  pose proof (manager_clear_all K E mp cfg mk (pre ++ ops) Fa) as C. rewrite mrun_app, <- Ew in C. cbn [fold_left mstep] in C. rewrite Ec in C. cbn [fst] in C. destruct C as (C1 & C2). split; [exact C1|].
  intros i Hi. unfold made in Hi. apply nth_error_Some in Hi. destruct (nth_error (w_pools w2) i) as [p|] eqn:Ep; [|congruence]. exists p. split; [exact Ep|exact (C2 i p Ep)].
Qed.

(** ** Closed pools stay closed, and stay where they are *)
Lemma closed_use {K} (w : world K) i j g : (forall p, p_free (g p) = None <-> p_free p = None) \/ (forall p, p_free (g p) = None) -> is_closed w i -> is_closed (use_pool w j g) i.
Proof.
  intros Hg (p & Hp & Hn). unfold is_closed. rewrite use_nth. destruct (Nat.eq_dec i j) as [->|N]; [|eauto]. rewrite Hp. cbn. exists (g p). split; [reflexivity|]. destruct Hg as [Hg|Hg]; [apply Hg; exact Hn|apply Hg].
Qed.
Lemma closed_close {K} (w : world K) j i : is_closed w i -> is_closed (fst (close_pool w j)) i.
Proof.
  intros (p & Hp & Hn). unfold close_pool. destruct (nth_error (w_pools w) j) as [pj|] eqn:Ej; [|exists p; auto]. destruct (pool_close pj) as (p', r) eqn:Ec. cbn [fst]. unfold is_closed. cbn [w_pools]. destruct (Nat.eq_dec i j) as [->|N].
  - exists p'. rewrite nth_set_same by (apply nth_error_Some; congruence). split; [reflexivity|]. exact (proj1 (close_open _ _ _ Ec)).
  - exists p. rewrite nth_set_other by congruence. auto.
Qed.
Lemma closed_closes {K} l : forall (w : world K) i, is_closed w i -> is_closed (fst (close_pools w l)) i.
Proof.
  induction l as [|j l IH]; intros w i H; [exact H|]. cbn [close_pools]. pose proof (closed_close w j i H) as C. destruct (close_pool w j) as (w1, [u|e]); [exact (IH w1 i C)|exact C].
Qed.
Lemma closed_ext {K} (w v : world K) i x : w_pools v = w_pools w ++ x -> is_closed w i -> is_closed v i.
Proof. intros Ev (p & Hp & Hn). exists p. split; [|exact Hn]. rewrite Ev, nth_error_app1; [exact Hp|]. apply nth_error_Some. congruence. Qed.
Lemma closed_step {K} {E : EqDec K} mp cfg mk (w : world K) o i : is_closed w i -> is_closed (mstep mp cfg mk w o) i.
Proof.
  intros H. destruct o as [k| |j dr|j c|j]; cbn [mstep].
  - unfold lookup. destruct (lru_get (w_lru w) k) as (c, [j|e]); [cbn [fst]; destruct H as (p & Hp); exists p; exact Hp|]. destruct (build cfg (mk (length (w_pools w)))) as [p|e'|]; try exact H. destruct (lru_set mp c k (length (w_pools w))) as (c', d).
    match goal with |- context [close_pools ?v d] => pose proof (closed_closes d v i (closed_ext w v i [p] eq_refl H)) as C; destruct (close_pools v d) as (w1, [u|e1]); exact C end.
  - unfold manager_clear, lru_clear. apply closed_closes. destruct H as (p & Hp). exists p. exact Hp.
  - apply closed_use; [left; intros p; apply get_open|exact H].
  - apply closed_use; [left; intros p; apply put_open|exact H].
  - apply closed_use; [right; intros p; destruct (pool_close p) as (p', r) eqn:Ec; exact (proj1 (close_open _ _ _ Ec))|exact H].
Qed.
Lemma closed_run {K} {E : EqDec K} mp cfg mk : forall ops (w : world K) i, is_closed w i -> is_closed (fold_left (mstep mp cfg mk) ops w) i.
Proof. induction ops as [|o ops IH]; intros w i H; [exact H|]. cbn. apply IH, closed_step, H. Qed.
Lemma lookup_has {K} {E : EqDec K} mp cfg mk (w : world K) k i : dget k (w_lru w) = Some i -> snd (lookup mp cfg mk w k) = Ok i /\ w_pools (fst (lookup mp cfg mk w k)) = w_pools w.
Proof. intros D. unfold lookup, lru_get. rewrite D. split; reflexivity. Qed.
Lemma given_out_closed (K : Type) (E : EqDec K) mp cfg mk (w : world K) k i ops dr : is_closed w i -> let w1 := fold_left (mstep mp cfg mk) ops w in dget k (w_lru w1) = Some i ->
  snd (lookup mp cfg mk w1 k) = Ok i /\ snd (op_do mp cfg mk (MGet i dr) (fst (lookup mp cfg mk w1 k))) = Raise ClosedPoolError.
Proof.
  intros H w1 D. destruct (lookup_has mp cfg mk w1 k i D) as (L1 & L2). split; [exact L1|]. destruct (closed_run mp cfg mk ops w i H) as (p & Hp & Hn). fold w1 in Hp. unfold op_do. cbn [snd]. rewrite L2, Hp. unfold get_conn. now rewrite Hn.
Qed.

(** ** with pool *)
Lemma pool_exit (K : Type) (E : EqDec K) mp cfg mk i (body : world K -> world K * res unit) w w1 r : body w = (w1, r) -> made w1 i ->
  is_closed (fst (with_pool mp cfg mk i body w)) i /\ (is_open w1 i -> snd (with_pool mp cfg mk i body w) = r) /\ (is_closed w1 i -> snd (with_pool mp cfg mk i body w) = Raise AttributeError).
Proof.
  intros B M. apply nth_error_Some in M. unfold with_pool. rewrite B. unfold op_do. destruct (nth_error (w_pools w1) i) as [p|] eqn:Ep; [|congruence]. cbn [fst snd]. split; [|split].
  - unfold is_closed. cbn [mstep]. rewrite use_nth. destruct (Nat.eq_dec i i) as [_|N]; [|congruence]. rewrite Ep. cbn. eexists. split; [reflexivity|]. destruct (pool_close p) as (p', c) eqn:Ec. exact (proj1 (close_open _ _ _ Ec)).
  - intros (p' & Hp & Hn). assert (p' = p) by congruence. subst p'. unfold pool_close. destruct (p_free p); [reflexivity|congruence].
  - intros (p' & Hp & Hn). assert (p' = p) by congruence. subst p'. unfold pool_close. now rewrite Hn.
Qed.

(** ** Leaving the manager when a pool it has is closed already *)
Lemma closes_stop {K} : forall pre (w : world K) i post, is_closed w i -> exists m, close_pools w (pre ++ i :: post) = (m, Raise AttributeError).
Proof.
  induction pre as [|j pre IH]; intros w i post H; cbn [app close_pools].
  - destruct H as (p & Hp & Hn). unfold close_pool. rewrite Hp. unfold pool_close. rewrite Hn. eauto.
  - pose proof (closed_close w j i H) as C. destruct (close_pool w j) as (w1, [u|e]) eqn:Ej; [apply IH; exact C|]. exists w1. f_equal. f_equal. unfold close_pool in Ej. destruct (nth_error (w_pools w) j) as [p|]; [|congruence]. unfold pool_close in Ej. destruct (p_free p); congruence.
Qed.
Lemma closes_untouched {K} : forall l (w : world K) j, ~ In j l -> nth_error (w_pools (fst (close_pools w l))) j = nth_error (w_pools w) j.
Proof.
  induction l as [|i l IH]; intros w j N; [reflexivity|]. cbn [close_pools]. assert (C : nth_error (w_pools (fst (close_pool w i))) j = nth_error (w_pools w) j).
  { unfold close_pool. destruct (nth_error (w_pools w) i) as [p|]; [|reflexivity]. destruct (pool_close p) as (p', r). cbn. apply nth_set_other. intros ->. apply N. left. reflexivity. }
  destruct (close_pool w i) as (w1, [u|e]); cbn [fst] in *; [|exact C]. rewrite IH; [exact C|]. intros H. apply N. right. exact H.
Qed.
Lemma closes_prefix {K} : forall pre (w : world K) i post, is_closed w i -> close_pools w (pre ++ i :: post) = close_pools w (pre ++ [i]).
Proof.
  induction pre as [|j pre IH]; intros w i post H; cbn [app close_pools].
  - destruct H as (p & Hp & Hn). unfold close_pool. rewrite Hp. unfold pool_close. rewrite Hn. reflexivity.
  - pose proof (closed_close w j i H) as C. destruct (close_pool w j) as (w1, [u|e]); [apply IH; exact C|reflexivity].
Qed.
Lemma exit_raises (K : Type) (body : world K -> world K * res unit) w w1 r i : body w = (w1, r) -> In i (vals (w_lru w1)) -> is_closed w1 i ->
  snd (with_manager body w) = Raise AttributeError /\ w_lru (fst (with_manager body w)) = [] /\
  forall pre post j, vals (w_lru w1) = pre ++ i :: post -> In j post -> ~ In j pre -> j <> i -> is_open w1 j -> is_open (fst (with_manager body w)) j.
Proof.
  intros B Hi Hc. unfold with_manager. rewrite B. unfold manager_clear, lru_clear. set (w2 := {| w_lru := []; w_pools := w_pools w1; w_closes := w_closes w1; w_puts := w_puts w1 |}). assert (Hc2 : is_closed w2 i) by exact Hc.
  destruct (in_split _ _ Hi) as (pre & post & Es). rewrite Es. destruct (closes_stop pre w2 i post Hc2) as (m & Em). rewrite Em. cbn [fst snd]. split; [reflexivity|].
  assert (Lr : forall l (w : world K), w_lru (fst (close_pools w l)) = w_lru w).
  { induction l as [|j l IH]; intros v; [reflexivity|]. cbn [close_pools]. unfold close_pool. destruct (nth_error (w_pools v) j) as [p|]; [|reflexivity]. destruct (pool_close p) as (p', [u|e]); [rewrite IH; reflexivity|reflexivity]. }
  split; [specialize (Lr (pre ++ i :: post) w2); rewrite Em in Lr; exact Lr|]. intros pre' post' j Es' Hj Npre Nij (p & Hp & Hn). exists p. split; [|exact Hn].
  assert (Eq : pre ++ i :: post = pre' ++ i :: post') by congruence. rewrite Eq, (closes_prefix pre' w2 i post' Hc2) in Em. assert (Hm : nth_error (w_pools m) j = nth_error (w_pools w2) j); [|rewrite Hm; exact Hp].
  replace m with (fst (close_pools w2 (pre' ++ [i]))) by (rewrite Em; reflexivity). apply closes_untouched. intros H. apply in_app_or in H as [H|[H|[]]]; [exact (Npre H)|congruence].
Qed.

(** ** What becomes of the connections *)
Lemma close_idle p q c : p_free p = Some q -> In c q -> In c (p_closed (fst (pool_close p))).
Proof. intros F H. unfold pool_close. rewrite F. cbn. apply in_or_app. right. exact H. Qed.
Lemma close_pool_at {K} (w : world K) j i p : nth_error (w_pools w) i = Some p -> nth_error (w_pools (fst (close_pool w j))) i = Some p \/ nth_error (w_pools (fst (close_pool w j))) i = Some (fst (pool_close p)).
Proof.
  intros E. unfold close_pool. destruct (nth_error (w_pools w) j) as [pj|] eqn:Ej; [|left; exact E]. destruct (pool_close pj) as (p', r) eqn:Ec. cbn. destruct (Nat.eq_dec i j) as [->|N].
  - right. rewrite nth_set_same by (apply nth_error_Some; congruence). assert (pj = p) by congruence. subst pj. now rewrite Ec.
  - left. rewrite nth_set_other by congruence. exact E.
Qed.
Lemma close_twice p : fst (pool_close (fst (pool_close p))) = fst (pool_close p).
Proof. unfold pool_close at 2 3. destruct (p_free p) eqn:F; unfold pool_close; cbn; [reflexivity|now rewrite F]. Qed.
Lemma close_pools_at {K} l : forall (w : world K) i p, nth_error (w_pools w) i = Some p -> nth_error (w_pools (fst (close_pools w l))) i = Some p \/ nth_error (w_pools (fst (close_pools w l))) i = Some (fst (pool_close p)).
Proof.
  induction l as [|j l IH]; intros w i p E; [left; exact E|]. cbn [close_pools]. pose proof (close_pool_at w j i p E) as C. destruct (close_pool w j) as (w1, [u|e]); cbn [fst] in *; [|exact C].
  destruct C as [C|C]; destruct (IH w1 i _ C) as [D|D]; auto. right. rewrite D. f_equal. apply close_twice.
Qed.
Lemma manager_exit_idle (K : Type) (E : EqDec K) mp cfg mk (pre : list (mop K)) (l : list (stm K)) i c : Forall ordinary pre -> Forall hands_off l -> let w := mrun mp cfg mk pre in
  idle (fst (run_stms mp cfg mk l w)) i c -> has_closed (fst (with_manager (run_stms mp cfg mk l) w)) i c.
Proof.
  intros Fp F w (p & q & Ep & Fq & Hc). pose proof (manager_exit K E mp cfg mk pre l Fp F) as X. cbv zeta in X. fold w in X. unfold with_manager in *. destruct (run_stms mp cfg mk l w) as (w1, r). cbn [fst] in Ep. unfold manager_clear, lru_clear in *.
  set (w2 := {| w_lru := []; w_pools := w_pools w1; w_closes := w_closes w1; w_puts := w_puts w1 |}) in *. pose proof (close_pools_at (vals (w_lru w1)) w2 i p Ep) as C. destruct (close_pools w2 (vals (w_lru w1))) as (w3, c3). cbn [fst] in *. destruct X as (_ & _ & X).
  destruct C as [C|C]; [|exists (fst (pool_close p)); split; [exact C|exact (close_idle p q c Fq Hc)]]. destruct (X i) as (p' & Ep' & Fn); [apply nth_error_Some; congruence|]. congruence.
Qed.
Lemma pool_exit_idle (K : Type) (E : EqDec K) mp cfg mk i (body : world K -> world K * res unit) w c : idle (fst (body w)) i c -> has_closed (fst (with_pool mp cfg mk i body w)) i c.
Proof.
  intros (p & q & Ep & Fq & Hc). unfold with_pool. destruct (body w) as (w1, r). cbn [fst] in Ep. unfold op_do. cbn [fst mstep]. unfold has_closed. rewrite use_nth. destruct (Nat.eq_dec i i) as [_|N]; [|congruence]. rewrite Ep. cbn. eexists. split; [reflexivity|exact (close_idle p q c Fq Hc)].
Qed.
Lemma given_back_closed (K : Type) (E : EqDec K) mp cfg mk (w : world K) i c ops : is_closed w i -> has_closed (mstep mp cfg mk (fold_left (mstep mp cfg mk) ops w) (MPut i c)) i c.
Proof.
  intros H. destruct (closed_run mp cfg mk ops w i H) as (p & Ep & Fn). cbn [mstep]. unfold has_closed. rewrite use_nth. destruct (Nat.eq_dec i i) as [_|N]; [|congruence]. rewrite Ep. cbn. eexists. split; [reflexivity|]. unfold put_conn. rewrite Fn. unfold close_conn. cbn. apply in_or_app. right. left. reflexivity.
Qed.
(** the with statement of a program is [with_pool] of the pool looked up *)
Lemma stm_with {K} {E : EqDec K} mp cfg mk (k : K) body w : run_stm mp cfg mk (SWith k body) w = match lookup mp cfg mk w k with (w1, Raise e) => (w1, Raise e) | (w1, Ok i) => with_pool mp cfg mk i (run_stms mp cfg mk body) w1 end.
Proof.
  cbn [run_stm]. destruct (lookup mp cfg mk w k) as [w1 [i|e]]; [|reflexivity]. unfold with_pool.
  match goal with |- (let '(_, _) := ?a in _) = (let '(_, _) := ?b in _) => assert (Q : a = b) end.
  { clear. revert w1. induction body as [|x r IH]; intros w1; cbn [run_stms]; [reflexivity|]. destruct (run_stm mp cfg mk x w1) as [w2 [[]|e]]; [apply IH|reflexivity]. }
  rewrite Q. reflexivity.
Qed.
Lemma with_statement (K : Type) (E : EqDec K) mp cfg mk (k : K) body w i : snd (lookup mp cfg mk w k) = Ok i ->
  let w1 := fst (run_stms mp cfg mk body (fst (lookup mp cfg mk w k))) in let r := snd (run_stms mp cfg mk body (fst (lookup mp cfg mk w k))) in made w1 i ->
  is_closed (fst (run_stm mp cfg mk (SWith k body) w)) i /\ (is_open w1 i -> snd (run_stm mp cfg mk (SWith k body) w) = r) /\
  (forall j, j <> i -> nth_error (w_pools (fst (run_stm mp cfg mk (SWith k body) w))) j = nth_error (w_pools w1) j).
Proof.
  cbv zeta. intros L M. rewrite stm_with. destruct (lookup mp cfg mk w k) as [w0 r0]. cbn [fst snd] in *. subst r0. destruct (run_stms mp cfg mk body w0) as [w1 r] eqn:B. cbn [fst snd] in *.
  destruct (pool_exit K E mp cfg mk i (run_stms mp cfg mk body) w0 w1 r B M) as (P1 & P2 & _). split; [exact P1|]. split; [exact P2|]. intros j N. unfold with_pool. rewrite B. cbn [op_do fst snd mstep]. rewrite use_nth. destruct (Nat.eq_dec j i) as [Q|_]; [contradiction|]. reflexivity.
Qed.
(** ** A lookup that evicts a pool closed already *)
Lemma evicts_closed (K : Type) (E : EqDec K) mp cfg mk (w : world K) k k0 i rest p : dget k (w_lru w) = None -> w_lru w = (k0, i) :: rest -> len (w_lru w) = mp -> is_closed w i -> build cfg (mk (List.length (w_pools w))) = Built p ->
  let w1 := fst (lookup mp cfg mk w k) in snd (lookup mp cfg mk w k) = Raise AttributeError /\ snd (lookup mp cfg mk w1 k) = Ok (List.length (w_pools w)).
Proof.
  intros D R L (q & Q & F) B. cbv zeta.
  assert (X : lookup mp cfg mk w k = ({| w_lru := rest ++ [(k, List.length (w_pools w))]; w_pools := set_pool i q (w_pools w ++ [p]); w_closes := w_closes w ++ [i]; w_puts := w_puts w |}, Raise AttributeError)).
  { unfold lookup, lru_get. rewrite D, B. unfold lru_set. rewrite D. rewrite dset_fresh by (apply dget_None; exact D).
    assert (T : mp <? len (w_lru w ++ [(k, List.length (w_pools w))]) = true) by (apply Z.ltb_lt; unfold len in *; rewrite app_length; cbn; lia). rewrite T, R. cbn [app close_pools]. unfold close_pool. cbn [w_pools].
    assert (Hq : nth_error (w_pools w ++ [p]) i = Some q) by (rewrite nth_error_app1; [exact Q|apply nth_error_Some; congruence]). rewrite Hq. unfold pool_close. rewrite F. reflexivity. }
  rewrite X. cbn [fst snd]. split; [reflexivity|]. unfold lookup, lru_get. cbn [w_lru].
  assert (Dr : dget k (rest ++ [(k, List.length (w_pools w))]) = Some (List.length (w_pools w))).
  { rewrite R in D. cbn in D. destruct (eq_dec k k0); [discriminate D|]. clear - D. induction rest as [|(a, b) r IH]; cbn in *; [destruct (eq_dec k k); [reflexivity|congruence]|]. destruct (eq_dec k a); [discriminate D|]. apply IH, D. }
  rewrite Dr. reflexivity.
Qed.

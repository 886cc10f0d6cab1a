(** Lemmas for C109: a constructor that blocks inside the manager. *)
From Verif Require Import PyBase L_PyBase PyDict L_PyDict M_Lru L_Lru M_LruThreads S_LruThreads L_LruThreads L_LruThreads2 L_LruThreads3.
From Verif Require Import M_ConnPool M_PoolThreads L_PoolThreads M_MgrThreads S_MgrThreads L_MgrThreads L_MgrThreads2.
From Verif Require L_ConnPool.

(** ** when the constructor blocks *)
Lemma full_spec cfg q : q_full cfg q = true -> 0 < max_free cfg <= len q.
Proof. unfold q_full. intros E. apply andb_true_iff in E as (A & B). lia. Qed.
Lemma fill_blocks cfg mk n : forall p q, p_free p = Some q -> fill cfg mk n p = Blocks -> 0 < max_free cfg < len q + Z.of_nat n.
Proof.
  induction n as [|n IH]; intros p q Ep E; cbn [fill] in E; [discriminate|]. destruct (new_conn cfg mk p) as [p1 [c|e]] eqn:En; [|discriminate].
  assert (E1 : p_free p1 = Some q).
  { unfold new_conn in En. destruct (max_connections cfg <=? p_num p); [discriminate|]. destruct (mk (p_attempts p)); [|discriminate]. injection En as <- _. exact Ep. }
  rewrite E1 in E. destruct (q_full cfg q) eqn:F.
  - apply full_spec in F. lia.
  - apply (IH _ (c :: q)) in E; [|reflexivity]. unfold len in *. cbn [length] in E. lia.
Qed.
Lemma build_blocks cfg mk : build cfg mk = Blocks -> 0 < max_free cfg < Z.of_nat (initial cfg).
Proof. intros E. apply (fill_blocks cfg mk _ _ []) in E; [|reflexivity]. unfold len in E. cbn in E. lia. Qed.
Lemma fits_no_block cfg mk : max_free cfg <= 0 \/ Z.of_nat (initial cfg) <= max_free cfg -> build cfg mk <> Blocks.
Proof. intros F E. apply build_blocks in E. lia. Qed.

(** ** and then *)
Lemma new_owner {K} `{EqDec K} m mk bad (l : list (tevent K)) j o f : mgr_only l -> nth_error (t_calls (trun m mk bad l)) j = Some (o, New f) -> exists d, t_lock (trun m mk bad l) = Some (j, d).
Proof.
  intros M C. pose proof (trun_inv m mk bad l (mgr_only_simple l M)) as T. destruct (ti_call _ _ _ _ T j o _ C) as [(_ & P & _)|(pre & rest & c0 & n0 & c1 & n1 & ds & r & ds2 & _ & _ & _ & _ & [(d & L & _)|(_ & P & _)])].
  - exfalso. pose proof (simple_starts m (mk j) o (ti_simple _ _ _ _ T j o _ C)) as B. rewrite <- P in B. exact B.
  - eauto.
  - exfalso. exact P.
Qed.
Lemma lock_kept {K} `{EqDec K} bad (s : tstate K) j d a o p : binv s -> t_lock s = Some (j, d) -> nth_error (t_calls s) a = Some (o, p) -> a <> j -> t_lock (tinstr bad s a p) = Some (j, d).
Proof.
  intros B L C N. pose proof (bi_call _ B a o p C) as X. unfold held_by in X. rewrite L in X. replace (Nat.eqb a j) with false in X by (symmetry; apply Nat.eqb_neq; exact N).
  destruct p; cbn in *; try exact L; try contradiction.
  - rewrite L. replace (Nat.eqb a j) with false by (symmetry; apply Nat.eqb_neq; exact N). exact L.
  - destruct (t_c s) as [|[k v] c]; exact L.
Qed.

(** call j has the lock for ever; the calls from number N on have not got it *)
Definition hung {K} (j d N : nat) o f (s : gs K) : Prop :=
  nth_error (t_calls (g_m s)) j = Some (o, New f) /\ t_lock (g_m s) = Some (j, d) /\ (N <= length (t_calls (g_m s)))%nat /\ (j < N)%nat /\
  forall a o' p, (N <= a)%nat -> nth_error (t_calls (g_m s)) a = Some (o', p) -> exists q, p = Acq q.
Lemma hung_tinstr {K} `{EqDec K} bad j d N o f (s : gs K) a o' p s' : binv (g_m s) -> hung j d N o f s -> nth_error (t_calls (g_m s)) a = Some (o', p) -> a <> j ->
  g_m s' = tinstr bad (g_m s) a p -> hung j d N o f s'.
Proof.
  intros B (H1 & H2 & H3 & H4 & H5) C Na E. unfold hung. rewrite E. split; [rewrite tinstr_other by auto; exact H1|]. split; [eapply lock_kept; eassumption|]. split; [rewrite tinstr_length; exact H3|]. split; [exact H4|].
  intros x o2 q L Cx. destruct (Nat.eq_dec x a) as [-> |Nx]; [|rewrite tinstr_other in Cx by auto; exact (H5 x o2 q L Cx)].
  destruct (H5 a o' p L C) as (r & ->). cbn in Cx. rewrite H2 in Cx. replace (Nat.eqb a j) with false in Cx by (symmetry; apply Nat.eqb_neq; exact Na). rewrite C in Cx. injection Cx as <- <-. eauto.
Qed.
Lemma hung_step {K} `{EqDec K} m cfg n mks j d N o f (x : gstep K) s : ginv m cfg n mks s -> build cfg (mks j) = Blocks -> hung j d N o f s -> hung j d N o f (g_step m cfg n mks x s).
Proof.
  intros G Bl Hu. assert (B : binv (g_m s)) by (destruct (gv_run _ _ _ _ _ G) as (bad & l & _ & ->); apply binv_run).
  destruct x as [i o'|a b|v o']; cbn [g_step].
  - destruct (Nat.ltb i n && free i s); [|exact Hu]. destruct Hu as (H1 & H2 & H3 & H4 & H5). unfold hung. cbn. split; [rewrite nth_error_app1 by (eapply nth_lt; exact H1); exact H1|]. split; [exact H2|]. split; [rewrite app_length; lia|]. split; [exact H4|].
    intros y o2 q L Cy. destruct (Nat.lt_ge_cases y (length (t_calls (g_m s)))) as [Ly|Ly]; [rewrite nth_error_app1 in Cy by exact Ly; exact (H5 y o2 q L Cy)|]. rewrite nth_error_app2 in Cy by exact Ly.
    destruct (y - length (t_calls (g_m s)))%nat as [|z]; cbn in Cy; [|destruct z; discriminate]. injection Cy as <- <-. destruct o'; cbn; unfold clear; eauto.
  - destruct (nth_error (t_calls (g_m s)) a) as [[o' p]|] eqn:C; [|exact Hu]. destruct (nth_error (g_who s) a) as [i|]; [|exact Hu]. destruct (Nat.eq_dec a j) as [-> |Na].
    + destruct Hu as (H1 & Hu). rewrite H1 in C. injection C as <- <-. cbn [g_instr]. rewrite Bl. exact (conj H1 Hu).
    + destruct p; cbn [g_instr]; try (eapply (hung_tinstr no_exn); try eassumption; reflexivity).
      * destruct (build cfg (mks a)); try exact Hu. eapply (hung_tinstr no_exn); try eassumption; reflexivity.
      * destruct (nth_error (g_pools s) v); [|exact Hu]. destruct (mem_nat a (g_closing s)); [|exact Hu]. destruct (idle_in i t); [|exact Hu]. eapply (hung_tinstr (fun _ _ => failure i (h_log t))); try eassumption; reflexivity.
  - destruct (nth_error (g_pools s) v); [|exact Hu]. destruct (may o' s); exact Hu.
Qed.
Lemma hangs_for_ever {K} `{EqDec K} m cfg n mks (l l' : list (gstep K)) j o f : nth_error (t_calls (g_m (g_run m cfg n mks l))) j = Some (o, New f) -> build cfg (mks j) = Blocks ->
  forall a r, (a = j \/ length (t_calls (g_m (g_run m cfg n mks l))) <= a)%nat -> ~ ended (g_m (g_run m cfg n mks (l ++ l'))) a r.
Proof.
  intros C Bl. set (s := g_run m cfg n mks l) in *. assert (L : exists d, t_lock (g_m s) = Some (j, d)).
  { destruct (gv_run _ _ _ _ _ (ginv_run m cfg n mks l)) as (bad & l2 & M & R). fold s in R. rewrite R in C |- *. eapply new_owner; eassumption. }
  destruct L as (d & L).
  assert (Hu : hung j d (length (t_calls (g_m s))) o f (g_run m cfg n mks (l ++ l'))).
  { induction l' as [|x l' IH] using rev_ind.
    - rewrite app_nil_r. fold s. split; [exact C|]. split; [exact L|]. split; [lia|]. split; [eapply nth_lt; exact C|]. intros a o' p La Ca. apply nth_lt in Ca. lia.
    - rewrite app_assoc. unfold g_run. rewrite fold_left_app. apply hung_step; [apply ginv_run|exact Bl|exact IH]. }
  intros a r [-> |La] (o2 & E).
  - destruct Hu as (H1 & _). congruence.
  - destruct Hu as (_ & _ & _ & _ & H5). destruct (H5 a o2 _ La E) as (q & [=]).
Qed.

(** ** no infinite run *)

Fixpoint total_work (l : list ts) : nat := match l with [] => 0%nat | h :: r => (work h + total_work r)%nat end.
Lemma total_updt v h h' l : nth_error l v = Some h -> (total_work (updt v h' l) + work h = total_work l + work h')%nat.
Proof. revert l. induction v; intros [|x l] E; try discriminate; cbn in *; [injection E as ->; lia|]. specialize (IHv l E). lia. Qed.
Lemma updt_self {A} v (x : A) l : nth_error l v = Some x -> updt v x l = l.
Proof. revert l. induction v; intros [|y l] E; try discriminate; cbn in *; [congruence|]. f_equal. auto. Qed.
Lemma step_work cfg i b h : t_step cfg (TStep i b) h <> h -> (work (t_step cfg (TStep i b) h) < work h)%nat.
Proof.
  cbn [t_step]. destruct (nth_error (h_threads h) i) as [t|] eqn:E; [|contradiction]. intros N. destruct (stuck cfg h b (t_pc t)) eqn:S; [rewrite (go_stuck _ _ _ _ _ S) in N; contradiction|]. exact (go_works cfg i b t h E S).
Qed.
Definition unclosed {K} (s : gs K) : nat := length (filter (fun a => negb (mem_nat a (g_closing s))) (seq 0 (length (t_calls (g_m s))))).
Lemma filter_fewer {A} (f g : A -> bool) l x : In x l -> f x = true -> g x = false -> (forall y, g y = true -> f y = true) -> (length (filter g l) < length (filter f l))%nat.
Proof.
  intros I F G Le. assert (A1 : forall l, (length (filter g l) <= length (filter f l))%nat).
  { clear l I. induction l as [|y l IH]; cbn; [lia|]. destruct (g y) eqn:Y; [rewrite (Le y Y); cbn; lia|destruct (f y); cbn; lia]. }
  induction l as [|y l IH]; [destruct I|]. cbn. destruct I as [-> |I].
  - rewrite F, G. cbn. specialize (A1 l). lia.
  - specialize (IH I). destruct (g y) eqn:Y; [rewrite (Le y Y); cbn; lia|destruct (f y); cbn; lia].
Qed.
Lemma works_wf {K} `{EqDec K} m cfg n mks (s : gs K) : Acc (works m cfg n mks) s.
Proof.
  remember (t_calls (g_m s)) as cs eqn:Ec. revert s Ec. induction (lsub_wf cs) as [cs _ IHc]. intros s Ec.
  remember (unclosed s) as u eqn:Eu. revert s Ec Eu. induction u as [u IHu] using lt_wf_ind. intros s Ec Eu.
  remember (total_work (g_pools s)) as w eqn:Ew. revert s Ec Eu Ew. induction w as [w IHw] using lt_wf_ind. intros s Ec Eu Ew. constructor. intros s' (e & Ge & Es & Ns).
  assert (Mv : forall bad j o p s1, nth_error (t_calls (g_m s)) j = Some (o, p) -> s' = s1 -> g_m s1 = tinstr bad (g_m s) j p -> (tinstr bad (g_m s) j p = g_m s -> s1 = s) -> Acc (works m cfg n mks) s').
  { intros bad j o p s1 C E1 E2 E3. destruct (instr_sub bad (g_m s) j p) as [X|(q & S & X)]; [exfalso; apply Ns; rewrite E1; apply E3; exact X|].
    apply (IHc (t_calls (g_m s'))); [|reflexivity]. rewrite E1, E2, X, Ec. exists j, o, p, q. split; [exact C|]. split; [exact S|reflexivity]. }
  assert (Pv : forall v h i b, nth_error (g_pools s) v = Some h -> s' = with_pools (updt v (t_step cfg (TStep i b) h) (g_pools s)) s -> Acc (works m cfg n mks) s').
  { intros v h i b E E1. assert (N : t_step cfg (TStep i b) h <> h).
    { intros X. apply Ns. rewrite E1, X, (updt_self v h _ E). destruct s. reflexivity. }
    apply step_work in N. pose proof (total_updt v h (t_step cfg (TStep i b) h) _ E) as T. apply (IHw (total_work (g_pools s'))); rewrite E1; [cbn [with_pools g_pools]; lia|exact Ec|exact Eu|reflexivity]. }
  destruct e as [i o|j b|v o]; try discriminate Ge; cbn [g_step] in Es.
  - destruct (nth_error (t_calls (g_m s)) j) as [[o p]|] eqn:C; [|contradiction]. destruct (nth_error (g_who s) j) as [i|]; [|contradiction].
    destruct p; cbn [g_instr] in Es; try (eapply (Mv no_exn j o _ _ C Es); [reflexivity|]; intros X; rewrite X; destruct s; reflexivity).
    + destruct (build cfg (mks j)); try contradiction. eapply (Mv no_exn j o _ _ C Es); [reflexivity|]. intros X. exfalso. apply (f_equal t_new) in X. cbn in X. lia.
    + destruct (nth_error (g_pools s) v) as [h|] eqn:Ev; [|contradiction]. destruct (mem_nat j (g_closing s)) eqn:Mj.
      * destruct (idle_in i h); [|eapply Pv; eassumption]. eapply (Mv (fun _ _ => failure i (h_log h)) j o _ _ C Es); [reflexivity|]. intros X. exfalso. apply (f_equal (fun s => length (t_disposed s))) in X. rewrite disposed_tinstr, app_length in X. cbn in X. lia.
      * apply (IHu (unclosed s')); rewrite Es; [|exact Ec|reflexivity]. rewrite Eu. unfold unclosed. cbn [with_closing with_pools g_closing g_m].
        apply (filter_fewer _ _ _ j); [apply in_seq; apply nth_lt in C; lia|rewrite Mj; reflexivity|cbn; rewrite Nat.eqb_refl; reflexivity|].
        intros y Y. cbn in Y. apply negb_true_iff, orb_false_iff in Y as (_ & Y). apply negb_true_iff. exact Y.
  - destruct o; try discriminate Ge. destruct (nth_error (g_pools s) v) as [h|] eqn:Ev; [|contradiction]. destruct (may (TStep i b) s); [|contradiction]. eapply Pv; eassumption.
Qed.

(** ** at most max_pools pools stay open *)
Lemma atom_bound {K} `{EqDec K} m mk (o : top K) c n c' n' r out : mgr_top o = true -> wf_dict c -> len c <= Z.max 0 m -> atom m mk o c n = (c', n', r, out) -> wf_dict c' /\ len c' <= Z.max 0 m.
Proof.
  intros Mo W L A. destruct o; try discriminate Mo; cbn in A.
  - injection A as <- _ _ _. split; [constructor|]. unfold len. cbn. lia.
  - unfold lru_get in A. destruct (dget k c) as [v|] eqn:G.
    + injection A as <- _ _ _. split; [apply wf_dset, wf_ddel; exact W|]. unfold len in *. rewrite length_dset, length_ddel. unfold dmem. rewrite G, dget_ddel_same by exact W. pose proof (dget_In _ _ _ G) as I. destruct c; [destruct I|cbn [length] in *; lia].
    + destruct mk as [e|]; [injection A as <- _ _ _; auto|]. unfold lru_set in A. rewrite G in A. pose proof (wf_dset k n c W) as W'. destruct (m <? len (dset k n c)) eqn:Q; [|injection A as <- _ _ _; split; [exact W'|lia]].
      assert (Ld : len (dset k n c) = len c + 1) by (unfold len; rewrite length_dset; unfold dmem; rewrite G; lia).
      destruct (dset k n c) as [|[k1 v1] d] eqn:Ed; [unfold len in Ld; cbn in Ld; lia|]. injection A as <- _ _ _. unfold wf_dict in *. cbn in W'. inversion W' as [|? ? _ Wd]; subst. split; [exact Wd|]. unfold len in *. cbn [length] in Ld. lia.
Qed.
Lemma after_bound {K} `{EqDec K} m mk (os : list (top K)) order : (forall o, In o os -> mgr_top o = true) -> forall c n c' n', wf_dict c -> len c <= Z.max 0 m -> after m mk os order c n = (c', n') -> len c' <= Z.max 0 m.
Proof.
  intros M. induction order as [|i order IH]; intros c n c' n' W L E; cbn in E; [injection E as <- _; exact L|]. destruct (nth_error os i) as [o|] eqn:O; [|eapply IH; eassumption].
  destruct (atom m (mk i) o c n) as [[[c1 n1] r] out] eqn:A. destruct (atom_bound m (mk i) o c n c1 n1 r out (M o (nth_error_In _ _ O)) W L A) as (W1 & L1). eapply IH; eassumption.
Qed.
Lemma filter_nth {A} (f : A -> bool) l : length (filter f l) = length (filter (fun v => match nth_error l v with Some x => f x | None => false end) (seq 0 (length l))).
Proof.
  induction l as [|x l IH]; [reflexivity|]. cbn [length seq filter nth_error]. rewrite <- seq_shift.
  assert (X : forall d, length (filter (fun v => match nth_error (x :: l) v with Some y => f y | None => false end) (map S d)) = length (filter (fun v => match nth_error l v with Some y => f y | None => false end) d)).
  { induction d as [|a d IHd]; [reflexivity|]. cbn. destruct (match nth_error l a with Some y => f y | None => false end); cbn; rewrite IHd; reflexivity. }
  destruct (f x); cbn [length]; rewrite X, <- IH; reflexivity.
Qed.
Lemma few_open {K} `{EqDec K} m cfg n mks (l : list (gstep K)) : (forall o, In o l -> no_close o) -> let s := g_run m cfg n mks l in
  S_LruThreads.quiet (g_m s) -> Z.of_nat (length (filter h_open (g_pools s))) <= Z.max 0 m.
Proof.
  intros N s Q. pose proof (cinv_run m cfg n mks l N) as [_ _ _ _ (l' & M & R)]. fold s in R.
  assert (B : len (t_c (g_m s)) <= Z.max 0 m).
  { rewrite R. pose proof Q as Q'. rewrite R in Q'. pose proof (quiet_lock m _ _ l' Q') as L. pose proof (contents_in_order m (raises cfg mks) no_exn l' (mgr_only_simple l' M) L) as F.
    destruct (after m (raises cfg mks) (ops (trun m (raises cfg mks) no_exn l')) (t_order (trun m (raises cfg mks) no_exn l')) [] 0) as [c x] eqn:A. injection F as F _. rewrite F.
    eapply (after_bound m (raises cfg mks) (ops (trun m (raises cfg mks) no_exn l')) _ (mgr_ops m _ _ l' M) [] 0%nat); [constructor| |exact A]. unfold len. cbn. lia. }
  assert (I : (length (filter h_open (g_pools s)) <= length (vals (t_c (g_m s))))%nat).
  { rewrite filter_nth. apply NoDup_incl_length; [apply NoDup_filter, seq_NoDup|]. intros v I. apply filter_In in I as (_ & I). destruct (nth_error (g_pools s) v) as [h|] eqn:E; [|discriminate].
    apply (held_open m cfg n mks l v h N Q E). exact I. }
  unfold vals in I. rewrite map_length in I. unfold len in B. lia.
Qed.

(** ** in the words of S_MgrThreads *)
Lemma by_manager {K} (l : list (gstep K)) : closed_by_manager l -> forall o, In o l -> no_close o.
Proof. intros C o I. destruct o as [i o|j b|v o]; cbn; auto. destruct o as [a t|a c|a|a b|a k c]; auto. exfalso. exact (C v a I). Qed.
Lemma one_thread {K} `{EqDec K} m cfg n mks (l : list (gstep K)) v i j c : let s := g_run m cfg n mks l in lent_to s v i c -> lent_to s v j c -> i = j.
Proof.
  intros s (h & t & E & Et & It) (h' & u & E' & Eu & Iu). rewrite E in E'. injection E' as <-. destruct (gv_pool _ _ _ _ _ (ginv_run m cfg n mks l) v h E) as (a & q & l' & B & ->). eapply one_holder; eassumption.
Qed.
Lemma not_free {K} `{EqDec K} m cfg n mks (l : list (gstep K)) v i c : let s := g_run m cfg n mks l in lent_to s v i c -> ~ is_free s v c.
Proof.
  intros s (h & t & E & Et & It) (h' & E' & Iq). rewrite E in E'. injection E' as <-. destruct (gv_pool _ _ _ _ _ (ginv_run m cfg n mks l) v h E) as (a & q & l' & B & ->). exact (lent_not_free _ _ _ _ _ _ _ _ B Et It Iq).
Qed.
Lemma open_iff_held {K} `{EqDec K} m cfg n mks (l : list (gstep K)) v h : closed_by_manager l -> let s := g_run m cfg n mks l in all_ended s -> nth_error (g_pools s) v = Some h -> (h_open h = true <-> holds s v).
Proof.
  intros C s Q E. destruct (held_open m cfg n mks l v h (by_manager l C) Q E) as (_ & X). rewrite X. unfold holds, vals. rewrite in_map_iff. split.
  - intros ((k & w) & <- & I). exists k. exact I.
  - intros (k & I). exists (k, v). auto.
Qed.
Lemma open_count {K} `{EqDec K} m cfg n mks (l : list (gstep K)) : closed_by_manager l -> let s := g_run m cfg n mks l in all_ended s -> Z.of_nat (length (filter h_open (g_pools s))) <= Z.max 0 m.
Proof. intros C s Q. exact (few_open m cfg n mks l (by_manager l C) Q). Qed.
Lemma manager_errors {K} `{EqDec K} m cfg n mks (l : list (gstep K)) j e : closed_by_manager l -> returned (g_run m cfg n mks l) j (Raise e) -> build cfg (mks j) = Failed e.
Proof. intros C R. exact (only_build_raises m cfg n mks l j e (by_manager l C) R). Qed.
Lemma undisturbed {K} `{EqDec K} m cfg n mks (ks : list K) l v h : Z.of_nat (length ks) <= m -> only_asks_for ks l -> closed_by_manager l -> nth_error (g_pools (g_run m cfg n mks l)) v = Some h ->
  h_open h = true /\ forall i, ~ In (i, OErr ClosedPoolError) (h_log h).
Proof.
  intros L A C E. assert (F : few m ks l).
  { split; [exact L|]. intros x I. pose proof (by_manager l C x I) as N. destruct x as [i o|j b|w o]; auto. exact (A i o I). }
  split; [destruct (few_kept m cfg n mks ks l F) as (_ & _ & O); apply (O v h E)|]. intros i. exact (few_undisturbed m cfg n mks ks l v h i F E).
Qed.
Lemma hangs {K} `{EqDec K} m cfg n mks (l l' : list (gstep K)) j : building (g_run m cfg n mks l) j -> build cfg (mks j) = Blocks ->
  forall a r, (a = j \/ length (t_calls (g_m (g_run m cfg n mks l))) <= a)%nat -> ~ returned (g_run m cfg n mks (l ++ l')) a r.
Proof. intros (o & f & C) B a r X. exact (hangs_for_ever m cfg n mks l l' j o f C B a r X). Qed.
Lemma rests {K} `{EqDec K} m cfg n mks (l : list (gstep K)) : max_free cfg <= 0 \/ Z.of_nat (initial cfg) <= max_free cfg -> let s := g_run m cfg n mks l in
  (forall e, goes_on e = true -> g_step m cfg n mks e s = s) ->
  all_ended s /\ forall v h i t, nth_error (g_pools s) v = Some h -> nth_error (h_threads h) i = Some t -> t_pc t = Idle \/ (t_pc t = GTake false /\ block cfg = true /\ h_queue h = []).
Proof.
  intros F s R. apply (all_rest m cfg n mks l); [intros j; apply fits_no_block; exact F| |]; intros; apply R; reflexivity.
Qed.

(** ** A connection passed on to another thread *)
Lemma passed_on {K} `{EqDec K} m cfg n mks (l : list (gstep K)) v i j c : lent_to (g_run m cfg n mks l) v i c -> i <> j -> (j < n)%nat -> lent_to (g_run m cfg n mks (l ++ [GUse v (THand i j c)])) v j c.
Proof.
  intros (h & t & E & Et & It) N L. destruct (gv_pool _ _ _ _ _ (ginv_run m cfg n mks l) v h E) as (a & q & l' & B & Eh).
  assert (Lh : List.length (h_threads h) = n) by (rewrite Eh; apply threads_run). destruct (nth_error (h_threads h) j) as [u|] eqn:Eu; [|apply nth_error_None in Eu; lia].
  unfold g_run. rewrite fold_left_app. cbn [fold_left]. fold (g_run m cfg n mks l). cbn [g_step may]. rewrite E. cbn [t_step]. rewrite Et, Eu. apply L_ConnPool.mem_nat_In in It. rewrite It. destruct (Nat.eqb_spec i j); [contradiction|]. cbn [andb negb].
  eexists. eexists. split; [cbn [with_pools g_pools]; eapply nth_updt_same; exact E|]. split; [cbn [set_thr h_threads]; eapply nth_updt_same; rewrite nth_updt_other by exact N; exact Eu|]. left. reflexivity.
Qed.

(** More about the container with threads, for C107-C109: every pool that is made is in the container or has been taken
    out by exactly one call. *)
From Coq Require Import Sorting.Permutation.
From Verif Require Import PyBase L_PyBase PyDict L_PyDict M_Lru L_Lru M_LruThreads S_LruThreads L_LruThreads L_LruThreads2.

(** what the calls of the order take out, call by call *)
Fixpoint outs_of {K} `{EqDec K} (m : Z) (mk : nat -> option exn) (os : list (top K)) (order : list nat) (c : dict K nat) (n : nat) : list (list nat) :=
  match order with
  | [] => []
  | i :: r => match nth_error os i with
              | Some o => let '(c', n', _, out) := atom m (mk i) o c n in out :: outs_of m mk os r c' n'
              | None => [] :: outs_of m mk os r c n
              end
  end.

Definition mgr_top {K} (o : top K) : bool := match o with TLookup _ | TClear => true | _ => false end.
Lemma mgr_manager {K} (o : top K) : mgr_top o = true -> manager_op o = true.
Proof. destruct o; cbn; congruence. Qed.
Lemma mgr_simple {K} (o : top K) : mgr_top o = true -> simple o = true.
Proof. destruct o; cbn; congruence. Qed.

Lemma vals_ddel {K} `{EqDec K} (k : K) (c : dict K nat) v : dget k c = Some v -> Permutation (vals c) (v :: vals (ddel k c)).
Proof.
  induction c as [|[k' v'] c IH]; cbn; [discriminate|]. destruct (eq_dec k k') as [-> |N].
  - intros [= ->]. reflexivity.
  - intros G. cbn. rewrite (IH G). apply perm_swap.
Qed.
Lemma vals_fresh {K} `{EqDec K} (k : K) (v : nat) c : dget k c = None -> dset k v c = c ++ [(k, v)].
Proof. intros G. apply dset_fresh. apply dget_None. exact G. Qed.
Lemma vals_app {K} (a b : dict K nat) : vals (a ++ b) = vals a ++ vals b.
Proof. apply map_app. Qed.

Lemma atom_perm {K} `{EqDec K} m mk (o : top K) c n c' n' r out : mgr_top o = true -> wf_dict c -> atom m mk o c n = (c', n', r, out) ->
  (n <= n')%nat /\ Permutation (out ++ vals c') (vals c ++ seq n (n' - n)).
Proof.
  intros M W A. destruct o; cbn in M; try discriminate M; cbn in A.
  - injection A as <- <- <- <-. split; [lia|]. rewrite Nat.sub_diag. cbn. rewrite !app_nil_r. reflexivity.
  - unfold lru_get in A. destruct (dget k c) as [v|] eqn:G.
    + injection A as <- <- <- <-. split; [lia|]. rewrite Nat.sub_diag. cbn [seq app]. rewrite app_nil_r. rewrite vals_fresh by (apply dget_ddel_same; exact W).
      rewrite vals_app. cbn. rewrite (vals_ddel k c v G). rewrite Permutation_app_comm. reflexivity.
    + destruct mk as [e|]; [injection A as <- <- <- <-; split; [lia|]; rewrite Nat.sub_diag; cbn; rewrite app_nil_r; reflexivity|].
      unfold lru_set in A. rewrite G in A. rewrite (vals_fresh k n c G) in A.
      assert (P : Permutation (vals (c ++ [(k, n)])) (vals c ++ seq n (S n - n))).
      { replace (S n - n)%nat with 1%nat by lia. rewrite vals_app. reflexivity. }
      destruct (m <? len (c ++ [(k, n)])).
      * destruct (c ++ [(k, n)]) as [|[k0 v0] c2] eqn:D; [destruct c; discriminate|]. injection A as <- <- <- <-. split; [lia|]. exact P.
      * injection A as <- <- <- <-. split; [lia|]. exact P.
Qed.

Lemma outs_perm {K} `{EqDec K} m mk (os : list (top K)) order : (forall o, In o os -> mgr_top o = true) -> forall c n c' n', wf_dict c -> after m mk os order c n = (c', n') ->
  (n <= n')%nat /\ wf_dict c' /\ Permutation (concat (outs_of m mk os order c n) ++ vals c') (vals c ++ seq n (n' - n)).
Proof.
  intros M. induction order as [|i order IH]; intros c n c' n' W A; cbn in A |- *.
  - injection A as <- <-. split; [lia|]. split; [exact W|]. rewrite Nat.sub_diag. cbn. rewrite app_nil_r. reflexivity.
  - destruct (nth_error os i) as [o|] eqn:O; [|destruct (IH c n c' n' W A) as (? & ? & ?); cbn; auto].
    destruct (atom m (mk i) o c n) as [[[c1 n1] r] out] eqn:E. apply nth_error_In, M in O.
    destruct (atom_perm m (mk i) o c n c1 n1 r out O W E) as (L1 & P1). destruct (atom_keeps m (mk i) o c n c1 n1 r out (mgr_manager _ O) W E) as (W1 & _).
    destruct (IH c1 n1 c' n' W1 A) as (L2 & W2 & P2). split; [lia|]. split; [exact W2|]. cbn [concat]. rewrite <- app_assoc. rewrite P2. rewrite app_assoc. rewrite P1. rewrite <- app_assoc.
    apply Permutation_app_head. replace (n' - n)%nat with ((n1 - n) + (n' - n1))%nat by lia. rewrite seq_app. replace (n + (n1 - n))%nat with n1 by lia. reflexivity.
Qed.

Lemma outs_app {K} `{EqDec K} m mk (os : list (top K)) a b c n : outs_of m mk os (a ++ b) c n = outs_of m mk os a c n ++ let '(c', n') := after m mk os a c n in outs_of m mk os b c' n'.
Proof.
  revert c n. induction a as [|i a IH]; intros c n; cbn; [reflexivity|]. destruct (nth_error os i) as [o|]; [|rewrite IH; reflexivity].
  destruct (atom m (mk i) o c n) as [[[c1 n1] r] out]. rewrite IH. reflexivity.
Qed.
Lemma outs_length {K} `{EqDec K} m mk (os : list (top K)) a c n : length (outs_of m mk os a c n) = length a.
Proof. revert c n. induction a as [|i a IH]; intros c n; cbn; [reflexivity|]. destruct (nth_error os i) as [o|]; [destruct (atom m (mk i) o c n) as [[[c1 n1] r] out]|]; cbn; rewrite IH; reflexivity. Qed.

(** call i takes these values out *)
Definition takes {K} `{EqDec K} m mk (s : tstate K) (i : nat) (out : list nat) : Prop := exists pre c n r, does m mk s pre i (c, n, r, out).
Lemma does_outs {K} `{EqDec K} m mk (s : tstate K) pre i c n r out : does m mk s pre i (c, n, r, out) -> nth_error (outs_of m mk (ops s) (t_order s) [] 0) (length pre) = Some out.
Proof.
  intros (post & o & c0 & n0 & E1 & E2 & E3 & E4). rewrite E1, outs_app, E3. rewrite nth_error_app2 by (rewrite outs_length; lia). rewrite outs_length, Nat.sub_diag.
  cbn. rewrite E2. rewrite <- E4. reflexivity.
Qed.

Lemma nodup_split {A} (a b : list A) : NoDup (a ++ b) -> NoDup a /\ NoDup b /\ forall v, In v a -> ~ In v b.
Proof.
  induction a as [|x a IH]; cbn; intros N; [split; [constructor|split; [exact N|intros v []]]|]. inversion N as [|? ? Nx Nr]; subst. destruct (IH Nr) as (A1 & A2 & A3).
  split; [constructor; [intros I; apply Nx, in_or_app; auto|exact A1]|]. split; [exact A2|]. intros v [<-|I] J; [apply Nx, in_or_app; auto|exact (A3 v I J)].
Qed.
Lemma concat_twice {A} (l : list (list A)) a b x y v : NoDup (concat l) -> nth_error l a = Some x -> nth_error l b = Some y -> In v x -> In v y -> a = b.
Proof.
  revert a b. induction l as [|z l IH]; intros a b N Ha Hb Ix Iy; [destruct a; discriminate|]. cbn in N. apply nodup_split in N as (N1 & N2 & N3).
  destruct a as [|a], b as [|b]; cbn in Ha, Hb; try reflexivity.
  - injection Ha as ->. exfalso. apply (N3 v Ix). apply in_concat. exists y. split; [eapply nth_error_In; exact Hb|exact Iy].
  - injection Hb as ->. exfalso. apply (N3 v Iy). apply in_concat. exists x. split; [eapply nth_error_In; exact Ha|exact Ix].
  - f_equal. eapply IH; eassumption.
Qed.

Lemma concat_nodup {A} (l : list (list A)) a x : NoDup (concat l) -> nth_error l a = Some x -> NoDup x.
Proof.
  revert a. induction l as [|z l IH]; intros a N E; [destruct a; discriminate|]. cbn in N. apply nodup_split in N as (N1 & N2 & _). destruct a; cbn in E; [congruence|eauto].
Qed.

(** the calls are lookups and clear() *)
Definition mgr_only {K} (l : list (tevent K)) : Prop := forall o, In (TBegin o) l -> mgr_top o = true.
Lemma mgr_only_simple {K} (l : list (tevent K)) : mgr_only l -> all_simple l.
Proof. intros M o I. apply mgr_simple, M, I. Qed.
Lemma mgr_ops {K} `{EqDec K} m mk bad (l : list (tevent K)) : mgr_only l -> forall o, In o (ops (trun m mk bad l)) -> mgr_top o = true.
Proof. intros M o I. apply M. eapply ops_begun. exact I. Qed.

Lemma all_outs {K} `{EqDec K} m mk bad (l : list (tevent K)) : mgr_only l -> let s := trun m mk bad l in
  exists c n, after m mk (ops s) (t_order s) [] 0 = (c, n) /\ Permutation (concat (outs_of m mk (ops s) (t_order s) [] 0) ++ vals c) (seq 0 n).
Proof.
  intros M s. destruct (after m mk (ops s) (t_order s) [] 0) as [c n] eqn:E. exists c, n. split; [reflexivity|].
  destruct (outs_perm m mk (ops s) (t_order s) (mgr_ops m mk bad l M) [] 0%nat c n ltac:(constructor) E) as (_ & _ & P). rewrite Nat.sub_0_r in P. exact P.
Qed.
Lemma outs_nodup {K} `{EqDec K} m mk bad (l : list (tevent K)) : mgr_only l -> let s := trun m mk bad l in NoDup (concat (outs_of m mk (ops s) (t_order s) [] 0)).
Proof.
  intros M s. destruct (all_outs m mk bad l M) as (c & n & _ & P). apply Permutation_sym in P. pose proof (Permutation_NoDup P (seq_NoDup n 0)) as N. apply nodup_split in N. apply N.
Qed.
Lemma takes_once {K} `{EqDec K} m mk bad (l : list (tevent K)) i j x y v : mgr_only l -> let s := trun m mk bad l in takes m mk s i x -> takes m mk s j y -> In v x -> In v y -> i = j.
Proof.
  intros M s (pre & c & n & r & D) (pre' & c' & n' & r' & D') Ix Iy. pose proof (outs_nodup m mk bad l M) as N.
  pose proof (concat_twice _ _ _ _ _ v N (does_outs _ _ _ _ _ _ _ _ _ D) (does_outs _ _ _ _ _ _ _ _ _ D') Ix Iy) as L.
  destruct D as (post & o & c0 & n0 & E1 & _), D' as (post' & o' & c0' & n0' & E1' & _).
  assert (A : nth_error (t_order s) (length pre) = Some i) by (rewrite E1, nth_error_app2, Nat.sub_diag by lia; reflexivity).
  assert (B : nth_error (t_order s) (length pre') = Some j) by (rewrite E1', nth_error_app2, Nat.sub_diag by lia; reflexivity).
  rewrite <- L in B. congruence.
Qed.
Lemma takes_nodup {K} `{EqDec K} m mk bad (l : list (tevent K)) i x : mgr_only l -> let s := trun m mk bad l in takes m mk s i x -> NoDup x.
Proof. intros M s (pre & c & n & r & D). exact (concat_nodup _ _ _ (outs_nodup m mk bad l M) (does_outs _ _ _ _ _ _ _ _ _ D)). Qed.

Lemma attempted_prefix bad l : exists r, l = attempted bad l ++ r.
Proof. induction l as [|v l [r IH]]; cbn; [exists []; reflexivity|]. destruct (bad v); [exists l; reflexivity|]. exists r. cbn. f_equal. exact IH. Qed.

(** a call that has a place takes out what it has disposed of and what it has still to dispose of *)
Lemma placed_takes {K} `{EqDec K} m mk bad (s : tstate K) i o p : simple o = true -> nth_error (t_calls s) i = Some (o, p) -> placed m mk bad s i o p ->
  exists out rest, takes m mk s i out /\ out = disposed_by s i ++ rest /\ (forall v f, p = Dispose v f -> exists rest', rest = v :: rest').
Proof.
  intros S E (pre & post & c0 & n0 & c1 & n1 & ds & r & ds2 & E1 & E2 & E3 & E4 & E5).
  destruct (atom m (mk i) o c0 n0) as [[[c' n'] r'] out] eqn:A. rewrite (exec_atom (bad i) m (mk i) o c0 n0 c' n' r' out S A) in E3. injection E3 as -> -> <- <-.
  destruct (attempted_prefix (bad i) out) as (more & Q). exists out, (ds2 ++ more). split; [|split; [rewrite Q at 1; rewrite E4, app_assoc; reflexivity|]].
  - exists pre, c1, n1, r'. exists post, o, c0, n0. split; [exact E1|]. split; [|split; [exact E2|symmetry; exact A]]. unfold ops. rewrite nth_error_map, E. reflexivity.
  - intros v f ->. destruct E5 as [(d & _ & _ & _ & X)|(_ & _ & X)].
    + cbn in X. destruct (exec (bad i) (f (bad i v)) (t_c s) (t_new s)) as [[[? ?] ?] ?]. injection X as _ _ <- _. cbn. eauto.
    + specialize (X (t_c s) (t_new s)). cbn in X. destruct (exec (bad i) (f (bad i v)) (t_c s) (t_new s)) as [[[? ?] ?] ?]. injection X as _ _ <- _. cbn. eauto.
Qed.

Lemma dispose_placed {K} `{EqDec K} m mk bad (s : tstate K) i o v f : tinv m mk bad s -> nth_error (t_calls s) i = Some (o, Dispose v f) -> placed m mk bad s i o (Dispose v f).
Proof.
  intros T E. destruct (ti_call _ _ _ _ T i o _ E) as [(_ & P & _)|P]; [|exact P]. exfalso. pose proof (simple_starts m (mk i) o (ti_simple _ _ _ _ T i o _ E)) as B. rewrite <- P in B. exact B.
Qed.
(** a call about to dispose of v is the only one to take it out, and nobody has disposed of it before *)
Lemma dispose_takes {K} `{EqDec K} m mk bad (l : list (tevent K)) i o v f : mgr_only l -> let s := trun m mk bad l in nth_error (t_calls s) i = Some (o, Dispose v f) ->
  exists out rest, takes m mk s i out /\ out = disposed_by s i ++ v :: rest.
Proof.
  intros M s E. pose proof (trun_inv m mk bad l (mgr_only_simple l M)) as T. fold s in T.
  destruct (placed_takes m mk bad s i o _ (ti_simple _ _ _ _ T i o _ E) E (dispose_placed m mk bad s i o v f T E)) as (out & rest & A & B & C). destruct (C v f eq_refl) as (rest' & ->). eauto.
Qed.
Lemma disposed_takes {K} `{EqDec K} m mk bad (l : list (tevent K)) i v : mgr_only l -> let s := trun m mk bad l in In (i, v) (t_disposed s) -> exists out, takes m mk s i out /\ In v out.
Proof.
  intros M s I. pose proof (trun_inv m mk bad l (mgr_only_simple l M)) as T. fold s in T. pose proof (ti_disp _ _ _ _ T i v I) as O. pose proof (ti_range _ _ _ _ T i O) as L.
  destruct (nth_error (t_calls s) i) as [[o p]|] eqn:E; [|apply nth_error_None in E; lia].
  destruct (ti_call _ _ _ _ T i o p E) as [(X & _)|P]; [contradiction|].
  destruct (placed_takes m mk bad s i o p (ti_simple _ _ _ _ T i o p E) E P) as (out & rest & A & -> & _). eexists. split; [exact A|]. apply in_or_app. left.
  unfold disposed_by. apply in_map_iff. exists (i, v). split; [reflexivity|]. apply filter_In. split; [exact I|apply Nat.eqb_refl].
Qed.
Lemma dispose_fresh {K} `{EqDec K} m mk bad (l : list (tevent K)) i j o v f : mgr_only l -> let s := trun m mk bad l in nth_error (t_calls s) i = Some (o, Dispose v f) -> ~ In (j, v) (t_disposed s).
Proof.
  intros M s E I. destruct (dispose_takes m mk bad l i o v f M E) as (out & rest & A & B). destruct (disposed_takes m mk bad l j v M I) as (out' & A' & B'). fold s in A, A', B.
  assert (In v out) as Iv by (rewrite B; apply in_or_app; right; left; reflexivity). pose proof (takes_once m mk bad l i j _ _ v M A A' Iv B') as <-.
  pose proof (takes_nodup m mk bad l i out M A) as N. rewrite B in N. apply nodup_split in N as (_ & _ & N). apply (N v); [|left; reflexivity].
  unfold disposed_by. apply in_map_iff. exists (i, v). split; [reflexivity|]. apply filter_In. split; [exact I|apply Nat.eqb_refl].
Qed.
Lemma dispose_alone {K} `{EqDec K} m mk bad (l : list (tevent K)) i j o o' v f f' : mgr_only l -> let s := trun m mk bad l in
  nth_error (t_calls s) i = Some (o, Dispose v f) -> nth_error (t_calls s) j = Some (o', Dispose v f') -> i = j.
Proof.
  intros M s E E'. destruct (dispose_takes m mk bad l i o v f M E) as (out & rest & A & B). destruct (dispose_takes m mk bad l j o' v f' M E') as (out' & rest' & A' & B').
  apply (takes_once m mk bad l i j _ _ v M A A'); [rewrite B|rewrite B']; apply in_or_app; right; left; reflexivity.
Qed.

(** the exceptions of dispose_func matter where it has been called *)
Lemma disposed_grows {K} `{EqDec K} m mk bad (s : tstate K) e : exists x, t_disposed (tstep m mk bad s e) = t_disposed s ++ x.
Proof.
  destruct e as [o|i]; cbn; [exists []; rewrite app_nil_r; reflexivity|]. destruct (nth_error (t_calls s) i) as [[o p]|]; [|exists []; rewrite app_nil_r; reflexivity].
  destruct p; cbn; try (exists []; rewrite app_nil_r; reflexivity).
  - destruct (t_lock s) as [[j d]|]; cbn; [destruct (Nat.eqb i j); cbn|]; exists []; rewrite app_nil_r; reflexivity.
  - destruct (t_lock s) as [[j [|[|d]]]|]; cbn; exists []; rewrite app_nil_r; reflexivity.
  - destruct (t_c s) as [|[k v] c]; cbn; exists []; rewrite app_nil_r; reflexivity.
  - eexists. reflexivity.
Qed.
Lemma tinstr_bad {K} `{EqDec K} bad bad' (s : tstate K) i p : (forall v f, p = Dispose v f -> bad' i v = bad i v) -> tinstr bad' s i p = tinstr bad s i p.
Proof. destruct p; cbn; intros A; try reflexivity. rewrite (A v f eq_refl). reflexivity. Qed.
Lemma same_bad {K} `{EqDec K} m mk bad bad' (l : list (tevent K)) : (forall i v, In (i, v) (t_disposed (trun m mk bad l)) -> bad' i v = bad i v) -> trun m mk bad' l = trun m mk bad l.
Proof.
  unfold trun. induction l as [|e l IH] using rev_ind; intros A; [reflexivity|]. rewrite !fold_left_app in *. cbn [fold_left] in *.
  rewrite IH; [|intros i v I; apply A; destruct (disposed_grows m mk bad (fold_left (tstep m mk bad) l tinit) e) as (x & ->); apply in_or_app; auto].
  destruct e as [o|i]; cbn [tstep] in *; [reflexivity|]. destruct (nth_error (t_calls (fold_left (tstep m mk bad) l tinit)) i) as [[o p]|]; [|reflexivity].
  apply tinstr_bad. intros v f ->. apply A. cbn. apply in_or_app. right. left. reflexivity.
Qed.

(** a value that has been made is in the container or some call takes it out *)
Lemma made_where {K} `{EqDec K} m mk bad (l : list (tevent K)) v : mgr_only l -> let s := trun m mk bad l in t_lock s = None -> (v < t_new s)%nat ->
  In v (vals (t_c s)) \/ exists i out, takes m mk s i out /\ In v out.
Proof.
  intros M s L V. destruct (all_outs m mk bad l M) as (c & n & E & P). pose proof (contents_in_order m mk bad l (mgr_only_simple l M) L) as C. fold s in C, E, P. rewrite E in C. injection C as C1 C2.
  assert (I : In v (seq 0 n)) by (apply in_seq; lia). apply (Permutation_in v (Permutation_sym P)) in I. apply in_app_or in I as [I|I]; [|left; rewrite C1; exact I].
  right. apply in_concat in I as (out & Io & Iv). apply In_nth_error in Io as (a & Ea).
  assert (La : (a < length (t_order s))%nat) by (rewrite <- (outs_length m mk (ops s) (t_order s) [] 0); apply nth_error_Some; congruence).
  destruct (nth_error (t_order s) a) as [i|] eqn:Ei; [|apply nth_error_None in Ei; lia]. apply nth_error_split in Ei as (pre & post & Eo & Lp).
  assert (Ni : In i (t_order s)) by (rewrite Eo; apply in_or_app; right; left; reflexivity).
  pose proof (trun_inv m mk bad l (mgr_only_simple l M)) as T. fold s in T. pose proof (ti_range _ _ _ _ T i Ni) as R.
  destruct (nth_error (ops s) i) as [o|] eqn:O; [|unfold ops in O; apply nth_error_None in O; rewrite map_length in O; lia].
  destruct (after m mk (ops s) pre [] 0) as [c0 n0] eqn:Af. destruct (atom m (mk i) o c0 n0) as [[[c1 n1] r] out'] eqn:A.
  assert (D : does m mk s pre i (c1, n1, r, out')) by (exists post, o, c0, n0; repeat split; auto).
  pose proof (does_outs _ _ _ _ _ _ _ _ _ D) as Q. rewrite Lp, Ea in Q. injection Q as ->. exists i, out'. split; [exists pre, c1, n1, r; exact D|exact Iv].
Qed.

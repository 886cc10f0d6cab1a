(** Lemmas for C82-C84: the threaded container does the same as the sequential one, in the order in which the calls
    take the lock. *)
From Coq Require Import Sorting.Permutation.
From Verif Require Import PyBase L_PyBase PyDict L_PyDict M_Lru M_LruThreads S_LruThreads.

(** running a whole program at once *)
Fixpoint exec {K} `{EqDec K} (bad : nat -> option exn) (p : prog K) (c : dict K nat) (n : nat) : dict K nat * nat * list nat * res (obs K) :=
  match p with
  | Done r => (c, n, [], r)
  | Acq q | Rel q => exec bad q c n
  | PopKey k f => exec bad (f (dget k c)) (ddel k c) n
  | GetKey k f => exec bad (f (dget k c)) c n
  | Store k v q => exec bad q (dset k v c) n
  | Count f => exec bad (f (len c)) c n
  | Names f => exec bad (f (keys c)) c n
  | PopFirst f => match c with [] => exec bad (f None) c n | (_, v) :: c' => exec bad (f (Some v)) c' n end
  | Values f => exec bad (f (vals c)) c n
  | Wipe q => exec bad q [] n
  | New f => exec bad (f n) c (S n)
  | Dispose v f => let '(c', n', ds, r) := exec bad (f (bad v)) c n in (c', n', v :: ds, r)
  end.

(** after the lock has been released for good, and while it is held d times *)
Fixpoint post {K} (p : prog K) : Prop := match p with Done _ => True | Dispose _ f => forall x, post (f x) | _ => False end.
Fixpoint ins {K} (d : nat) (p : prog K) : Prop :=
  match p with
  | Done _ => False
  | Acq q => ins (S d) q
  | Rel q => match d with O => False | 1%nat => post q | S d' => ins d' q end
  | PopKey _ f | GetKey _ f | PopFirst f => (0 < d)%nat /\ forall x, ins d (f x)
  | Store _ _ q | Wipe q => (0 < d)%nat /\ ins d q
  | Count f => (0 < d)%nat /\ forall x, ins d (f x)
  | Names f => (0 < d)%nat /\ forall x, ins d (f x)
  | Values f => (0 < d)%nat /\ forall x, ins d (f x)
  | New f => (0 < d)%nat /\ forall x, ins d (f x)
  | Dispose _ f => (0 < d)%nat /\ forall x, ins d (f x)
  end.

Lemma post_exec {K} `{EqDec K} bad (p : prog K) : post p -> exists ds r, forall c n, exec bad p c n = (c, n, ds, r).
Proof.
  induction p as [r|p IH|p IH|k f IH|k f IH|k v p IH|f IH|f IH|f IH|f IH|p IH|f IH|v f IH]; cbn; intros P; try contradiction; [eauto|].
  destruct (IH (bad v) (P _)) as (ds & r & E). exists (v :: ds), r. intros. rewrite E. reflexivity.
Qed.

(** the programs of the simple operations take the lock once *)
Definition starts {K} (p : prog K) : Prop := match p with Acq q => ins 1 q | _ => False end.
Lemma dispose_all_post {K} (l : list nat) : post (dispose_all (K := K) l none_of).
Proof. induction l as [|v l IH]; cbn; [exact I|]. intros [e|]; [exact I|exact IH]. Qed.
Lemma simple_starts {K} m mk (o : top K) : simple o = true -> starts (prog_of m mk o).
Proof.
  destruct o; cbn; intros E; try discriminate E.
  - split; [lia|]. intros [v|]; cbn; auto.
  - split; [lia|]. intros [v|]; cbn; auto.
  - split; [lia|]. intros old. split; [lia|]. split; [lia|]. intros n. destruct (m <? n); cbn.
    + split; [lia|]. intros [w|]; cbn; auto. intros [e|]; exact I.
    + destruct old; cbn; auto. intros [e|]; exact I.
  - split; [lia|]. intros [v|]; cbn; auto. intros [e|]; exact I.
  - split; [lia|]. intros n. exact I.
  - split; [lia|]. intros n. exact I.
  - split; [lia|]. intros l. split; [lia|]. apply dispose_all_post.
  - split; [lia|]. intros [v|]; [split; [lia|]; exact I|]. cbn. destruct mk as [e|]; [exact I|]. split; [lia|]. intros n.
    split; [lia|]. intros old. split; [lia|]. split; [lia|]. intros z. destruct (m <? z); cbn.
    + split; [lia|]. intros [w|]; cbn; auto. split; [lia|]. intros [e|]; exact I.
    + destruct old; cbn; auto. split; [lia|]. intros [e|]; exact I.
Qed.

Lemma ddel_missing {K V} `{EqDec K} (k : K) (c : dict K V) : dget k c = None -> ddel k c = c.
Proof. induction c as [|[k' v'] c IH]; cbn; [reflexivity|]. destruct (eq_dec k k'); [discriminate|]. intros E. rewrite IH; auto. Qed.

Lemma exec_dispose_all {K} `{EqDec K} bad (l : list nat) (c : dict K nat) n :
  exec bad (dispose_all l none_of) c n = (c, n, attempted bad l, outcome bad l (Ok ONone)).
Proof.
  induction l as [|v l IH]; cbn; [reflexivity|]. destruct (bad v) as [e|] eqn:B; cbn; rewrite ?B; [reflexivity|]. rewrite IH. reflexivity.
Qed.

(** run at once, they do what the sequential container does *)
Lemma exec_atom {K} `{EqDec K} bad m mk (o : top K) c n c' n' r out : simple o = true -> atom m mk o c n = (c', n', r, out) ->
  exec bad (prog_of m mk o) c n = (c', n', attempted bad out, outcome bad out r).
Proof.
  intros S A. destruct o; cbn in S; try discriminate S; clear S; cbn in A |- *.
  - unfold lru_get in A. destruct (dget k c) as [v|] eqn:G; cbn; injection A as <- <- <- <-; [reflexivity|]. rewrite (ddel_missing k c G). reflexivity.
  - unfold lru_get in A. destruct (dget k c) as [v|] eqn:G; cbn; injection A as <- <- <- <-; [reflexivity|]. rewrite (ddel_missing k c G). reflexivity.
  - unfold lru_set in A. destruct (m <? len (dset k v c)) eqn:L; cbn.
    + destruct (dset k v c) as [|[k0 v0] c2] eqn:D; [exfalso; apply (f_equal (dget k)) in D; rewrite dget_dset_same in D; discriminate|].
      injection A as <- <- <- <-. cbn. destruct (bad v0) eqn:B; cbn; rewrite ?B; reflexivity.
    + destruct (dget k c) as [w|]; injection A as <- <- <- <-; cbn; [|reflexivity]. destruct (bad w) eqn:B; cbn; rewrite ?B; reflexivity.
  - unfold lru_del in A. destruct (dget k c) as [v|] eqn:G; injection A as <- <- <- <-; cbn.
    + destruct (bad v) eqn:B; cbn; rewrite ?B; reflexivity.
    + rewrite (ddel_missing k c G). reflexivity.
  - injection A as <- <- <- <-. reflexivity.
  - injection A as <- <- <- <-. reflexivity.
  - injection A as <- <- <- <-. apply exec_dispose_all.
  - unfold lru_get in A. destruct (dget k c) as [v|] eqn:G; cbn.
    + injection A as <- <- <- <-. reflexivity.
    + destruct mk as [e|]; [injection A as <- <- <- <-; cbn; rewrite (ddel_missing k c G); reflexivity|]. cbn. rewrite (ddel_missing k c G). rewrite G.
      unfold lru_set in A. rewrite G in A. destruct (m <? len (dset k n c)) eqn:L; cbn.
      * destruct (dset k n c) as [|[k0 v0] c2] eqn:D; [exfalso; apply (f_equal (dget k)) in D; rewrite dget_dset_same in D; discriminate|].
        injection A as <- <- <- <-. cbn. destruct (bad v0) eqn:B; cbn; rewrite ?B; reflexivity.
      * injection A as <- <- <- <-. reflexivity.
Qed.

(** ** the order *)
Lemma after_app {K} `{EqDec K} m mk (os : list (top K)) a b c n : after m mk os (a ++ b) c n = let '(c', n') := after m mk os a c n in after m mk os b c' n'.
Proof. revert c n. induction a as [|i a IH]; cbn; intros c n; [reflexivity|]. destruct (nth_error os i) as [o|]; [|apply IH]. destruct (atom m (mk i) o c n) as [[[c' n'] r] out]. apply IH. Qed.
Lemma after_more {K} `{EqDec K} m mk (os x : list (top K)) a c n : (forall i, In i a -> (i < length os)%nat) -> after m mk (os ++ x) a c n = after m mk os a c n.
Proof.
  revert c n. induction a as [|i a IH]; cbn; intros c n L; [reflexivity|]. rewrite nth_error_app1 by (apply L; auto). destruct (nth_error os i) as [o|]; [|apply IH; auto].
  destruct (atom m (mk i) o c n) as [[[c' n'] r] out]. apply IH. auto.
Qed.

Lemma nth_set_prog {K} i p (l : list (top K * prog K)) j : nth_error (set_prog i p l) j =
  if Nat.eqb i j then match nth_error l j with Some (o, _) => Some (o, p) | None => None end else nth_error l j.
Proof.
  revert i j. induction l as [|[o q] l IH]; intros i j; destruct i, j; cbn; try reflexivity; [destruct (Nat.eqb i j); reflexivity|]. apply IH.
Qed.
Lemma ops_set_prog {K} i p (l : list (top K * prog K)) : map fst (set_prog i p l) = map fst l.
Proof. revert i. induction l as [|[o q] l IH]; intros i; destruct i; cbn; try reflexivity. rewrite IH. reflexivity. Qed.
Lemma length_set_prog {K} i p (l : list (top K * prog K)) : length (set_prog i p l) = length l.
Proof. rewrite <- (map_length fst), ops_set_prog. apply map_length. Qed.

(** ** the invariant *)
Definition owner {K} (s : tstate K) : option nat := match t_lock s with Some (i, _) => Some i | None => None end.
Definition waiting {K} m (mk : nat -> option exn) (s : tstate K) (i : nat) (o : top K) (p : prog K) : Prop :=
  ~ In i (t_order s) /\ p = prog_of m (mk i) o /\ owner s <> Some i.
(** call i has got its place in the order; ds2 are the disposals it has still to make *)
Definition placed {K} `{EqDec K} m mk (bad : nat -> nat -> option exn) (s : tstate K) (i : nat) (o : top K) (p : prog K) : Prop :=
  exists pre rest c0 n0 c1 n1 ds r ds2, t_order s = pre ++ i :: rest /\ after m mk (ops s) pre [] 0 = (c0, n0) /\
    exec (bad i) (prog_of m (mk i) o) c0 n0 = (c1, n1, ds, r) /\ ds = disposed_by s i ++ ds2 /\
    ((exists d, t_lock s = Some (i, d) /\ rest = [] /\ ins d p /\ exec (bad i) p (t_c s) (t_new s) = (c1, n1, ds2, r)) \/
     (owner s <> Some i /\ post p /\ forall c n, exec (bad i) p c n = (c, n, ds2, r))).
Record tinv {K} `{EqDec K} m mk (bad : nat -> nat -> option exn) (s : tstate K) : Prop := {
  ti_nodup : NoDup (t_order s);
  ti_range : forall i, In i (t_order s) -> (i < length (t_calls s))%nat;
  ti_simple : forall i o p, nth_error (t_calls s) i = Some (o, p) -> simple o = true;
  ti_call : forall i o p, nth_error (t_calls s) i = Some (o, p) -> waiting m mk s i o p \/ placed m mk bad s i o p;
  ti_disp : forall i v, In (i, v) (t_disposed s) -> In i (t_order s);
  ti_free : t_lock s = None -> (t_c s, t_new s) = after m mk (ops s) (t_order s) [] 0;
  ti_own : forall i d, t_lock s = Some (i, d) -> (i < length (t_calls s))%nat
}.

Lemma owner_lock {K} (s : tstate K) i : owner s = Some i <-> exists d, t_lock s = Some (i, d).
Proof. unfold owner. destruct (t_lock s) as [[j d]|]; split; [intros [= ->]; eauto|intros [d' [= -> ->]]; reflexivity|discriminate|intros [d [=]]]. Qed.

Lemma app_last {A} (pre : list A) i rest l x : l ++ [x] = pre ++ i :: rest -> ~ In i l -> i = x /\ pre = l /\ rest = [].
Proof.
  intros E N. destruct rest as [|y r'] using rev_ind.
  - apply app_inj_tail in E as [-> ->]. auto.
  - exfalso. rewrite app_comm_cons, app_assoc in E. apply app_inj_tail in E as [-> _]. apply N. apply in_or_app. right. left. reflexivity.
Qed.

Lemma disposed_by_app {K} (s s' : tstate K) i j x : t_disposed s' = t_disposed s ++ map (pair i) x -> disposed_by s' j = disposed_by s j ++ (if Nat.eqb j i then x else []).
Proof.
  intros E. unfold disposed_by. rewrite E, filter_app, map_app. f_equal. clear E. destruct (Nat.eqb j i) eqn:Q.
  - induction x as [|v x IH]; cbn; [reflexivity|]. rewrite Q. cbn. f_equal. exact IH.
  - induction x as [|v x IH]; cbn; [reflexivity|]. rewrite Q. exact IH.
Qed.

Lemma other_call {K} `{EqDec K} m mk bad (s s' : tstate K) i j o p e x :
  i <> j -> t_order s' = t_order s ++ e -> (forall y, In y e -> y = i) -> ops s' = ops s -> t_disposed s' = t_disposed s ++ map (pair i) x ->
  owner s <> Some j -> owner s' <> Some j -> waiting m mk s j o p \/ placed m mk bad s j o p -> waiting m mk s' j o p \/ placed m mk bad s' j o p.
Proof.
  intros N O Ei P D W W' [(A & B & C)|(pre & rest & c0 & n0 & c1 & n1 & ds & r & ds2 & E1 & E2 & E3 & E4 & E5)].
  - left. split; [|split; [exact B|exact W']]. rewrite O. intros I. apply in_app_or in I as [I|I]; [exact (A I)|]. apply Ei in I. congruence.
  - right. exists pre, (rest ++ e), c0, n0, c1, n1, ds, r, ds2. rewrite O, E1, P, <- app_assoc. split; [reflexivity|]. split; [exact E2|]. split; [exact E3|].
    split. { rewrite (disposed_by_app s s' i j x D). replace (Nat.eqb j i) with false by (symmetry; apply Nat.eqb_neq; auto). rewrite app_nil_r. exact E4. }
    right. split; [exact W'|]. destruct E5 as [(d & L & _)|(_ & Q)]; [|exact Q]. exfalso. apply W. apply owner_lock. eauto.
Qed.

Lemma ops_calls {K} (s s' : tstate K) i p : t_calls s' = set_prog i p (t_calls s) -> ops s' = ops s.
Proof. unfold ops. intros ->. apply ops_set_prog. Qed.
Lemma len_calls {K} (s s' : tstate K) i p : t_calls s' = set_prog i p (t_calls s) -> length (t_calls s') = length (t_calls s).
Proof. intros ->. apply length_set_prog. Qed.
Lemma nth_lt {A} (l : list A) i x : nth_error l i = Some x -> (i < length l)%nat.
Proof. intros E. apply nth_error_Some. congruence. Qed.
Lemma set_simple {K} i p (l : list (top K * prog K)) : (forall j o q, nth_error l j = Some (o, q) -> simple o = true) -> forall j o q, nth_error (set_prog i p l) j = Some (o, q) -> simple o = true.
Proof. intros S j o q E. rewrite nth_set_prog in E. destruct (Nat.eqb i j); [|eauto]. destruct (nth_error l j) as [[o' q']|] eqn:G; [|discriminate]. injection E as <- <-. eauto. Qed.
Lemma disp_placed {K} (s s' : tstate K) i x e : (forall j v, In (j, v) (t_disposed s) -> In j (t_order s)) -> x = [] \/ In i (t_order s) ->
  t_disposed s' = t_disposed s ++ map (pair i) x -> t_order s' = t_order s ++ e -> forall j v, In (j, v) (t_disposed s') -> In j (t_order s').
Proof.
  intros R L E -> j v I. apply in_or_app. left. rewrite E in I. apply in_app_or in I as [I|I]; [eauto|]. apply in_map_iff in I as (w & [= <- <-] & J). destruct L as [-> |L]; [destruct J|exact L].
Qed.
Lemma not_placed_nothing {K} (s : tstate K) i : (forall j v, In (j, v) (t_disposed s) -> In j (t_order s)) -> ~ In i (t_order s) -> disposed_by s i = [].
Proof.
  unfold disposed_by. intros R N. induction (t_disposed s) as [|[j v] l IH]; cbn; [reflexivity|]. destruct (Nat.eqb i j) eqn:Q.
  - exfalso. apply Nat.eqb_eq in Q as <-. apply N. apply (R i v). left. reflexivity.
  - apply IH. intros j' v' I. apply (R j' v'). right. exact I.
Qed.
Lemma no_more {A} (l l' : list A) : l' = l -> l' = l ++ [].
Proof. rewrite app_nil_r. auto. Qed.
Lemma has_place {K} `{EqDec K} m mk bad (s : tstate K) i o p d : tinv m mk bad s -> nth_error (t_calls s) i = Some (o, p) -> t_lock s = Some (i, d) -> In i (t_order s).
Proof.
  intros T C L. destruct (ti_call _ _ _ _ T _ _ _ C) as [(_ & _ & W)|(pre & rest & ? & ? & ? & ? & ? & ? & ? & E1 & _)]; [exfalso; apply W; apply owner_lock; eauto|].
  rewrite E1. apply in_or_app. right. left. reflexivity.
Qed.

(** the owner of the lock makes a step and keeps it *)
Lemma own_step {K} `{EqDec K} m mk bad (s s' : tstate K) i o p p' d d' x : tinv m mk bad s -> nth_error (t_calls s) i = Some (o, p) -> t_lock s = Some (i, d) -> t_lock s' = Some (i, d') ->
  t_calls s' = set_prog i p' (t_calls s) -> t_order s' = t_order s -> t_disposed s' = t_disposed s ++ map (pair i) x -> (ins d p -> ins d' p') ->
  (forall c1 n1 ds r, exec (bad i) p (t_c s) (t_new s) = (c1, n1, ds, r) -> exists ds', ds = x ++ ds' /\ exec (bad i) p' (t_c s') (t_new s') = (c1, n1, ds', r)) -> tinv m mk bad s'.
Proof.
  intros T C L L' EC EO ED EI EX. pose proof (ops_calls _ _ _ _ EC) as EP. pose proof (len_calls _ _ _ _ EC) as EL. pose proof (nth_lt _ _ _ C) as Li.
  constructor.
  - rewrite EO. apply T.
  - rewrite EO, EL. apply T.
  - rewrite EC. apply set_simple. apply T.
  - intros j o' q E. rewrite EC, nth_set_prog in E. destruct (Nat.eqb i j) eqn:Q.
    + apply Nat.eqb_eq in Q as <-. rewrite C in E. injection E as <- <-. right. destruct (ti_call _ _ _ _ T _ _ _ C) as [(_ & _ & W)|(pre & rest & c0 & n0 & c1 & n1 & ds & r & ds2 & E1 & E2 & E3 & E4 & E5)].
      { exfalso. apply W. apply owner_lock. eauto. }
      destruct E5 as [(d0 & L0 & E6 & E7 & E8)|(W & _)]; [|exfalso; apply W; apply owner_lock; eauto].
      rewrite L in L0. injection L0 as <-. destruct (EX _ _ _ _ E8) as (ds' & -> & E9). exists pre, rest, c0, n0, c1, n1, ds, r, ds'. rewrite EO, EP. split; [exact E1|]. split; [exact E2|]. split; [exact E3|].
      split. { rewrite (disposed_by_app s s' i i x ED), Nat.eqb_refl, <- app_assoc. exact E4. }
      left. exists d'. auto.
    + apply Nat.eqb_neq in Q. apply (other_call m mk bad s s' i j o' q [] x Q); auto.
      * rewrite app_nil_r. exact EO.
      * intros y [].
      * unfold owner. rewrite L. congruence.
      * unfold owner. rewrite L'. congruence.
      * exact (ti_call _ _ _ _ T _ _ _ E).
  - exact (disp_placed s s' i x [] (ti_disp _ _ _ _ T) (or_intror (has_place _ _ _ _ _ _ _ _ T C L)) ED (no_more _ _ EO)).
  - rewrite L'. discriminate.
  - rewrite L', EL. intros j d0 [= <- <-]. exact Li.
Qed.

(** it releases the lock *)
Lemma rel_step {K} `{EqDec K} m mk bad (s s' : tstate K) i o p' : tinv m mk bad s -> nth_error (t_calls s) i = Some (o, Rel p') -> t_lock s = Some (i, 1%nat) -> t_lock s' = None ->
  t_calls s' = set_prog i p' (t_calls s) -> t_order s' = t_order s -> t_disposed s' = t_disposed s -> t_c s' = t_c s -> t_new s' = t_new s -> tinv m mk bad s'.
Proof.
  intros T C L L' EC EO ED Ec En. pose proof (ops_calls _ _ _ _ EC) as EP. pose proof (len_calls _ _ _ _ EC) as EL. pose proof (nth_lt _ _ _ C) as Li.
  assert (ED' : t_disposed s' = t_disposed s ++ map (pair i) []) by (cbn; rewrite app_nil_r; exact ED).
  destruct (ti_call _ _ _ _ T _ _ _ C) as [(_ & _ & W)|(pre & rest & c0 & n0 & c1 & n1 & ds & r & ds2 & E1 & E2 & E3 & E4 & E5)]; [exfalso; apply W; apply owner_lock; eauto|].
  destruct E5 as [(d0 & L0 & -> & E7 & E8)|(W & _)]; [|exfalso; apply W; apply owner_lock; eauto]. rewrite L in L0. injection L0 as <-. cbn in E7, E8.
  destruct (post_exec (bad i) p' E7) as (ds' & r' & PE). rewrite PE in E8. injection E8 as E8a E8b E8c E8d. subst ds' r'.
  constructor.
  - rewrite EO. apply T.
  - rewrite EO, EL. apply T.
  - rewrite EC. apply set_simple. apply T.
  - intros j o' q E. rewrite EC, nth_set_prog in E. destruct (Nat.eqb i j) eqn:Q.
    + apply Nat.eqb_eq in Q as <-. rewrite C in E. injection E as <- <-. right. exists pre, [], c0, n0, c1, n1, ds, r, ds2. rewrite EO, EP. split; [exact E1|]. split; [exact E2|]. split; [exact E3|].
      split. { unfold disposed_by. rewrite ED. exact E4. }
      right. split; [unfold owner; rewrite L'; discriminate|]. auto.
    + apply Nat.eqb_neq in Q. apply (other_call m mk bad s s' i j o' q [] [] Q); auto.
      * rewrite app_nil_r. exact EO.
      * intros y [].
      * unfold owner. rewrite L. congruence.
      * unfold owner. rewrite L'. discriminate.
      * exact (ti_call _ _ _ _ T _ _ _ E).
  - exact (disp_placed s s' i [] [] (ti_disp _ _ _ _ T) (or_introl eq_refl) ED' (no_more _ _ EO)).
  - intros _. rewrite EO, EP, E1, after_app, E2. cbn. assert (O : nth_error (ops s) i = Some o) by (unfold ops; rewrite nth_error_map, C; reflexivity). rewrite O.
    destruct (atom m (mk i) o c0 n0) as [[[c' n'] r'] out] eqn:A. pose proof (exec_atom (bad i) _ _ _ _ _ _ _ _ _ (ti_simple _ _ _ _ T _ _ _ C) A) as X. rewrite X in E3. injection E3 as <- <- _ _. rewrite Ec, En. congruence.
  - rewrite L'. discriminate.
Qed.

(** a call takes the free lock *)
Lemma acq_step {K} `{EqDec K} m mk bad (s s' : tstate K) i o q : tinv m mk bad s -> nth_error (t_calls s) i = Some (o, Acq q) -> t_lock s = None -> t_lock s' = Some (i, 1%nat) ->
  t_calls s' = set_prog i q (t_calls s) -> t_order s' = t_order s ++ [i] -> t_disposed s' = t_disposed s -> t_c s' = t_c s -> t_new s' = t_new s -> tinv m mk bad s'.
Proof.
  intros T C L L' EC EO ED Ec En. pose proof (ops_calls _ _ _ _ EC) as EP. pose proof (len_calls _ _ _ _ EC) as EL. pose proof (nth_lt _ _ _ C) as Li.
  assert (ED' : t_disposed s' = t_disposed s ++ map (pair i) []) by (cbn; rewrite app_nil_r; exact ED).
  destruct (ti_call _ _ _ _ T _ _ _ C) as [(NI & Ep & W)|(pre & rest & c0 & n0 & c1 & n1 & ds & r & ds2 & E1 & E2 & E3 & E4 & E5)].
  2:{ exfalso. destruct E5 as [(d0 & L0 & _)|(_ & P & _)]; [congruence|exact P]. }
  pose proof (simple_starts m (mk i) o (ti_simple _ _ _ _ T _ _ _ C)) as ST. rewrite <- Ep in ST. cbn in ST.
  constructor.
  - rewrite EO. apply (Permutation_NoDup (Permutation_cons_append _ _)). constructor; [exact NI|apply T].
  - rewrite EO, EL. intros j I. apply in_app_or in I as [I|[<-|[]]]; [apply (ti_range _ _ _ _ T); exact I|exact Li].
  - rewrite EC. apply set_simple. apply T.
  - intros j o' q' E. rewrite EC, nth_set_prog in E. destruct (Nat.eqb i j) eqn:Q.
    + apply Nat.eqb_eq in Q as <-. rewrite C in E. injection E as <- <-. right.
      destruct (exec (bad i) (Acq q) (t_c s) (t_new s)) as [[[c1 n1] ds] r] eqn:X. exists (t_order s), [], (t_c s), (t_new s), c1, n1, ds, r, ds. rewrite EO, EP. split; [reflexivity|].
      split; [symmetry; apply (ti_free _ _ _ _ T L)|]. split; [rewrite <- Ep; exact X|].
      split. { replace (disposed_by s' i) with (@nil nat); [reflexivity|]. symmetry. unfold disposed_by. rewrite ED. exact (not_placed_nothing s i (ti_disp _ _ _ _ T) NI). }
      left. exists 1%nat. rewrite Ec, En. auto.
    + apply Nat.eqb_neq in Q. apply (other_call m mk bad s s' i j o' q' [i] [] Q); auto.
      * intros y [<-|[]]. reflexivity.
      * unfold owner. rewrite L. discriminate.
      * unfold owner. rewrite L'. congruence.
      * exact (ti_call _ _ _ _ T _ _ _ E).
  - exact (disp_placed s s' i [] [i] (ti_disp _ _ _ _ T) (or_introl eq_refl) ED' EO).
  - rewrite L'. discriminate.
  - rewrite L', EL. intros j d0 [= <- <-]. exact Li.
Qed.

(** a call that has released the lock disposes of a value *)
Lemma post_step {K} `{EqDec K} m mk bad (s s' : tstate K) i o v f : tinv m mk bad s -> nth_error (t_calls s) i = Some (o, Dispose v f) -> owner s <> Some i -> t_lock s' = t_lock s ->
  t_calls s' = set_prog i (f (bad i v)) (t_calls s) -> t_order s' = t_order s -> t_disposed s' = t_disposed s ++ [(i, v)] -> t_c s' = t_c s -> t_new s' = t_new s -> tinv m mk bad s'.
Proof.
  intros T C W EK EC EO ED Ec En. pose proof (ops_calls _ _ _ _ EC) as EP. pose proof (len_calls _ _ _ _ EC) as EL. pose proof (nth_lt _ _ _ C) as Li.
  assert (ED' : t_disposed s' = t_disposed s ++ map (pair i) [v]) by exact ED.
  assert (EW : owner s' = owner s) by (unfold owner; rewrite EK; reflexivity).
  destruct (ti_call _ _ _ _ T _ _ _ C) as [(_ & Ep & _)|(pre & rest & c0 & n0 & c1 & n1 & ds & r & ds2 & E1 & E2 & E3 & E4 & E5)].
  { exfalso. pose proof (simple_starts m (mk i) o (ti_simple _ _ _ _ T _ _ _ C)) as ST. rewrite <- Ep in ST. exact ST. }
  destruct E5 as [(d0 & L0 & _)|(_ & P & E6)]; [exfalso; apply W; apply owner_lock; eauto|]. cbn in P.
  constructor.
  - rewrite EO. apply T.
  - rewrite EO, EL. apply T.
  - rewrite EC. apply set_simple. apply T.
  - intros j o' q E. rewrite EC, nth_set_prog in E. destruct (Nat.eqb i j) eqn:Q.
    + apply Nat.eqb_eq in Q as <-. rewrite C in E. injection E as <- <-. right. destruct (post_exec (bad i) _ (P (bad i v))) as (ds' & r' & PE).
      assert (X : ds2 = v :: ds' /\ r' = r). { specialize (E6 [] 0%nat). cbn in E6. rewrite PE in E6. injection E6 as <- <-. auto. } destruct X as [-> ->].
      exists pre, rest, c0, n0, c1, n1, ds, r, ds'. rewrite EO, EP. split; [exact E1|]. split; [exact E2|]. split; [exact E3|].
      split. { rewrite (disposed_by_app s s' i i [v] ED'), Nat.eqb_refl, <- app_assoc. exact E4. }
      right. rewrite EW. auto.
    + apply Nat.eqb_neq in Q. destruct (ti_call _ _ _ _ T _ _ _ E) as [(A & B & D)|(pre' & rest' & c0' & n0' & c1' & n1' & ds' & r' & ds2' & F1 & F2 & F3 & F4 & F5)].
      * left. split; [rewrite EO; exact A|]. split; [exact B|]. rewrite EW. exact D.
      * right. exists pre', rest', c0', n0', c1', n1', ds', r', ds2'. rewrite EO, EP, EW, EK, Ec, En. split; [exact F1|]. split; [exact F2|]. split; [exact F3|].
        split; [|exact F5]. rewrite (disposed_by_app s s' i j [v] ED'). replace (Nat.eqb j i) with false by (symmetry; apply Nat.eqb_neq; auto). rewrite app_nil_r. exact F4.
  - apply (disp_placed s s' i [v] [] (ti_disp _ _ _ _ T)); [|exact ED'|exact (no_more _ _ EO)]. right. rewrite E1. apply in_or_app. right. left. reflexivity.
  - rewrite EK, Ec, En, EO, EP. apply T.
  - rewrite EK, EL. apply T.
Qed.

(** ** every step *)
Lemma tinstr_inv {K} `{EqDec K} m mk bad (s : tstate K) i o p : tinv m mk bad s -> nth_error (t_calls s) i = Some (o, p) -> tinv m mk bad (tinstr bad s i p).
Proof.
  intros T C.
  assert (Z : (exists q, p = Acq q) \/ (exists r, p = Done r) \/ (owner s <> Some i /\ exists v f, p = Dispose v f) \/ exists d, t_lock s = Some (i, d) /\ ins d p).
  { destruct (ti_call _ _ _ _ T _ _ _ C) as [(_ & Ep & _)|(pre & rest & c0 & n0 & c1 & n1 & ds & r & ds2 & E1 & E2 & E3 & E4 & E5)].
    - left. pose proof (simple_starts m (mk i) o (ti_simple _ _ _ _ T _ _ _ C)) as ST. rewrite <- Ep in ST. destruct p; try destruct ST. eauto.
    - destruct E5 as [(d0 & L0 & _ & I0 & _)|(W & P & _)]; [right; right; right; eauto|]. right. destruct p; try destruct P; [left; eauto|right; left; split; [exact W|eauto]]. }
  destruct p as [r|q|q|k f|k f|k v q|f|f|f|f|q|f|v f]; cbn [tinstr].
  - exact T.
  - destruct (t_lock s) as [[j d]|] eqn:L.
    + destruct (Nat.eqb i j) eqn:Q; [|exact T]. apply Nat.eqb_eq in Q as <-.
      eapply (own_step m mk bad s _ i o _ q d (S d) [] T C L); cbn; auto using app_nil_end. intros c1 n1 ds r X. exists ds. auto.
    + eapply (acq_step m mk bad s _ i o q T C L); reflexivity.
  - destruct Z as [(? & [=])|[(? & [=])|[(_ & ? & ? & [=])|(d & L & I0)]]]. rewrite L. cbn in I0. destruct d as [|[|d]]; [destruct I0| |].
    + eapply (rel_step m mk bad s _ i o q T C L); reflexivity.
    + eapply (own_step m mk bad s _ i o _ q (S (S d)) (S d) [] T C L); cbn; auto using app_nil_end. intros c1 n1 ds r X. exists ds. auto.
  - destruct Z as [(? & [=])|[(? & [=])|[(_ & ? & ? & [=])|(d & L & I0)]]]. eapply (own_step m mk bad s _ i o _ _ d d [] T C L); cbn; auto using app_nil_end; [intros _; apply I0|]. intros c1 n1 ds r X. exists ds. auto.
  - destruct Z as [(? & [=])|[(? & [=])|[(_ & ? & ? & [=])|(d & L & I0)]]]. eapply (own_step m mk bad s _ i o _ _ d d [] T C L); cbn; auto using app_nil_end; [intros _; apply I0|]. intros c1 n1 ds r X. exists ds. auto.
  - destruct Z as [(? & [=])|[(? & [=])|[(_ & ? & ? & [=])|(d & L & I0)]]]. eapply (own_step m mk bad s _ i o _ _ d d [] T C L); cbn; auto using app_nil_end; [intros _; apply I0|]. intros c1 n1 ds r X. exists ds. auto.
  - destruct Z as [(? & [=])|[(? & [=])|[(_ & ? & ? & [=])|(d & L & I0)]]]. eapply (own_step m mk bad s _ i o _ _ d d [] T C L); cbn; auto using app_nil_end; [intros _; apply I0|]. intros c1 n1 ds r X. exists ds. auto.
  - destruct Z as [(? & [=])|[(? & [=])|[(_ & ? & ? & [=])|(d & L & I0)]]]. eapply (own_step m mk bad s _ i o _ _ d d [] T C L); cbn; auto using app_nil_end; [intros _; apply I0|]. intros c1 n1 ds r X. exists ds. auto.
  - destruct Z as [(? & [=])|[(? & [=])|[(_ & ? & ? & [=])|(d & L & I0)]]]. destruct (t_c s) as [|[k0 v0] c] eqn:Ec.
    + eapply (own_step m mk bad s _ i o _ _ d d [] T C L); cbn; auto using app_nil_end; [intros _; apply I0|]. rewrite Ec. intros c1 n1 ds r X. exists ds. auto.
    + eapply (own_step m mk bad s _ i o _ _ d d [] T C L); cbn; auto using app_nil_end; [intros _; apply I0|]. rewrite Ec. intros c1 n1 ds r X. exists ds. auto.
  - destruct Z as [(? & [=])|[(? & [=])|[(_ & ? & ? & [=])|(d & L & I0)]]]. eapply (own_step m mk bad s _ i o _ _ d d [] T C L); cbn; auto using app_nil_end; [intros _; apply I0|]. intros c1 n1 ds r X. exists ds. auto.
  - destruct Z as [(? & [=])|[(? & [=])|[(_ & ? & ? & [=])|(d & L & I0)]]]. eapply (own_step m mk bad s _ i o _ _ d d [] T C L); cbn; auto using app_nil_end; [intros _; apply I0|]. intros c1 n1 ds r X. exists ds. auto.
  - destruct Z as [(? & [=])|[(? & [=])|[(_ & ? & ? & [=])|(d & L & I0)]]]. eapply (own_step m mk bad s _ i o _ _ d d [] T C L); cbn; auto using app_nil_end; [intros _; apply I0|]. intros c1 n1 ds r X. exists ds. auto.
  - destruct Z as [(? & [=])|[(? & [=])|[(W & _)|(d & L & I0)]]].
    + eapply (post_step m mk bad s _ i o v f T C W); reflexivity.
    + eapply (own_step m mk bad s _ i o _ _ d d [v] T C L); cbn; auto; [intros _; apply I0|]. intros c1 n1 ds r X. destruct (exec (bad i) (f (bad i v)) (t_c s) (t_new s)) as [[[? ?] ds'] ?] eqn:Y. injection X as <- <- <- <-. exists ds'. auto.
Qed.

Lemma tstep_inv {K} `{EqDec K} m mk bad (s : tstate K) e : (forall o, e = TBegin o -> simple o = true) -> tinv m mk bad s -> tinv m mk bad (tstep m mk bad s e).
Proof.
  intros Se T. destruct e as [o|i]; cbn [tstep].
  2:{ destruct (nth_error (t_calls s) i) as [[o p]|] eqn:C; [|exact T]. exact (tinstr_inv m mk bad s i o p T C). }
  assert (EP : forall os : list (top K), map fst (t_calls s ++ [(o, prog_of m (mk (length (t_calls s))) o)]) = ops s ++ [o]) by (intros; rewrite map_app; reflexivity).
  assert (R : forall a, (forall i, In i a -> In i (t_order s)) -> after m mk (ops s ++ [o]) a [] 0 = after m mk (ops s) a [] 0).
  { intros a Q. apply after_more. intros i I. unfold ops. rewrite map_length. apply (ti_range _ _ _ _ T). auto. }
  constructor; cbn [t_c t_new t_lock t_calls t_disposed t_order].
  - apply T.
  - rewrite app_length. cbn. intros i I. apply (ti_range _ _ _ _ T) in I. lia.
  - intros i o' p E. destruct (Nat.lt_ge_cases i (length (t_calls s))) as [Li|Li].
    + rewrite nth_error_app1 in E by exact Li. apply (ti_simple _ _ _ _ T _ _ _ E).
    + rewrite nth_error_app2 in E by exact Li. destruct (i - length (t_calls s))%nat as [|x]; cbn in E; [injection E as <- <-; auto|destruct x; discriminate].
  - intros i o' p E. destruct (Nat.lt_ge_cases i (length (t_calls s))) as [Li|Li].
    + rewrite nth_error_app1 in E by exact Li. destruct (ti_call _ _ _ _ T _ _ _ E) as [W|(pre & rest & c0 & n0 & c1 & n1 & ds & r & ds2 & E1 & E2 & E3 & E4 & E5)]; [left; exact W|].
      right. exists pre, rest, c0, n0, c1, n1, ds, r, ds2. split; [exact E1|]. split; [|auto]. unfold ops at 1. cbn [t_calls]. rewrite (EP []). rewrite R; [exact E2|].
      intros j J. rewrite E1. apply in_or_app. left. exact J.
    + rewrite nth_error_app2 in E by exact Li. destruct (i - length (t_calls s))%nat as [|x] eqn:X; cbn in E; [injection E as <- <-|destruct x; discriminate]. replace i with (length (t_calls s)) in * by lia.
      left. split; [|split; [reflexivity|]].
      * cbn. intros I. apply (ti_range _ _ _ _ T) in I. lia.
      * intros W. apply owner_lock in W as [d W]. cbn in W. apply (ti_own _ _ _ _ T) in W. lia.
  - apply T.
  - intros L. unfold ops. cbn [t_calls]. rewrite (EP []). rewrite R; [|auto]. apply (ti_free _ _ _ _ T L).
  - rewrite app_length. intros i d L. apply (ti_own _ _ _ _ T) in L. lia.
Qed.
Lemma tinv_init {K} `{EqDec K} m mk bad : tinv m mk bad (tinit (K := K)).
Proof.
  constructor; cbn.
  - constructor.
  - intros i [].
  - intros i o p E. destruct i; discriminate.
  - intros i o p E. destruct i; discriminate.
  - intros i v [].
  - reflexivity.
  - discriminate.
Qed.
Lemma trun_inv {K} `{EqDec K} m mk bad (l : list (tevent K)) : all_simple l -> tinv m mk bad (trun m mk bad l).
Proof.
  unfold trun, all_simple. intros S. assert (G : forall s, tinv m mk bad s -> tinv m mk bad (fold_left (tstep m mk bad) l s)); [|apply G, tinv_init].
  revert S. induction l as [|e l IH]; cbn; intros S s T; [exact T|]. apply IH; [intros; apply S; auto|]. apply tstep_inv; [|exact T]. intros o ->. apply S. auto.
Qed.

(** ** results *)
Lemma contents_in_order {K} `{EqDec K} m mk bad (l : list (tevent K)) : all_simple l -> let s := trun m mk bad l in t_lock s = None -> (t_c s, t_new s) = after m mk (ops s) (t_order s) [] 0.
Proof. intros S s L. exact (ti_free _ _ _ _ (trun_inv m mk bad l S) L). Qed.

Lemma order_once {K} `{EqDec K} m mk bad (l : list (tevent K)) : all_simple l -> let s := trun m mk bad l in NoDup (t_order s) /\ forall i, In i (t_order s) -> exists o, called s i o.
Proof.
  intros S s. pose proof (trun_inv m mk bad l S) as T. split; [apply T|]. intros i I. apply (ti_range _ _ _ _ T) in I. apply nth_error_Some in I. unfold called. fold s in I.
  destruct (nth_error (t_calls s) i) as [[o p]|]; [eauto|congruence].
Qed.

Lemma call_in_order {K} `{EqDec K} m mk bad (l : list (tevent K)) i o p : all_simple l -> let s := trun m mk bad l in nth_error (t_calls s) i = Some (o, p) ->
  (~ In i (t_order s) /\ p = prog_of m (mk i) o /\ disposed_by s i = []) \/
  exists pre c n c' n' r out ds2, does m mk s pre i (c', n', r, out) /\ after m mk (ops s) pre [] 0 = (c, n) /\ atom m (mk i) o c n = (c', n', r, out) /\ attempted (bad i) out = disposed_by s i ++ ds2 /\
    (owner s <> Some i -> forall x y, exec (bad i) p x y = (x, y, ds2, outcome (bad i) out r)).
Proof.
  intros S s C. pose proof (trun_inv m mk bad l S) as T. fold s in T. destruct (ti_call _ _ _ _ T _ _ _ C) as [(A & B & _)|(pre & rest & c0 & n0 & c1 & n1 & ds & r & ds2 & E1 & E2 & E3 & E4 & E5)].
  - left. split; [exact A|]. split; [exact B|]. exact (not_placed_nothing s i (ti_disp _ _ _ _ T) A).
  - right. destruct (atom m (mk i) o c0 n0) as [[[c' n'] r'] out] eqn:A. pose proof (exec_atom (bad i) _ _ _ _ _ _ _ _ _ (ti_simple _ _ _ _ T _ _ _ C) A) as X. rewrite X in E3. injection E3 as <- <- <- <-.
    exists pre, c0, n0, c', n', r', out, ds2. split; [|split; [exact E2|split; [exact A|split; [exact E4|]]]].
    + exists rest, o, c0, n0. split; [exact E1|]. split; [unfold ops; rewrite nth_error_map, C; reflexivity|]. split; [exact E2|]. rewrite A. reflexivity.
    + intros W x y. destruct E5 as [(d & L & _)|(_ & _ & Q)]; [exfalso; apply W; apply owner_lock; eauto|]. apply Q.
Qed.

Lemma ended_result {K} `{EqDec K} m mk bad (l : list (tevent K)) i r : all_simple l -> let s := trun m mk bad l in ended s i r ->
  exists pre c n v out, does m mk s pre i (c, n, v, out) /\ r = outcome (bad i) out v /\ disposed_by s i = attempted (bad i) out.
Proof.
  intros S s [o C]. pose proof (trun_inv m mk bad l S) as T. fold s in T. assert (W : owner s <> Some i).
  { intros W. apply owner_lock in W as [d W]. destruct (ti_call _ _ _ _ T _ _ _ C) as [(_ & Ep & _)|(pre & rest & c0 & n0 & c1 & n1 & ds & r0 & ds2 & E1 & E2 & E3 & E4 & E5)].
    - pose proof (simple_starts m (mk i) o (ti_simple _ _ _ _ T _ _ _ C)) as ST. rewrite <- Ep in ST. exact ST.
    - destruct E5 as [(d0 & _ & _ & I0 & _)|(W0 & _)]; [exact I0|]. apply W0. apply owner_lock. eauto. }
  destruct (call_in_order m mk bad l i o (Done r) S C) as [(_ & Ep & _)|(pre & c & n & c' & n' & v & out & ds2 & D & E1 & E2 & E3 & E4)].
  - pose proof (simple_starts m (mk i) o (ti_simple _ _ _ _ T _ _ _ C)) as ST. rewrite <- Ep in ST. destruct ST.
  - specialize (E4 W [] 0%nat). cbn in E4. injection E4 as <- E4. exists pre, c', n', v, out. split; [exact D|]. split; [exact E4|]. fold s in E3. rewrite app_nil_r in E3. symmetry. exact E3.
Qed.

Lemma disposed_prefix {K} `{EqDec K} m mk bad (l : list (tevent K)) i v : all_simple l -> let s := trun m mk bad l in In v (disposed_by s i) ->
  exists pre c n r out more, does m mk s pre i (c, n, r, out) /\ out = disposed_by s i ++ more.
Proof.
  intros S s I. pose proof (trun_inv m mk bad l S) as T. fold s in T.
  assert (R : exists w, In (i, w) (t_disposed s)).
  { unfold disposed_by in I. apply in_map_iff in I as ([j w] & _ & J). apply filter_In in J as [J Q]. apply Nat.eqb_eq in Q. cbn in Q. subst j. eauto. }
  destruct R as [w R]. apply (ti_disp _ _ _ _ T) in R. pose proof (ti_range _ _ _ _ T _ R) as Li. apply nth_error_Some in Li.
  destruct (nth_error (t_calls s) i) as [[o p]|] eqn:C; [|congruence]. destruct (call_in_order m mk bad l i o p S C) as [(A & _)|(pre & c & n & c' & n' & r & out & ds2 & D & E1 & E2 & E3 & E4)]; [contradiction|].
  assert (P : exists more, out = attempted (bad i) out ++ more).
  { clear. induction out as [|x out [more IH]]; cbn; [exists []; reflexivity|]. destruct (bad i x); [exists out; reflexivity|]. exists more. cbn. rewrite <- IH. reflexivity. }
  destruct P as [more P]. exists pre, c', n', r, out, (ds2 ++ more). split; [exact D|]. rewrite app_assoc. fold s in E3. rewrite <- E3. exact P.
Qed.

(** the order only grows *)
Lemma tinstr_order {K} `{EqDec K} bad (s : tstate K) i p : exists e, t_order (tinstr bad s i p) = t_order s ++ e.
Proof.
  destruct p; cbn [tinstr]; try (exists []; rewrite app_nil_r; reflexivity).
  - destruct (t_lock s) as [[j d]|]; [destruct (Nat.eqb i j)|]; cbn; eauto; exists []; rewrite app_nil_r; reflexivity.
  - destruct (t_lock s) as [[j [|[|d]]]|]; exists []; cbn; rewrite app_nil_r; reflexivity.
  - destruct (t_c s) as [|[k v] c]; exists []; cbn; rewrite app_nil_r; reflexivity.
Qed.
Lemma order_grows {K} `{EqDec K} m mk bad (l1 l2 : list (tevent K)) : exists more, t_order (trun m mk bad (l1 ++ l2)) = t_order (trun m mk bad l1) ++ more.
Proof.
  unfold trun. rewrite fold_left_app. generalize (fold_left (tstep m mk bad) l1 tinit). induction l2 as [|e l IH]; cbn; intros s; [exists []; rewrite app_nil_r; reflexivity|].
  destruct (IH (tstep m mk bad s e)) as [more ->]. assert (X : exists e', t_order (tstep m mk bad s e) = t_order s ++ e').
  { destruct e as [o|i]; cbn [tstep]; [exists []; cbn; rewrite app_nil_r; reflexivity|]. destruct (nth_error (t_calls s) i) as [[o p]|]; [apply tinstr_order|exists []; rewrite app_nil_r; reflexivity]. }
  destruct X as [e' ->]. exists (e' ++ more). rewrite app_assoc. reflexivity.
Qed.

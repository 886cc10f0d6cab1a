(** Property theorems C82-C84: the recently-used container and the pool manager with threads. The words are in
    S_LruThreads; [t_order s] are the calls in the order in which they take effect. [mk] and [bad] say when the
    constructor of a pool and dispose_func raise. *)
From Coq Require Import Strings.String.
From Verif Require Import PyBase PyDict M_Lru M_LruThreads S_LruThreads L_LruThreads L_LruThreads2.

(** ** C82. pop(k, default) and setdefault are not atomic: false of this code.  Two threads pop the same key with a
    default: one gets the value, the other KeyError. *)
Definition twice_pop : list (tevent Z) :=
  TBegin (TSet 1 7) :: repeat (TStep 0%nat) 6 ++ TBegin (TPop 1) :: TBegin (TPop 1) :: repeat (TStep 1%nat) 4 ++ repeat (TStep 2%nat) 4 ++ repeat (TStep 1%nat) 4 ++ repeat (TStep 2%nat) 3.
Theorem C82_pop_with_default_raises_refuted : exists l : list (tevent Z), let s := trun 10 (fun _ => None) (fun _ _ => None) l in
  (forall o, In (TBegin o) l -> o = TSet 1 7 \/ o = TPop 1) /\ called s 2 (TPop 1) /\ ended s 2 (Raise KeyError) /\
  forall c n, let '(_, _, r, _) := atom 10 None (TPop 1) c n in exists x, r = Ok x.
Proof.
  exists twice_pop. vm_compute trun. split; [|split; [eexists; reflexivity|split; [eexists; reflexivity|]]].
  - intros o I. vm_compute in I. repeat (destruct I as [I|I]; [first [discriminate I|injection I as <-; auto]|]). destruct I.
  - intros c n. cbn. unfold lru_get. destruct (dget 1 c); eexists; reflexivity.
Qed.
Print Assumptions C82_pop_with_default_raises_refuted.
(** Two threads call setdefault for the same key: they get different values, and the value given to the first is
    disposed of. *)
Definition twice_default : list (tevent Z) := TBegin (TSetDefault 1 7) :: TBegin (TSetDefault 1 8) :: repeat (TStep 0%nat) 3 ++ repeat (TStep 1%nat) 3 ++ repeat (TStep 0%nat) 5 ++ repeat (TStep 1%nat) 6.
Theorem C82_setdefault_differs_refuted : exists l : list (tevent Z), let s := trun 10 (fun _ => None) (fun _ _ => None) l in
  called s 0 (TSetDefault 1 7) /\ called s 1 (TSetDefault 1 8) /\ length (t_calls s) = 2%nat /\ ended s 0 (Ok (OVal 7)) /\ ended s 1 (Ok (OVal 8)) /\ t_disposed s = [(1, 7)]%nat.
Proof. exists twice_default. vm_compute trun. repeat split; eexists; reflexivity. Qed.
Print Assumptions C82_setdefault_differs_refuted.

(** What holds: all other operations, and the lookup of a pool, take effect one after the other, in an order in which
    each call occurs at most once. Missing: pop and setdefault. *)
Theorem C82_order_partial : forall K (E : EqDec K) m mk bad (l : list (tevent K)), all_simple l ->
  let s := trun m mk bad l in NoDup (t_order s) /\ forall i, In i (t_order s) -> exists o, called s i o.
Proof. exact @order_once. Qed.
Print Assumptions C82_order_partial.
(** the order of those that have taken effect is never changed later: a call that ends before another begins comes
    before it *)
Theorem C82_order_is_kept_partial : forall K (E : EqDec K) m mk bad (l1 l2 : list (tevent K)), exists more, t_order (trun m mk bad (l1 ++ l2)) = t_order (trun m mk bad l1) ++ more.
Proof. exact @order_grows. Qed.
Print Assumptions C82_order_is_kept_partial.
(** a call that has ended has a place in the order, has returned what it does there (or the exception of dispose_func),
    and has called dispose_func for the values it took out, once each, in order, up to the first that raised *)
Theorem C82_results_partial : forall K (E : EqDec K) m mk bad (l : list (tevent K)) i r, all_simple l -> let s := trun m mk bad l in ended s i r ->
  exists pre c n v out, does m mk s pre i (c, n, v, out) /\ r = outcome (bad i) out v /\ disposed_by s i = attempted (bad i) out.
Proof. exact @ended_result. Qed.
Print Assumptions C82_results_partial.
(** a call never disposes of a value it did not take out *)
Theorem C82_disposed_partial : forall K (E : EqDec K) m mk bad (l : list (tevent K)) i v, all_simple l -> let s := trun m mk bad l in In v (disposed_by s i) ->
  exists pre c n r out more, does m mk s pre i (c, n, r, out) /\ out = disposed_by s i ++ more.
Proof. exact @disposed_prefix. Qed.
Print Assumptions C82_disposed_partial.
(** whenever nobody holds the lock, the contents are those after the calls of the order *)
Theorem C82_contents_partial : forall K (E : EqDec K) m mk bad (l : list (tevent K)), all_simple l ->
  let s := trun m mk bad l in t_lock s = None -> (t_c s, t_new s) = after m mk (ops s) (t_order s) [] 0.
Proof. exact @contents_in_order. Qed.
Print Assumptions C82_contents_partial.

(** ** C83. Two lookups of the same key return the same pool, unless one of these pools has been taken out (evicted,
    deleted or cleared) *)
Theorem C83_one_pool : forall K (E : EqDec K) m mk bad (l : list (tevent K)) i j k v w, managed l -> let s := trun m mk bad l in
  called s i (TLookup k) -> called s j (TLookup k) -> ended s i (Ok (OVal v)) -> ended s j (Ok (OVal w)) -> v = w \/ taken_out m mk s v \/ taken_out m mk s w.
Proof. exact @one_pool. Qed.
Print Assumptions C83_one_pool.
(** no pool is returned for two keys *)
Theorem C83_own_pool : forall K (E : EqDec K) m mk bad (l : list (tevent K)) i j k k' v, managed l -> let s := trun m mk bad l in
  called s i (TLookup k) -> called s j (TLookup k') -> ended s i (Ok (OVal v)) -> ended s j (Ok (OVal v)) -> k = k'.
Proof. exact @own_pool. Qed.
Print Assumptions C83_own_pool.
(** with at most max_pools keys all lookups of a key return the same pool *)
Theorem C83_shared_pool : forall K (E : EqDec K) m mk bad (ks : list K) (l : list (tevent K)) i j k v w, (forall o, In (TBegin o) l -> exists k, o = TLookup k /\ In k ks) -> Z.of_nat (length ks) <= m ->
  let s := trun m mk bad l in called s i (TLookup k) -> called s j (TLookup k) -> ended s i (Ok (OVal v)) -> ended s j (Ok (OVal w)) -> v = w.
Proof. exact @shared_pool. Qed.
Print Assumptions C83_shared_pool.

(** ** C84. No deadlock: as long as a call has not ended, some call can make a step that changes something (all
    operations, pop and setdefault included) ... *)
Theorem C84_no_deadlock : forall K (E : EqDec K) m mk bad (l : list (tevent K)), (forall i, tstep m mk bad (trun m mk bad l) (TStep i) = trun m mk bad l) -> quiet (trun m mk bad l).
Proof. exact @not_stuck. Qed.
Print Assumptions C84_no_deadlock.
(** ... and without new calls there is no infinite sequence of such steps *)
Theorem C84_terminates : forall K (E : EqDec K) m mk bad (s : tstate K), Acc (moves m mk bad) s.
Proof. exact @moves_wf. Qed.
Print Assumptions C84_terminates.

(** ** Cases: two threads look up the same key, a third another key, with room for one pool; interleaved *)
Definition l82 : list (tevent Z) := [TBegin (TLookup 5); TBegin (TLookup 5); TBegin (TLookup 6)] ++ concat (repeat [TStep 2; TStep 0; TStep 1]%nat 40).
Definition s82 := trun 1 (fun _ => None) (fun _ _ => None) l82.
Example C82_case : all_simple l82 /\ t_order s82 = [2; 0; 1]%nat /\ t_lock s82 = None /\ t_c s82 = [(5, 1%nat)] /\ t_disposed s82 = [(0, 0)]%nat /\
  ended s82 0 (Ok (OVal 1)) /\ ended s82 1 (Ok (OVal 1)) /\ ended s82 2 (Ok (OVal 0)).
Proof.
  split. { intros o I. unfold l82 in I. apply in_app_or in I as [I|I]; [repeat (destruct I as [[= <-]|I]; [reflexivity|]); destruct I|]. apply in_concat in I as (x & I & J). apply repeat_spec in I. subst x. repeat (destruct J as [J|J]; [discriminate J|]). destruct J. }
  vm_compute. repeat split; eexists; reflexivity.
Qed.
(** a dispose_func that raises: clear() raises and skips the other values *)
Example C82_raising_case : let s := trun 5 (fun _ => None) (fun _ v => if Nat.eqb v 8 then Some TypeError else None) ([TBegin (TSet 1 7); TBegin (TSet 2 8); TBegin (TSet 3 9)] ++ concat (repeat [TStep 0; TStep 1; TStep 2]%nat 20) ++ TBegin TClear :: repeat (TStep 3%nat) 9) in
  ended s 3 (Raise TypeError) /\ disposed_by s 3 = [7; 8]%nat /\ t_c s = ([] : list (Z * nat)).
Proof. vm_compute. repeat split; try (eexists; reflexivity). Qed.
Example C83_case : managed l82 /\ taken_out 1 (fun _ => None) s82 0 /\ (forall v w, ended s82 0 (Ok (OVal v)) -> ended s82 1 (Ok (OVal w)) -> v = w).
Proof.
  split; [|split].
  - intros o I. pose proof (proj1 C82_case o I) as S. unfold l82 in I. apply in_app_or in I as [I|I]; [repeat (destruct I as [[= <-]|I]; [reflexivity|]); destruct I|]. apply in_concat in I as (x & I & J). apply repeat_spec in I. subst x. repeat (destruct J as [J|J]; [discriminate J|]). destruct J.
  - exists [2]%nat, 0%nat, [(5, 1%nat)], 2%nat, (Ok (OVal 1)), [0%nat]. split; [|left; reflexivity]. exists [1%nat], (TLookup 5), [(6, 0%nat)], 1%nat. vm_compute. repeat split.
  - intros v w [o A] [o' B]. vm_compute in A, B. congruence.
Qed.
Example C84_case : forall i, tstep 1 (fun _ => None) (fun _ _ => None) s82 (TStep i) = s82.
Proof. intros i. destruct i as [|[|[|i]]]; vm_compute; try reflexivity. destruct i; reflexivity. Qed.

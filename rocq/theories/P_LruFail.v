(** C149: every value that leaves the recently-used container is passed to dispose_func once, also if dispose_func raises.
    [fails n v] says whether the n-th call of dispose_func, with v, raises; [ops] is what was called on the container. *)
From Coq Require Import Sorting.Permutation.
From Verif Require Import PyBase PyDict M_Lru S_Lru L_Lru M_LruFail S_LruFail L_LruFail.

(** What the container holds does not depend on which calls of dispose_func raise. *)
Theorem C149_held : forall (K V : Type) (E : EqDec K) mx fails (ops : list (lop K V)), holds (f_run mx true fails ops) = holds (f_run mx true (fun _ _ => None) ops).
Proof. exact kept. Qed.
Print Assumptions C149_held.

(** No value is passed more often than it was stored, nor while it is held. *)
Theorem C149_at_most_once : forall (K V : Type) (E : EqDec K) mx fails (ops : list (lop K V)), exists lost, Permutation (stored ops) (vals (holds (f_run mx true fails ops)) ++ passed (f_run mx true fails ops) ++ lost).
Proof. exact at_most. Qed.
Print Assumptions C149_at_most_once.

(** Every value that was stored and is not held was passed once, as long as no clear() raised. *)
Theorem C149_exactly_once_partial : forall (K V : Type) (E : EqDec K) mx fails (ops : list (lop K V)), clears_fine (f_run mx true fails ops) ->
  Permutation (stored ops) (vals (holds (f_run mx true fails ops)) ++ passed (f_run mx true fails ops)).
Proof. exact exactly. Qed.
Print Assumptions C149_exactly_once_partial.

(** The caller of an assignment or a deletion that takes a value out gets what dispose_func raised for it. *)
Theorem C149_caller : forall (K V : Type) (E : EqDec K) mx fails (c : dict K V) log o v, (exists k w, o = LSet k w /\ snd (lru_set mx c k w) = [v]) \/ (exists k, o = LDel k /\ dget k c = Some v) ->
  snd (fst (f_do mx true fails c log o)) = log ++ [v] /\ snd (f_do mx true fails c log o) = match fails (length log) v with Some e => Raise e | None => Ok tt end.
Proof. exact caller. Qed.
Print Assumptions C149_caller.

(** Without a dispose_func the container holds the same, and no clear() raises. *)
Theorem C149_without : forall (K V : Type) (E : EqDec K) mx fails (ops : list (lop K V)), passed (f_run mx false fails ops) = [] /\ holds (f_run mx false fails ops) = holds (f_run mx true fails ops) /\ clears_fine (f_run mx false fails ops).
Proof. exact without. Qed.
Print Assumptions C149_without.

(** The code violates it: when dispose_func raises for a value during clear(), the values [b] after it are neither held nor passed. *)
Theorem C149_clear_refuted : forall (K V : Type) (E : EqDec K) mx fails (ops : list (lop K V)) a v b e, let s := f_run mx true fails ops in
  vals (holds s) = a ++ v :: b -> (forall i w, nth_error a i = Some w -> fails (length (passed s) + i)%nat w = None) -> fails (length (passed s) + length a)%nat v = Some e ->
  let s1 := f_run mx true fails (ops ++ [LClear]) in
  holds s1 = [] /\ passed s1 = passed s ++ a ++ [v] /\ In (LClear, Raise e) (results s1) /\ (clears_fine s -> Permutation (stored (ops ++ [LClear])) (passed s1 ++ b)).
Proof. exact clear_loses. Qed.
Print Assumptions C149_clear_refuted.

(** ** Concrete cases: dispose_func raises for 20 *)
Definition bad (n : nat) (v : Z) : option exn := if v =? 20 then Some ValueError else None.
Definition three : list (lop Z Z) := [LSet 1 10; LSet 2 20; LSet 3 30].
Example C149_cleared : f_run 3 true bad (three ++ [LClear]) = ([], [10; 20], [(LSet 1 10, Ok tt); (LSet 2 20, Ok tt); (LSet 3 30, Ok tt); (LClear, Raise ValueError)]). Proof. reflexivity. Qed.
Example C149_hypotheses : vals (holds (f_run 3 true bad three)) = [10] ++ 20 :: [30] /\ (forall i w, nth_error [10] i = Some w -> bad i w = None) /\ bad 1 20 = Some ValueError.
Proof. split; [reflexivity|]. split; [|reflexivity]. intros [|[|i]] w H; inversion H; reflexivity. Qed.
Example C149_evicted : f_run 2 true bad (three ++ [LSet 4 40]) = ([(3, 30); (4, 40)], [10; 20], [(LSet 1 10, Ok tt); (LSet 2 20, Ok tt); (LSet 3 30, Ok tt); (LSet 4 40, Raise ValueError)]). Proof. reflexivity. Qed.
Example C149_evicted_fine : clears_fine (f_run 2 true bad (three ++ [LSet 4 40])). Proof. intros e [H|[H|[H|[H|[]]]]]; discriminate H. Qed.
Example C149_deleted : f_do 3 true bad [(1, 10); (2, 20)] [] (LDel 2) = ([(1, 10)], [20], Raise ValueError). Proof. reflexivity. Qed.

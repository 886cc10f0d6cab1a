(** Property theorems C26 and C27: the recently-used container. A history is a list of operations on a new
    container with capacity [maxsize]; [lheld maxsize ops i] are the keys held before operation i. *)
From Coq Require Import Strings.String Sorting.Permutation ZifyBool.
From Verif Require Import PyBase L_PyBase PyDict L_PyDict M_Lru S_Lru L_Lru.

(** ** C26 *)
Theorem C26_bounded : forall (K V : Type) (E : EqDec K) maxsize (ops : list (lop K V)),
  len (fst (lrun maxsize ops)) <= Z.max 0 maxsize /\ NoDup (keys (fst (lrun maxsize ops))).
Proof. intros K V E maxsize ops. split; [exact (lru_bound maxsize ops)|exact (lru_wf maxsize ops)]. Qed.
Print Assumptions C26_bounded.

Theorem C26_read : forall (K V : Type) (E : EqDec K) maxsize (ops : list (lop K V)) k,
  let c := fst (lrun maxsize ops) in
  (In k (keys c) -> exists v, snd (lru_get c k) = Ok v /\ latest_value ops k v) /\
  (~ In k (keys c) -> snd (lru_get c k) = Raise KeyError).
Proof. exact lru_read. Qed.
Print Assumptions C26_read.

Theorem C26_stored_is_held : forall (K V : Type) (E : EqDec K) maxsize (ops : list (lop K V)) k v, 1 <= maxsize ->
  dget k (fst (lrun maxsize (ops ++ [LSet k v]))) = Some v.
Proof. exact lru_stored. Qed.
Print Assumptions C26_stored_is_held.

(** a key leaves only by deletion, by clear, or by eviction: the insertion of a new key into a full
    container, and then the evicted key was used longer ago than every other key held *)
Theorem C26_evicts_least_recent : forall (K V : Type) (E : EqDec K) maxsize (ops : list (lop K V)) o k,
  let c := fst (lrun maxsize ops) in
  In k (keys c) -> ~ In k (keys (fst (lrun maxsize (ops ++ [o])))) ->
  o = LDel k \/ o = LClear \/
  exists k0 v0, o = LSet k0 v0 /\ ~ In k0 (keys c) /\ len c = maxsize /\
    forall k', In k' (keys c) -> k' <> k ->
      exists t t', last_use ops (lheld maxsize ops) k t /\ last_use ops (lheld maxsize ops) k' t' /\ (t < t')%nat.
Proof. exact lru_leaves. Qed.
Print Assumptions C26_evicts_least_recent.

Definition abc : list (lop pystr Z) :=
  [LSet (str "a") 1; LSet (str "b") 2; LGet (str "a"); LSet (str "a") 3; LSet (str "c") 4].
Example C26_case : fst (lrun 2 abc) = [(str "a", 3); (str "c", 4)] /\ fst (lrun 2 (firstn 4 abc)) = [(str "b", 2); (str "a", 3)].
Proof. vm_compute. split; reflexivity. Qed.
Example C26_case_evicted : In (str "b") (keys (fst (lrun 2 (firstn 4 abc)))) /\ ~ In (str "b") (keys (fst (lrun 2 (firstn 4 abc ++ [LSet (str "c") 4])))).
Proof. vm_compute. split; [left; reflexivity|intros [H|[H|[]]]; discriminate]. Qed.

(** ** C27 *)
Theorem C27_every_value_disposed_once : forall (K V : Type) (E : EqDec K) maxsize (ops : list (lop K V)),
  Permutation (stored ops) (vals (fst (lrun maxsize ops)) ++ snd (lrun maxsize ops)).
Proof. intros K V E maxsize ops. exact (lru_disposed maxsize ops). Qed.
Print Assumptions C27_every_value_disposed_once.

(** in particular a value that was passed to dispose is not held any more, when values are distinct *)
Theorem C27_held_values_not_disposed : forall (K V : Type) (E : EqDec K) maxsize (ops : list (lop K V)) v,
  NoDup (stored ops) -> In v (vals (fst (lrun maxsize ops))) -> ~ In v (snd (lrun maxsize ops)).
Proof. exact lru_held_not_disposed. Qed.
Print Assumptions C27_held_values_not_disposed.

Example C27_case : lrun 2 (abc ++ [LDel (str "c"); LSet (str "d") 5; LClear]) = ([], [1; 2; 4; 3; 5]) /\
  stored (abc ++ [LDel (str "c"); LSet (str "d") 5; LClear]) = [1; 2; 3; 4; 5].
Proof. vm_compute. split; reflexivity. Qed.

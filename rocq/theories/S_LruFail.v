(** What C149 says about a container whose dispose_func can raise. *)
From Verif Require Import PyBase PyDict M_Lru.

Definition holds {K V} (s : dict K V * list V * list (lop K V * res unit)) : dict K V := fst (fst s).
Definition passed {K V} (s : dict K V * list V * list (lop K V * res unit)) : list V := snd (fst s).
Definition results {K V} (s : dict K V * list V * list (lop K V * res unit)) : list (lop K V * res unit) := snd s.
(** no call of clear() raised *)
Definition clears_fine {K V} (s : dict K V * list V * list (lop K V * res unit)) : Prop := forall e, ~ In (LClear, Raise e) (results s).

(** What "read-only" promises, said about lookups only. *)
From Verif Require Import PyBase PyDict M_DictOps.

(** [o] is an operation that may give key [k], which is present, another value or take it
    away: an [update] naming it or one of the removing methods. *)
Definition overwrites {K V} (k : K) (o : dictop K V) : Prop :=
  match o with
  | Update l => In k (map fst l)
  | DelItem k' | Pop k' => k' = k
  | Popitem | Clear => True
  | SetItem _ _ | Setdefault _ _ => False
  end.

(** [o] is an operation that may bring in key [k], which is absent, in a mapping of kind [c]. *)
Definition brings {K V} (c : kind) (k : K) (o : dictop K V) : Prop :=
  match o with
  | Update l => In k (map fst l)
  | Setdefault k' _ => k' = k
  | SetItem k' _ => c = WriteOnce /\ k' = k
  | DelItem _ | Pop _ | Popitem | Clear => False
  end.

(** The promise of a read-only mapping: whatever is called on it, what was there is there. *)
Definition read_only (K V : Type) (E : EqDec K) (c : kind) : Prop :=
  forall (os : list (dictop K V)) (d : dict K V) (k : K) (v : V), wf_dict d ->
    dget k d = Some v -> dget k (dict_ops c os d) = Some v.

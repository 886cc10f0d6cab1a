(** Python [dict] (CPython >= 3.7): an insertion-ordered map, as an association list
    whose keys are pairwise distinct ([wf_dict]). *)
From Verif Require Import PyBase.

Class EqDec (K : Type) := eq_dec : forall x y : K, {x = y} + {x <> y}.
#[global] Instance EqDec_Z : EqDec Z := Z.eq_dec.
#[global] Instance EqDec_pystr : EqDec pystr := pystr_eq_dec.
#[global] Instance EqDec_nat : EqDec nat := Nat.eq_dec.

Definition dict (K V : Type) := list (K * V).

Section Dict.
  Context {K V : Type} `{EqDec K}.

  Definition keys (d : dict K V) : list K := map fst d.
  Definition vals (d : dict K V) : list V := map snd d.
  Definition wf_dict (d : dict K V) : Prop := NoDup (keys d).

  (** [d.get(k)] / [d[k]] *)
  Fixpoint dget (k : K) (d : dict K V) : option V :=
    match d with
    | [] => None
    | (k', v) :: d' => if eq_dec k k' then Some v else dget k d'
    end.

  (** [k in d] *)
  Definition dmem (k : K) (d : dict K V) : bool :=
    match dget k d with Some _ => true | None => false end.

  (** [d[k] = v]: an existing key keeps its position, a new one goes last *)
  Fixpoint dset (k : K) (v : V) (d : dict K V) : dict K V :=
    match d with
    | [] => [(k, v)]
    | (k', v') :: d' => if eq_dec k k' then (k', v) :: d' else (k', v') :: dset k v d'
    end.

  (** [del d[k]] / the dict left by [d.pop(k)] (no change when absent) *)
  Fixpoint ddel (k : K) (d : dict K V) : dict K V :=
    match d with
    | [] => []
    | (k', v') :: d' => if eq_dec k k' then d' else (k', v') :: ddel k d'
    end.

  (** [d.update(l)] for an iterable of pairs, and [dict(l)] *)
  Definition dupdate (d : dict K V) (l : list (K * V)) : dict K V :=
    fold_left (fun d kv => dset (fst kv) (snd kv) d) l d.
  Definition dict_of (l : list (K * V)) : dict K V := dupdate [] l.

  (** [d.setdefault(k, v)]: resulting dict and returned value *)
  Definition dsetdefault (k : K) (v : V) (d : dict K V) : dict K V * V :=
    match dget k d with Some v' => (d, v') | None => (dset k v d, v) end.
End Dict.

(** What C147 says about the methods of the recently-used container: a mapping as a function from keys. *)
From Verif Require Import PyBase PyDict M_Lru M_LruMap.

(** the container afterwards, the values disposed of, the result *)
Definition after_call {K V} (x : dict K V * list V * res (out K V)) : dict K V := fst (fst x).
Definition disposed {K V} (x : dict K V * list V * res (out K V)) : list V := snd (fst x).
Definition gives {K V} (x : dict K V * list V * res (out K V)) : res (out K V) := snd x.
(** the same entries *)
Definition same_entries {K V} {E : EqDec K} (c c1 : dict K V) : Prop := forall k, dget k c1 = dget k c.
(** methods that only read *)
Definition reads {K V} (o : mcall K V) : Prop := match o with CGet _ | CIn _ | CLen | CKeys | CPopitem | CItems | CValues | CEq | CIter => True | _ => False end.
(** methods that have to go through the entries *)
Definition walks {K V} (o : mcall K V) : Prop := match o with CPopitem | CItems | CValues | CEq | CIter => True | _ => False end.

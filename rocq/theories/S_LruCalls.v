(** What C150 says: the result of a call, and the entry of its key afterwards, as if nobody else used the container. *)
From Verif Require Import PyBase PyDict M_LruCalls.

Definition key_of {K V} (o : tcall K V) : K := match o with TGet k | TSetdefault k _ | TPop k => k end.
Definition alone_result {K V} (o : tcall K V) (held : option V) : res (option V) :=
  match o with TGet _ | TPop _ => Ok held | TSetdefault _ v => Ok (Some match held with Some v0 => v0 | None => v end) end.
Definition alone_after {K V} (o : tcall K V) (held : option V) : option V :=
  match o with TGet _ => held | TPop _ => None | TSetdefault _ v => Some match held with Some v0 => v0 | None => v end end.
(** value v can be under key k: it was at the beginning, or one of the calls brings it *)
Definition comes_from {K V} {E : EqDec K} (c0 : dict K V) (l : list (tcall K V)) (k : K) (v : V) : Prop := dget k c0 = Some v \/ In (TSetdefault k v) l.
(** results that a call may have when others use its key: only pop may fail, and values are those of its key *)
Definition sensible {K V} {E : EqDec K} (c0 : dict K V) (l : list (tcall K V)) (o : tcall K V) (r : res (option V)) : Prop :=
  match r with
  | Ok (Some v) => comes_from c0 l (key_of o) v
  | Ok None => forall k v, o <> TSetdefault k v
  | Raise e => o = TPop (key_of o) /\ e = KeyError
  end.

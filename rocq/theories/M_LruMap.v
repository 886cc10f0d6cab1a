(** The methods that mysockpool/recently_used_container.py:28 inherits from collections.abc.MutableMapping, over the methods of
    M_Lru: written out from Lib/_collections_abc.py of CPython 3.8 (Mapping and MutableMapping). One thread; dispose_func returns normally.
    Each gives the container afterwards, the values passed to dispose_func, and the result. *)
From Verif Require Import PyBase PyDict M_Lru.

Inductive out (K V : Type) := OVal (v : V) | ODefault | OBool (b : bool) | OLen (n : nat) | OKeys (l : list K) | OPair (k : K) (v : V) | OPairs (l : list (K * V)) | OVals (l : list V) | ODone.
Arguments OVal {K V}. Arguments ODefault {K V}. Arguments OBool {K V}. Arguments OLen {K V}. Arguments OKeys {K V}. Arguments OPair {K V}. Arguments OPairs {K V}. Arguments OVals {K V}. Arguments ODone {K V}.
Inductive mcall (K V : Type) :=
| CGet (k : K)                 (* c.get(k, default) *)
| CIn (k : K)                  (* k in c *)
| CLen | CKeys                 (* len(c), c.keys() *)
| CPop (k : K)                 (* c.pop(k) *)
| CPopOr (k : K)               (* c.pop(k, default) *)
| CSetdefault (k : K) (v : V)
| CUpdate (l : list (K * V))   (* c.update(pairs) *)
| CPopitem
| CItems | CValues             (* list(c.items()), list(c.values()) *)
| CEq                          (* c == any mapping *)
| CIter.                       (* list(c), for k in c *)
Arguments CGet {K V}. Arguments CIn {K V}. Arguments CLen {K V}. Arguments CKeys {K V}. Arguments CPop {K V}. Arguments CPopOr {K V}. Arguments CSetdefault {K V}. Arguments CUpdate {K V}.
Arguments CPopitem {K V}. Arguments CItems {K V}. Arguments CValues {K V}. Arguments CEq {K V}. Arguments CIter {K V}.

(** recently_used_container.py:84-85: __iter__ raises before it gives anything *)
Definition iterate {A} : res A := Raise NotImplementedError.
(** MutableMapping.update: [self[key] = value] one after the other *)
Fixpoint set_all {K V} {E : EqDec K} (mx : Z) (c : dict K V) (l : list (K * V)) : dict K V * list V :=
  match l with
  | [] => (c, [])
  | (k, v) :: r => let '(c1, d1) := lru_set mx c k v in let '(c2, d2) := set_all mx c1 r in (c2, d1 ++ d2)
  end.
Definition mm_do {K V} {E : EqDec K} (mx : Z) (c : dict K V) (o : mcall K V) : dict K V * list V * res (out K V) :=
  match o with
  | CGet k => match lru_get c k with (c1, Ok v) => (c1, [], Ok (OVal v)) | (c1, Raise _) => (c1, [], Ok ODefault) end
  | CIn k => match lru_get c k with (c1, Ok _) => (c1, [], Ok (OBool true)) | (c1, Raise _) => (c1, [], Ok (OBool false)) end
  | CLen => (c, [], Ok (OLen (length c)))
  | CKeys => (c, [], Ok (OKeys (keys c)))
  | CPop k => match lru_get c k with
              | (c1, Ok v) => let '(c2, _, d) := lru_del c1 k in (c2, d, Ok (OVal v))
              | (c1, Raise e) => (c1, [], Raise e)
              end
  | CPopOr k => match lru_get c k with
                | (c1, Ok v) => let '(c2, _, d) := lru_del c1 k in (c2, d, Ok (OVal v))
                | (c1, Raise _) => (c1, [], Ok ODefault)
                end
  | CSetdefault k v => match lru_get c k with
                       | (c1, Ok v0) => (c1, [], Ok (OVal v0))
                       | (c1, Raise _) => let '(c2, d) := lru_set mx c1 k v in (c2, d, Ok (OVal v))
                       end
  | CUpdate l => let '(c1, d) := set_all mx c l in (c1, d, Ok ODone)
  | CPopitem => (c, [], let! k := iterate in Ok (OKeys [k]))
  | CItems => (c, [], let! l := iterate in Ok (OPairs l))
  | CValues => (c, [], let! l := iterate in Ok (OVals l))
  | CEq => (c, [], let! l := iterate in Ok (OBool l))
  | CIter => (c, [], let! l := iterate in Ok (OKeys l))
  end.
Definition mm_run {K V} {E : EqDec K} (mx : Z) (c : dict K V) (l : list (mcall K V)) : dict K V * list V :=
  fold_left (fun s o => let '(c1, d, _) := mm_do mx (fst s) o in (c1, snd s ++ d)) l (c, []).

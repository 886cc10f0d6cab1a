(** Model of mysockpool/recently_used_container.py. The locked part of each method is atomic; the
    methods inherited from MutableMapping (get, in, pop, setdefault, update) are sequences of these. *)
From Verif Require Import PyBase PyDict.

Section Lru.
  Context {K V : Type} `{EqDec K}.

  (** recently_used_container.py:44-49: the OrderedDict, oldest entry first *)
  Definition lru := dict K V.

  (** 51-56 [c[k]]: pop and re-insert at the end *)
  Definition lru_get (c : lru) (k : K) : lru * res V :=
    match dget k c with
    | None => (c, Raise KeyError)
    | Some v => (dset k v (ddel k c), Ok v)
    end.

  (** 58-71 [c[k] = v]; the third component is the value passed to dispose_func *)
  Definition lru_set (maxsize : Z) (c : lru) (k : K) (v : V) : lru * list V :=
    let evicted := match dget k c with Some v' => [v'] | None => [] end in
    let c1 := dset k v c in
    if maxsize <? len c1
    then match c1 with
         | [] => (c1, evicted)
         | (_, v0) :: c2 => (c2, [v0])
         end
    else (c1, evicted).

  (** 73-78 [del c[k]] *)
  Definition lru_del (c : lru) (k : K) : lru * res unit * list V :=
    match dget k c with
    | None => (c, Raise KeyError, [])
    | Some v => (ddel k c, Ok tt, [v])
    end.

  (** 87-95 [clear()]: the values disposed, in order *)
  Definition lru_clear (c : lru) : lru * list V := ([], vals c).

  (** Histories of operations, with the log of values passed to dispose_func. Simplified:
      dispose_func returns normally (the pool manager model treats a raising one). *)
  Inductive lop := LGet (k : K) | LSet (k : K) (v : V) | LDel (k : K) | LClear.
  Definition lstep (maxsize : Z) (s : lru * list V) (o : lop) : lru * list V :=
    let '(c, log) := s in
    match o with
    | LGet k => (fst (lru_get c k), log)
    | LSet k v => let '(c', d) := lru_set maxsize c k v in (c', log ++ d)
    | LDel k => let '(c', _, d) := lru_del c k in (c', log ++ d)
    | LClear => let '(c', d) := lru_clear c in (c', log ++ d)
    end.
  Definition lrun (maxsize : Z) (ops : list lop) : lru * list V := fold_left (lstep maxsize) ops ([], []).
End Lru.
Arguments lop : clear implicits.

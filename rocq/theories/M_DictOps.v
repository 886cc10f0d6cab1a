(** The changing operations of the three [dict] subclasses of the code base that override
    [__setitem__] and nothing else:
    - [ImmutableValueDict], anthunder/helpers/immutable_dict.py:25-29 (SERVICE_MAP,
      anthunder/__init__.py:29);
    - [_ImmutableDict], mytracer/span_context.py:28-30 (the baggage of a span context);
    - [SofaHeader], anthunder/protocol/_sofa_header.py:90-96.

    What is trusted here is CPython's [dict]: its C methods [update], [setdefault], [pop],
    [popitem], [clear] and [__delitem__] write to the table directly and do not call an
    overridden [__setitem__].  Keys and values are arbitrary. *)
From Verif Require Import PyBase PyDict.

Inductive kind : Type :=
| WriteOnce   (* ImmutableValueDict *)
| Frozen      (* _ImmutableDict *)
| Header.     (* SofaHeader *)

Inductive dictop (K V : Type) : Type :=
| SetItem (k : K) (v : V)       (* d[k] = v *)
| DelItem (k : K)               (* del d[k] *)
| Update (l : list (K * V))     (* d.update(l) *)
| Setdefault (k : K) (v : V)    (* d.setdefault(k, v) *)
| Pop (k : K)                   (* d.pop(k) *)
| Popitem                       (* d.popitem() *)
| Clear.                        (* d.clear() *)
Arguments SetItem {K V}. Arguments DelItem {K V}. Arguments Update {K V}.
Arguments Setdefault {K V}. Arguments Pop {K V}. Arguments Popitem {K V}. Arguments Clear {K V}.

(** The three [__setitem__] methods. immutable_dict.py:26-29 (a present key: KeyError),
    span_context.py:29-30 (TypeError), _sofa_header.py:95-96 ([pass]). *)
Definition set_item {K V} `{EqDec K} (c : kind) (k : K) (v : V) (d : dict K V)
  : dict K V * res unit :=
  match c with
  | WriteOnce => if dmem k d then (d, Raise KeyError) else (dset k v d, Ok tt)
  | Frozen => (d, Raise TypeError)
  | Header => (d, Ok tt)
  end.

(** One operation: the mapping left behind and whether it raised (what a call returns is
    left out).  Everything but item assignment is inherited from [dict]. *)
Definition dict_op {K V} `{EqDec K} (c : kind) (o : dictop K V) (d : dict K V)
  : dict K V * res unit :=
  match o with
  | SetItem k v => set_item c k v d
  | DelItem k | Pop k => if dmem k d then (ddel k d, Ok tt) else (d, Raise KeyError)
  | Update l => (dupdate d l, Ok tt)
  | Setdefault k v => (fst (dsetdefault k v d), Ok tt)
  | Popitem => match d with [] => (d, Raise KeyError) | _ => (removelast d, Ok tt) end
  | Clear => ([], Ok tt)
  end.

(** A program calling the operations one after the other, catching what they raise. *)
Definition dict_ops {K V} `{EqDec K} (c : kind) (os : list (dictop K V)) (d : dict K V)
  : dict K V :=
  fold_left (fun d o => fst (dict_op c o d)) os d.

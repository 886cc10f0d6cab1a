(** Threads that call get, setdefault and pop of the container of mysockpool/recently_used_container.py:28-99, inherited from
    collections.abc.MutableMapping (CPython 3.8), at the same time. The container takes its lock for each of __getitem__, __setitem__ and
    __delitem__ (53, 60, 74), so each of these is one step; setdefault and pop are two of them with nothing held between. dispose_func returns
    normally; its call is part of the step. *)
From Verif Require Import PyBase PyDict M_Lru.

Inductive tcall (K V : Type) := TGet (k : K) | TSetdefault (k : K) (v : V) | TPop (k : K) (* pop(k, default) *).
Arguments TGet {K V}. Arguments TSetdefault {K V}. Arguments TPop {K V}.
(** where a thread is: before its call, before the second half of it, or after it. A result Ok None is the default. *)
Inductive tat (K V : Type) := At (o : tcall K V) | Setting (k : K) (v : V) | Deleting (k : K) (v : V) | Gave (r : res (option V)).
Arguments At {K V}. Arguments Setting {K V}. Arguments Deleting {K V}. Arguments Gave {K V}.

Definition t_step {K V} {E : EqDec K} (mx : Z) (c : dict K V) (t : tat K V) : dict K V * list V * tat K V :=
  match t with
  | At (TGet k) => match lru_get c k with (c1, Ok v) => (c1, [], Gave (Ok (Some v))) | (c1, Raise _) => (c1, [], Gave (Ok None)) end
  | At (TSetdefault k v) => match lru_get c k with (c1, Ok v0) => (c1, [], Gave (Ok (Some v0))) | (c1, Raise _) => (c1, [], Setting k v) end
  | At (TPop k) => match lru_get c k with (c1, Ok v) => (c1, [], Deleting k v) | (c1, Raise _) => (c1, [], Gave (Ok None)) end
  | Setting k v => let '(c1, d) := lru_set mx c k v in (c1, d, Gave (Ok (Some v)))
  | Deleting k v => let '(c1, r, d) := lru_del c k in (c1, d, Gave (let! _ := r in Ok (Some v)))
  | Gave r => (c, [], Gave r)
  end.
Record calls (K V : Type) := { x_held : dict K V; x_disposed : list V; x_at : list (tat K V) }.
Arguments x_held {K V}. Arguments x_disposed {K V}. Arguments x_at {K V}. Arguments Build_calls {K V}.
Fixpoint put_at {A} (i : nat) (x : A) (l : list A) : list A := match l, i with [], _ => [] | _ :: r, O => x :: r | y :: r, S j => y :: put_at j x r end.
(** thread i makes a step *)
Definition x_step {K V} {E : EqDec K} (mx : Z) (s : calls K V) (i : nat) : calls K V :=
  match nth_error (x_at s) i with
  | None => s
  | Some t => let '(c1, d, t1) := t_step mx (x_held s) t in Build_calls c1 (x_disposed s ++ d) (put_at i t1 (x_at s))
  end.
(** threads with one call each, in any order of steps *)
Definition x_run {K V} {E : EqDec K} (mx : Z) (c : dict K V) (l : list (tcall K V)) (sched : list nat) : calls K V := fold_left (x_step mx) sched (Build_calls c [] (map At l)).

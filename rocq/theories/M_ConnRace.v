(** Threads inside ConnectionPool._new_conn (mysockpool/connection_pool.py:80-92), at the granularity of the
    interpreter: the check is made under the lock, but the lock is released before the increment, and
    [self.num_connections += 1] is a load and a store between which other threads can run. *)
From Verif Require Import PyBase.

Inductive pc :=
| AtCheck                 (* line 81 *)
| AtLoad                  (* line 87, before the attribute is loaded *)
| AtStore (v : Z)         (* line 87, value loaded, sum not yet stored *)
| AtCreate                (* line 91 *)
| Returned                (* line 92: a connection was returned *)
| Refused.                (* lines 83-85: EmptyPoolError *)

Record race := { r_num : Z; r_pcs : list pc }.

(** one step of one thread: new value of num_connections and new position *)
Definition advance (max : Z) (num : Z) (x : pc) : Z * pc :=
  match x with
  | AtCheck => if max <=? num then (num, Refused) else (num, AtLoad)
  | AtLoad => (num, AtStore (num + 1))
  | AtStore v => (v, AtCreate)
  | AtCreate => (num, Returned)
  | Returned => (num, Returned)
  | Refused => (num, Refused)
  end.

Fixpoint set_nth {A} (i : nat) (x : A) (l : list A) : list A :=
  match l, i with
  | [], _ => []
  | _ :: r, O => x :: r
  | a :: r, S j => a :: set_nth j x r
  end.

Definition race_step (max : Z) (s : race) (i : nat) : race :=
  match nth_error (r_pcs s) i with
  | None => s
  | Some x => let '(num, x') := advance max (r_num s) x in {| r_num := num; r_pcs := set_nth i x' (r_pcs s) |}
  end.
Definition race_run (max : Z) (s : race) (schedule : list nat) : race := fold_left (race_step max) schedule s.

(** n threads call _new_conn on a pool without connections *)
Definition race_init (n : nat) : race := {| r_num := 0; r_pcs := repeat AtCheck n |}.
Definition is_returned (x : pc) : bool := match x with Returned => true | _ => false end.
Definition connections_returned (s : race) : nat := length (filter is_returned (r_pcs s)).

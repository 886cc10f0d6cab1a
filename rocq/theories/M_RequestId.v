(** Model of anthunder/helpers/request_id.py and of the itertools it uses.
    [next()] on the shared iterator is atomic (one C call under the interpreter lock). *)
From Verif Require Import PyBase.

(** [chain(range(a1,b1), range(a2,b2), ...)]: the ranges still to be produced *)
Fixpoint chain_next (c : list (Z * Z)) : option (Z * list (Z * Z)) :=
  match c with
  | [] => None
  | (a, b) :: r => if a <? b then Some (a, (a + 1, b) :: r) else chain_next r
  end.

(** [itertools.cycle]: the source iterator until exhausted, the items seen, the replay index *)
Record cycle := { cy_it : option (list (Z * Z)); cy_saved : list Z; cy_idx : nat }.

Definition cycle_init (c : list (Z * Z)) : cycle := {| cy_it := Some c; cy_saved := []; cy_idx := 0 |}.

(** replay of the saved items; [None] is StopIteration (no items at all) *)
Definition cycle_replay (saved : list Z) (idx : nat) : option Z * cycle :=
  match nth_error saved idx with
  | Some z => (Some z, {| cy_it := None; cy_saved := saved;
                          cy_idx := if Nat.leb (length saved) (S idx) then 0%nat else S idx |})
  | None => (None, {| cy_it := None; cy_saved := saved; cy_idx := idx |})
  end.

Definition cycle_next (s : cycle) : option Z * cycle :=
  match cy_it s with
  | Some c =>
      match chain_next c with
      | Some (z, c') => (Some z, {| cy_it := Some c'; cy_saved := cy_saved s ++ [z]; cy_idx := cy_idx s |})
      | None => cycle_replay (cy_saved s) (cy_idx s)
      end
  | None => cycle_replay (cy_saved s) (cy_idx s)
  end.

(** the state after n calls of next() and the result of the (n+1)-th *)
Fixpoint cycle_after (s : cycle) (n : nat) : cycle :=
  match n with O => s | S n' => snd (cycle_next (cycle_after s n')) end.
Definition cycle_draw (s : cycle) (n : nat) : option Z := fst (cycle_next (cycle_after s n)).

(** request_id.py:26-28 : _max = 0x7fffffff; RequestId = cycle(chain(range(_start, _max + 1), range(0, _start))) *)
Definition request_ids (start : Z) : cycle := cycle_init [(start, 0x7fffffff + 1); (0, start)].

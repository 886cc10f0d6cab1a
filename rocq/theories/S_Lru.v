(** Specification vocabulary for the recently-used container: when a key was last used, and the latest
    value stored for it, read off a history; [held i] is the list of keys held before the i-th operation. *)
From Verif Require Import PyBase PyDict M_Lru.

Section Spec.
  Context {K V : Type}.
  Context (ops : list (lop K V)).
  Context (held : nat -> list K).

  (** operation i is a successful read of k, or inserts k while it is not held *)
  Definition used_at (k : K) (i : nat) : Prop :=
    match nth_error ops i with
    | Some (LGet k') => k' = k /\ In k (held i)
    | Some (LSet k' _) => k' = k /\ ~ In k (held i)
    | _ => False
    end.
  Definition last_use (k : K) (i : nat) : Prop := used_at k i /\ forall j, used_at k j -> (j <= i)%nat.

  (** v is the value of the last store to k *)
  Definition latest_value (k : K) (v : V) : Prop :=
    exists i, nth_error ops i = Some (LSet k v) /\ forall j v', nth_error ops j = Some (LSet k v') -> (j <= i)%nat.
End Spec.

(** the values ever stored *)
Fixpoint stored {K V} (ops : list (lop K V)) : list V :=
  match ops with
  | [] => []
  | LSet _ v :: r => v :: stored r
  | _ :: r => stored r
  end.

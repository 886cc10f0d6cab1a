(** Words for C133, over the states of M_Lifetime *)
From Verif Require Import PyBase M_Lifetime.

(** call i opened connection c *)
Definition opened_by (s : heap) (i : nat) (c : cid) : Prop := nth_error (g_makers s) (fst c) = Some i.
Definition at_pc (s : heap) (i : nat) (k : pc) : Prop := exists f, nth_error (g_calls s) i = Some f /\ f_pc f = k.
(** call i has returned, or its exception has been dropped *)
Definition over (s : heap) (i : nat) : Prop := at_pc s i Returned \/ exists e, at_pc s i (Dropped e).
(** calls that are still running, and calls whose exception is still kept *)
Definition is_running (f : frame) : bool := match f_pc f with Returned | Kept _ | Dropped _ => false | _ => true end.
Definition is_kept (f : frame) : bool := match f_pc f with Kept _ => true | _ => false end.
Definition count (p : frame -> bool) (s : heap) : nat := List.length (filter p (g_calls s)).
(** no connection looked dropped to a pool *)
Definition healthy (e : levent) : Prop := match e with EStart _ => True | ERun _ x => forall k, i_dr x k = false end.
(** nothing happens to call i *)
Definition leaves (i : nat) (e : levent) : Prop := match e with EStart _ => True | ERun j _ => j <> i end.

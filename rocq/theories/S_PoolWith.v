(** Vocabulary for C140. *)
From Verif Require Import PyBase PyDict M_Lru M_ConnPool M_PoolManager M_PoolWith.

(** a program that leaves closing pools to the manager *)
Definition hands_off {K} (s : stm K) : Prop := match s with SOp (MUserClose _) | SWith _ _ => False | _ => True end.
(** pool i is closed *)
Definition is_closed {K} (w : world K) (i : nat) : Prop := exists p, nth_error (w_pools w) i = Some p /\ p_free p = None.
Definition is_open {K} (w : world K) (i : nat) : Prop := exists p, nth_error (w_pools w) i = Some p /\ p_free p <> None.
(** the manager has made pool i *)
Definition made {K} (w : world K) (i : nat) : Prop := (i < List.length (w_pools w))%nat.
(** connection c lies idle in pool i; pool i has closed connection c *)
Definition idle {K} (w : world K) (i c : nat) : Prop := exists p q, nth_error (w_pools w) i = Some p /\ p_free p = Some q /\ In c q.
Definition has_closed {K} (w : world K) (i c : nat) : Prop := exists p, nth_error (w_pools w) i = Some p /\ In c (p_closed p).

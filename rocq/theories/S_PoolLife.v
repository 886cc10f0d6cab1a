(** What C137 says about the connections of a pool (M_PoolLife). *)
From Verif Require Import PyBase PyDict M_ConnPool M_PoolLife.

(** idle in the pool *)
Definition idle (s : life) (c : nat) : Prop := exists q, p_free (u_pool s) = Some q /\ In c q.
(** somebody can use connection c: it is lent, or idle in a pool that its user has *)
Definition usable (s : life) (c : nat) : Prop := In c (u_lent s) \/ (u_held s = true /\ idle s c).
(** an exception that its caller still has keeps connection c: it is the one the failing call had taken, or it is idle in the pool *)
Definition kept_by_error (s : life) (c : nat) : Prop := exists e, In e (u_errs s) /\ e_mine e = true /\ (In c (e_lost e) \/ idle s c).
(** the pool or a user has called close() on it *)
Definition shut (s : life) (c : nat) : Prop := In c (p_closed (u_pool s)) \/ In c (u_shut s).
(** get_conn never raised one of the errors of the pool *)
Definition no_pool_error (l : list (res nat)) : Prop := ~ In (Raise EmptyPoolError) l /\ ~ In (Raise ClosedPoolError) l.

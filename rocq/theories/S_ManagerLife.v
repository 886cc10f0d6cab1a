(** What C146 says about the connections of the pools of a manager (M_ManagerLife). *)
From Verif Require Import PyBase PyDict M_ConnPool M_PoolLife S_PoolLife M_ManagerLife.

(** somebody can get at pool i: a user has it, or has the manager that keeps it *)
Definition reachable_pool {K} (y : mlife K) (i : nat) : Prop := In i (y_mine y) \/ (y_held y = true /\ exists k, In (k, i) (y_lru y)).
(** somebody can use connection c of pool i, which is in the state s *)
Definition usable_of {K} (y : mlife K) (i : nat) (s : life) (c : nat) : Prop := In c (u_lent s) \/ (reachable_pool y i /\ idle s c).
(** no exception is in memory that nobody has *)
Definition no_stray_error (s : life) : Prop := forall e, In e (u_errs s) -> e_mine e = true.
(** the manager keeps pool i *)
Definition keeps {K} (y : mlife K) (i : nat) : Prop := exists k, In (k, i) (y_lru y).
(** the pool is closed *)
Definition closed_pool (s : life) : Prop := p_free (u_pool s) = None.

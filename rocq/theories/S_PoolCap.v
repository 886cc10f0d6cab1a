(** Vocabulary for C127: what is left of the capacity of a pool that threads share. *)
From Verif Require Import PyBase M_ConnPool M_PoolThreads.

(** the pool has made the connection and has not closed it *)
Definition open_now (s : ts) (c : nat) : Prop := (c < h_made s)%nat /\ ~ In c (h_closed s).
(** no operation of any thread is under way *)
Definition nothing_runs (s : ts) : Prop := forall i t, nth_error (h_threads s) i = Some t -> t_pc t = Idle.
(** no thread calls close() *)
Definition never_closed (l : list tstep) : Prop := forall i, ~ In (TClose i) l.
(** how many times a connection could not be made because its socket could not be created *)
Fixpoint no_socket (g : list (nat * outcome)) : Z :=
  match g with [] => 0 | (_, OErr OSError) :: r => 1 + no_socket r | _ :: r => no_socket r end.
(** x lists the open connections *)
Definition lists_open (s : ts) (x : list nat) : Prop := NoDup x /\ forall c, In c x <-> open_now s c.
(** thread i makes k steps and nothing unusual happens to it *)
Definition plain (i k : nat) : list tstep := repeat (TStep i false) k.
(** thread i makes k steps, and the connection that it has taken looks dropped at the last of them *)
Definition until_dropped (i k : nat) : list tstep := plain i k ++ [TStep i true].

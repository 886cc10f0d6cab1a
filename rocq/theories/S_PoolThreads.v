(** Vocabulary for C78: what threads do when no new operation begins. *)
From Verif Require Import PyBase M_ConnPool M_PoolThreads.

(** k steps of threads, each of which did something *)
Inductive busy (cfg : config) : nat -> ts -> ts -> Prop :=
| busy_0 s : busy cfg 0 s s
| busy_S k s i b s' : t_step cfg (TStep i b) s <> s -> busy cfg k (t_step cfg (TStep i b) s) s' -> busy cfg (S k) s s'.

(** no thread can do anything, whatever the world says *)
Definition at_a_standstill (cfg : config) (s : ts) : Prop := forall j b, t_step cfg (TStep j b) s = s.

(** how many calls of close() began, and how many of them ended with AttributeError *)
Fixpoint closes (l : list tstep) : nat := match l with [] => 0 | TClose _ :: r => S (closes r) | _ :: r => closes r end%nat.
Fixpoint failed_closes (l : list (nat * outcome)) : nat := match l with [] => 0 | (_, OErr AttributeError) :: r => S (failed_closes r) | _ :: r => failed_closes r end%nat.

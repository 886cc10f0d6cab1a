(** Vocabulary for C98: the limit of a pool that threads share. *)
From Verif Require Import PyBase M_ConnPool M_PoolThreads.

(** the thread is about to change num_connections: it has passed the check, or holds the lock, and has not stored *)
Definition changing (p : tpc) : bool :=
  match p with NLoad _ | NStore _ _ | PDecLoad _ _ | PDecStore _ _ _ | GDecLoad _ | GDecStore _ _ => true | _ => false end.
(** never two threads at the same time *)
Definition alone (s : ts) : Prop := forall i j t u, nth_error (h_threads s) i = Some t -> nth_error (h_threads s) j = Some u ->
  changing (t_pc t) = true -> changing (t_pc u) = true -> i = j.
Definition one_at_a_time (cfg : config) (p : pool) (n : nat) (l : list tstep) : Prop := forall l1 l2, l = l1 ++ l2 -> alone (t_run cfg p n l1).
(** no connection that the pool has closed is given back *)
Definition no_closed_back (cfg : config) (p : pool) (n : nat) (l : list tstep) : Prop :=
  forall l1 i c l2, l = l1 ++ TPut i c :: l2 -> ~ In c (h_closed (t_run cfg p n l1)).
(** the connection is open, and free or lent *)
Definition in_use (s : ts) (c : nat) : Prop :=
  ~ In c (h_closed s) /\ (In c (h_queue s) \/ exists i t, nth_error (h_threads s) i = Some t /\ In c (t_lent t)).
(** a pool that is limited to three connections *)
Definition three : config := {| max_connections := 3; max_free := 1; min_free := 0; initial := 1; block := false |}.

(** Words for C107-C109: threads that share a pool manager. *)
From Verif Require Import PyBase PyDict M_Lru M_LruThreads S_LruThreads M_ConnPool M_PoolThreads M_MgrThreads.

(** nobody but the manager closes a pool *)
Definition closed_by_manager {K} (l : list (gstep K)) : Prop := forall v i, ~ In (GUse v (TClose i)) l.
(** all calls of the manager have ended *)
Definition all_ended {K} (s : gs K) : Prop := S_LruThreads.quiet (g_m s).
(** the pools that the manager holds *)
Definition holds {K} (s : gs K) (v : nat) : Prop := exists k, In (k, v) (t_c (g_m s)).
(** call j of the manager has begun with o; has ended with r *)
Definition began {K} (s : gs K) (j : nat) (o : gop K) : Prop := exists p, nth_error (t_calls (g_m s)) j = Some (top_of o, p).
Definition returned {K} (s : gs K) (j : nat) (r : res (obs K)) : Prop := exists o, nth_error (t_calls (g_m s)) j = Some (o, Done r).
(** call j is running the constructor of a pool *)
Definition building {K} (s : gs K) (j : nat) : Prop := exists o f, nth_error (t_calls (g_m s)) j = Some (o, New f).
(** the connection c of pool v is lent to thread i; is free *)
Definition lent_to {K} (s : gs K) (v i c : nat) : Prop := exists h t, nth_error (g_pools s) v = Some h /\ nth_error (h_threads h) i = Some t /\ In c (t_lent t).
Definition is_free {K} (s : gs K) (v c : nat) : Prop := exists h, nth_error (g_pools s) v = Some h /\ In c (h_queue h).
(** only pools of these addresses are asked for, and there is room for all of them *)
Definition only_asks_for {K} (ks : list K) (l : list (gstep K)) : Prop := forall i o, In (GCall i o) l -> exists k, o = GLookup k /\ In k ks.
(** a step of a thread in a call that has begun *)
Definition goes_on {K} (e : gstep K) : bool := match e with GStep _ _ | GUse _ (TStep _ _) => true | _ => false end.
(** s' comes from s by such a step that changes something *)
Definition works {K} `{EqDec K} m cfg n mks (s' s : gs K) : Prop := exists e, goes_on e = true /\ s' = g_step m cfg n mks e s /\ s' <> s.

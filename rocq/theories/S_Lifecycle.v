(** What C97 says about histories of starting and stopping (M_Lifecycle). *)
From Verif Require Import PyBase M_AioServer M_Listener M_Lifecycle.
Open Scope nat_scope.

(** how often run_forever, shutdown are called, and how often thread r goes on *)
Definition runs (l : list kstep) : nat := List.length (filter (fun o => match o with KRun => true | _ => false end) l).
Definition shutdowns (l : list kstep) : nat := List.length (filter (fun o => match o with KShutdown => true | _ => false end) l).
Definition turns (r : nat) (l : list kstep) : nat := List.length (filter (fun o => match o with KGo i => Nat.eqb i r | _ => false end) l).
(** how many clients connect *)
Definition kconnects (l : list kstep) : nat := List.length (filter (fun o => match o with KConnect => true | _ => false end) l).
(** thread r is in run_forever, or was *)
Definition server_thread (s : kst) (r : nat) : Prop := exists p, nth_error (k_threads s) r = Some (KServe p).
Definition run_returned (s : kst) (r : nat) : Prop := nth_error (k_threads s) r = Some (KServe RReturned).
(** a call of shutdown has returned; it has made its request *)
Definition shutdown_returned (s : kst) : Prop := exists i, nth_error (k_threads s) i = Some (KStop HReturned).
Definition shutdown_asked (s : kst) : Prop := exists i p, nth_error (k_threads s) i = Some (KStop p) /\ p <> HSet.

(** the asyncio listener: a call of shutdown that found the server running has returned *)
Definition closed_by_shutdown (s : gst) : Prop := exists i, nth_error (g_stops s) i = Some (AReturned true).
Definition connects (l : list gstep) : nat := List.length (filter (fun o => match o with GConnect => true | _ => false end) l).
(** how often call i of shutdown goes on *)
Definition goes (i : nat) (l : list gstep) : nat := List.length (filter (fun o => match o with GGo j => Nat.eqb j i | _ => false end) l).
Definition accepted (s : gst) : nat := List.length (n_conns (g_lst s)).

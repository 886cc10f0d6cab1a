(** What C116 says about the connections of the asyncio client (M_AioClient). *)
From Verif Require Import PyBase PyDict M_AioClient.
Open Scope nat_scope.

(** the client called writer.close() on connection c *)
Definition closed (s : st) (c : nat) : Prop := exists k, nth_error (s_links s) c = Some k /\ k_closed k = true.
(** connection c exists and the client has not closed it *)
Definition still_open (s : st) (c : nat) : Prop := exists k, nth_error (s_links s) c = Some k /\ k_closed k = false.
(** a call is about to write on connection c or flushes what it wrote *)
Definition sends_on (s : st) (c i : nat) : Prop := exists t n, nth_error (s_tasks s) i = Some t /\ (t_pc t = Drain1 n c \/ t_pc t = Drain2 n c).
(** the client does not use connection c any more: later calls do not find it, and no call writes on it *)
Definition given_up (s : st) (c : nat) : Prop := c < List.length (s_links s) /\ (forall a, dget a (s_conn s) <> Some c) /\ forall i, ~ sends_on s c i.
(** the server neither closes nor resets connection c in these steps *)
Definition server_keeps (c : nat) (l : list step) : Prop := ~ In (Eof c) l /\ ~ In (Reset c) l.
(** how often the reader of connection c runs, and the bytes that arrive on c *)
Fixpoint reads_of (c : nat) (l : list step) : nat := match l with [] => 0 | Read d :: r => (if d =? c then 1 else 0) + reads_of c r | _ :: r => reads_of c r end.
Fixpoint arrives_on (c : nat) (l : list step) : nat := match l with [] => 0 | Feed d bs :: r => (if d =? c then List.length bs else 0) + arrives_on c r | _ :: r => arrives_on c r end.
(** the read task of a connection has run at least once and has not ended *)
Definition reading (k : link) : Prop := k_rd k = RdHead \/ exists fixed h n, k_rd k = RdBody fixed h n.
(** readtask.cancel() was called, or the server closed or reset the connection *)
Definition ending (k : link) : Prop := k_cancel k = true \/ k_eof k = true \/ k_exn k = true.

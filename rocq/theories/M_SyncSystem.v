(** Model of a call of the synchronous client (M_SyncClient) together with the servers at the other ends of the
    connections it uses. Every attempt of a call uses a connection of its own, which carried nothing before (C39), so
    a server receives bytes of this call only. *)
From Verif Require Import PyBase PyDict PyInt M_SofaHeader M_Package M_Trace M_SyncClient M_AioServer M_SockServer.

(** the other end of a connection: a thread of the threaded listener (M_SockServer.handle) or a connection of the
    asyncio listener (M_AioServer.srun), with everything that has happened there *)
Inductive far :=
| Threaded (fuel : nat) (reg : registry) (tr : tstate) (fresh : pystr) (call : methods) (w : option (nat * exn)) (net : list arrival)
| Asyncio (reg : registry) (tr : tstate) (l : list sstep).

(** what client.py:76 has written to connection c, given the writes of _raw_invoke *)
Definition wrote (c : nat) (log : list (nat * bytes)) : bytes := concat (map snd (filter (fun w => Nat.eqb (fst w) c) log)).

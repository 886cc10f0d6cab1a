(** What C79 and C80 say about the other end of a connection, in the words of S_Server and S_SockServer. *)
From Verif Require Import PyBase PyDict PyInt M_Trace M_AioServer S_Server M_SockServer S_SockServer M_SyncSystem.

Definition prefix_of {A} (a b : list A) : Prop := exists c, b = a ++ c.

(** the bytes received and sent there *)
Definition far_got (x : far) : bytes := match x with Threaded _ _ _ _ _ _ net => received net | Asyncio _ _ l => fed l end.
Definition far_sent (U : tables) (x : far) : bytes :=
  match x with
  | Threaded fuel reg tr fresh call w net => concat (o_sent (handle fuel U reg tr fresh call w net))
  | Asyncio reg tr l => concat (map snd (v_out (srun U reg tr l)))
  end.
(** the methods called there: service, method, argument *)
Definition far_calls (U : tables) (x : far) : list (pystr * pystr * bytes) :=
  match x with
  | Threaded fuel reg tr fresh call w net => map fst (o_calls (handle fuel U reg tr fresh call w net))
  | Asyncio reg tr l => map (fun e => (snd (fst (fst e)), snd (fst e), snd e)) (executions U (sinit reg tr) l)
  end.
(** the method has been called there, and that call has returned v *)
Definition far_returned (U : tables) (x : far) (sv m : pystr) (b v : bytes) : Prop :=
  match x with
  | Threaded fuel reg tr fresh call w net => exists c, In (sv, m, b, c) (o_calls (handle fuel U reg tr fresh call w net)) /\ call sv m b c = Some (Ok (PBytes v))
  | Asyncio reg tr l => exists n, In (n, sv, m, b) (executions U (sinit reg tr) l) /\ ended_with (srun U reg tr l) n (Ok (PBytes v))
  end.

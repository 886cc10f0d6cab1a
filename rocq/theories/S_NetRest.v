(** What C121 says about a network of asyncio clients and listeners (M_Net) that is left alone. *)
From Verif Require Import PyBase PyDict PyInt M_SofaHeader M_Package M_RpcId M_Trace M_SyncClient M_AioServer S_Server M_System M_Listener M_Net.
From Verif Require M_AioClient.
Open Scope nat_scope.

(** everything that can happen except that somebody makes a new call or registers a service, that a heartbeat timer fires,
    and that other programs connect or send something: the programs go on, bytes arrive, dials succeed or fail, calls are
    cancelled, methods return or raise or take too long, flushes fail, connections are closed or lost *)
Definition z_left_alone (o : zstep) : Prop :=
  match o with
  | ZCall _ _ _ _ | ZClient _ (M_AioClient.Beat _) | ZServer _ (LAccept _) | ZServer _ (LRegister _ _) | ZServer _ (LConn _ (Feed _)) => False
  | _ => True
  end.
(** nothing changed, in no client and no listener *)
Definition z_unchanged (t : M_AioClient.timer) (z z' : net) : Prop := map (z_state t) (z_clients z') = map (z_state t) (z_clients z) /\ z_servers z' = z_servers z.
(** z' comes from z by such a step, and the step changed something *)
Definition z_goes_on (U : tables) (t : M_AioClient.timer) (z' z : net) : Prop := exists o, z_left_alone o /\ z' = z_step U t o z /\ ~ z_unchanged t z z'.
(** the state after the first n steps of an endless schedule *)
Fixpoint z_after (U : tables) (t : M_AioClient.timer) (f : nat -> zstep) (n : nat) (z : net) : net := match n with O => z | S n => z_step U t (f n) (z_after U t f n z) end.

(** what the programs and the network do by themselves *)
Definition z_routine (o : zstep) : Prop :=
  match o with
  | ZDial _ _ _ | ZUp _ _ _ | ZDown _ _ _ => True
  | ZClient _ (M_AioClient.Run _) | ZClient _ (M_AioClient.Acquire _) | ZClient _ (M_AioClient.DrainOk _) | ZClient _ (M_AioClient.Wake _) | ZClient _ (M_AioClient.Read _) => True
  | ZServer _ LTake => True
  | ZServer _ (LConn _ Read) | ZServer _ (LConn _ (DrainR true)) | ZServer _ (LConn _ (Dispatch _ _)) | ZServer _ (LConn _ (Drain _ true)) | ZServer _ (LConn _ (Result _)) | ZServer _ (LConn _ (JobEnd _ _)) => True
  | _ => False
  end.
(** nothing of this has any effect any more *)
Definition z_settled (U : tables) (t : M_AioClient.timer) (z : net) : Prop := forall o, z_routine o -> z_unchanged t z (z_step U t o z).

(** a failure of a connection or of a flush, or a method that takes longer than its timeout *)
Definition fails (o : sstep) : Prop := match o with Eof | Reset | DrainR false | Drain _ false | Expire _ => True | _ => False end.
(** nothing has failed for client p, as it is at the end, in it or on its connections; its requests can be encoded *)
Definition z_smooth (p : nat) (l : list zstep) (k : zclient) : Prop :=
  (forall d rid a q, In (ZCall p d rid a) l -> y_request d rid = Ok q -> exists bs, to_stream q = Ok bs) /\
  (forall o, In (ZClient p o) l ->
    match o with
    | M_AioClient.Cancel _ | M_AioClient.DialFail _ | M_AioClient.DrainFail _ | M_AioClient.Eof _ | M_AioClient.Reset _ => False
    | M_AioClient.Beat rid => forall q, heartbeat_new_request rid = Ok q -> exists bs, to_stream q = Ok bs
    | _ => True
    end) /\
  forall a n o, In (ZServer a (LConn n o)) l -> fails o -> ~ In (a, n) (z_conns k).
(** there is a listener at each address that the client calls *)
Definition reaches (t : M_AioClient.timer) (z : net) (k : zclient) : Prop :=
  forall tk a, In tk (M_AioClient.s_tasks (z_state t k)) -> M_AioClient.t_addr tk = Ok a -> (0 <= a < Z.of_nat (List.length (z_servers z)))%Z.
(** the listener number a had the method of the call from the beginning, and the service was not replaced *)
Definition z_served (d : ycall) (a : nat) (regs : list registry) (l : list zstep) : Prop := y_interface d <> [] /\ y_method d <> [] /\
  (exists reg, nth_error regs a = Some reg /\ offers reg (y_interface d) (y_method d)) /\ forall sv, ~ In (ZServer a (LRegister (y_interface d) sv)) l.
(** a method that was called on connection n of listener a, as the call [d] wants it, and has ended with r *)
Definition method_ended (z : net) (a n : nat) (d : ycall) (r : res pyobj) : Prop := exists x b,
  z_conn z a n = Some x /\ In b (v_jobs x) /\ j_service b = y_interface d /\ j_method b = y_method d /\ j_body b = y_content d /\ j_state b = JEnded r.

(** What C135 and C136 say about the calls of asyncio clients, among all the programs together (M_World). *)
From Verif Require Import PyBase PyDict PyInt M_SofaHeader M_Package M_AioServer S_Server M_System M_Listener M_Net M_Deploy M_World S_WorldRest.
From Verif Require M_AioClient.
Open Scope nat_scope.

(** connection m of the asyncio listener a was not lost *)
Definition never_lost (l : list wstep) (a m : nat) : Prop := ~ In (DNet (ZServer a (LConn m Eof))) (rest_steps l) /\ ~ In (DNet (ZServer a (LConn m Reset))) (rest_steps l).
(** no connection of the client to an asyncio listener was lost *)
Definition none_lost (l : list wstep) (k : oclient) : Prop := forall a m, In (PAio a m) (o_conns k) -> never_lost l a m.
(** coroutine i sends the request of the call d, with the id rid *)
Definition made_for (s : M_AioClient.st) (i : nat) (tk : M_AioClient.task) (d : ycall) (rid : Z) : Prop := nth_error (M_AioClient.s_tasks s) i = Some tk /\ y_request d rid = Ok (M_AioClient.t_req tk).
(** the requests that the client has written on its connection c, in order *)
Definition written_on (s : M_AioClient.st) (c : nat) : list bytes := map snd (filter (fun w => Nat.eqb (fst w) c) (M_AioClient.s_written s)).
(** the request of a coroutine is number u of these *)
Definition asked_as (s : M_AioClient.st) (tk : M_AioClient.task) (c u : nat) : Prop := exists bs, to_stream (M_AioClient.t_req tk) = Ok bs /\ nth_error (written_on s c) u = Some bs.
(** coroutine i was not cancelled, and none of its dials and flushes failed *)
Definition left_to_itself (k : oclient) (i : nat) : Prop := forall o, In o (o_hist k) -> o <> M_AioClient.Cancel i /\ o <> M_AioClient.DialFail i /\ o <> M_AioClient.DrainFail i.
(** connection c was not lost before everything that ever arrived on it had arrived, and the client has not given it up *)
Definition kept (t : M_AioClient.timer) (k : oclient) (c : nat) : Prop := exists lk, nth_error (M_AioClient.s_links (o_state t k)) c = Some lk /\
  M_AioClient.k_exn lk = false /\ M_AioClient.k_cancel lk = false /\
  forall h1 h2 lk1, o_hist k = h1 ++ M_AioClient.Eof c :: h2 -> nth_error (M_AioClient.s_links (M_AioClient.run t h1)) c = Some lk1 -> M_AioClient.k_in lk1 = M_AioClient.k_in lk.
(** the method that was called for unit number u of connection m of the asyncio listener a, as the call d wants it, has ended with r *)
Definition method_of_unit (z : net) (a m u : nat) (d : ycall) (r : res pyobj) : Prop := exists y b, z_conn z a m = Some y /\ In b (v_jobs y) /\ j_frame b = u /\
  j_service b = y_interface d /\ j_method b = y_method d /\ j_body b = y_content d /\ j_state b = JEnded r.
(** a thread that does not serve the call d: it does not know the service or the method, or that raises *)
Definition refuses (y : thr) (d : ycall) : Prop := 1 <= th_fuel y /\ (S_Server.unknown (th_reg y) (y_interface d) (y_method d) \/
  (offers (th_reg y) (y_interface d) (y_method d) /\ exists e, forall c, th_call y (y_interface d) (y_method d) (y_content d) c = Some (Raise e))).

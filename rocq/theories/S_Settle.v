(** What C85 says about a system (M_System) in which nothing fails and nothing is left to do. *)
From Coq Require Import Strings.String.
From Verif Require Import PyBase PyDict PyInt Struct M_SofaHeader M_Package M_RpcId M_Trace M_SyncClient M_AioServer S_Server M_System S_System.
From Verif Require M_AioClient.
Open Scope Z_scope.

(** nothing fails: no connection is lost, no flush fails, nobody is cancelled, no method takes longer than its
    timeout, and the requests can be encoded (C73, C81) *)
Definition smooth (o : ystep) : Prop :=
  match o with
  | YCall d rid _ => forall p, y_request d rid = Ok p -> exists bs, to_stream p = Ok bs
  | YClient (M_AioClient.Cancel _) | YClient (M_AioClient.DialFail _) | YClient (M_AioClient.DrainFail _) | YClient (M_AioClient.Eof _) | YClient (M_AioClient.Reset _) => False
  | YClient (M_AioClient.Beat rid) => forall p, heartbeat_new_request rid = Ok p -> exists bs, to_stream p = Ok bs
  | YServer _ Eof | YServer _ Reset | YServer _ (DrainR false) | YServer _ (Drain _ false) | YServer _ (Expire _) => False
  | _ => True
  end.
(** what the programs and the network do by themselves *)
Definition routine (o : ystep) : Prop :=
  match o with
  | YDial _ _ _ | YUp _ _ | YDown _ _ => True
  | YClient (M_AioClient.Run _) | YClient (M_AioClient.Acquire _) | YClient (M_AioClient.DrainOk _) | YClient (M_AioClient.Wake _) | YClient (M_AioClient.Read _) => True
  | YServer _ Read | YServer _ (DrainR true) | YServer _ (Dispatch _ _) | YServer _ (Drain _ true) | YServer _ (Result _) | YServer _ (JobRun _) | YServer _ (JobEnd _ _) => True
  | _ => False
  end.
(** nothing of this has any effect any more *)
Definition settled (U : tables) (t : M_AioClient.timer) (y : sys) : Prop := forall o, routine o ->
  y_client t (y_step U t o y) = y_client t y /\ map (y_server U) (y_conns (y_step U t o y)) = map (y_server U) (y_conns y).
(** a request is never held up between being written and being waited for: the second drain of _send_to
    (aio_client.py:193) goes through at once *)
Definition prompt (U : tables) (t : M_AioClient.timer) (l : list ystep) : Prop := forall l1 o l2 i tk n c, l = l1 ++ o :: l2 ->
  nth_error (M_AioClient.s_tasks (y_client t (y_run U t l1))) i = Some tk -> M_AioClient.t_pc tk = M_AioClient.Drain2 n c -> o = YClient (M_AioClient.DrainOk i).
(** every server has the method of the call, and keeps it *)
Definition served (d : ycall) (l : list ystep) : Prop := y_interface d <> [] /\ y_method d <> [] /\
  (forall i reg tr, In (YDial i reg tr) l -> offers reg (y_interface d) (y_method d)) /\ forall c x, ~ In (YServer c (Register (y_interface d) x)) l.
(** every server at the address a has the method of the call, and keeps it (the others may have anything) *)
Definition served_at (t : M_AioClient.timer) (d : ycall) (a : Z) (y : sys) : Prop := y_interface d <> [] /\ y_method d <> [] /\
  forall c k lk, nth_error (y_conns y) c = Some k -> nth_error (M_AioClient.s_links (y_client t y)) c = Some lk -> M_AioClient.k_addr lk = a ->
    offers (y_reg k) (y_interface d) (y_method d) /\ forall x, ~ In (Register (y_interface d) x) (y_steps k).
(** the trace headers of the call can be read (C50) *)
Definition clear_trace (U : tables) (d : ycall) : Prop :=
  forall h, build_header (y_baggage d) (y_interface d) (y_method d) (y_app d) (y_uid d) (y_extra d) = Ok h -> exists c, snd (extract U t_init h []) = Ok c.

(** a result that can be sent back *)
Definition sendable (v : pyobj) : Prop := exists c, v = PBytes c /\ c <> [] /\ len c <= 4294967295.
(** how the call ends when its method ended with r *)
Definition passed_on (s : M_AioClient.st) (rid : Z) (r : res pyobj) : Prop :=
  match r with
  | Raise _ => gives s rid (Raise KeyError)
  | Ok v => (sendable v -> gives s rid (Ok v)) /\ (~ sendable v -> forall x, ~ gives s rid x)
  end.

(** What C128 says about a synchronous call that has raised, in a deployment (M_Deploy). *)
From Verif Require Import PyBase PyDict PyInt M_SofaHeader M_Package M_SyncClient M_AioServer S_Server M_SockServer M_System M_Listener M_Net S_Net M_Deploy S_Deploy S_Answered.
Open Scope nat_scope.

(** no connection was opened for call i *)
Definition no_connection (s : dep) (i : nat) : Prop := forall w x, nth_error (d_wires s) w = Some x -> w_call x <> i.
(** the call was refused before anything was done for it: its timeout is no number, or its request cannot be built, or it
    could not get a connection *)
Definition refused (c : scall) (e : exn) : Prop :=
  (c_oneway c = false /\ ~ numeric (y_timeout (c_what c)) /\ e = AssertionError) \/ c_request c = Raise e \/ e = NameError.
(** what the listener at the end p of a connection has written begins with this frame *)
Definition wrote_first (U : tables) (s : dep) (p : peer) (frame : bytes) : Prop := exists tail, end_sent U s p = Some (frame ++ tail).
(** the reply that the call got reports an error *)
Definition error_reply (U : tables) (s : dep) (i : nat) : Prop :=
  exists w p frame id cmd st v, connection_of s i w p /\ wrote_first U s p frame /\ response frame id cmd st v /\ st <> 0%Z.
(** the reply that the call got, of whatever kind *)
Definition some_reply (U : tables) (s : dep) (i : nat) : Prop :=
  exists w p frame id cmd st v, connection_of s i w p /\ wrote_first U s p frame /\ response frame id cmd st v.
(** why a call raised e *)
Definition reason (U : tables) (l : list dstep) (s : dep) (i : nat) (c : scall) (e : exn) : Prop :=
  (e = TimeoutError /\ In (DRecv i Silent) l) \/                      (* nothing came in time *)
  In (DRecv i (Broken e)) l \/                                        (* its socket failed *)
  (refused c e /\ no_connection s i) \/                               (* it never had a connection *)
  (c_back c = Raise e /\ (c_oneway c = true \/ some_reply U s i)) \/  (* the connection could not be given back *)
  (e = ServerError /\ c_oneway c = false /\ error_reply U s i).       (* the listener said so *)

(** What C129 says about the calls of asyncio clients together with the listeners they call (M_World). *)
From Verif Require Import PyBase PyDict PyInt M_SofaHeader M_Package M_RpcId M_AioServer S_Server M_Net M_Deploy M_World.
From Verif Require M_AioClient S_WhyAio.
Open Scope nat_scope.

(** the other end of a connection has written this frame *)
Definition wrote_back (U : tables) (s : dep) (e : peer) (frame : bytes) : Prop := exists pre post, end_sent U s e = Some (pre ++ frame ++ post).
(** a listener that the client is connected to has written a reply with this id *)
Definition replied_to (U : tables) (s : dep) (k : oclient) (rid cmd status : Z) : Prop := exists e frame v, In e (o_conns k) /\ wrote_back U s e frame /\ response frame rid cmd status v.
(** why call i of client k raises e to its caller *)
Definition cause (U : tables) (t : M_AioClient.timer) (s : dep) (k : oclient) (i : nat) (tk : M_AioClient.task) (e : exn) : Prop := let rid := M_AioClient.rid_of (M_AioClient.t_req tk) in
  M_AioClient.t_addr tk = Raise e \/
  (e = CancelledError /\ In (M_AioClient.Cancel i) (o_hist k)) \/
  (e = AttributeError /\ (p_ptype (M_AioClient.t_req tk) = PTYPE_ONEWAY \/ S_WhyAio.not_sent (o_hist k) i tk)) \/
  (e = KeyError /\ exists cmd status, replied_to U s k rid cmd status /\ (cmd <> CMDCODE_RESPONSE \/ status <> ST_SUCCESS \/ S_WhyAio.too_early t (o_hist k) i rid)).

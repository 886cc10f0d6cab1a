(** What "a call", "the same trace context" and "returns" mean for C61. *)
From Coq Require Import Strings.String.
From Verif Require Import PyBase PyDict PyInt M_SofaHeader M_Package M_RpcId M_Trace M_SyncClient L_SyncClient.
From Verif Require M_AioClient L_AioClient2 L_AioClient4.
Open Scope Z_scope.

(** In a process with the tracing history [ops] a call is made with the span context [c], of baggage [b], to a
    method of an interface, with some further headers: the header [h] is built, the request gets the id [rid] and
    has the bytes [bs]. No baggage key is "prefix" and no further header looks like a trace header. *)
Definition call_made (U : tables) (ops : list top) (c : nat) (interface method target_app uid : pystr) (extra : dict pystr pystr)
    (content : bytes) (ptype : Z) (timeout : pyobj) (rid : Z) (h : sofa_header) (bs : bytes) : Prop :=
  (exists b, baggage_text (trun U t_init ops) c = Some b /\ dget (str "prefix") b = None /\ build_header b interface method target_app uid extra = Ok h) /\
  wf_dict extra /\ (forall k, In k (keys extra) -> starts_with PREFIX k = false) /\
  exists p, new_request h (PBytes content) ptype timeout rid = Ok p /\ to_stream p = Ok bs.

(** the span context c' of one process has the baggage and the rpc id of the span context c of another *)
Definition same_context (st : tstate) (c : nat) (st' : tstate) (c' : nat) : Prop := exists b b' o o',
  baggage_text st c = Some b /\ baggage_text st' c' = Some b' /\ (forall k, dget k b' = dget k b) /\
  nth_error (t_rpcs st) c = Some o /\ nth_error (t_rpcs st') c' = Some o' /\ r_ids o' = r_ids o.

(** the synchronous client sends [bs], possibly on the second or third attempt, and returns [v] if it receives [r]
    and can give the connection back *)
Definition sync_returns (h : sofa_header) (content : bytes) (timeout : pyobj) (rid : Z) (bs r v : bytes) : Prop := forall atts i cn evs,
  (i < 3)%nat -> (forall j, (j < i)%nat -> a_conn (atts j) = Raise SocketValueError \/ (exists c', a_conn (atts j) = Ok c' /\ a_send (atts j) = Raise SocketValueError)) ->
  a_conn (atts i) = Ok cn -> a_send (atts i) = Ok (len bs) -> Forall avail evs -> len r <= len evs ->
  invoke_sync h (PBytes content) timeout rid atts (Ok tt) r evs = ([(cn, bs)], Some (Ok (PBytes v))).

(** the asyncio client returns [v] for the call waiting for an answer to [rid] whose reader consumes [r] *)
Definition aio_returns (rid : Z) (r v : bytes) : Prop := forall t l c l2 i,
  L_AioClient2.distinct_ids (M_AioClient.init t) (l ++ M_AioClient.Read c :: l2) -> L_AioClient4.waiting (M_AioClient.run t l) i rid ->
  L_AioClient2.consumes c r (M_AioClient.run t l) (M_AioClient.run t (l ++ [M_AioClient.Read c])) -> ~ In (M_AioClient.Cancel i) l2 ->
  exists o, M_AioClient.caller_sees o = Ok (PBytes v) /\ L_AioClient4.ended (M_AioClient.run t (l ++ M_AioClient.Read c :: l2 ++ [M_AioClient.Wake i])) i o.

(** both clients return [v] if they receive [r] after sending [bs]; the synchronous one only sends requests of type REQUEST *)
Definition number (x : pyobj) : Prop := match x with PInt _ | PBool _ | PFloat _ _ => True | _ => False end.
Definition clients_return (h : sofa_header) (content : bytes) (ptype : Z) (tmo : pyobj) (rid : Z) (bs r v : bytes) : Prop :=
  aio_returns rid r v /\ forall timeout, number timeout -> tmo = py_or timeout (PInt (-1)) -> ptype = 1 -> sync_returns h content timeout rid bs r v.

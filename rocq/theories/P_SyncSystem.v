(** Property theorems C79-C80: calls of the synchronous client and the servers they reach, threaded or asyncio. The
    words [far_got], [far_sent], [far_calls] and [far_returned] are in S_SyncSystem. *)
From Coq Require Import Strings.String.
From Verif Require Import PyBase PyDict PyInt M_SofaHeader M_Package M_RpcId M_Trace L_Trace2 M_SyncClient M_AioServer M_SockServer M_System M_SyncSystem S_SyncSystem L_SyncSystem.
Open Scope Z_scope.

(** ** C79. A value returned by invoke_sync was returned by the method called for that request. The server has
    received a part of what the client wrote, the client a part of what the server wrote, in any pieces. *)
Theorem C79_value_of_that_method : forall U d h timeout rid atts back srv evs log v c x,
  build_header (y_baggage d) (y_interface d) (y_method d) (y_app d) (y_uid d) (y_extra d) = Ok h ->
  invoke_sync h (PBytes (y_content d)) timeout rid atts back srv evs = (log, Some (Ok v)) ->
  raw_invoke h (PBytes (y_content d)) PTYPE_REQUEST timeout rid atts = (log, Ok (rid, c)) ->
  prefix_of (far_got x) (wrote c log) -> prefix_of srv (far_sent U x) ->
  exists bs, v = PBytes bs /\ far_returned U x (y_interface d) (y_method d) (y_content d) bs.
Proof. exact sync_value. Qed.
Print Assumptions C79_value_of_that_method.

(** ** C80. Over all the connections of a call (of invoke_sync or invoke_oneway), at most one method call is made,
    and it is the one asked for, however much of the request was sent. *)
Theorem C80_executed_at_most_once : forall U d h ptype timeout rid atts log r (f : nat -> far),
  build_header (y_baggage d) (y_interface d) (y_method d) (y_app d) (y_uid d) (y_extra d) = Ok h ->
  raw_invoke h (PBytes (y_content d)) ptype timeout rid atts = (log, r) -> (forall c, prefix_of (far_got (f c)) (wrote c log)) ->
  (forall c, far_calls U (f c) = []) \/ exists c, far_calls U (f c) = [(y_interface d, y_method d, y_content d)] /\ forall c', c' <> c -> far_calls U (f c') = [].
Proof. exact sync_executed. Qed.
Print Assumptions C80_executed_at_most_once.

(** ** A case: the first connection refuses the data, the second takes it; either server answers *)
Definition d7 : ycall := {| y_baggage := [(str "sofaTraceId", str "0a"); (str "sofaRpcId", str "0")]; y_interface := str "svc"; y_method := str "m"; y_app := str "app"; y_uid := []; y_extra := [(str "k", str "v")];
  y_content := bytes_lit "hi"; y_ptype := 1; y_timeout := PInt 50 |}.
Definition h7 : sofa_header := match build_header (y_baggage d7) (y_interface d7) (y_method d7) (y_app d7) (y_uid d7) (y_extra d7) with Ok h => h | Raise _ => [] end.
Definition req7 : bytes := match (let! p := new_request h7 (PBytes (bytes_lit "hi")) 1 (PInt 50) 7 in to_stream p) with Ok b => b | Raise _ => [] end.
Definition atts7 (i : nat) : attempt := match i with O => {| a_conn := Ok 3%nat; a_send := Raise SocketValueError |} | _ => {| a_conn := Ok 4%nat; a_send := Ok (len req7) |} end.
Definition reg7 : registry := [(str "svc", {| sv_raises := None; sv_methods := fun m => pystr_eqb m (str "m") |})].
Definition twice : methods := fun sv m b c => Some (Ok (PBytes (b ++ b))).
Definition threaded7 : far := Threaded 1 reg7 t_init (str "T") twice None (map (fun b => Arrive [b]) req7).
Definition asyncio7 : far := Asyncio reg7 t_init (Feed req7 :: repeat Read 4 ++ [Dispatch 0 (str "T"); JobRun 0; JobEnd 0 (Ok (PBytes (bytes_lit "hihi"))); Result 0; Drain 0 true]).
Definition runs (x : far) := invoke_sync h7 (PBytes (bytes_lit "hi")) (PInt 50) 7 atts7 (Ok tt) (far_sent ascii_tables x) (repeat (Avail 1) 200).
Example C79_case : build_header (y_baggage d7) (y_interface d7) (y_method d7) (y_app d7) (y_uid d7) (y_extra d7) = Ok h7 /\
  raw_invoke h7 (PBytes (bytes_lit "hi")) PTYPE_REQUEST (PInt 50) 7 atts7 = ([(4%nat, req7)], Ok (7, 4%nat)) /\
  far_got threaded7 = req7 /\ runs threaded7 = ([(4%nat, req7)], Some (Ok (PBytes (bytes_lit "hihi")))) /\
  far_got asyncio7 = req7 /\ runs asyncio7 = ([(4%nat, req7)], Some (Ok (PBytes (bytes_lit "hihi")))).
Proof. vm_compute. repeat split. Qed.
Example C80_case : far_calls ascii_tables threaded7 = [(str "svc", str "m", bytes_lit "hi")] /\ far_calls ascii_tables asyncio7 = [(str "svc", str "m", bytes_lit "hi")] /\
  wrote 4 [(4%nat, req7)] = req7 /\ wrote 3 [(4%nat, req7)] = [] /\ far_calls ascii_tables (Asyncio reg7 t_init []) = [].
Proof. vm_compute. repeat split. Qed.

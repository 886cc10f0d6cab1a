(** Property theorem C61: a call, from the caller's span context to the value the caller gets. The definitions of
    [call_made], [same_context] and [clients_return] are in S_EndToEnd. *)
From Coq Require Import Strings.String ZifyBool.
From Verif Require Import PyBase PyDict L_PyDict PyInt Struct M_SofaHeader M_Package M_RpcId M_Trace L_Trace2 S_Wire M_SyncClient L_SyncClient M_AioServer S_Server L_AioServer L_AioServer3 M_SockServer S_SockServer S_EndToEnd L_EndToEnd.
From Verif Require M_AioClient L_AioClient2 L_AioClient4.
Open Scope Z_scope.

(** ** C61. Full property: for every trace context, and for every server. It fails for baggage keys named "prefix"
    (C13_trace_lost_refuted), excluded by [call_made]; the rest holds. *)
(** The threaded server, for every chunking of the request. *)
Theorem C61_threaded_server_partial : forall U ops c interface method app uid extra content ptype tmo rid h bs fuel reg sops fresh call net rest, tables_ok U ->
  call_made U ops c interface method app uid extra content ptype tmo rid h bs -> interface <> [] -> method <> [] ->
  (1 <= fuel)%nat -> received net = bs ++ rest -> offers reg interface method ->
  exists tr' c', same_context (trun U t_init ops) c tr' c' /\
    forall v, call interface method content c' = Some (Ok (PBytes v)) -> len v <= 4294967295 ->
    exists r, handle fuel U reg (trun U t_init sops) fresh call None net =
        {| o_calls := [(interface, method, content, c')]; o_sent := [r]; o_trace := tr'; o_status := SEnded (Ok tt) |} /\
      clients_return h content ptype tmo rid bs r v.
Proof.
  intros U ops c interface method app uid extra content ptype tmo rid h bs fuel reg sops fresh call net rest HU Cm Ni Nm Fu Rc Of.
  destruct (sock_end_to_end U ops c interface method app uid extra content ptype tmo rid h bs fuel reg sops fresh call net rest HU Cm Ni Nm Fu Rc Of) as (tr' & c' & Sc & K). exists tr', c'. split; [exact Sc|].
  intros v Ca Lv. destruct (K v Ca Lv) as (r & E & R). exists r. split; [exact E|]. exact (both_return U ops c interface method app uid extra content ptype tmo rid h bs r v Cm R).
Qed.
Print Assumptions C61_threaded_server_partial.

(** The asyncio server, for every chunking, whatever was sent before and after on the connection, and for every
    schedule: the request gets a coroutine ... *)
Theorem C61_asyncio_server_takes_partial : forall U ops c interface method app uid extra content ptype tmo rid h bs reg tr l pre items post,
  call_made U ops c interface method app uid extra content ptype tmo rid h bs -> interface <> [] -> method <> [] ->
  fed l = pre ++ bs ++ post -> cuts pre items [] -> Forall (fun i => ~ fatal i) items -> S_Server.waiting (srun U reg tr l) ->
  exists i r p, answering (srun U reg tr l) i (List.length items) r p.
Proof. exact aio_taken. Qed.
Print Assumptions C61_asyncio_server_takes_partial.

(** ... which, once it runs, has the method executed, and answers when that has returned a non-empty value in time. *)
Theorem C61_asyncio_server_partial : forall U ops c interface method app uid extra content ptype tmo rid h bs reg sops l1 l2 pre items post i r fresh, tables_ok U ->
  call_made U ops c interface method app uid extra content ptype tmo rid h bs -> interface <> [] -> method <> [] -> ptype <> 2 ->
  let run := srun U reg (trun U t_init sops) in let n := List.length items in let l := l1 ++ Dispatch i fresh :: l2 in
  fed l1 = pre ++ bs ++ post -> cuts pre items [] -> Forall (fun i => ~ fatal i) items ->
  answering (run l1) i n r TStart -> offers (v_reg (run l1)) interface method -> v_closed (run l) = false -> ~ In (Expire i) l2 -> ~ In (Drain i false) l2 ->
  exists c', same_context (trun U t_init ops) c (v_trace (run (l1 ++ [Dispatch i fresh]))) c' /\
    (exists b, In b (v_jobs (run l)) /\ j_frame b = n) /\
    (forall b, In b (v_jobs (run l)) -> j_frame b = n -> j_service b = interface /\ j_method b = method /\ j_body b = content /\ j_ctx b = c') /\
    forall v, ended_with (run l) n (Ok (PBytes v)) -> v <> [] -> len v <= 4294967295 ->
    In (n, interface, method, content) (executions U (sinit reg (trun U t_init sops)) l) /\
    exists a, clients_return h content ptype tmo rid bs a v /\ (answers n (run l) = [] \/ answers n (run l) = [a]) /\ answers n (run (l ++ [Result i; Drain i true])) = [a].
Proof.
  intros U ops c interface method app uid extra content ptype tmo rid h bs reg sops l1 l2 pre items post i r fresh HU Cm Ni Nm Pt run n l Fe Cp Nf An Of Cl Ne Nd.
  destruct (aio_end_to_end U ops c interface method app uid extra content ptype tmo rid h bs reg sops l1 l2 pre items post i r fresh HU Cm Ni Nm Pt Fe Cp Nf An Of Cl Ne Nd) as (c' & Sc & Ex & Un & K).
  exists c'. split; [exact Sc|]. split; [exact Ex|]. split; [exact Un|]. intros v En Nv Lv. destruct (K v En Nv Lv) as (Exec & a & R & An2). split; [exact Exec|]. exists a. split; [|exact An2].
  exact (both_return U ops c interface method app uid extra content ptype tmo rid h bs a v Cm R).
Qed.
Print Assumptions C61_asyncio_server_partial.

(** ** A case *)
Definition ops0 : list top := [TExtract [(str "rpc_trace_context.sofaTraceId", str "0a0b"); (str "rpc_trace_context.sofaRpcId", str "0.x.07"); (str "rpc_trace_context.user", str "u1")] [];
  M_Trace.TStart (str "op") (Some (ChildOf, 0%nat)) [] []].
Definition h0 : sofa_header := match baggage_text (trun ascii_tables t_init ops0) 1 with
  | Some b => match build_header b (str "svc") (str "m") (str "app") [] [(str "extra", str "e")] with Ok h => h | Raise _ => [] end | None => [] end.
Definition bs0 : bytes := match (let! p := new_request h0 (PBytes (bytes_lit "hi")) 1 (PInt 50) 7 in to_stream p) with Ok b => b | Raise _ => [] end.
Definition svc : service := {| sv_raises := None; sv_methods := fun m => pystr_eqb m (str "m") |}.
Definition reg0 : registry := [(str "svc", svc)].
Definition answer0 : bytes := match result_bytes (PBytes (bytes_lit "hihi")) 7 with Ok b => b | Raise _ => [] end.
Example C61_made : call_made ascii_tables ops0 1 (str "svc") (str "m") (str "app") [] [(str "extra", str "e")] (bytes_lit "hi") 1 (PInt 50) 7 h0 bs0.
Proof.
  split; [|split; [|split]].
  - eexists. split; [vm_compute; reflexivity|]. split; vm_compute; reflexivity.
  - apply nodupb_str_ok. vm_compute. reflexivity.
  - intros k [<-|[]]. vm_compute. reflexivity.
  - eexists. split; [vm_compute; reflexivity|vm_compute; reflexivity].
Qed.
(** sent byte by byte to the threaded server; the synchronous client gets the answer *)
Example C61_threaded_case : let call : methods := fun sv m b c => Some (Ok (PBytes (b ++ b))) in
  let o := handle 1 ascii_tables reg0 t_init (str "T") call None (map (fun b => Arrive [b]) bs0) in
  o_calls o = [(str "svc", str "m", bytes_lit "hi", 0%nat)] /\ o_sent o = [answer0] /\
  option_map (fun b => (dget (str "user") b, dget (str "sofaRpcId") b, dget (str "sofaTraceId") b)) (baggage_text (o_trace o) 0) = Some (Some (str "u1"), Some (str "0.x.7.1"), Some (str "0a0b")) /\
  invoke_sync h0 (PBytes (bytes_lit "hi")) (PInt 50) 7 (fun _ => {| a_conn := Ok 3%nat; a_send := Ok (len bs0) |}) (Ok tt) answer0 (repeat (Avail 1) 200) = ([(3%nat, bs0)], Some (Ok (PBytes (bytes_lit "hihi")))).
Proof. vm_compute. repeat split. Qed.
(** sent to the asyncio server after another request; the asyncio client gets the answer *)
Definition ping : bytes := match (let! p := mk_package HeartbeatRequest [] (PBytes []) (PInt 1) (PInt 1) (PInt 0) (PInt 1) (PInt 6) (PInt 11) (PInt 100) (PInt 0) in to_stream p) with Ok b => b | Raise _ => [] end.
Definition req0 : pkg := match new_request h0 (PBytes (bytes_lit "hi")) 1 (PInt 50) 7 with Ok p => p | Raise _ => {| p_cls := BoltRequest; p_header := []; p_header_bytes := []; p_content := PNone; p_proto := 0; p_ptype := 0; p_cmdcode := 0; p_ver2 := 0; p_request_id := PNone; p_codec := 0; p_timeout := PNone; p_respstatus := 0 |} end.
Example C61_asyncio_case :
  let l1 := Feed (ping ++ bs0) :: repeat Read 8 in let l := l1 ++ Dispatch 1 (str "T") :: [JobRun 0; JobEnd 0 (Ok (PBytes (bytes_lit "hihi")))] in let run := srun ascii_tables reg0 t_init in
  fed l1 = ping ++ bs0 ++ [] /\ S_Server.waiting (run l1) /\ (exists r, answering (run l1) 1 1 r TStart) /\ ended_with (run l) 1 (Ok (PBytes (bytes_lit "hihi"))) /\ v_closed (run l) = false /\
  executions ascii_tables (sinit reg0 t_init) l = [(1%nat, str "svc", str "m", bytes_lit "hi")] /\ answers 1 (run (l ++ [Result 1; Drain 1 true])) = [answer0] /\
  let call := [M_AioClient.Call req0 (Ok 1); M_AioClient.Run 0; M_AioClient.Acquire 0; M_AioClient.DialOk 0; M_AioClient.DrainOk 0; M_AioClient.DrainOk 0; M_AioClient.Read 0] in
  let c := M_AioClient.run M_AioClient.NoTimer call in
  M_AioClient.s_written c = [(0%nat, bs0)] /\
  map M_AioClient.t_pc (M_AioClient.s_tasks (M_AioClient.run M_AioClient.NoTimer (call ++ [M_AioClient.Feed 0 answer0; M_AioClient.Read 0; M_AioClient.Read 0; M_AioClient.Wake 0]))) <> map M_AioClient.t_pc (M_AioClient.s_tasks c) /\
  map (fun t => match M_AioClient.t_pc t with M_AioClient.Done r => M_AioClient.caller_sees r | _ => Raise OtherError end)
    (M_AioClient.s_tasks (M_AioClient.run M_AioClient.NoTimer (call ++ [M_AioClient.Feed 0 answer0; M_AioClient.Read 0; M_AioClient.Read 0; M_AioClient.Wake 0]))) = [Ok (PBytes (bytes_lit "hihi"))].
Proof.
  cbv zeta. split; [vm_compute; reflexivity|]. split; [vm_compute; repeat split|]. split; [eexists; vm_compute; reflexivity|]. split; [eexists; split; [vm_compute; left; reflexivity|vm_compute; split; reflexivity]|].
  split; [vm_compute; reflexivity|]. split; [vm_compute; reflexivity|]. split; [vm_compute; reflexivity|]. split; [vm_compute; reflexivity|]. split; [vm_compute; discriminate|vm_compute; reflexivity].
Qed.

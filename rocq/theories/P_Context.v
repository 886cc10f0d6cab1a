(** Property theorems C130: in a deployment of any numbers of clients and listeners of both kinds, with any other programs
    beside them (M_World, M_Deploy), methods are called in the trace context of the call that they are for. *)
From Coq Require Import Strings.String.
From Verif Require Import PyBase PyDict PyInt M_SofaHeader M_Package M_RpcId M_Trace M_SyncClient M_AioServer M_SockServer M_System M_Listener M_Net M_Deploy S_Deploy M_World S_Context L_Trace2 L_Context2.
From Verif Require M_AioClient.
Open Scope nat_scope.

(** ** C130 *)
(** Whatever is executed on a connection of an asyncio client is for a call of that client, at that address, and is executed
    in the context of that call, whatever the tracer of the listener and the other connections do. Missing: calls with a
    baggage item named "prefix" or with further headers that look like trace headers (refuted below). *)
Theorem C130_client_context_partial : forall U t n regs l p k e j, let x := w_run U t n regs l in tables_ok U ->
  nth_error (b_clients x) p = Some k -> In e (o_conns k) -> any_started_at U (b_dep x) e j ->
  exists d rid addr, In (WCall p d rid (Ok addr)) l /\ located (b_dep x) e addr /\ started_at U (b_dep x) e j d /\ (traced U d -> in_context U (b_dep x) e j d).
Proof. exact client_context. Qed.
Print Assumptions C130_client_context_partial.

(** the same for the calls of synchronous clients *)
Theorem C130_sync_context_partial : forall U t n regs l i c w e j, let x := w_run U t n regs l in tables_ok U -> nth_error (d_calls (b_dep x)) i = Some c -> traced U (c_what c) ->
  connection_of (b_dep x) i w e -> any_started_at U (b_dep x) e j -> in_context U (b_dep x) e j (c_what c).
Proof. exact world_sync_context. Qed.
Print Assumptions C130_sync_context_partial.

Theorem C130_deployed_sync_context_partial : forall U t n regs l i c w e j, let s := d_run U t n regs l in tables_ok U -> nth_error (d_calls s) i = Some c -> traced U (c_what c) ->
  connection_of s i w e -> any_started_at U s e j -> in_context U s e j (c_what c).
Proof. exact deploy_sync_context. Qed.
Print Assumptions C130_deployed_sync_context_partial.

(** an asyncio client calls a method at an asyncio listener and one at a threaded listener in two different contexts, and a
    synchronous call is made to the asyncio listener in a third; the tracer of that listener has been used before *)
Definition ops130 (u r : string) : list top := [TExtract [(str "rpc_trace_context.user", str u); (str "rpc_trace_context.sofaTraceId", str "0a1b"); (str "rpc_trace_context.sofaRpcId", str r)] []].
Definition bag130 (u r : string) : dict pystr pystr := [(str "user", str u); (str "sofaTraceId", str "0a1b"); (str "sofaRpcId", str r)].
Definition d130 (m c u r : string) : ycall := {| y_baggage := bag130 u r; y_interface := str "svc"; y_method := str m; y_app := str "app"; y_uid := []; y_extra := [(str "color", str "red")];
  y_content := bytes_lit c; y_ptype := 1; y_timeout := PInt 50 |}.
Definition reg130 : registry := [(str "svc", {| sv_raises := None; sv_methods := fun m => pystr_eqb m (str "m") || pystr_eqb m (str "n") |})].
Definition used : tstate := trun ascii_tables t_init (ops130 "old" "3.1" ++ ops130 "older" "4").
Definition thr130 : accepter := AThr 100 reg130 used (str "F") (fun _ _ b _ => Some (Ok (PBytes (b ++ b)))) None.
Definition cl (p : nat) (l : list M_AioClient.step) : list wstep := map (WClient p) l.
Definition sv (c : nat) (l : list sstep) : list wstep := map (fun o => WRest (DNet (ZServer 0 (LConn c o)))) l.
Definition open (p i : nat) (acc : accepter) : list wstep := cl p [M_AioClient.Run i; M_AioClient.Acquire i] ++ [WDial p i acc] ++ cl p [M_AioClient.DrainOk i; M_AioClient.DrainOk i].
Definition l130 : list wstep :=
  [WCall 0 (d130 "m" "hi" "ann" "0.1") 7 (Ok 0%Z); WCall 0 (d130 "n" "ho" "bob" "0.2") 8 (Ok (-1)%Z); WRest (DCall (d130 "m" "he" "cyd" "0.3") 0 false 7 (Ok tt))] ++
  open 0 0 (AAio used) ++ [WRest (DRound 0 (fun _ _ => true) (fun _ _ => false) (AAio used) (Ok 1000%Z))] ++ open 0 1 thr130 ++
  [WUp 0 0 1000; WUp 0 1 1000; WRest (DUp 0 1000)] ++ sv 0 (repeat Read 4) ++ sv 1 (repeat Read 4) ++ sv 0 [Dispatch 0 (str "T0")] ++ sv 1 [Dispatch 0 (str "T1")] ++
  [WRest (DNet (ZServer 0 LTake)); WRest (DNet (ZServer 0 LTake))].
Definition s130 : world := w_run ascii_tables M_AioClient.NoTimer 1 [reg130] l130.
Example C130_case : map o_conns (b_clients s130) = [[PAio 0 0; PThr 0]] /\ map (fun x => (w_call x, w_peer x)) (d_wires (b_dep s130)) = [(0, Some (PAio 0 1))] /\
  context_at ascii_tables (b_dep s130) (PAio 0 0) 0 = Some (bag130 "ann" "0.1") /\ context_at ascii_tables (b_dep s130) (PThr 0) 0 = Some (bag130 "bob" "0.2") /\
  context_at ascii_tables (b_dep s130) (PAio 0 1) 0 = Some (bag130 "cyd" "0.3") /\
  match z_conn (d_net (b_dep s130)) 0 0, z_conn (d_net (b_dep s130)) 0 1 with Some x, Some y => map j_state (v_jobs x ++ v_jobs y) = [JRunning; JRunning] | _, _ => False end.
Proof. vm_compute. repeat split. Qed.
Example C130_traced : forall m c, traced ascii_tables (d130 m c "ann" "0.1").
Proof.
  intros m c. split; [exists (ops130 "ann" "0.1"), 0; vm_compute; reflexivity|]. split; [vm_compute; reflexivity|]. split; [unfold wf_dict; cbn; constructor; [intros []|constructor]|].
  intros k [<-|[]]. vm_compute. reflexivity.
Qed.

(** In a context with a baggage item named "prefix", which processes can have, the method is called, in a new context: the
    trace id is not that of the call. *)
Definition alone (d : ycall) : list dstep := [DCall d (-1) false 7 (Ok tt); DRound 0 (fun _ _ => true) (fun _ _ => false) thr130 (Ok 1000%Z); DUp 0 1000].
Definition lost130 : ycall := {| y_baggage := [(str "prefix", str "x"); (str "sofaTraceId", str "T"); (str "sofaRpcId", str "0")]; y_interface := str "svc"; y_method := str "m"; y_app := []; y_uid := []; y_extra := [];
  y_content := bytes_lit "hi"; y_ptype := 1; y_timeout := PInt 50 |}.
Theorem C130_prefix_refuted : exists U t n regs l i c w e j ops n0, let s := d_run U t n regs l in tables_ok U /\ nth_error (d_calls s) i = Some c /\ connection_of s i w e /\ any_started_at U s e j /\
  baggage_text (trun U t_init ops) n0 = Some (y_baggage (c_what c)) /\ y_extra (c_what c) = [] /\
  exists b, context_at U s e j = Some b /\ dget K_trace b <> dget K_trace (y_baggage (c_what c)).
Proof.
  set (s := d_run ascii_tables M_AioClient.NoTimer 0 [] (alone lost130)). assert (K : context_at ascii_tables s (PThr 0) 0 = Some [(str "sofaTraceId", str "F"); (str "sofaRpcId", str "1")]) by (vm_compute; reflexivity).
  assert (A : option_map c_what (nth_error (d_calls s) 0) = Some lost130) by (vm_compute; reflexivity).
  assert (B : option_map (fun x => (w_call x, w_peer x)) (nth_error (d_wires s) 0) = Some (0, Some (PThr 0))) by (vm_compute; reflexivity).
  destruct (thread_case _ _ _ _ _ _ _ _ A B K) as (c & Hc & Hd & Co & St).
  exists ascii_tables, M_AioClient.NoTimer, 0, [], (alone lost130), 0, c, 0, (PThr 0), 0, [TExtract [(str "rpc_trace_context.prefix", str "x"); (str "rpc_trace_context.sofaTraceId", str "T"); (str "rpc_trace_context.sofaRpcId", str "0")] []], 0.
  cbv zeta. fold s. split; [exact ascii_tables_ok|]. rewrite Hd. split; [exact Hc|]. split; [exact Co|]. split; [exact St|]. split; [vm_compute; reflexivity|]. split; [reflexivity|].
  eexists. split; [exact K|]. vm_compute. discriminate.
Qed.
Print Assumptions C130_prefix_refuted.

(** a further header that looks like a trace header adds an item to the context in which the method is called *)
Definition added130 : ycall := {| y_baggage := bag130 "ann" "0.1"; y_interface := str "svc"; y_method := str "m"; y_app := []; y_uid := []; y_extra := [(str "rpc_trace_context.role", str "root")];
  y_content := bytes_lit "hi"; y_ptype := 1; y_timeout := PInt 50 |}.
Theorem C130_header_refuted : exists U t n regs l i c w e j ops n0, let s := d_run U t n regs l in tables_ok U /\ nth_error (d_calls s) i = Some c /\ connection_of s i w e /\ any_started_at U s e j /\
  baggage_text (trun U t_init ops) n0 = Some (y_baggage (c_what c)) /\ dget (str "prefix") (y_baggage (c_what c)) = None /\ wf_dict (y_extra (c_what c)) /\
  exists b, context_at U s e j = Some b /\ dget (str "role") b <> dget (str "role") (y_baggage (c_what c)).
Proof.
  set (s := d_run ascii_tables M_AioClient.NoTimer 0 [] (alone added130)). assert (K : context_at ascii_tables s (PThr 0) 0 = Some ([(str "role", str "root"); (str "user", str "ann"); (str "sofaTraceId", str "0a1b"); (str "sofaRpcId", str "0.1")])) by (vm_compute; reflexivity).
  assert (A : option_map c_what (nth_error (d_calls s) 0) = Some added130) by (vm_compute; reflexivity).
  assert (B : option_map (fun x => (w_call x, w_peer x)) (nth_error (d_wires s) 0) = Some (0, Some (PThr 0))) by (vm_compute; reflexivity).
  destruct (thread_case _ _ _ _ _ _ _ _ A B K) as (c & Hc & Hd & Co & St).
  exists ascii_tables, M_AioClient.NoTimer, 0, [], (alone added130), 0, c, 0, (PThr 0), 0, (ops130 "ann" "0.1"), 0.
  cbv zeta. fold s. split; [exact ascii_tables_ok|]. rewrite Hd. split; [exact Hc|]. split; [exact Co|]. split; [exact St|]. split; [vm_compute; reflexivity|]. split; [vm_compute; reflexivity|].
  split; [unfold wf_dict; cbn; constructor; [intros []|constructor]|]. eexists. split; [exact K|]. vm_compute. discriminate.
Qed.
Print Assumptions C130_header_refuted.

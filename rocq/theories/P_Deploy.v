(** Property theorems C96: asyncio clients, synchronous clients, asyncio listeners and threaded listeners, any number of
    each, all at the same time (M_Deploy). The request ids of different calls of synchronous clients, and of different
    clients, may be the same; those of one asyncio client must not repeat (C12). *)
From Coq Require Import Strings.String.
From Verif Require Import PyBase PyDict PyInt Struct M_SofaHeader M_Package M_RpcId M_Trace M_SyncClient M_AioServer S_Server M_SockServer M_System S_System L_System M_Listener S_Listener M_Net S_Net M_Deploy S_Deploy L_Deploy.
From Verif Require M_AioClient.
Open Scope nat_scope.

(** ** C96 *)
(** a value returned by a synchronous call was returned by the method called for that very call, by the listener at its
    address, on a connection of that call *)
Theorem C96_sync_value : forall U t n regs l i c v, let s := d_run U t n regs l in nth_error (d_calls s) i = Some c -> c_oneway c = false -> c_pc c = SEnd (Ok v) ->
  exists w e bs, connection_of s i w e /\ located s e (c_addr c) /\ returned_at U s e (c_what c) bs /\ v = PBytes bs.
Proof. exact deploy_value. Qed.
Print Assumptions C96_sync_value.

(** whatever is executed on the connections of a synchronous call is the method that it asks for, and that happens once *)
Theorem C96_sync_executed : forall U t n regs l i c w e j, let s := d_run U t n regs l in nth_error (d_calls s) i = Some c -> connection_of s i w e -> any_started_at U s e j ->
  started_at U s e j (c_what c) /\ forall w' e' j', connection_of s i w' e' -> any_started_at U s e' j' -> w' = w /\ j' = j.
Proof. exact deploy_executed. Qed.
Print Assumptions C96_sync_executed.

(** a synchronous call takes at most three connections from its pools *)
Theorem C96_three_connections : forall U t n regs l i W, let s := d_run U t n regs l in NoDup W ->
  (forall w, In w W -> exists x, nth_error (d_wires s) w = Some x /\ w_call x = i) -> List.length W <= 3.
Proof. exact deploy_taken. Qed.
Print Assumptions C96_three_connections.

(** no connection of a synchronous call is also one of another call or of an asyncio client *)
Theorem C96_separate : forall U t n regs l, let s := d_run U t n regs l in
  (forall i i' w w' e, connection_of s i w e -> connection_of s i' w' e -> w = w' /\ i = i') /\
  (forall i w a m p k, connection_of s i w (PAio a m) -> nth_error (z_clients (d_net s)) p = Some k -> ~ In (a, m) (z_conns k)).
Proof. exact deploy_separate. Qed.
Print Assumptions C96_separate.

(** what C95 says about asyncio clients and listeners holds beside the synchronous ones *)
Theorem C96_aio_value : forall U t n regs l p k d rid a v, NoDup (z_ids p (net_steps l)) -> let s := d_run U t n regs l in nth_error (z_clients (d_net s)) p = Some k ->
  In (DNet (ZCall p d rid a)) l -> gives (z_state t k) rid (Ok v) ->
  exists sv m bs, In (sv, m) (z_conns k) /\ a = Ok (Z.of_nat sv) /\ method_returned (d_net s) sv m d v /\ v = PBytes bs /\ bs <> [].
Proof. exact deploy_aio_value. Qed.
Print Assumptions C96_aio_value.

Theorem C96_aio_executions : forall U t n regs l p k rid i tk L, NoDup (z_ids p (net_steps l)) -> let s := d_run U t n regs l in nth_error (z_clients (d_net s)) p = Some k ->
  nth_error (M_AioClient.s_tasks (z_state t k)) i = Some tk -> p_request_id (M_AioClient.t_req tk) = PInt rid ->
  NoDup L -> (forall c j, In (c, j) L -> started_for (d_net s) k rid c j) -> List.length L <= 1 + failed_flushes i k /\ List.length L <= 3.
Proof. exact deploy_aio_executions. Qed.
Print Assumptions C96_aio_executions.

Theorem C96_at_most_30 : forall U t n regs l a sv x, nth_error (z_servers (d_net (d_run U t n regs l))) a = Some sv -> executing sv x -> List.length x <= 30.
Proof. exact deploy_bound. Qed.
Print Assumptions C96_at_most_30.

(** the runs these theorems are about include other programs: whatever bytes they send, on connections that are not of
    the clients, arrive *)
Theorem C96_other_programs : forall U t s a m n b,
  ((forall w x, nth_error (d_wires s) w = Some x -> w_peer x <> Some (PAio a m)) -> (forall p k, nth_error (z_clients (d_net s)) p = Some k -> ~ In (a, m) (z_conns k)) ->
     d_net (d_step U t (DNet (ZServer a (LConn m (Feed b)))) s) = on_server U a (LConn m (Feed b)) (d_net s)) /\
  ((forall w x, nth_error (d_wires s) w = Some x -> w_peer x <> Some (PThr n)) -> d_step U t (DFeed n b) s = with_thr n (Arrive b) s).
Proof. exact (fun U t s a m n b => conj (others_reach U t s a m b) (others_reach_thr U t s n b)). Qed.
Print Assumptions C96_other_programs.

(** one asyncio client and three synchronous calls with the same request id at the same time: the asyncio client and call 0
    at asyncio listener 0, call 1 at a threaded listener, call 2 one-way at asyncio listener 0; call 0 fails once to send
    and tries again on another connection *)
Definition d7 (m c : string) : ycall := {| y_baggage := [(str "sofaTraceId", str "0a"); (str "sofaRpcId", str "0")]; y_interface := str "svc"; y_method := str m; y_app := str "app"; y_uid := []; y_extra := [];
  y_content := bytes_lit c; y_ptype := 1; y_timeout := PInt 50 |}.
Definition reg7 : registry := [(str "svc", {| sv_raises := None; sv_methods := fun m => pystr_eqb m (str "m") || pystr_eqb m (str "n") |})].
Definition on (_ _ : nat) : bool := true.
Definition off (_ _ : nat) : bool := false.
Definition cl (l : list M_AioClient.step) : list dstep := map (fun o => DNet (ZClient 0 o)) l.
Definition sv (c : nat) (l : list sstep) : list dstep := map (fun o => DNet (ZServer 0 (LConn c o))) l.
Definition l96 : list dstep :=
  [DNet (ZCall 0 (d7 "m" "hi") 7 (Ok 0%Z)); DCall (d7 "n" "yo") 0 false 7 (Ok tt); DCall (d7 "m" "ho") (-1) false 7 (Ok tt); DCall (d7 "m" "he") 0 true 7 (Ok tt)] ++
  [DRound 0 on off (AAio t_init) (Raise SocketValueError)] ++
  cl [M_AioClient.Run 0; M_AioClient.Acquire 0] ++ [DNet (ZDial 0 0 t_init)] ++ cl [M_AioClient.DrainOk 0; M_AioClient.DrainOk 0; M_AioClient.Read 0] ++
  [DRound 0 on off (AAio t_init) (Ok 1000%Z);
   DRound 1 on off (AThr 100 reg7 t_init (str "F") (fun _ _ b _ => Some (Ok (PBytes (b ++ b)))) None) (Ok 1000%Z);
   DRound 2 on off (AAio t_init) (Ok 1000%Z); DNet (ZUp 0 0 1000); DUp 1 20; DUp 1 1000; DUp 2 1000; DUp 3 1000] ++
  sv 1 (repeat Read 4) ++ sv 2 (repeat Read 4) ++ sv 3 (repeat Read 4) ++ sv 1 [Dispatch 0 (str "T0")] ++ sv 2 [Dispatch 0 (str "T1")] ++ sv 3 [Dispatch 0 (str "T2")] ++
  [DNet (ZServer 0 LTake); DNet (ZServer 0 LTake); DNet (ZServer 0 LTake)] ++ sv 2 [JobEnd 0 (Ok (PBytes (bytes_lit "yoyo"))); Result 0; Drain 0 true] ++
  [DDown 1 10; DRecv 0 (Avail 1000); DDown 1 1000; DRecv 0 (Avail 1000); DRecv 0 (Avail 1000); DDown 2 1000; DRecv 1 (Avail 1000); DRecv 1 (Avail 1000)] ++
  sv 1 [JobEnd 0 (Ok (PBytes (bytes_lit "hihi"))); Result 0; Drain 0 true] ++ [DNet (ZDown 0 0 20); DNet (ZDown 0 0 1000)] ++ cl [M_AioClient.Read 0; M_AioClient.Read 0; M_AioClient.Wake 0].
Definition s96 : dep := d_run ascii_tables M_AioClient.NoTimer 1 [reg7] l96.
Definition end_of (c : scall) : option (res pyobj) := match c_pc c with SEnd r => Some r | _ => None end.
Example C96_case : z_ids 0 (net_steps l96) = [7%Z] /\ map end_of (d_calls s96) = [Some (Ok (PBytes (bytes_lit "yoyo"))); Some (Ok (PBytes (bytes_lit "hoho"))); Some (Ok PNone)] /\
  map (fun x => (w_call x, w_peer x)) (d_wires s96) = [(0, Some (PAio 0 0)); (0, Some (PAio 0 2)); (1, Some (PThr 0)); (2, Some (PAio 0 3))] /\
  map z_conns (z_clients (d_net s96)) = [[(0, 1)]] /\
  match z_conn (d_net s96) 0 0, z_conn (d_net s96) 0 2, z_conn (d_net s96) 0 3 with
  | Some x, Some y, Some z => map j_state (v_jobs x) = [] /\ map j_state (v_jobs y) = [JEnded (Ok (PBytes (bytes_lit "yoyo")))] /\ map j_state (v_jobs z) = [JRunning]
  | _, _, _ => False
  end.
Proof. vm_compute. repeat split. Qed.
Example C96_aio_case : match z_clients (d_net s96) with [k] => gives (z_state M_AioClient.NoTimer k) 7 (Ok (PBytes (bytes_lit "hihi"))) | _ => False end.
Proof.
  destruct (z_clients (d_net s96)) as [|k [|]] eqn:E; try (apply (f_equal (@List.length zclient)) in E; vm_compute in E; discriminate). apply (gives_intro _ _ _ 0).
  assert (H : match z_clients (d_net s96) with [k] => match nth_error (M_AioClient.s_tasks (z_state M_AioClient.NoTimer k)) 0 with Some tk => match M_AioClient.t_pc tk with M_AioClient.Done o => p_request_id (M_AioClient.t_req tk) = PInt 7 /\ M_AioClient.caller_sees o = Ok (PBytes (bytes_lit "hihi")) | _ => False end | None => False end | _ => False end) by (vm_compute; split; reflexivity).
  rewrite E in H. exact H.
Qed.
(** a call whose three attempts to send all fail *)
Example C96_three_case : let s := d_run ascii_tables M_AioClient.NoTimer 0 [reg7] (DCall (d7 "m" "hi") 0 false 1 (Ok tt) :: repeat (DRound 0 on off (AAio t_init) (Raise SocketValueError)) 4) in
  map w_call (d_wires s) = [0; 0; 0] /\ NoDup [0; 1; 2].
Proof. split; [vm_compute; reflexivity|]. repeat constructor; cbn; intuition discriminate. Qed.
(** the listener of [s96] reads a request of another program *)
Example C96_other_case : let s := d_run ascii_tables M_AioClient.NoTimer 1 [reg7] (l96 ++ [DNet (ZServer 0 (LAccept t_init)); DNet (ZServer 0 (LConn 4 (Feed (bytes_lit "abc"))))]) in
  match z_conn (d_net s) 0 4 with Some x => v_in x = bytes_lit "abc" | None => False end.
Proof. vm_compute. reflexivity. Qed.

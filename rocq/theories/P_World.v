(** Property theorems C102: asyncio clients that call asyncio and threaded listeners, synchronous clients, listeners of
    both kinds and other programs, any number of each, all at the same time (M_World). The request ids of different
    clients may be the same; those of one asyncio client must not repeat (C12). *)
From Coq Require Import Strings.String Lia.
From Verif Require Import PyBase PyDict PyInt Struct M_SofaHeader M_Package M_RpcId M_Trace M_SyncClient M_AioServer S_Server M_SockServer S_SockServer M_System S_System L_System M_Listener S_Listener M_Net M_Deploy S_Deploy M_World S_World L_World.
From Verif Require M_AioClient.
Open Scope nat_scope.

(** ** C102 *)
(** a value that a call of an asyncio client returns was returned by the method called for that very call, by the
    listener at its address, of whichever kind, on a connection of that client *)
Theorem C102_value : forall U t n regs l p k d rid a v, NoDup (w_ids p l) -> let x := w_run U t n regs l in nth_error (b_clients x) p = Some k ->
  In (WCall p d rid a) l -> gives (o_state t k) rid (Ok v) ->
  exists e addr bs, In e (o_conns k) /\ a = Ok addr /\ located (b_dep x) e addr /\ returned_at U (b_dep x) e d bs /\ v = PBytes bs.
Proof. exact world_value. Qed.
Print Assumptions C102_value.

(** whatever is executed on a connection of an asyncio client is what that client asked for, at that address *)
Theorem C102_executed_as_asked : forall U t n regs l p k e j, let x := w_run U t n regs l in nth_error (b_clients x) p = Some k -> In e (o_conns k) -> any_started_at U (b_dep x) e j ->
  exists d rid addr, In (WCall p d rid (Ok addr)) l /\ located (b_dep x) e addr /\ started_at U (b_dep x) e j d.
Proof. exact world_executed. Qed.
Print Assumptions C102_executed_as_asked.

(** the method of one call is executed at most three times, and at most once more than its flushes failed,
    whichever kind of listener is at its address *)
Theorem C102_executions : forall U t n regs l p k rid i tk L, NoDup (w_ids p l) -> let x := w_run U t n regs l in nth_error (b_clients x) p = Some k ->
  nth_error (M_AioClient.s_tasks (o_state t k)) i = Some tk -> p_request_id (M_AioClient.t_req tk) = PInt rid ->
  NoDup L -> (forall c j, In (c, j) L -> started_by U (b_dep x) k rid c j) -> List.length L <= 1 + flushes_failed i k /\ List.length L <= 3.
Proof. exact world_executions. Qed.
Print Assumptions C102_executions.

(** no connection belongs to two clients, to an asyncio client and a synchronous call, or to two synchronous calls *)
Theorem C102_separate : forall U t n regs l, let x := w_run U t n regs l in
  (forall p p' k k' e, nth_error (b_clients x) p = Some k -> nth_error (b_clients x) p' = Some k' -> In e (o_conns k) -> In e (o_conns k') -> p = p') /\
  (forall p k e i w, nth_error (b_clients x) p = Some k -> In e (o_conns k) -> ~ connection_of (b_dep x) i w e) /\
  (forall i i' w w' e, connection_of (b_dep x) i w e -> connection_of (b_dep x) i' w' e -> w = w' /\ i = i').
Proof. exact world_separate. Qed.
Print Assumptions C102_separate.

(** what C96 says about synchronous calls holds beside all these *)
Theorem C102_sync_value : forall U t n regs l i c v, let x := w_run U t n regs l in nth_error (d_calls (b_dep x)) i = Some c -> c_oneway c = false -> c_pc c = SEnd (Ok v) ->
  exists w e bs, connection_of (b_dep x) i w e /\ located (b_dep x) e (c_addr c) /\ returned_at U (b_dep x) e (c_what c) bs /\ v = PBytes bs.
Proof. exact world_sync_value. Qed.
Print Assumptions C102_sync_value.

Theorem C102_sync_executed : forall U t n regs l i c w e j, let x := w_run U t n regs l in nth_error (d_calls (b_dep x)) i = Some c -> connection_of (b_dep x) i w e -> any_started_at U (b_dep x) e j ->
  started_at U (b_dep x) e j (c_what c) /\ forall w' e' j', connection_of (b_dep x) i w' e' -> any_started_at U (b_dep x) e' j' -> w' = w /\ j' = j.
Proof. exact world_sync_executed. Qed.
Print Assumptions C102_sync_executed.

Theorem C102_at_most_30 : forall U t n regs l a sv js, nth_error (z_servers (d_net (b_dep (w_run U t n regs l)))) a = Some sv -> executing sv js -> List.length js <= 30.
Proof. exact world_bound. Qed.
Print Assumptions C102_at_most_30.

(** Nothing is asked of other programs: on connections that are not those of these clients they may send what they like. *)
Theorem C102_other_programs : forall U t n regs l e b, let x := w_run U t n regs l in (forall p k, nth_error (b_clients x) p = Some k -> ~ In e (o_conns k)) ->
  let x' := w_run U t n regs (l ++ [WRest (bring e b)]) in b_dep x' = d_step U t (bring e b) (b_dep x) /\ b_clients x' = b_clients x.
Proof. exact others_feed. Qed.
Print Assumptions C102_other_programs.

(** client 0 calls a service at asyncio listener 0 and one at a threaded listener, client 1 calls the threaded listener
    with the same request id, a synchronous call with that id goes to listener 0, and other programs send rubbish to both *)
Definition d102 (m c : string) : ycall := {| y_baggage := [(str "sofaTraceId", str "0a"); (str "sofaRpcId", str "0")]; y_interface := str "svc"; y_method := str m; y_app := str "app"; y_uid := []; y_extra := [];
  y_content := bytes_lit c; y_ptype := 1; y_timeout := PInt 50 |}.
Definition reg102 : registry := [(str "svc", {| sv_raises := None; sv_methods := fun m => pystr_eqb m (str "m") || pystr_eqb m (str "n") |})].
Definition twice : methods := fun _ _ b _ => Some (Ok (PBytes (b ++ b))).
Definition thr : accepter := AThr 100 reg102 t_init (str "F") twice None.
Definition cl (p : nat) (l : list M_AioClient.step) : list wstep := map (WClient p) l.
Definition sv (c : nat) (l : list sstep) : list wstep := map (fun o => WRest (DNet (ZServer 0 (LConn c o)))) l.
Definition open (p i : nat) (acc : accepter) : list wstep := cl p [M_AioClient.Run i; M_AioClient.Acquire i] ++ [WDial p i acc] ++ cl p [M_AioClient.DrainOk i; M_AioClient.DrainOk i].
Definition l102 : list wstep :=
  [WCall 0 (d102 "m" "hi") 7 (Ok 0%Z); WCall 0 (d102 "n" "ho") 8 (Ok (-1)%Z); WCall 1 (d102 "m" "yo") 7 (Ok (-1)%Z); WRest (DCall (d102 "m" "he") 0 false 7 (Ok tt))] ++
  [WRest (DNet (ZServer 0 (LAccept t_init))); WRest (DNet (ZServer 0 (LConn 0 (Feed (bytes_lit "rubbish"))))); WRest (DAccept (-1) 100 reg102 t_init (str "F") twice None); WRest (DFeed 0 (bytes_lit "rubbish"))] ++
  open 0 0 (AAio t_init) ++ [WRest (DRound 0 (fun _ _ => true) (fun _ _ => false) (AAio t_init) (Ok 1000%Z))] ++ open 0 1 thr ++ open 1 0 thr ++
  cl 0 [M_AioClient.Read 0; M_AioClient.Read 1] ++ cl 1 [M_AioClient.Read 0] ++
  [WUp 0 0 1000; WUp 0 1 30; WUp 1 0 1000; WRest (DUp 0 1000); WUp 0 1 1000] ++ sv 1 (repeat Read 4) ++ sv 2 (repeat Read 4) ++ sv 1 [Dispatch 0 (str "T0")] ++ sv 2 [Dispatch 0 (str "T1")] ++
  [WRest (DNet (ZServer 0 LTake)); WRest (DNet (ZServer 0 LTake))] ++ sv 2 [JobEnd 0 (Ok (PBytes (bytes_lit "hehe"))); Result 0; Drain 0 true] ++ sv 1 [JobEnd 0 (Ok (PBytes (bytes_lit "hihi"))); Result 0; Drain 0 true] ++
  [WRest (DDown 0 1000); WRest (DRecv 0 (Avail 1000)); WRest (DRecv 0 (Avail 1000)); WDown 0 0 20; WDown 0 0 1000; WDown 0 1 1000; WDown 1 0 1000] ++
  cl 0 ([M_AioClient.Read 0; M_AioClient.Read 0; M_AioClient.Read 1; M_AioClient.Read 1; M_AioClient.Wake 0; M_AioClient.Wake 1]) ++ cl 1 [M_AioClient.Read 0; M_AioClient.Read 0; M_AioClient.Wake 0].
Definition s102 : world := w_run ascii_tables M_AioClient.NoTimer 2 [reg102] l102.
Definition ends_of (k : oclient) : list (option (res pyobj)) := map (fun tk => match M_AioClient.t_pc tk with M_AioClient.Done o => Some (M_AioClient.caller_sees o) | _ => None end) (M_AioClient.s_tasks (o_state M_AioClient.NoTimer k)).
Definition end_of (c : scall) : option (res pyobj) := match c_pc c with SEnd r => Some r | _ => None end.
Example C102_case : w_ids 0 l102 = [7; 8]%Z /\ w_ids 1 l102 = [7]%Z /\
  map ends_of (b_clients s102) = [[Some (Ok (PBytes (bytes_lit "hihi"))); Some (Ok (PBytes (bytes_lit "hoho")))]; [Some (Ok (PBytes (bytes_lit "yoyo")))]] /\
  map end_of (d_calls (b_dep s102)) = [Some (Ok (PBytes (bytes_lit "hehe")))] /\
  map o_conns (b_clients s102) = [[PAio 0 1; PThr 1]; [PThr 2]] /\ map w_peer (d_wires (b_dep s102)) = [Some (PAio 0 2)] /\
  map (fun x => List.length (o_calls (th_out ascii_tables x))) (d_thrs (b_dep s102)) = [0; 1; 1].
Proof. vm_compute. repeat split. Qed.
Example C102_gives : match b_clients s102 with [k; _] => gives (o_state M_AioClient.NoTimer k) 8 (Ok (PBytes (bytes_lit "hoho"))) | _ => False end.
Proof.
  destruct (b_clients s102) as [|k [|k' [|]]] eqn:E; try (apply (f_equal (@List.length oclient)) in E; vm_compute in E; discriminate). apply (gives_intro _ _ _ 1).
  assert (H : match b_clients s102 with [k; _] => match nth_error (M_AioClient.s_tasks (o_state M_AioClient.NoTimer k)) 1 with Some tk => match M_AioClient.t_pc tk with M_AioClient.Done o => p_request_id (M_AioClient.t_req tk) = PInt 8 /\ M_AioClient.caller_sees o = Ok (PBytes (bytes_lit "hoho")) | _ => False end | None => False end | _ => False end) by (vm_compute; split; reflexivity).
  rewrite E in H. exact H.
Qed.
(** a flush fails though everything arrives: executed twice, on two connections to the threaded listener *)
Definition l102' : list wstep :=
  [WCall 0 (d102 "m" "hi") 7 (Ok (-1)%Z)] ++ cl 0 [M_AioClient.Run 0; M_AioClient.Acquire 0] ++ [WDial 0 0 thr] ++ cl 0 [M_AioClient.DrainOk 0; M_AioClient.DrainFail 0; M_AioClient.Acquire 0] ++ [WDial 0 0 thr] ++
  cl 0 [M_AioClient.DrainOk 0; M_AioClient.DrainOk 0] ++ [WUp 0 0 1000; WUp 0 1 1000].
Definition s102' : world := w_run ascii_tables M_AioClient.NoTimer 1 [] l102'.
Example C102_twice : match b_clients s102' with
  | [k] => flushes_failed 0 k = 1 /\ map (fun tk => p_request_id (M_AioClient.t_req tk)) (M_AioClient.s_tasks (o_state M_AioClient.NoTimer k)) = [PInt 7] /\ forall c j, In (c, j) [(0, 0); (1, 0)] -> started_by ascii_tables (b_dep s102') k 7 c j
  | _ => False
  end.
Proof.
  destruct (b_clients s102') as [|k [|]] eqn:E; try (apply (f_equal (@List.length oclient)) in E; vm_compute in E; discriminate). assert (Hp : nth_error (b_clients s102') 0 = Some k) by (rewrite E; reflexivity).
  assert (K : match b_clients s102' with k :: _ => o_conns k = [PThr 0; PThr 1] /\ flushes_failed 0 k = 1 /\ map (fun tk => p_request_id (M_AioClient.t_req tk)) (M_AioClient.s_tasks (o_state M_AioClient.NoTimer k)) = [PInt 7] | [] => False end) by (vm_compute; repeat split).
  rewrite E in K. destruct K as (K1 & K2 & K3). split; [exact K2|]. split; [exact K3|].
  assert (T : match d_thrs (b_dep s102') with [x; y] => List.length (o_calls (th_out ascii_tables x)) = 1 /\ List.length (o_calls (th_out ascii_tables y)) = 1 | _ => False end) by (vm_compute; split; reflexivity).
  intros c j H. assert (Q : exists th, nth_error (o_conns k) c = Some (PThr th) /\ th < 2 /\ j = 0) by (rewrite K1; clear - H; destruct H as [[= <- <-]|[[= <- <-]|[]]]; [exists 0|exists 1]; repeat split; lia). destruct Q as (th & He & Lt & ->).
  assert (X : exists x, nth_error (d_thrs (b_dep s102')) th = Some x /\ List.length (o_calls (th_out ascii_tables x)) = 1). { destruct (d_thrs (b_dep s102')) as [|x [|y [|]]]; try contradiction T. destruct T as (T1 & T2). clear - T1 T2 Lt. destruct th as [|[|]]; [exists x; split; [reflexivity|exact T1]|exists y; split; [reflexivity|exact T2]|lia]. }
  destruct X as (x & Hx & Lc). destruct (thread_request ascii_tables x ltac:(rewrite Lc; constructor)) as (q & Bq).
  exists (PThr th), q. split; [exact He|]. split; [|exists x; split; [exact Hx|]; split; [lia|exact Bq]].
  destruct (thread_id ascii_tables M_AioClient.NoTimer 1 [] l102' 0 k c th x q Hp He Hx Bq) as (d & rid & a & Hd & <-).
  assert (I : In rid (w_ids 0 l102')). { unfold w_ids. apply in_concat. exists [rid]. split; [|left; reflexivity]. apply in_map_iff. exists (WCall 0 d rid a). split; [reflexivity|exact Hd]. }
  vm_compute in I. destruct I as [<-|[]]. reflexivity.
Qed.

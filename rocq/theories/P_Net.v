(** Property theorems C95: any number of asyncio clients and listeners (M_Net). The request ids of one client must not
    repeat (C12); those of different clients may be the same. *)
From Coq Require Import Strings.String.
From Verif Require Import PyBase PyDict PyInt Struct M_SofaHeader M_Package M_RpcId M_Trace M_AioServer S_Server M_System S_System L_System M_Listener S_Listener L_Listener M_Net S_Net L_Net.
From Verif Require M_AioClient.
Open Scope nat_scope.

(** ** C95 *)
(** a value returned to a caller was returned by the method called for that very call, by the listener at its address *)
Theorem C95_value_of_that_method : forall U t n regs l p k d rid a v, NoDup (z_ids p l) -> let z := z_run U t n regs l in
  nth_error (z_clients z) p = Some k -> In (ZCall p d rid a) l -> gives (z_state t k) rid (Ok v) ->
  exists s m bs, In (s, m) (z_conns k) /\ a = Ok (Z.of_nat s) /\ method_returned z s m d v /\ v = PBytes bs /\ bs <> [].
Proof. exact net_value. Qed.
Print Assumptions C95_value_of_that_method.

(** for one call a method is started at most once more than flushes failed, and at most three times *)
Theorem C95_executions : forall U t n regs l p k rid i tk L, NoDup (z_ids p l) -> let z := z_run U t n regs l in
  nth_error (z_clients z) p = Some k -> nth_error (M_AioClient.s_tasks (z_state t k)) i = Some tk -> p_request_id (M_AioClient.t_req tk) = PInt rid ->
  NoDup L -> (forall c j, In (c, j) L -> started_for z k rid c j) -> List.length L <= 1 + failed_flushes i k /\ List.length L <= 3.
Proof. exact net_executions. Qed.
Print Assumptions C95_executions.

(** no connection belongs to two clients, and on a listener at most 30 methods run at a time for all of them *)
Theorem C95_separate : forall U t n regs l p p' k k' x, let z := z_run U t n regs l in
  nth_error (z_clients z) p = Some k -> nth_error (z_clients z) p' = Some k' -> In x (z_conns k) -> In x (z_conns k') -> p = p'.
Proof. exact net_separate. Qed.
Print Assumptions C95_separate.

Theorem C95_at_most_30 : forall U t n regs l a s x, nth_error (z_servers (z_run U t n regs l)) a = Some s -> executing s x -> List.length x <= 30.
Proof. exact net_bound. Qed.
Print Assumptions C95_at_most_30.

(** two clients call the same listener with the same request id at the same time, for different methods; a third program
    sends it something that is no frame; the second client is answered first *)
Definition d7 (m c : string) : ycall := {| y_baggage := [(str "sofaTraceId", str "0a"); (str "sofaRpcId", str "0")]; y_interface := str "svc"; y_method := str m; y_app := str "app"; y_uid := []; y_extra := [];
  y_content := bytes_lit c; y_ptype := 1; y_timeout := PInt 50 |}.
Definition reg78 : registry := [(str "svc", {| sv_raises := None; sv_methods := fun m => pystr_eqb m (str "m") || pystr_eqb m (str "n") |})].
Definition cl (p : nat) (l : list M_AioClient.step) : list zstep := map (ZClient p) l.
Definition sv (c : nat) (l : list sstep) : list zstep := map (fun o => ZServer 1 (LConn c o)) l.
Definition dial (p : nat) : list zstep := cl p [M_AioClient.Run 0; M_AioClient.Acquire 0] ++ [ZDial p 0 t_init] ++ cl p [M_AioClient.DrainOk 0; M_AioClient.DrainOk 0; M_AioClient.Read 0].
Definition l95 : list zstep :=
  [ZCall 0 (d7 "m" "hi") 7 (Ok 1%Z); ZCall 1 (d7 "n" "yo") 7 (Ok 1%Z)] ++ dial 0 ++ [ZServer 1 (LAccept t_init)] ++ dial 1 ++
  [ZUp 0 0 30; ZUp 1 0 1000; ZUp 0 0 1000; ZServer 1 (LConn 1 (Feed (bytes_lit "GET / HTTP/1.1")))] ++ sv 0 (repeat Read 4) ++ sv 1 (repeat Read 4) ++ sv 2 (repeat Read 4) ++
  sv 0 [Dispatch 0 (str "T0")] ++ sv 2 [Dispatch 0 (str "T1")] ++ [ZServer 1 LTake; ZServer 1 LTake] ++
  sv 2 [JobEnd 0 (Ok (PBytes (bytes_lit "yoyo"))); Result 0; Drain 0 true] ++ [ZDown 1 0 1000] ++ cl 1 [M_AioClient.Read 0; M_AioClient.Read 0; M_AioClient.Wake 0] ++
  sv 0 [JobEnd 0 (Ok (PBytes (bytes_lit "hihi"))); Result 0; Drain 0 true] ++ [ZDown 0 0 20; ZDown 0 0 1000] ++ cl 0 [M_AioClient.Read 0; M_AioClient.Read 0; M_AioClient.Wake 0].
Definition z95 : net := z_run ascii_tables M_AioClient.NoTimer 2 [[]; reg78] l95.
Example C95_case : z_ids 0 l95 = [7%Z] /\ z_ids 1 l95 = [7%Z] /\ map z_conns (z_clients z95) = [[(1, 0)]; [(1, 2)]] /\
  match z_clients z95 with
  | [k0; k1] => gives (z_state M_AioClient.NoTimer k0) 7 (Ok (PBytes (bytes_lit "hihi"))) /\ gives (z_state M_AioClient.NoTimer k1) 7 (Ok (PBytes (bytes_lit "yoyo")))
  | _ => False
  end.
Proof.
  split; [vm_compute; reflexivity|]. split; [vm_compute; reflexivity|]. split; [vm_compute; reflexivity|].
  destruct (z_clients z95) as [|k0 [|k1 [|]]] eqn:E; try (apply (f_equal (@List.length zclient)) in E; vm_compute in E; discriminate).
  assert (E0 : nth_error (z_clients z95) 0 = Some k0) by (rewrite E; reflexivity). assert (E1 : nth_error (z_clients z95) 1 = Some k1) by (rewrite E; reflexivity). clear E.
  split; apply (gives_intro _ _ _ 0).
  - replace k0 with (match nth_error (z_clients z95) 0 with Some k => k | None => k0 end) by (rewrite E0; reflexivity). clear E0 E1.
    assert (H : match nth_error (z_clients z95) 0 with Some k => match nth_error (M_AioClient.s_tasks (z_state M_AioClient.NoTimer k)) 0 with Some tk => match M_AioClient.t_pc tk with M_AioClient.Done o => p_request_id (M_AioClient.t_req tk) = PInt 7 /\ M_AioClient.caller_sees o = Ok (PBytes (bytes_lit "hihi")) | _ => False end | None => False end | None => False end) by (vm_compute; split; reflexivity).
    destruct (nth_error (z_clients z95) 0); [exact H|destruct H].
  - replace k1 with (match nth_error (z_clients z95) 1 with Some k => k | None => k1 end) by (rewrite E1; reflexivity). clear E0 E1.
    assert (H : match nth_error (z_clients z95) 1 with Some k => match nth_error (M_AioClient.s_tasks (z_state M_AioClient.NoTimer k)) 0 with Some tk => match M_AioClient.t_pc tk with M_AioClient.Done o => p_request_id (M_AioClient.t_req tk) = PInt 7 /\ M_AioClient.caller_sees o = Ok (PBytes (bytes_lit "yoyo")) | _ => False end | None => False end | None => False end) by (vm_compute; split; reflexivity).
    destruct (nth_error (z_clients z95) 1); [exact H|destruct H].
Qed.

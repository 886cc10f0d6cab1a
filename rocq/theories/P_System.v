(** Property theorems C67-C68: an asyncio client and asyncio servers, joined by a network (M_System). The words
    [gives], [calls_on] and [executed_for] are in S_System. *)
From Coq Require Import Strings.String ZifyBool.
From Verif Require Import PyBase PyDict L_PyDict PyInt Struct M_SofaHeader M_Package M_RpcId M_Trace L_Trace2 S_Wire M_SyncClient M_AioServer S_Server L_AioServer8 M_System S_System L_System.
From Verif Require M_AioClient L_AioClient6.
Open Scope Z_scope.

(** ** C67. For every schedule: a value returned by a call was returned by the method called for that very request,
    on a connection to the address of the call. Request ids must not repeat (C12). *)
Theorem C67_value_of_that_method : forall U t l d rid a v, NoDup (y_ids l) -> let y := y_run U t l in
  In (YCall d rid a) l -> gives (y_client t y) rid (Ok v) ->
  exists c k lk n bs, nth_error (y_conns y) c = Some k /\ nth_error (M_AioClient.s_links (y_client t y)) c = Some lk /\ a = Ok (M_AioClient.k_addr lk) /\
    In (n, y_interface d, y_method d, y_content d) (calls_on U k) /\ v = PBytes bs /\ bs <> [] /\ ended_with (y_server U k) n (Ok v).
Proof. exact result_of_call. Qed.
Print Assumptions C67_value_of_that_method.

(** two calls at a time on one connection; the second is answered first, in pieces *)
Definition d7 : ycall := {| y_baggage := [(str "sofaTraceId", str "0a"); (str "sofaRpcId", str "0")]; y_interface := str "svc"; y_method := str "m"; y_app := str "app"; y_uid := []; y_extra := [(str "k", str "v")];
  y_content := bytes_lit "hi"; y_ptype := 1; y_timeout := PInt 50 |}.
Definition d8 : ycall := {| y_baggage := []; y_interface := str "svc"; y_method := str "n"; y_app := []; y_uid := []; y_extra := []; y_content := bytes_lit "yo"; y_ptype := 1; y_timeout := PInt 50 |}.
Definition reg78 : registry := [(str "svc", {| sv_raises := None; sv_methods := fun m => pystr_eqb m (str "m") || pystr_eqb m (str "n") |})].
Definition cl (l : list M_AioClient.step) : list ystep := map YClient l.
Definition sv (c : nat) (l : list sstep) : list ystep := map (YServer c) l.
Definition l67 : list ystep :=
  [YCall d7 7 (Ok 1); YCall d8 8 (Ok 1)] ++ cl [M_AioClient.Run 0; M_AioClient.Acquire 0] ++ [YDial 0 reg78 t_init] ++
  cl [M_AioClient.DrainOk 0; M_AioClient.DrainOk 0; M_AioClient.Run 1; M_AioClient.DrainOk 1; M_AioClient.DrainOk 1; M_AioClient.Read 0] ++
  [YUp 0 30; YServer 0 Read; YUp 0 1000] ++ sv 0 (repeat Read 8) ++ sv 0 [Dispatch 0 (str "T0"); Dispatch 1 (str "T1"); JobRun 0; JobRun 1; JobEnd 1 (Ok (PBytes (bytes_lit "yoyo"))); Result 1; Drain 1 true] ++
  [YDown 0 30; YClient (M_AioClient.Read 0)] ++ sv 0 [JobEnd 0 (Ok (PBytes (bytes_lit "hihi"))); Result 0; Drain 0 true] ++ [YDown 0 1000] ++
  cl [M_AioClient.Read 0; M_AioClient.Read 0; M_AioClient.Read 0; M_AioClient.Wake 1; M_AioClient.Wake 0].
Definition y67 : sys := y_run ascii_tables M_AioClient.NoTimer l67.
Example C67_case : NoDup (y_ids l67) /\ In (YCall d7 7 (Ok 1)) l67 /\ In (YCall d8 8 (Ok 1)) l67 /\
  gives (y_client M_AioClient.NoTimer y67) 7 (Ok (PBytes (bytes_lit "hihi"))) /\ gives (y_client M_AioClient.NoTimer y67) 8 (Ok (PBytes (bytes_lit "yoyo"))) /\
  map (calls_on ascii_tables) (y_conns y67) = [[(0%nat, str "svc", str "m", bytes_lit "hi"); (1%nat, str "svc", str "n", bytes_lit "yo")]].
Proof.
  split; [|split; [|split; [|split; [|split]]]].
  - vm_compute. repeat constructor; cbn; intuition discriminate.
  - left. reflexivity.
  - right. left. reflexivity.
  - apply (gives_intro _ _ _ 0). vm_compute. split; reflexivity.
  - apply (gives_intro _ _ _ 1). vm_compute. split; reflexivity.
  - vm_compute. reflexivity.
Qed.

(** ** C68. The full property, that the method of a call is executed at most once, is false of this code: a request
    whose flush failed, though all of it arrived, is sent again and executed again. *)
Definition l68 : list ystep :=
  [YCall d7 7 (Ok 1)] ++ cl [M_AioClient.Run 0; M_AioClient.Acquire 0] ++ [YDial 0 reg78 t_init] ++ cl [M_AioClient.DrainOk 0; M_AioClient.DrainFail 0; M_AioClient.Acquire 0] ++ [YDial 0 reg78 t_init] ++
  cl [M_AioClient.DrainOk 0; M_AioClient.DrainOk 0] ++ [YUp 0 1000; YUp 1 1000] ++ sv 0 (repeat Read 4 ++ [Dispatch 0 (str "T0"); JobRun 0]) ++ sv 1 (repeat Read 4 ++ [Dispatch 0 (str "T0"); JobRun 0]).
Definition y68 : sys := y_run ascii_tables M_AioClient.NoTimer l68.
Theorem C68_executed_twice_refuted : exists l rid d a, y_ids l = [rid] /\ In (YCall d rid a) l /\ let y := y_run ascii_tables M_AioClient.NoTimer l in
  executed_for ascii_tables y rid 0 0 /\ executed_for ascii_tables y rid 1 0 /\
  map (calls_on ascii_tables) (y_conns y) = [[(0%nat, y_interface d, y_method d, y_content d)]; [(0%nat, y_interface d, y_method d, y_content d)]].
Proof.
  exists l68, 7, d7, (Ok 1). split; [reflexivity|]. split; [left; reflexivity|]. fold y68. cbv zeta.
  split; [apply executed_intro; vm_compute; split; [left|]; reflexivity|]. split; [apply executed_intro; vm_compute; split; [left|]; reflexivity|]. vm_compute. reflexivity.
Qed.
Print Assumptions C68_executed_twice_refuted.
(** what does hold: at most three times, and at most once more for each flush that failed *)
Theorem C68_executions_partial : forall U t l rid i tk L, NoDup (y_ids l) -> let y := y_run U t l in
  nth_error (M_AioClient.s_tasks (y_client t y)) i = Some tk -> p_request_id (M_AioClient.t_req tk) = PInt rid ->
  NoDup L -> (forall c n, In (c, n) L -> executed_for U y rid c n) ->
  (List.length L <= 1 + flush_failures i y)%nat /\ (List.length L <= 3)%nat.
Proof.
  intros U t l rid i tk L N y Hi Hr Nd HL. pose proof (executed_bound U t l rid i tk L N Hi Hr Nd HL) as B. fold y in B.
  pose proof (L_AioClient6.w_tasks _ _ (L_AioClient6.wr_run t (y_hist y)) i tk Hi) as W.
  pose proof (L_AioClient6.o_fails _ _ _ _ W) as F. pose proof (L_AioClient6.o_three _ _ _ _ W) as T. unfold L_AioClient6.fails in F. unfold flush_failures. lia.
Qed.
Print Assumptions C68_executions_partial.
(** the bound is met *)
Example C68_case : NoDup (y_ids l68) /\ map (fun tk => p_request_id (M_AioClient.t_req tk)) (M_AioClient.s_tasks (y_client M_AioClient.NoTimer y68)) = [PInt 7] /\
  (forall c n, In (c, n) [(0, 0); (1, 0)]%nat -> executed_for ascii_tables y68 7 c n) /\ flush_failures 0 y68 = 1%nat /\ flush_failures 0 y67 = 0%nat.
Proof.
  split; [vm_compute; repeat constructor; intros []|]. split; [vm_compute; reflexivity|]. split.
  - intros c n [H|[H|[]]]; injection H as <- <-; apply executed_intro; vm_compute; (split; [left|]; reflexivity).
  - vm_compute. split; reflexivity.
Qed.

(** Property theorems C85: an asyncio client and asyncio servers (M_System) after everything has been done that the
    programs and the network do by themselves. The words [smooth], [settled], [prompt], [served], [served_at], [clear_trace],
    [sendable] and [passed_on] are in S_Settle, [gives] and [calls_on] in S_System, [ended_with] in S_Server. *)
From Coq Require Import Strings.String ZifyBool.
From Verif Require Import PyBase PyDict L_PyDict PyInt Struct M_SofaHeader M_Package M_RpcId M_Trace L_Trace2 S_Wire M_SyncClient M_AioServer S_Server M_System S_System L_System S_Settle L_Settle.
From Verif Require M_AioClient.
Open Scope Z_scope.

(** ** C85. The full property, that in a system in which nothing fails every call ends as its method did, is false of
    this code. An answer that arrives while the request is still being flushed is lost: *)
Definition d85 : ycall := {| y_baggage := [(str "sofaTraceId", str "0a"); (str "sofaRpcId", str "0")]; y_interface := str "svc"; y_method := str "m"; y_app := str "app"; y_uid := []; y_extra := [(str "k", str "v")];
  y_content := bytes_lit "hi"; y_ptype := 1; y_timeout := PInt 50 |}.
Definition e85 : ycall := {| y_baggage := [(str "sofaTraceId", str "0b"); (str "sofaRpcId", str "0.1")]; y_interface := str "svc"; y_method := str "n"; y_app := []; y_uid := []; y_extra := []; y_content := bytes_lit "yo"; y_ptype := 1; y_timeout := PInt 50 |}.
Definition reg85 : registry := [(str "svc", {| sv_raises := None; sv_methods := fun m => pystr_eqb m (str "m") || pystr_eqb m (str "n") |})].
Definition cs (l : list M_AioClient.step) : list ystep := map YClient l.
Definition ss (c : nat) (l : list sstep) : list ystep := map (YServer c) l.
Definition early85 : list ystep :=
  [YCall d85 7 (Ok 1)] ++ cs [M_AioClient.Run 0; M_AioClient.Acquire 0] ++ [YDial 0 reg85 t_init] ++ cs [M_AioClient.DrainOk 0] ++ [YUp 0 1000] ++ ss 0 (repeat Read 4) ++
  ss 0 [Dispatch 0 (str "T0"); JobRun 0; JobEnd 0 (Ok (PBytes (bytes_lit "hihi"))); Result 0; Drain 0 true; Drain 0 true] ++ [YDown 0 1000] ++
  cs [M_AioClient.Read 0; M_AioClient.Read 0; M_AioClient.Read 0; M_AioClient.DrainOk 0].
Ltac all_smooth := repeat (apply Forall_cons; [first [exact Logic.I | apply smooth_call; vm_compute; exact Logic.I]|]); apply Forall_nil.
Ltac is_served := apply served_intro; [discriminate|discriminate|]; repeat (apply Forall_cons; [first [exact Logic.I | vm_compute; split; reflexivity]|]); apply Forall_nil.
Ltac at_rest := apply rest_settled; vm_compute; repeat split; repeat constructor.
Theorem C85_answered_too_early_refuted : exists U t l d rid a v, Forall smooth l /\ NoDup (y_ids l) /\ let y := y_run U t l in settled U t y /\ In (YCall d rid (Ok a)) l /\ (exists p, y_request d rid = Ok p) /\ y_ptype d <> 2 /\ served d l /\ clear_trace U d /\
  sendable v /\ map (calls_on U) (y_conns y) = [[(0%nat, y_interface d, y_method d, y_content d)]] /\ Forall (fun s => ended_with s 0 (Ok v)) (map (y_server U) (y_conns y)) /\ gives (y_client t y) rid (Raise KeyError).
Proof.
  exists ascii_tables, M_AioClient.NoTimer, early85, d85, 7, 1, (PBytes (bytes_lit "hihi")). cbv zeta.
  split; [all_smooth|]. split; [vm_compute; repeat constructor; intros []|]. split; [at_rest|]. split; [left; reflexivity|]. split; [apply request_intro; vm_compute; exact Logic.I|]. split; [discriminate|].
  split; [is_served|]. split; [apply clear_intro; vm_compute; exact Logic.I|]. split; [exists (bytes_lit "hihi"); split; [reflexivity|]; split; [discriminate|vm_compute; discriminate]|].
  split; [vm_compute; reflexivity|]. split; [|apply (gives_intro _ _ _ 0); vm_compute; split; reflexivity].
  apply ended_all; vm_compute; split; reflexivity.
Qed.
Print Assumptions C85_answered_too_early_refuted.
(** and a call whose method returns nothing to send back (here the empty string of bytes) never ends: *)
Definition empty85 : list ystep :=
  [YCall d85 7 (Ok 1)] ++ cs [M_AioClient.Run 0; M_AioClient.Acquire 0] ++ [YDial 0 reg85 t_init] ++ cs [M_AioClient.DrainOk 0; M_AioClient.DrainOk 0] ++ [YUp 0 1000] ++ ss 0 (repeat Read 4) ++
  ss 0 [Dispatch 0 (str "T0"); JobRun 0; JobEnd 0 (Ok (PBytes [])); Result 0] ++ cs [M_AioClient.Read 0].
Theorem C85_empty_result_refuted : exists U t l d rid a v, Forall smooth l /\ NoDup (y_ids l) /\ let y := y_run U t l in settled U t y /\ prompt U t l /\ In (YCall d rid (Ok a)) l /\ (exists p, y_request d rid = Ok p) /\ y_ptype d <> 2 /\ served d l /\ clear_trace U d /\
  map (calls_on U) (y_conns y) = [[(0%nat, y_interface d, y_method d, y_content d)]] /\ Forall (fun s => ended_with s 0 (Ok v)) (map (y_server U) (y_conns y)) /\ forall x, ~ gives (y_client t y) rid x.
Proof.
  exists ascii_tables, M_AioClient.NoTimer, empty85, d85, 7, 1, (PBytes []). cbv zeta.
  split; [all_smooth|]. split; [vm_compute; repeat constructor; intros []|]. split; [at_rest|]. split; [apply prompt_intro; vm_compute; repeat (split; [repeat constructor|]); exact Logic.I|].
  split; [left; reflexivity|]. split; [apply request_intro; vm_compute; exact Logic.I|]. split; [discriminate|].
  split; [is_served|]. split; [apply clear_intro; vm_compute; exact Logic.I|]. split; [vm_compute; reflexivity|]. split; [apply ended_all; vm_compute; split; reflexivity|].
  intros x (i & tk & o & Hi & _ & Ho & _). destruct i as [|i]; [|destruct i; vm_compute in Hi; discriminate]. vm_compute in Hi. injection Hi as <-. discriminate.
Qed.
Print Assumptions C85_empty_result_refuted.
(** what does hold, for every schedule in which nothing fails, if the servers at the address of the call have its method (those
    at other addresses may have anything): the method of the call has been called and has ended.
    If it raised, the call raises KeyError. If it returned something to send back and no request was held up between
    being written and being waited for, the call returns it. If it returned something else, the call never ends. *)
Theorem C85_outcome_partial : forall U t l d rid a, Forall smooth l -> NoDup (y_ids l) -> let y := y_run U t l in
  settled U t y -> prompt U t l -> In (YCall d rid (Ok a)) l -> (exists p, y_request d rid = Ok p) -> y_ptype d <> 2 -> served_at t d a y -> clear_trace U d ->
  exists c k lk n r, nth_error (y_conns y) c = Some k /\ nth_error (M_AioClient.s_links (y_client t y)) c = Some lk /\ M_AioClient.k_addr lk = a /\
    In (n, y_interface d, y_method d, y_content d) (calls_on U k) /\ ended_with (y_server U k) n r /\ passed_on (y_client t y) rid r.
Proof. exact outcome_prompt. Qed.
Print Assumptions C85_outcome_partial.
(** requests held up make no difference other than a KeyError in place of a value *)
Theorem C85_outcome_held_up_partial : forall U t l d rid a, Forall smooth l -> NoDup (y_ids l) -> let y := y_run U t l in
  settled U t y -> In (YCall d rid (Ok a)) l -> (exists p, y_request d rid = Ok p) -> y_ptype d <> 2 -> served_at t d a y -> clear_trace U d ->
  exists c k lk n r, nth_error (y_conns y) c = Some k /\ nth_error (M_AioClient.s_links (y_client t y)) c = Some lk /\ M_AioClient.k_addr lk = a /\
    In (n, y_interface d, y_method d, y_content d) (calls_on U k) /\ ended_with (y_server U k) n r /\
    (passed_on (y_client t y) rid r \/ ((exists v, r = Ok v /\ sendable v) /\ gives (y_client t y) rid (Raise KeyError))).
Proof. exact outcome_any. Qed.
Print Assumptions C85_outcome_held_up_partial.

(** two calls on one connection; one method returns a value, the other raises *)
Definition l85 : list ystep :=
  [YCall d85 7 (Ok 1); YCall e85 8 (Ok 1)] ++ cs [M_AioClient.Run 0; M_AioClient.Run 1; M_AioClient.Acquire 0] ++ [YDial 0 reg85 t_init] ++
  cs [M_AioClient.DrainOk 0; M_AioClient.DrainOk 0; M_AioClient.Acquire 1; M_AioClient.DrainOk 1; M_AioClient.DrainOk 1] ++
  [YUp 0 30; YServer 0 Read; YUp 0 1000] ++ ss 0 (repeat Read 8) ++ ss 0 [Dispatch 0 (str "T0"); Dispatch 1 (str "T1"); JobRun 0; JobRun 1; JobEnd 1 (Raise ValueError); Result 1; Drain 1 true; Drain 1 true] ++
  [YDown 0 30; YClient (M_AioClient.Read 0)] ++ ss 0 [JobEnd 0 (Ok (PBytes (bytes_lit "hihi"))); Result 0; Drain 0 true; Drain 0 true] ++ [YDown 0 1000] ++
  cs [M_AioClient.Read 0; M_AioClient.Read 0; M_AioClient.Read 0; M_AioClient.Read 0; M_AioClient.Wake 1; M_AioClient.Wake 0].
Definition y85 : sys := y_run ascii_tables M_AioClient.NoTimer l85.
Example C85_case : Forall smooth l85 /\ NoDup (y_ids l85) /\ settled ascii_tables M_AioClient.NoTimer y85 /\ prompt ascii_tables M_AioClient.NoTimer l85 /\
  Forall (fun d => y_ptype d <> 2 /\ served_at M_AioClient.NoTimer d 1 y85 /\ clear_trace ascii_tables d) [d85; e85] /\ (exists p, y_request d85 7 = Ok p) /\ (exists p, y_request e85 8 = Ok p) /\
  gives (y_client M_AioClient.NoTimer y85) 7 (Ok (PBytes (bytes_lit "hihi"))) /\ gives (y_client M_AioClient.NoTimer y85) 8 (Raise KeyError).
Proof.
  split; [all_smooth|]. split; [vm_compute; repeat constructor; cbn; intuition discriminate|]. split; [at_rest|]. split; [apply prompt_intro; vm_compute; repeat (split; [repeat constructor|]); exact Logic.I|].
  split; [repeat (apply Forall_cons; [split; [discriminate|]; split; [apply served_there; [all_smooth|is_served]|apply clear_intro; vm_compute; exact Logic.I]|]); apply Forall_nil|].
  split; [apply request_intro; vm_compute; exact Logic.I|]. split; [apply request_intro; vm_compute; exact Logic.I|].
  split; [apply (gives_intro _ _ _ 0); vm_compute; split; reflexivity|apply (gives_intro _ _ _ 1); vm_compute; split; reflexivity].
Qed.

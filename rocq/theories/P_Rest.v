(** Property theorems C87: an asyncio client and asyncio servers (M_System) that are left alone. The words [left_alone],
    [unchanged], [goes_on], [y_from] and [after] are in S_Rest, [routine], [settled], [smooth], [served], [clear_trace],
    [sendable] and [passed_on] in S_Settle, [gives] and [calls_on] in S_System, [ended_with] and [offers] in S_Server. *)
From Coq Require Import Strings.String.
From Verif Require Import PyBase PyDict PyInt Struct M_SofaHeader M_Package M_RpcId M_Trace L_Trace2 M_SyncClient M_AioServer S_Server M_System S_System S_Settle L_Settle S_Rest L_Rest.
From Verif Require M_AioClient.

(** ** C87. In whatever state the system is, and whatever happens other than new calls, heartbeats and registrations
    (even if connections are lost, flushes fail, calls are cancelled or methods take too long): there is no endless
    sequence of steps each of which changes something. *)
Theorem C87_terminates : forall U t y, Acc (goes_on U t) y.
Proof. exact terminates. Qed.
Print Assumptions C87_terminates.
(** the same without accessibility: in every endless schedule some step changes nothing *)
Theorem C87_not_for_ever : forall U t y f, (forall n, left_alone (f n)) -> exists n, unchanged U t (after U t f n y) (after U t f (S n) y).
Proof. exact not_for_ever. Qed.
Print Assumptions C87_not_for_ever.
(** from every state what the programs and the network do by themselves leads to a state in which they have nothing
    left to do, the servers reached meanwhile having any registry *)
Theorem C87_comes_to_rest : forall reg U t y, exists l, Forall (fun o => routine o /\ match o with YDial _ r _ => r = reg | _ => True end) l /\ settled U t (y_from U t y l).
Proof. exact comes_to_rest. Qed.
Print Assumptions C87_comes_to_rest.
(** hence with C85: whenever in a system in which nothing has failed a call is under way, it can still be completed *)
Theorem C87_call_can_end : forall U t l d rid a reg, Forall smooth l -> NoDup (y_ids l) -> In (YCall d rid (Ok a)) l -> (exists p, y_request d rid = Ok p) -> y_ptype d <> 2%Z -> served d l -> clear_trace U d -> offers reg (y_interface d) (y_method d) ->
  exists l2, Forall routine l2 /\ let y := y_run U t (l ++ l2) in exists c k lk n r, nth_error (y_conns y) c = Some k /\ nth_error (M_AioClient.s_links (y_client t y)) c = Some lk /\ M_AioClient.k_addr lk = a /\
    In (n, y_interface d, y_method d, y_content d) (calls_on U k) /\ ended_with (y_server U k) n r /\
    (passed_on (y_client t y) rid r \/ ((exists v, r = Ok v /\ sendable v) /\ gives (y_client t y) rid (Raise KeyError))).
Proof. exact call_can_end. Qed.
Print Assumptions C87_call_can_end.

(** a call that is about to be connected: the system goes on, and after one way of going on
    it is at rest *)
Definition d87 : ycall := {| y_baggage := [(str "sofaTraceId", str "0a"); (str "sofaRpcId", str "0")]; y_interface := str "svc"; y_method := str "m"; y_app := str "app"; y_uid := []; y_extra := []; y_content := bytes_lit "hi"; y_ptype := 1; y_timeout := PInt 50 |}.
Definition reg87 : registry := [(str "svc", {| sv_raises := None; sv_methods := fun m => pystr_eqb m (str "m") |})].
Definition l87 : list ystep := [YCall d87 7 (Ok 1%Z); YClient (M_AioClient.Run 0); YClient (M_AioClient.Acquire 0)].
Definition y87 : sys := y_run ascii_tables M_AioClient.NoTimer l87.
Definition on87 : list ystep :=
  [YDial 0 reg87 t_init] ++ map YClient [M_AioClient.DrainOk 0; M_AioClient.DrainOk 0] ++ [YUp 0 1000] ++ map (YServer 0) (repeat Read 4 ++ [Dispatch 0 (str "T0"); JobRun 0; JobEnd 0 (Ok (PBytes (bytes_lit "hihi"))); Result 0; Drain 0 true; Drain 0 true]) ++
  [YDown 0 1000] ++ map YClient [M_AioClient.Read 0; M_AioClient.Read 0; M_AioClient.Read 0; M_AioClient.Wake 0].
Definition links_of (s : M_AioClient.st) : nat := List.length (M_AioClient.s_links s).
Example C87_case : goes_on ascii_tables M_AioClient.NoTimer (y_step ascii_tables M_AioClient.NoTimer (YDial 0 reg87 t_init) y87) y87 /\
  Forall left_alone on87 /\ settled ascii_tables M_AioClient.NoTimer (y_from ascii_tables M_AioClient.NoTimer y87 on87) /\
  Forall smooth l87 /\ NoDup (y_ids l87) /\ (exists p, y_request d87 7 = Ok p) /\ served d87 l87 /\ clear_trace ascii_tables d87 /\ offers reg87 (y_interface d87) (y_method d87).
Proof.
  split. { exists (YDial 0 reg87 t_init). split; [exact Logic.I|]. split; [reflexivity|]. intros (A & _). apply (f_equal links_of) in A. vm_compute in A. discriminate. }
  split; [repeat (apply Forall_cons; [exact Logic.I|]); apply Forall_nil|].
  split; [apply rest_settled; vm_compute; repeat split; repeat constructor|].
  split; [repeat (apply Forall_cons; [first [exact Logic.I | apply smooth_call; vm_compute; exact Logic.I]|]); apply Forall_nil|].
  split; [vm_compute; repeat constructor; intros []|]. split; [apply request_intro; vm_compute; exact Logic.I|].
  split; [apply served_intro; [discriminate|discriminate|]; repeat (apply Forall_cons; [exact Logic.I|]); apply Forall_nil|].
  split; [apply clear_intro; vm_compute; exact Logic.I|eexists; split; [reflexivity|]; split; reflexivity].
Qed.

(** Property theorems C121: any number of asyncio clients and listeners (M_Net) that are left alone. The words [z_left_alone],
    [z_unchanged], [z_goes_on], [z_after], [z_routine], [z_settled], [z_smooth], [fails], [reaches], [z_served] and [method_ended]
    are in S_NetRest, [gives] in S_System, [clear_trace], [sendable] and [passed_on] in S_Settle. *)
From Coq Require Import Strings.String.
From Verif Require Import PyBase PyDict PyInt Struct M_SofaHeader M_Package M_RpcId M_Trace L_Trace2 M_SyncClient M_AioServer S_Server M_System S_System L_System S_Settle L_Settle M_Listener M_Net S_NetRest L_NetRest.
From Verif Require M_AioClient L_Net.
Open Scope nat_scope.

(** ** C121. Whatever the clients and listeners have done, and whatever happens from now on other than new calls,
    heartbeats, registrations and the doings of other programs: there is no endless sequence of steps each of which
    changes something. *)
Theorem C121_terminates : forall U t n regs l, Acc (z_goes_on U t) (z_run U t n regs l).
Proof. exact zterminates. Qed.
Print Assumptions C121_terminates.
Theorem C121_not_for_ever : forall U t n regs l f, (forall m, z_left_alone (f m)) -> exists m, z_unchanged t (z_after U t f m (z_run U t n regs l)) (z_after U t f (S m) (z_run U t n regs l)).
Proof. exact znot_for_ever. Qed.
Print Assumptions C121_not_for_ever.
(** what the programs and the network do by themselves leads to a state in which nobody has anything left to do *)
Theorem C121_comes_to_rest : forall U t n regs l, exists l2, Forall z_routine l2 /\ z_settled U t (z_run U t n regs (l ++ l2)).
Proof. exact zcomes_to_rest. Qed.
Print Assumptions C121_comes_to_rest.
(** at rest, a client for which nothing has failed has its answers, whatever happened to the other clients and on their
    connections: the method of each of its calls has been called by the listener it was for, and has ended; and the call
    has ended accordingly, as in C85 *)
Theorem C121_outcome : forall U t n regs l p k d rid a, NoDup (z_ids p l) -> let z := z_run U t n regs l in nth_error (z_clients z) p = Some k -> z_settled U t z -> z_smooth p l k -> reaches t z k ->
  In (ZCall p d rid (Ok (Z.of_nat a))) l -> (exists q, y_request d rid = Ok q) -> y_ptype d <> 2%Z -> z_served d a regs l -> clear_trace U d ->
  exists m r, In (a, m) (z_conns k) /\ method_ended z a m d r /\
    (passed_on (z_state t k) rid r \/ ((exists v, r = Ok v /\ sendable v) /\ gives (z_state t k) rid (Raise KeyError))).
Proof. exact zoutcome. Qed.
Print Assumptions C121_outcome.
(** hence a call under way, of a client for which nothing has failed, can still be completed, whatever the others did: even
    if all 30 workers of the listener are taken, and connections were lost *)
Theorem C121_call_can_end : forall U t n regs l p k d rid a, NoDup (z_ids p l) -> let z := z_run U t n regs l in nth_error (z_clients z) p = Some k -> z_smooth p l k -> (forall b m o, In (ZServer b (LConn m o)) l -> fails o -> z_conn z b m <> None) -> reaches t z k ->
  In (ZCall p d rid (Ok (Z.of_nat a))) l -> (exists q, y_request d rid = Ok q) -> y_ptype d <> 2%Z -> z_served d a regs l -> clear_trace U d ->
  exists l2, Forall z_routine l2 /\ let z' := z_run U t n regs (l ++ l2) in exists k' m r, nth_error (z_clients z') p = Some k' /\ In (a, m) (z_conns k') /\ method_ended z' a m d r /\
    (passed_on (z_state t k') rid r \/ ((exists v, r = Ok v /\ sendable v) /\ gives (z_state t k') rid (Raise KeyError))).
Proof. exact zcall_can_end. Qed.
Print Assumptions C121_call_can_end.

(** two clients and two listeners: the first client calls the second listener and is answered; the second client calls the
    first listener and its connection is lost on both sides. After the first part the network still goes on; after the
    second it is at rest. *)
Definition d121 (m c : string) : ycall := {| y_baggage := [(str "sofaTraceId", str "0a"); (str "sofaRpcId", str "0")]; y_interface := str "svc"; y_method := str m; y_app := str "app"; y_uid := []; y_extra := [];
  y_content := bytes_lit c; y_ptype := 1; y_timeout := PInt 50 |}.
Definition reg121 : registry := [(str "svc", {| sv_raises := None; sv_methods := fun m => pystr_eqb m (str "m") || pystr_eqb m (str "n") |})].
Definition cl (p : nat) (l : list M_AioClient.step) : list zstep := map (ZClient p) l.
Definition sv (a : nat) (l : list sstep) : list zstep := map (fun o => ZServer a (LConn 0 o)) l.
Definition dial (p : nat) : list zstep := cl p [M_AioClient.Run 0; M_AioClient.Acquire 0] ++ [ZDial p 0 t_init] ++ cl p [M_AioClient.DrainOk 0; M_AioClient.DrainOk 0; M_AioClient.Read 0].
Definition first121 : list zstep :=
  [ZCall 0 (d121 "m" "hi") 7 (Ok 1%Z); ZCall 1 (d121 "n" "yo") 7 (Ok 0%Z)] ++ dial 0 ++ dial 1 ++ [ZUp 0 0 30; ZUp 1 0 1000; ZUp 0 0 1000] ++ sv 0 (repeat Read 4 ++ [Dispatch 0 (str "T0"); Eof; Read; DrainR true; DrainR true]) ++ cl 1 [M_AioClient.Reset 0; M_AioClient.Read 0].
Definition second121 : list zstep :=
  [ZServer 0 LTake] ++ sv 0 [JobEnd 0 (Ok (PBytes (bytes_lit "yoyo"))); Result 0; Drain 0 true; Drain 0 true] ++ [ZDown 1 0 1000] ++
  sv 1 (repeat Read 4 ++ [Dispatch 0 (str "T1")]) ++ [ZServer 1 LTake] ++ sv 1 [JobEnd 0 (Ok (PBytes (bytes_lit "hihi"))); Result 0; Drain 0 true; Drain 0 true] ++ [ZDown 0 0 20; ZDown 0 0 1000] ++ cl 0 [M_AioClient.Read 0; M_AioClient.Read 0; M_AioClient.Wake 0].
Definition z121 (l : list zstep) : net := z_run ascii_tables M_AioClient.NoTimer 2 [reg121; reg121] l.
Definition c121 (p : nat) (l : list zstep) : zclient := nth p (z_clients (z121 l)) {| z_hist := []; z_conns := [] |}.
Example C121_case : z_goes_on ascii_tables M_AioClient.NoTimer (z121 (first121 ++ [ZServer 0 LTake])) (z121 first121) /\ Forall z_left_alone second121 /\
  z_settled ascii_tables M_AioClient.NoTimer (z121 (first121 ++ second121)) /\
  Forall (fun l => NoDup (z_ids 0 l) /\ nth_error (z_clients (z121 l)) 0 = Some (c121 0 l) /\ z_smooth 0 l (c121 0 l) /\ reaches M_AioClient.NoTimer (z121 l) (c121 0 l) /\ z_served (d121 "m" "hi") 1 [reg121; reg121] l) [first121; first121 ++ second121] /\
  (forall b m o, In (ZServer b (LConn m o)) first121 -> fails o -> z_conn (z121 first121) b m <> None) /\
  In (ZCall 0 (d121 "m" "hi") 7 (Ok 1%Z)) first121 /\ (exists q, y_request (d121 "m" "hi") 7 = Ok q) /\ clear_trace ascii_tables (d121 "m" "hi") /\
  gives (z_state M_AioClient.NoTimer (c121 0 (first121 ++ second121))) 7 (Ok (PBytes (bytes_lit "hihi"))) /\ forall x, ~ gives (z_state M_AioClient.NoTimer (c121 1 (first121 ++ second121))) 7 x.
Proof.
  split. { exists (ZServer 0 LTake). split; [exact Logic.I|]. split; [apply L_Net.zrun_snoc|]. intros (_ & A). apply (f_equal (map (fun s => List.length (n_queue s)))) in A. vm_compute in A. discriminate. }
  split; [repeat (apply Forall_cons; [exact Logic.I|]); apply Forall_nil|].
  split; [apply zrest_settled; vm_compute; repeat split; repeat constructor|].
  assert (Sm : forall l k, (l = first121 \/ l = first121 ++ second121) -> z_conns k = [(1, 0)] -> z_smooth 0 l k).
  { intros l k [-> | ->] Ck; apply smooth_intro; rewrite Ck; repeat (apply Forall_cons; [first [exact Logic.I | intros H; discriminate H | intros _; vm_compute; exact Logic.I | solve [intros []] | intros _ [H|[]]; discriminate H]|]); apply Forall_nil. }
  split.
  { apply Forall_cons; [|apply Forall_cons; [|apply Forall_nil]]; (split; [vm_compute; repeat constructor; intros []|]); (split; [vm_compute; reflexivity|]; split; [apply Sm; [first [left; reflexivity|right; reflexivity]|vm_compute; reflexivity]|]; split; [apply reaches_intro; vm_compute; repeat constructor; discriminate|]).
    all: split; [discriminate|]; split; [discriminate|]; split; [exists reg121; split; [reflexivity|]; eexists; split; [reflexivity|]; split; reflexivity|]; intros sv H; vm_compute in H; repeat (destruct H as [H|H]; [discriminate H|]); exact H. }
  split. { intros b m o H F. vm_compute in H. repeat (destruct H as [H|H]; [try discriminate H; injection H as <- <- <-; first [destruct F; fail | vm_compute; discriminate]|]); destruct H. }
  split; [left; reflexivity|]. split; [apply request_intro; vm_compute; exact Logic.I|]. split; [apply clear_intro; vm_compute; exact Logic.I|].
  split; [apply (gives_intro _ _ _ 0); vm_compute; split; reflexivity|].
  intros x (i & tk & o & Hi & _ & Ho & _). destruct i as [|i]; [|destruct i; vm_compute in Hi; discriminate]. vm_compute in Hi. injection Hi as <-. discriminate.
Qed.

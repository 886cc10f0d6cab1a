(** Lemmas behind C134: a synchronous call that waits at rest though nothing disturbed it. *)
From Coq Require Import Strings.String Lia.
From Verif Require Import PyBase PyDict PyInt Struct M_SofaHeader M_Package M_RpcId M_Trace M_SyncClient M_AioServer S_Server M_SockServer S_SockServer M_System S_System L_System M_Listener S_Listener M_Net S_Settle S_NetRest M_Deploy S_Deploy S_Answered L_Answered S_DepRest L_DepRest2 L_DepRest3 M_World S_World L_World S_WorldRest L_WorldRest L_WorldRest2.
From Verif Require M_AioClient L_Settle.
Open Scope nat_scope.

Definition l134u : list wstep :=
  map WRest ([DCall (d124 "n" "ha") 0 false 7 (Ok tt); DRound 0 on off (AAio t_init) (Ok 1000%Z); DUp 0 1000] ++ sv124 0 (repeat Read 4 ++ [Dispatch 0 (str "T")]) ++ [DNet (ZServer 0 LTake)] ++ sv124 0 [JobEnd 0 (Ok (PBytes [])); Result 0; Drain 0 true; Drain 0 true]).
Definition s134u : world := w_run ascii_tables M_AioClient.NoTimer 1 [reg124] l134u.
Lemma world_unsent_waits : exists U t n regs l i w a m c, let x := w_run U t n regs l in w_settled U t x /\ asked (b_dep x) i w (PAio a m) /\ undisturbed (rest_steps l) i /\ (forall o, In (DNet (ZServer a (LConn m o))) (rest_steps l) -> ~ fails o) /\ nth_error (d_calls (b_dep x)) i = Some c /\
  z_served (c_what c) a regs (net_steps (rest_steps l)) /\ clear_trace U (c_what c) /\ method_ended (d_net (b_dep x)) a m (c_what c) (Ok (PBytes [])) /\ forall r, c_pc c <> SEnd r.
Proof.
  exists ascii_tables, M_AioClient.NoTimer, 1, [reg124], l134u, 0, 0, 0, 0. destruct (nth_error (d_calls (b_dep s134u)) 0) as [c|] eqn:E; [|vm_compute in E; discriminate]. exists c. intros x.
  assert (W : c_what c = d124 "n" "ha" /\ match c_pc c with SRecv _ _ => True | _ => False end).
  { assert (K : match nth_error (d_calls (b_dep s134u)) 0 with Some c => c_what c = d124 "n" "ha" /\ match c_pc c with SRecv _ _ => True | _ => False end | None => False end) by (vm_compute; repeat split; reflexivity). rewrite E in K. exact K. }
  destruct W as (W1 & W2). rewrite W1. split; [apply rest_world_settled; vm_compute; repeat split; repeat constructor|]. split; [apply asked_intro; vm_compute; reflexivity|].
  split; [intros ev H; vm_compute in H; repeat (destruct H as [H|H]; [discriminate H|]); destruct H|]. split; [intros o H; vm_compute in H; repeat (destruct H as [H|H]; [first [discriminate H|injection H as <-; intros []]|]); destruct H|]. split; [exact E|].
  split; [split; [discriminate|]; split; [discriminate|]; split; [exists reg124; split; [reflexivity|]; eexists; split; [reflexivity|]; split; reflexivity|]; intros sv H; vm_compute in H; repeat (destruct H as [H|H]; [discriminate H|]); exact H|].
  split; [apply L_Settle.clear_intro; vm_compute; exact Logic.I|]. split.
  - change x with s134u. destruct (z_conn (d_net (b_dep s134u)) 0 0) as [q|] eqn:Ex; [|vm_compute in Ex; discriminate]. destruct (v_jobs q) as [|b j] eqn:Ej.
    { exfalso. assert (K : option_map (fun x => List.length (v_jobs x)) (z_conn (d_net (b_dep s134u)) 0 0) = Some 1) by (vm_compute; reflexivity). rewrite Ex in K. cbn in K. rewrite Ej in K. discriminate. }
    assert (K : option_map (fun x => map (fun b => (j_service b, j_method b, j_body b, j_state b)) (v_jobs x)) (z_conn (d_net (b_dep s134u)) 0 0) = Some [(y_interface (d124 "n" "ha"), y_method (d124 "n" "ha"), y_content (d124 "n" "ha"), JEnded (Ok (PBytes [])))]) by (vm_compute; reflexivity).
    rewrite Ex in K. cbn [option_map] in K. rewrite Ej in K. cbn [map] in K. exists q, b. split; [exact Ex|]. split; [rewrite Ej; left; reflexivity|]. injection K. intros _ K4 K3 K2 K1. auto.
  - intros r Hr. rewrite Hr in W2. exact W2.
Qed.

(** Lemmas behind C124: a concrete deployment. *)
From Coq Require Import Strings.String.
From Verif Require Import PyBase PyDict PyInt Struct M_SofaHeader M_Package M_RpcId M_Trace M_SyncClient M_AioServer S_Server M_SockServer M_System S_System L_System S_Settle M_Listener M_Net S_Net S_NetRest M_Deploy S_Deploy S_Answered L_Answered S_DepRest L_DepRest L_DepRest2.
From Verif Require M_AioClient L_Settle L_NetRest L_Deploy.
Open Scope nat_scope.

(** one asyncio client, one asyncio listener and threads of a threaded one. Synchronous call 0 goes to the threaded
    listener; calls 1 and 2 and the call of the asyncio client go to the asyncio listener; the method of call 2 returns an
    empty byte string, which is not sent. After the first part the deployment still goes on, after the second it is at
    rest, and call 2 waits. *)
Definition d124 (m c : string) : ycall := {| y_baggage := [(str "sofaTraceId", str "0a"); (str "sofaRpcId", str "0")]; y_interface := str "svc"; y_method := str m; y_app := str "app"; y_uid := []; y_extra := [];
  y_content := bytes_lit c; y_ptype := 1; y_timeout := PInt 50 |}.
Definition reg124 : registry := [(str "svc", {| sv_raises := None; sv_methods := fun m => pystr_eqb m (str "m") || pystr_eqb m (str "n") |})].
Definition on (_ _ : nat) : bool := true.
Definition off (_ _ : nat) : bool := false.
Definition thread124 : accepter := AThr 100 reg124 t_init (str "F") (fun _ _ b _ => Some (Ok (PBytes (b ++ b)))) None.
Definition cl124 (l : list M_AioClient.step) : list dstep := map (fun o => DNet (ZClient 0 o)) l.
Definition sv124 (m : nat) (l : list sstep) : list dstep := map (fun o => DNet (ZServer 0 (LConn m o))) l.
Definition first124 : list dstep :=
  [DCall (d124 "m" "hi") (-1) false 7 (Ok tt); DCall (d124 "n" "ho") 0 false 7 (Ok tt); DCall (d124 "n" "ha") 0 false 8 (Ok tt); DNet (ZCall 0 (d124 "m" "yo") 7 (Ok 0%Z));
   DRound 0 on off thread124 (Ok 1000%Z); DUp 0 20; DRound 1 on off (AAio t_init) (Ok 1000%Z); DRound 2 on off (AAio t_init) (Ok 1000%Z)] ++
  cl124 [M_AioClient.Run 0; M_AioClient.Acquire 0] ++ [DNet (ZDial 0 0 t_init)] ++ cl124 [M_AioClient.DrainOk 0; M_AioClient.DrainOk 0; M_AioClient.Read 0] ++ [DUp 1 1000; DUp 2 1000; DNet (ZUp 0 0 1000)].
Definition second124 : list dstep :=
  sv124 1 (repeat Read 4 ++ [Dispatch 0 (str "T1")]) ++ sv124 0 (repeat Read 4 ++ [Dispatch 0 (str "T2")]) ++ sv124 2 (repeat Read 4 ++ [Dispatch 0 (str "T3")]) ++ repeat (DNet (ZServer 0 LTake)) 3 ++
  sv124 2 [JobEnd 0 (Ok (PBytes (bytes_lit "yoyo"))); Result 0; Drain 0 true; Drain 0 true] ++ sv124 0 [JobEnd 0 (Raise ValueError); Result 0; Drain 0 true; Drain 0 true] ++ sv124 1 [JobEnd 0 (Ok (PBytes [])); Result 0] ++
  [DUp 0 1000; DDown 0 30; DRecv 0 (Avail 1000); DDown 0 1000; DRecv 0 (Avail 1000); DDown 1 1000; DRecv 1 (Avail 1000); DRecv 1 (Avail 1000); DNet (ZDown 0 0 1000)] ++ cl124 [M_AioClient.Read 0; M_AioClient.Read 0; M_AioClient.Wake 0].
Definition run124 (l : list dstep) : dep := d_run ascii_tables M_AioClient.NoTimer 1 [reg124] l.
Definition c124 (l : list dstep) : zclient := nth 0 (z_clients (d_net (run124 l))) {| z_hist := []; z_conns := [] |}.
Definition ends124 (s : dep) : list (option (res pyobj)) := map (fun c => match c_pc c with SEnd r => Some r | _ => None end) (d_calls s).
Definition waits (c : scall) : Prop := match c_pc c with SRecv w y => w = 2 /\ y_rest y = [] | _ => False end.
Lemma all_undisturbed i : undisturbed (first124 ++ second124) i.
Proof. intros ev H. vm_compute in H. repeat (destruct H as [H|H]; [try discriminate H; injection H as _ <-; eauto|]). destruct H. Qed.
Lemma no_failure a m o : In (DNet (ZServer a (LConn m o))) (first124 ++ second124) -> ~ fails o.
Proof. intros H. vm_compute in H. repeat (destruct H as [H|H]; [try discriminate H; injection H as _ _ <-; intros []|]). destruct H. Qed.
Lemma served124 m c : (m = "m" \/ m = "n")%string -> z_served (d124 m c) 0 [reg124] (net_steps (first124 ++ second124)).
Proof.
  intros E. split; [discriminate|]. split; [destruct E as [-> | ->]; discriminate|]. split; [exists reg124; split; [reflexivity|]; eexists; split; [reflexivity|]; destruct E as [-> | ->]; split; reflexivity|].
  intros sv H. vm_compute in H. repeat (destruct H as [H|H]; [discriminate H|]). exact H.
Qed.
Lemma settled124 : d_settled ascii_tables M_AioClient.NoTimer (run124 (first124 ++ second124)).
Proof. apply rest_dep_settled; vm_compute; repeat split; repeat constructor. Qed.
Lemma unsent_waits : exists U t n regs l i w a m c, let s := d_run U t n regs l in d_settled U t s /\ asked s i w (PAio a m) /\ undisturbed l i /\ (forall o, In (DNet (ZServer a (LConn m o))) l -> ~ fails o) /\ nth_error (d_calls s) i = Some c /\
  z_served (c_what c) a regs (net_steps l) /\ clear_trace U (c_what c) /\ method_ended (d_net s) a m (c_what c) (Ok (PBytes [])) /\ forall r, c_pc c <> SEnd r.
Proof.
  exists ascii_tables, M_AioClient.NoTimer, 1, [reg124], (first124 ++ second124), 2, 2, 0, 1. destruct (nth_error (d_calls (run124 (first124 ++ second124))) 2) as [c|] eqn:E; [|vm_compute in E; discriminate]. exists c. intros s.
  assert (W : c_what c = d124 "n" "ha" /\ waits c).
  { assert (K : match nth_error (d_calls (run124 (first124 ++ second124))) 2 with Some c => c_what c = d124 "n" "ha" /\ waits c | None => False end) by (vm_compute; repeat split; reflexivity). rewrite E in K. exact K. }
  destruct W as (W1 & W2). rewrite W1. split; [exact settled124|]. split; [apply asked_intro; vm_compute; reflexivity|]. split; [apply all_undisturbed|]. split; [intros o; apply no_failure|]. split; [exact E|].
  split; [apply served124; right; reflexivity|]. split; [apply L_Settle.clear_intro; vm_compute; exact Logic.I|]. split.
  - destruct (z_conn (d_net s) 0 1) as [x|] eqn:Ex; [|vm_compute in Ex; discriminate]. destruct (v_jobs x) as [|b j] eqn:Ej.
    { exfalso. assert (K : option_map (fun x => List.length (v_jobs x)) (z_conn (d_net s) 0 1) = Some 1) by (vm_compute; reflexivity). rewrite Ex in K. cbn in K. rewrite Ej in K. discriminate. }
    assert (K : option_map (fun x => map (fun b => (j_service b, j_method b, j_body b, j_state b)) (v_jobs x)) (z_conn (d_net s) 0 1) = Some [(y_interface (d124 "n" "ha"), y_method (d124 "n" "ha"), y_content (d124 "n" "ha"), JEnded (Ok (PBytes [])))]) by (vm_compute; reflexivity).
    rewrite Ex in K. cbn [option_map] in K. rewrite Ej in K. cbn [map] in K. exists x, b. split; [exact Ex|]. split; [rewrite Ej; left; reflexivity|]. injection K. intros _ K4 K3 K2 K1. auto.
  - intros r Hr. unfold waits in W2. rewrite Hr in W2. exact W2.
Qed.

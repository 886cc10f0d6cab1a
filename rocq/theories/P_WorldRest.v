(** Property theorems C134: all the programs together (M_World: asyncio clients that call asyncio and threaded listeners,
    synchronous clients, listeners of both kinds, other programs), left alone, stop, and what the synchronous calls have
    then come to. *)
From Coq Require Import Strings.String Lia.
From Verif Require Import PyBase PyDict PyInt Struct M_SofaHeader M_Package M_RpcId M_Trace M_SyncClient M_AioServer S_Server M_SockServer S_SockServer M_System S_System L_System M_Listener S_Listener M_Net S_Settle S_NetRest M_Deploy S_Deploy S_Answered S_DepRest M_World S_World L_World S_WorldRest L_WorldRest L_WorldRest2 L_WorldRest3 P_World.
From Verif Require M_AioClient L_Settle L_Answered.
Open Scope nat_scope.

(** ** C134 *)
(** as long as nobody makes a new call, registers a service or sends anything from outside, and no heartbeat timer fires,
    only finitely many steps have an effect, whatever order they come in and whatever fails *)
Theorem C134_terminates : forall U t n regs l, Acc (w_goes_on U t) (w_run U t n regs l).
Proof. exact wterminates. Qed.
Print Assumptions C134_terminates.
Theorem C134_not_for_ever : forall U t n regs l f, (forall m, w_left_alone (f m)) -> exists m, w_unchanged U t (w_after U t f m (w_run U t n regs l)) (w_after U t f (S m) (w_run U t n regs l)).
Proof. exact wnot_for_ever. Qed.
Print Assumptions C134_not_for_ever.
(** what the programs and the network do by themselves leads to a state in which nobody has anything left to do *)
Theorem C134_comes_to_rest : forall U t n regs l, exists l2, Forall w_routine l2 /\ w_settled U t (w_run U t n regs (l ++ l2)).
Proof. exact wcomes_to_rest. Qed.
Print Assumptions C134_comes_to_rest.
(** at rest, a synchronous call that has sent its request to a threaded listener, and that nothing disturbed, has returned
    the value of its method, whatever the asyncio clients and the others did *)
Theorem C134_sync_threaded : forall U t n regs l i w k y c v, let x := w_run U t n regs l in w_settled U t x -> asked (b_dep x) i w (PThr k) -> undisturbed (rest_steps l) i -> (forall e, ~ In (DOver k e) (rest_steps l)) -> nth_error (d_thrs (b_dep x)) k = Some y -> nth_error (d_calls (b_dep x)) i = Some c ->
  y_interface (c_what c) <> [] -> y_method (c_what c) <> [] -> clear_trace U (c_what c) -> answers_with y (c_what c) v ->
  c_pc c = SEnd (let! _ := c_back c in Ok (PBytes v)).
Proof. exact wsync_threaded. Qed.
Print Assumptions C134_sync_threaded.
(** at rest, the method of a synchronous call that has sent its request to an asyncio listener has ended there, and the
    call accordingly. The claim that every such call has ended is false, as in C124: a value that cannot be sent leaves the
    call waiting, until its timeout *)
Theorem C134_sync_asyncio_partial : forall U t n regs l i w a m c, let x := w_run U t n regs l in w_settled U t x -> asked (b_dep x) i w (PAio a m) -> undisturbed (rest_steps l) i -> (forall o, In (DNet (ZServer a (LConn m o))) (rest_steps l) -> ~ fails o) -> nth_error (d_calls (b_dep x)) i = Some c ->
  z_served (c_what c) a regs (net_steps (rest_steps l)) -> clear_trace U (c_what c) ->
  exists r, method_ended (d_net (b_dep x)) a m (c_what c) r /\
    match r with
    | Raise _ => c_pc c = SEnd (let! _ := c_back c in Raise ServerError)
    | Ok v => (sendable v -> c_pc c = SEnd (let! _ := c_back c in Ok v)) /\ (~ sendable v -> exists y, c_pc c = SRecv w y)
    end.
Proof. exact wsync_asyncio. Qed.
Print Assumptions C134_sync_asyncio_partial.
Theorem C134_sync_asyncio_ends_refuted : exists U t n regs l i w a m c, let x := w_run U t n regs l in w_settled U t x /\ asked (b_dep x) i w (PAio a m) /\ undisturbed (rest_steps l) i /\ (forall o, In (DNet (ZServer a (LConn m o))) (rest_steps l) -> ~ fails o) /\ nth_error (d_calls (b_dep x)) i = Some c /\
  z_served (c_what c) a regs (net_steps (rest_steps l)) /\ clear_trace U (c_what c) /\ method_ended (d_net (b_dep x)) a m (c_what c) (Ok (PBytes [])) /\ forall r, c_pc c <> SEnd r.
Proof. exact world_unsent_waits. Qed.
Print Assumptions C134_sync_asyncio_ends_refuted.

(** what happened in C102, then a synchronous call to the threaded listener, and the program that had sent rubbish to the
    asyncio listener leaves *)
Definition more134 : list wstep :=
  sv 0 [Eof; Read; Read; DrainR true; Read; Read; DrainR true; Read] ++ sv 1 [Drain 0 true] ++ sv 2 [Drain 0 true] ++
  [WRest (DRound 1 (fun _ _ => true) (fun _ _ => false) thr (Ok 1000%Z)); WRest (DUp 1 1000); WRest (DDown 1 1000); WRest (DRecv 1 (Avail 1000)); WRest (DRecv 1 (Avail 1000))].
Definition l134 : list wstep := l102 ++ [WRest (DCall (d102 "n" "hu") (-1) false 7 (Ok tt))] ++ more134.
Definition s134 : world := w_run ascii_tables M_AioClient.NoTimer 2 [reg102] l134.
Example C134_case : map end_of (d_calls (b_dep s134)) = [Some (Ok (PBytes (bytes_lit "hehe"))); Some (Ok (PBytes (bytes_lit "huhu")))] /\ List.length (d_thrs (b_dep s134)) = 4.
Proof. vm_compute. repeat split. Qed.
Example C134_rest_case : w_settled ascii_tables M_AioClient.NoTimer s134 /\ Forall w_left_alone more134.
Proof.
  split; [apply rest_world_settled; vm_compute; repeat split; repeat constructor|]. repeat (apply Forall_cons; [exact Logic.I|]); apply Forall_nil.
Qed.
(** before that the programs go on *)
Example C134_goes_on : w_goes_on ascii_tables M_AioClient.NoTimer (w_run ascii_tables M_AioClient.NoTimer 2 [reg102] (l102 ++ [WRest (DNet (ZServer 0 (LConn 1 (Drain 0 true))))])) s102.
Proof.
  exists (WRest (DNet (ZServer 0 (LConn 1 (Drain 0 true))))). split; [exact Logic.I|]. split; [apply wrun_snoc|]. intros (_ & (_ & A) & _). apply (f_equal (map (fun s => map (fun c => map a_pc (v_tasks c)) (n_conns s)))) in A. vm_compute in A. discriminate.
Qed.
(** the hypotheses of C134_sync_threaded for the second synchronous call, and of C134_sync_asyncio_partial for the first *)
Example C134_threaded_case : asked (b_dep s134) 1 1 (PThr 3) /\ undisturbed (rest_steps l134) 1 /\ (forall e, ~ In (DOver 3 e) (rest_steps l134)) /\
  (match nth_error (d_thrs (b_dep s134)) 3 with Some y => answers_with y (d102 "n" "hu") (bytes_lit "huhu") | None => False end) /\ clear_trace ascii_tables (d102 "n" "hu").
Proof.
  split; [apply L_Answered.asked_intro; vm_compute; reflexivity|]. split; [intros ev H; vm_compute in H; repeat (destruct H as [H|H]; [first [discriminate H|injection H as <-; eexists; reflexivity]|]); destruct H|].
  split; [intros e H; vm_compute in H; repeat (destruct H as [H|H]; [discriminate H|]); exact H|].
  split; [vm_compute; split; [repeat constructor|]; split; [reflexivity|]; split; [eexists; split; [reflexivity|split; reflexivity]|]; split; [reflexivity|discriminate]|apply L_Settle.clear_intro; vm_compute; exact Logic.I].
Qed.
Example C134_asyncio_case : asked (b_dep s134) 0 0 (PAio 0 2) /\ undisturbed (rest_steps l134) 0 /\ (forall o, In (DNet (ZServer 0 (LConn 2 o))) (rest_steps l134) -> ~ fails o) /\ z_served (d102 "m" "he") 0 [reg102] (net_steps (rest_steps l134)) /\ clear_trace ascii_tables (d102 "m" "he").
Proof.
  split; [apply L_Answered.asked_intro; vm_compute; reflexivity|]. split; [intros ev H; vm_compute in H; repeat (destruct H as [H|H]; [first [discriminate H|injection H as <-; eexists; reflexivity]|]); destruct H|].
  split; [intros o H; vm_compute in H; repeat (destruct H as [H|H]; [first [discriminate H|injection H as <-; intros []]|]); destruct H|].
  split; [|apply L_Settle.clear_intro; vm_compute; exact Logic.I]. split; [discriminate|]. split; [discriminate|]. split; [exists reg102; split; [reflexivity|]; eexists; split; [reflexivity|split; reflexivity]|].
  intros q H. vm_compute in H. repeat (destruct H as [H|H]; [discriminate H|]). exact H.
Qed.

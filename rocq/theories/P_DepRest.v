(** Property theorems C124: a deployment of synchronous and asyncio clients, threaded and asyncio listeners (M_Deploy) that is
    left alone. The words [d_left_alone], [d_unchanged], [d_goes_on], [d_after], [d_routine] and [d_settled] are in S_DepRest,
    [z_smooth], [fails], [reaches], [z_served] and [method_ended] in S_NetRest, [asked], [undisturbed] and [answers_with] in
    S_Answered, [gives] in S_System, [clear_trace], [sendable] and [passed_on] in S_Settle. *)
From Coq Require Import Strings.String.
From Verif Require Import PyBase PyDict PyInt Struct M_SofaHeader M_Package M_RpcId M_Trace M_SyncClient M_AioServer S_Server M_SockServer M_System S_System L_System S_Settle M_Listener M_Net S_Net S_NetRest M_Deploy S_Deploy S_Answered L_Answered S_DepRest L_DepRest L_DepRest2 L_DepRest3.
From Verif Require M_AioClient L_Settle L_NetRest L_Deploy.
Open Scope nat_scope.

(** ** C124. Whatever the clients and listeners have done, and whatever happens from now on other than new calls,
    heartbeats, registrations and the doings of other programs: there is no endless sequence of steps each of which
    changes something. *)
Theorem C124_terminates : forall U t n regs l, Acc (d_goes_on U t) (d_run U t n regs l).
Proof. exact dterminates. Qed.
Print Assumptions C124_terminates.
Theorem C124_not_for_ever : forall U t n regs l f, (forall m, d_left_alone (f m)) -> exists m, d_unchanged U t (d_after U t f m (d_run U t n regs l)) (d_after U t f (S m) (d_run U t n regs l)).
Proof. exact dnot_for_ever. Qed.
Print Assumptions C124_not_for_ever.
(** what the programs and the network do by themselves leads to a state in which nobody has anything left to do *)
Theorem C124_comes_to_rest : forall U t n regs l, exists l2, Forall d_routine l2 /\ d_settled U t (d_run U t n regs (l ++ l2)).
Proof. exact dcomes_to_rest. Qed.
Print Assumptions C124_comes_to_rest.
(** at rest, a synchronous call that has sent its request to a threaded listener, and that nothing disturbed, has returned
    the value of its method, whatever the other clients did *)
Theorem C124_sync_threaded : forall U t n regs l i w k x c v, let s := d_run U t n regs l in d_settled U t s -> asked s i w (PThr k) -> undisturbed l i -> (forall e, ~ In (DOver k e) l) -> nth_error (d_thrs s) k = Some x -> nth_error (d_calls s) i = Some c ->
  y_interface (c_what c) <> [] -> y_method (c_what c) <> [] -> clear_trace U (c_what c) -> answers_with x (c_what c) v ->
  c_pc c = SEnd (let! _ := c_back c in Ok (PBytes v)).
Proof. exact sync_threaded. Qed.
Print Assumptions C124_sync_threaded.
(** at rest, the method of a synchronous call that has sent its request to an asyncio listener has ended there; if it has
    raised, the call has raised ServerError, and if it has returned a non-empty byte string, the call has returned that.
    The claim that every such call has ended is false: a value that cannot be sent leaves the call waiting, until its
    timeout *)
Theorem C124_sync_asyncio_partial : forall U t n regs l i w a m c, let s := d_run U t n regs l in d_settled U t s -> asked s i w (PAio a m) -> undisturbed l i -> (forall o, In (DNet (ZServer a (LConn m o))) l -> ~ fails o) -> nth_error (d_calls s) i = Some c ->
  z_served (c_what c) a regs (net_steps l) -> clear_trace U (c_what c) ->
  exists r, method_ended (d_net s) a m (c_what c) r /\
    match r with
    | Raise _ => c_pc c = SEnd (let! _ := c_back c in Raise ServerError)
    | Ok v => (sendable v -> c_pc c = SEnd (let! _ := c_back c in Ok v)) /\ (~ sendable v -> exists y, c_pc c = SRecv w y)
    end.
Proof. exact sync_asyncio. Qed.
Print Assumptions C124_sync_asyncio_partial.
Theorem C124_sync_asyncio_ends_refuted : exists U t n regs l i w a m c, let s := d_run U t n regs l in d_settled U t s /\ asked s i w (PAio a m) /\ undisturbed l i /\ (forall o, In (DNet (ZServer a (LConn m o))) l -> ~ fails o) /\ nth_error (d_calls s) i = Some c /\
  z_served (c_what c) a regs (net_steps l) /\ clear_trace U (c_what c) /\ method_ended (d_net s) a m (c_what c) (Ok (PBytes [])) /\ forall r, c_pc c <> SEnd r.
Proof. exact unsent_waits. Qed.
Print Assumptions C124_sync_asyncio_ends_refuted.
(** hence such a call can still be completed, whatever the others did: even if all 30 workers of the listener are taken *)
Theorem C124_sync_can_end : forall U t n regs l i w a m c, let s := d_run U t n regs l in asked s i w (PAio a m) -> undisturbed l i -> (forall o, In (DNet (ZServer a (LConn m o))) l -> ~ fails o) -> nth_error (d_calls s) i = Some c ->
  z_served (c_what c) a regs (net_steps l) -> clear_trace U (c_what c) ->
  exists l2, Forall d_routine l2 /\ let s' := d_run U t n regs (l ++ l2) in exists c' r, nth_error (d_calls s') i = Some c' /\ c_what c' = c_what c /\ c_back c' = c_back c /\ method_ended (d_net s') a m (c_what c) r /\
    match r with
    | Raise _ => c_pc c' = SEnd (let! _ := c_back c in Raise ServerError)
    | Ok v => (sendable v -> c_pc c' = SEnd (let! _ := c_back c in Ok v)) /\ (~ sendable v -> exists y, c_pc c' = SRecv w y)
    end.
Proof. exact asyncio_can_end. Qed.
Print Assumptions C124_sync_can_end.
(** and an asyncio call has its outcome, as in C121, whatever the synchronous clients and the threaded listeners do *)
Theorem C124_asyncio : forall U t n regs l p k d rid a, NoDup (z_ids p (net_steps l)) -> let s := d_run U t n regs l in nth_error (z_clients (d_net s)) p = Some k -> d_settled U t s -> z_smooth p (net_steps l) k -> reaches t (d_net s) k ->
  In (DNet (ZCall p d rid (Ok (Z.of_nat a)))) l -> (exists q, y_request d rid = Ok q) -> y_ptype d <> 2%Z -> z_served d a regs (net_steps l) -> clear_trace U d ->
  exists m r, In (a, m) (z_conns k) /\ method_ended (d_net s) a m d r /\
    (passed_on (z_state t k) rid r \/ ((exists v, r = Ok v /\ sendable v) /\ gives (z_state t k) rid (Raise KeyError))).
Proof. exact asyncio_outcome. Qed.
Print Assumptions C124_asyncio.

(** the deployment of L_DepRest3: one asyncio client, one asyncio listener and threads of a threaded one *)
Example C124_case : ends124 (run124 (first124 ++ second124)) = [Some (Ok (PBytes (bytes_lit "hihi"))); Some (Raise ServerError); None] /\
  (match nth_error (d_calls (run124 (first124 ++ second124))) 2 with Some c => waits c | None => False end) /\
  gives (z_state M_AioClient.NoTimer (c124 (first124 ++ second124))) 7 (Ok (PBytes (bytes_lit "yoyo"))).
Proof. split; [vm_compute; reflexivity|]. split; [vm_compute; split; reflexivity|]. apply (L_System.gives_intro _ _ _ 0); vm_compute; split; reflexivity. Qed.
Example C124_rest_case : d_settled ascii_tables M_AioClient.NoTimer (run124 (first124 ++ second124)) /\ Forall d_left_alone second124 /\ d_goes_on ascii_tables M_AioClient.NoTimer (run124 (first124 ++ [DUp 0 1000])) (run124 first124).
Proof.
  split; [apply rest_dep_settled; vm_compute; repeat split; repeat constructor|]. split; [repeat (apply Forall_cons; [exact Logic.I|]); apply Forall_nil|].
  exists (DUp 0 1000). split; [exact Logic.I|]. split; [apply L_Deploy.drun_snoc|]. intros (_ & A & _). apply (f_equal (map (fun x => List.length (fst (fst x))))) in A. vm_compute in A. discriminate.
Qed.
Example C124_threaded_case : let s := run124 (first124 ++ second124) in asked s 0 0 (PThr 0) /\ undisturbed (first124 ++ second124) 0 /\ (forall e, ~ In (DOver 0 e) (first124 ++ second124)) /\
  (match nth_error (d_thrs s) 0 with Some x => answers_with x (d124 "m" "hi") (bytes_lit "hihi") | None => False end) /\ clear_trace ascii_tables (d124 "m" "hi").
Proof.
  cbv zeta. split; [apply asked_intro; vm_compute; reflexivity|]. split; [apply all_undisturbed|]. split; [intros e H; vm_compute in H; repeat (destruct H as [H|H]; [discriminate H|]); exact H|].
  split; [vm_compute; split; [repeat constructor|]; split; [reflexivity|]; split; [eexists; split; [reflexivity|split; reflexivity]|]; split; [reflexivity|discriminate]|apply L_Settle.clear_intro; vm_compute; exact Logic.I].
Qed.
Example C124_asyncio_case : let l := first124 ++ second124 in NoDup (z_ids 0 (net_steps l)) /\ nth_error (z_clients (d_net (run124 l))) 0 = Some (c124 l) /\ z_smooth 0 (net_steps l) (c124 l) /\ reaches M_AioClient.NoTimer (d_net (run124 l)) (c124 l) /\
  In (DNet (ZCall 0 (d124 "m" "yo") 7 (Ok 0%Z))) l /\ (exists q, y_request (d124 "m" "yo") 7 = Ok q) /\ z_served (d124 "m" "yo") 0 [reg124] (net_steps l).
Proof.
  cbv zeta. split; [vm_compute; repeat constructor; intros []|]. split; [vm_compute; reflexivity|]. split.
  { apply L_NetRest.smooth_intro. repeat (apply Forall_cons; [first [exact Logic.I | intros H; discriminate H | intros _; vm_compute; exact Logic.I | solve [intros []]]|]); apply Forall_nil. }
  split; [apply L_NetRest.reaches_intro; vm_compute; repeat constructor; discriminate|]. split; [do 3 right; left; reflexivity|]. split; [apply L_Settle.request_intro; vm_compute; exact Logic.I|apply served124; left; reflexivity].
Qed.

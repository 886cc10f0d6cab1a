(** Property theorems C136: what becomes of the calls that asyncio clients make to asyncio listeners, among all the
    programs together (M_World). *)
From Coq Require Import Strings.String.
From Verif Require Import PyBase PyDict PyInt Struct M_SofaHeader M_Package M_RpcId M_Trace M_SyncClient M_AioServer S_Server M_SockServer M_System S_System M_Listener M_Net S_Settle S_NetRest M_Deploy S_Deploy M_World
  S_WorldRest S_WorldAnswers L_WorldRest2 L_WorldAnswers L_WorldAnswers2 L_WorldAnswers3.
From Verif Require M_AioClient L_Settle S_WhyAio.
Open Scope nat_scope.

(** ** C136 *)
(** When nobody has anything left to do, the method of every request on a connection to an asyncio listener has ended. If
    it returned bytes that can be sent, the call has ended with them, or with a KeyError because the answer came while the
    client was still flushing the request (see C129). If it raised, the call has ended with a KeyError. If it returned
    anything else, the call never ends. Missing: that the call ends as its method did, by the theorem below. *)
Theorem C136_asyncio_partial : forall U t n regs l p k i tk d rid c u a m, NoDup (w_ids p l) -> let x := w_run U t n regs l in w_settled U t x -> nth_error (b_clients x) p = Some k -> none_lost l k -> y_ptype d <> 2%Z ->
  made_for (o_state t k) i tk d rid -> left_to_itself k i -> asked_as (o_state t k) tk c u -> kept t k c -> nth_error (o_conns k) c = Some (PAio a m) -> (forall o, In (DNet (ZServer a (LConn m o))) (rest_steps l) -> ~ fails o) ->
  z_served d a regs (net_steps (rest_steps l)) -> clear_trace U d ->
  exists r, method_of_unit (d_net (b_dep x)) a m u d r /\
    match r with
    | Raise _ => gives (o_state t k) rid (Raise KeyError)
    | Ok v => (sendable v -> gives (o_state t k) rid (Ok v) \/ (gives (o_state t k) rid (Raise KeyError) /\ S_WhyAio.too_early t (o_hist k) i rid)) /\ (~ sendable v -> forall r', ~ gives (o_state t k) rid r')
    end.
Proof. exact asyncio_answered. Qed.
Print Assumptions C136_asyncio_partial.

(** A method returned no bytes, and the call waits for ever. *)
Theorem C136_ends_refuted : exists U t n regs l p k i tk d rid c u a m, NoDup (w_ids p l) /\ let x := w_run U t n regs l in w_settled U t x /\ nth_error (b_clients x) p = Some k /\ none_lost l k /\ y_ptype d <> 2%Z /\
  made_for (o_state t k) i tk d rid /\ left_to_itself k i /\ asked_as (o_state t k) tk c u /\ kept t k c /\ nth_error (o_conns k) c = Some (PAio a m) /\ (forall o, In (DNet (ZServer a (LConn m o))) (rest_steps l) -> ~ fails o) /\
  z_served d a regs (net_steps (rest_steps l)) /\ clear_trace U d /\ method_of_unit (d_net (b_dep x)) a m u d (Ok (PBytes [])) /\ forall r, ~ gives (o_state t k) rid r.
Proof. exact aio_unsent_waits. Qed.
Print Assumptions C136_ends_refuted.

(** *** the hypotheses of C136 can be met: three calls on one connection *)
Example C136_case : w_ids 0 l136 = [1; 2; 3]%Z /\ b_clients s136 = [k136] /\ o_conns k136 = [PAio 0 0] /\
  map (fun tk => match M_AioClient.t_pc tk with M_AioClient.Done o => Some (M_AioClient.caller_sees o) | _ => None end) (M_AioClient.s_tasks now136) = [Some (Ok (PBytes (bytes_lit "hihi"))); Some (Raise KeyError); None].
Proof. vm_compute. repeat split; reflexivity. Qed.
Example C136_undisturbed : w_settled ascii_tables M_AioClient.NoTimer s136 /\ none_lost l136 k136 /\ kept M_AioClient.NoTimer k136 0 /\ (forall i, left_to_itself k136 i) /\ (forall o, In (DNet (ZServer 0 (LConn 0 o))) (rest_steps l136) -> ~ fails o).
Proof. exact (conj rest136 (conj lost136 (conj kept136 (conj alone136 fine136)))). Qed.
Example C136_asked : made_for now136 0 (tk136 0) (d136 "m" "hi") 1 /\ asked_as now136 (tk136 0) 0 0 /\ made_for now136 1 (tk136 1) (d136 "m" "no") 2 /\ asked_as now136 (tk136 1) 0 1 /\ made_for now136 2 (tk136 2) (d136 "m" "ho") 3 /\ asked_as now136 (tk136 2) 0 2.
Proof.
  split; [split; vm_compute; reflexivity|]. split; [apply asked_as_intro; vm_compute; reflexivity|]. split; [split; vm_compute; reflexivity|]. split; [apply asked_as_intro; vm_compute; reflexivity|]. split; [split; vm_compute; reflexivity|]. apply asked_as_intro; vm_compute; reflexivity.
Qed.
Example C136_served : z_served (d136 "m" "hi") 0 [reg136] (net_steps (rest_steps l136)) /\ clear_trace ascii_tables (d136 "m" "hi") /\ clear_trace ascii_tables (d136 "m" "no").
Proof. split; [exact (served136 "hi")|]. split; apply L_Settle.clear_intro; vm_compute; exact Logic.I. Qed.
Example C136_methods : method_of_unit (d_net (b_dep s136)) 0 0 0 (d136 "m" "hi") (Ok (PBytes (bytes_lit "hihi"))) /\ method_of_unit (d_net (b_dep s136)) 0 0 1 (d136 "m" "no") (Raise ValueError) /\ sendable (PBytes (bytes_lit "hihi")).
Proof.
  split; [apply (unit_intro _ _ _ _ _ _ 0); vm_compute; repeat split|]. split; [apply (unit_intro _ _ _ _ _ _ 1); vm_compute; repeat split|]. eexists. split; [reflexivity|]. split; discriminate.
Qed.

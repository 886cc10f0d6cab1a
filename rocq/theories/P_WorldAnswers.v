(** Property theorems C135: what becomes of the calls that asyncio clients make to threaded listeners, among all the
    programs together (M_World). *)
From Coq Require Import Strings.String.
From Verif Require Import PyBase PyDict PyInt Struct M_SofaHeader M_Package L_Package M_RpcId M_Trace M_SyncClient M_AioServer S_Server M_SockServer M_System S_System M_Listener M_Net M_Deploy M_World
  S_WorldRest S_WorldAnswers L_WorldRest2 L_WorldAnswers.
From Verif Require M_AioClient S_Settle L_Settle S_Answered S_WhyAio.
Open Scope nat_scope.

(** ** C135 *)
(** When nobody has anything left to do, a call whose request is the first on its connection to a threaded listener has
    ended with what the method returned, or with a KeyError because the answer came while the client was still flushing
    the request (see C129). Missing: requests that are not the first, by the theorem below. *)
Theorem C135_first_call_partial : forall U t n regs l p k i tk d rid c th y v, NoDup (w_ids p l) -> let x := w_run U t n regs l in w_settled U t x ->
  nth_error (b_clients x) p = Some k -> none_lost l k -> y_ptype d <> 2%Z -> made_for (o_state t k) i tk d rid -> left_to_itself k i -> asked_as (o_state t k) tk c 0 -> kept t k c ->
  nth_error (o_conns k) c = Some (PThr th) -> nth_error (d_thrs (b_dep x)) th = Some y -> (forall e, ~ In (DOver th e) (rest_steps l)) ->
  y_interface d <> [] -> y_method d <> [] -> S_Settle.clear_trace U d -> S_Answered.answers_with y d v ->
  gives (o_state t k) rid (Ok (PBytes v)) \/ (gives (o_state t k) rid (Raise KeyError) /\ S_WhyAio.too_early t (o_hist k) i rid).
Proof. exact first_answered. Qed.
Print Assumptions C135_first_call_partial.

(** A call whose request is a later one on its connection to a threaded listener never ends, at whatever state and
    whatever the method would return: the thread reads one request. *)
Theorem C135_later_call_waits_refuted : forall U t n regs l p k i tk d rid c u th r, NoDup (w_ids p l) -> nth_error (b_clients (w_run U t n regs l)) p = Some k -> none_lost l k -> y_ptype d <> 2%Z ->
  made_for (o_state t k) i tk d rid -> left_to_itself k i -> asked_as (o_state t k) tk c (S u) -> nth_error (o_conns k) c = Some (PThr th) ->
  ~ gives (o_state t k) rid r.
Proof. exact later_waits. Qed.
Print Assumptions C135_later_call_waits_refuted.

(** Nor does one that the thread does not serve: because it does not know the service or the method, or because the method
    raises. *)
Theorem C135_failing_call_waits_refuted : forall U t n regs l p k i tk d rid c th y, NoDup (w_ids p l) -> let x := w_run U t n regs l in w_settled U t x -> nth_error (b_clients x) p = Some k -> none_lost l k -> y_ptype d <> 2%Z ->
  made_for (o_state t k) i tk d rid -> left_to_itself k i -> asked_as (o_state t k) tk c 0 -> nth_error (o_conns k) c = Some (PThr th) -> nth_error (d_thrs (b_dep x)) th = Some y -> (forall e, ~ In (DOver th e) (rest_steps l)) ->
  y_interface d <> [] -> y_method d <> [] -> S_Settle.clear_trace U d -> refuses y d -> forall r, ~ gives (o_state t k) rid r.
Proof. exact refused_waits. Qed.
Print Assumptions C135_failing_call_waits_refuted.

(** *** the hypotheses of C135 can be met *)
Definition d135 : ycall := {| y_baggage := [(str "sofaTraceId", str "0a"); (str "sofaRpcId", str "0")]; y_interface := str "svc"; y_method := str "m"; y_app := str "app"; y_uid := []; y_extra := [];
  y_content := bytes_lit "hi"; y_ptype := 1; y_timeout := PInt 50 |}.
Definition reg135 : registry := [(str "svc", {| sv_raises := None; sv_methods := fun m => pystr_eqb m (str "m") |})].
Definition thr135 : accepter := AThr 100 reg135 t_init (str "F") (fun _ _ b _ => Some (Ok (PBytes (b ++ b)))) None.
Definition cl135 (l : list M_AioClient.step) : list wstep := map (WClient 0) l.
(** two calls to one address: the first opens a connection to a thread and gets its answer, the second writes to the
    same connection; then everything that is on its way arrives *)
Definition l135 : list wstep :=
  [WCall 0 d135 1 (Ok (-1)%Z)] ++ cl135 [M_AioClient.Run 0; M_AioClient.Acquire 0] ++ [WDial 0 0 thr135] ++ cl135 [M_AioClient.DrainOk 0; M_AioClient.DrainOk 0; M_AioClient.Read 0] ++
  [WUp 0 0 1000; WDown 0 0 1000] ++ cl135 [M_AioClient.Read 0; M_AioClient.Read 0; M_AioClient.Wake 0] ++
  [WCall 0 d135 2 (Ok (-1)%Z)] ++ cl135 [M_AioClient.Run 1; M_AioClient.DrainOk 1; M_AioClient.DrainOk 1; M_AioClient.Wake 1] ++ [WUp 0 0 1000; WDown 0 0 1000] ++ cl135 [M_AioClient.Read 0; M_AioClient.Wake 1].
Definition s135 : world := w_run ascii_tables M_AioClient.NoTimer 1 [] l135.
Definition k135 : oclient := hd {| o_hist := []; o_conns := [] |} (b_clients s135).
Definition q135 (rid : Z) : pkg := match y_request d135 rid with Ok p => p | Raise _ => pkg_of_resp [] (resp_frame []) [] [] end.
Definition now135 : M_AioClient.st := o_state M_AioClient.NoTimer k135.
Definition tk135 (i : nat) : M_AioClient.task := nth i (M_AioClient.s_tasks now135) {| M_AioClient.t_req := q135 0; M_AioClient.t_addr := Raise ValueError; M_AioClient.t_pc := M_AioClient.Start |}.
Example C135_case : w_ids 0 l135 = [1; 2]%Z /\ b_clients s135 = [k135] /\ o_conns k135 = [PThr 0] /\
  map (fun tk => match M_AioClient.t_pc tk with M_AioClient.Done o => Some (M_AioClient.caller_sees o) | _ => None end) (M_AioClient.s_tasks now135) = [Some (Ok (PBytes (bytes_lit "hihi"))); None].
Proof. vm_compute. repeat split; reflexivity. Qed.
Example C135_at_rest : w_settled ascii_tables M_AioClient.NoTimer s135.
Proof. apply rest_world_settled; vm_compute; repeat split; repeat constructor. Qed.
Example C135_undisturbed : none_lost l135 k135 /\ left_to_itself k135 0 /\ left_to_itself k135 1 /\ (forall e, ~ In (DOver 0 e) (rest_steps l135)).
Proof.
  split; [intros a m H; vm_compute in H; destruct H as [H|[]]; discriminate|].
  split; [intros o H; vm_compute in H; repeat (destruct H as [<-|H]; [repeat split; discriminate|]); destruct H|].
  split; [intros o H; vm_compute in H; repeat (destruct H as [<-|H]; [repeat split; discriminate|]); destruct H|].
  intros e H. vm_compute in H. exact H.
Qed.
Example C135_kept : kept M_AioClient.NoTimer k135 0.
Proof. apply kept_intro; vm_compute; reflexivity. Qed.
Example C135_asked : made_for now135 0 (tk135 0) d135 1 /\ asked_as now135 (tk135 0) 0 0 /\ made_for now135 1 (tk135 1) d135 2 /\ asked_as now135 (tk135 1) 0 1.
Proof. split; [split; vm_compute; reflexivity|]. split; [apply asked_as_intro; vm_compute; reflexivity|]. split; [split; vm_compute; reflexivity|]. apply asked_as_intro; vm_compute; reflexivity. Qed.
Example C135_thread : (match nth_error (d_thrs (b_dep s135)) 0 with Some y => S_Answered.answers_with y d135 (bytes_lit "hihi") | None => False end) /\ S_Settle.clear_trace ascii_tables d135.
Proof.
  split; [vm_compute; split; [repeat constructor|]; split; [reflexivity|]; split; [eexists; split; [reflexivity|split; reflexivity]|]; split; [reflexivity|discriminate]|apply L_Settle.clear_intro; vm_compute; exact Logic.I].
Qed.
(** a call whose method raises in the thread *)
Definition l135f : list wstep :=
  [WCall 0 d135 1 (Ok (-1)%Z)] ++ cl135 [M_AioClient.Run 0; M_AioClient.Acquire 0] ++ [WDial 0 0 (AThr 100 reg135 t_init (str "F") (fun _ _ _ _ => Some (Raise ValueError)) None)] ++ cl135 [M_AioClient.DrainOk 0; M_AioClient.DrainOk 0; M_AioClient.Read 0; M_AioClient.Wake 0] ++
  [WUp 0 0 1000].
Definition s135f : world := w_run ascii_tables M_AioClient.NoTimer 1 [] l135f.
Definition k135f : oclient := hd {| o_hist := []; o_conns := [] |} (b_clients s135f).
Definition now135f : M_AioClient.st := o_state M_AioClient.NoTimer k135f.
Definition tk135f : M_AioClient.task := nth 0 (M_AioClient.s_tasks now135f) {| M_AioClient.t_req := q135 0; M_AioClient.t_addr := Raise ValueError; M_AioClient.t_pc := M_AioClient.Start |}.
Example C135_failing_case : w_settled ascii_tables M_AioClient.NoTimer s135f /\ o_conns k135f = [PThr 0] /\ made_for now135f 0 tk135f d135 1 /\ asked_as now135f tk135f 0 0 /\
  (match nth_error (d_thrs (b_dep s135f)) 0 with Some y => refuses y d135 /\ List.length (o_calls (th_out ascii_tables y)) = 1 | None => False end).
Proof.
  split; [apply rest_world_settled; vm_compute; repeat split; repeat constructor|]. split; [vm_compute; reflexivity|]. split; [split; vm_compute; reflexivity|]. split; [apply asked_as_intro; vm_compute; reflexivity|].
  vm_compute. split; [|reflexivity]. split; [repeat constructor|]. right. split; [eexists; split; [reflexivity|split; reflexivity]|]. exists ValueError. reflexivity.
Qed.
Example C135_failing_undisturbed : w_ids 0 l135f = [1]%Z /\ b_clients s135f = [k135f] /\ none_lost l135f k135f /\ left_to_itself k135f 0 /\ (forall e, ~ In (DOver 0 e) (rest_steps l135f)).
Proof.
  split; [vm_compute; reflexivity|]. split; [vm_compute; reflexivity|].
  split; [intros a m H; vm_compute in H; destruct H as [H|[]]; discriminate|].
  split; [intros o H; vm_compute in H; repeat (destruct H as [<-|H]; [repeat split; discriminate|]); destruct H|].
  intros e H. vm_compute in H. exact H.
Qed.

(** Lemmas behind C136: a call that never ends though its method did. *)
From Coq Require Import Strings.String Lia.
From Verif Require Import PyBase PyDict PyInt Struct M_SofaHeader M_Package L_Package M_RpcId M_Trace M_SyncClient M_AioServer S_Server M_SockServer M_System S_System M_Listener M_Net S_Settle S_NetRest M_Deploy S_Deploy M_World
  S_WorldRest S_WorldAnswers L_WorldRest2 L_WorldAnswers.
From Verif Require M_AioClient L_Settle.
Open Scope nat_scope.

Lemma none_given s rid : forallb (fun tk => match p_request_id (M_AioClient.t_req tk), M_AioClient.t_pc tk with PInt z, M_AioClient.Done _ => negb (Z.eqb z rid) | _, _ => true end) (M_AioClient.s_tasks s) = true -> forall r, ~ gives s rid r.
Proof.
  intros F r (i & tk & o & Hi & Hr & Ho & _). rewrite forallb_forall in F. specialize (F tk (nth_error_In _ _ Hi)). rewrite Hr, Ho, Z.eqb_refl in F. discriminate.
Qed.
Lemma unit_intro z a m u d r j : match z_conn z a m with Some y => match nth_error (v_jobs y) j with Some b => j_frame b = u /\ j_service b = y_interface d /\ j_method b = y_method d /\ j_body b = y_content d /\ j_state b = JEnded r | None => False end | None => False end -> method_of_unit z a m u d r.
Proof.
  unfold method_of_unit. destruct (z_conn z a m) as [y|]; [|intros []]. destruct (nth_error (v_jobs y) j) as [b|] eqn:E; [|intros []]. intros H. exists y, b. split; [reflexivity|]. split; [exact (nth_error_In _ _ E)|exact H].
Qed.

Definition d136 (m c : string) : ycall := {| y_baggage := [(str "sofaTraceId", str "0a"); (str "sofaRpcId", str "0")]; y_interface := str "svc"; y_method := str m; y_app := str "app"; y_uid := []; y_extra := [];
  y_content := bytes_lit c; y_ptype := 1; y_timeout := PInt 50 |}.
Definition reg136 : registry := [(str "svc", {| sv_raises := None; sv_methods := fun m => pystr_eqb m (str "m") |})].
Definition cl136 (l : list M_AioClient.step) : list wstep := map (WClient 0) l.
Definition sv136 (l : list sstep) : list wstep := map (fun o => WRest (DNet (ZServer 0 (LConn 0 o)))) l.
Definition asks136 (i : nat) : list wstep := cl136 [M_AioClient.Run i; M_AioClient.DrainOk i; M_AioClient.DrainOk i].
(** three calls on one connection to an asyncio listener: one method returns a value, one raises, one returns no bytes *)
Definition l136 : list wstep :=
  [WCall 0 (d136 "m" "hi") 1 (Ok 0%Z); WCall 0 (d136 "m" "no") 2 (Ok 0%Z); WCall 0 (d136 "m" "ho") 3 (Ok 0%Z)] ++
  cl136 [M_AioClient.Run 0; M_AioClient.Acquire 0] ++ [WDial 0 0 (AAio t_init)] ++ cl136 [M_AioClient.DrainOk 0; M_AioClient.DrainOk 0; M_AioClient.Read 0] ++ asks136 1 ++ asks136 2 ++ cl136 [M_AioClient.Wake 0; M_AioClient.Wake 1; M_AioClient.Wake 2] ++
  [WUp 0 0 1000] ++ sv136 (repeat Read 12) ++ sv136 [Dispatch 0 (str "T0"); Dispatch 1 (str "T1"); Dispatch 2 (str "T2")] ++ repeat (WRest (DNet (ZServer 0 LTake))) 3 ++
  sv136 [JobEnd 2 (Ok (PBytes [])); JobEnd 1 (Raise ValueError); JobEnd 0 (Ok (PBytes (bytes_lit "hihi"))); Result 2; Result 1; Result 0; Drain 0 true; Drain 1 true; Drain 2 true; Drain 0 true; Drain 1 true] ++
  [WDown 0 0 1000] ++ cl136 (repeat (M_AioClient.Read 0) 6 ++ [M_AioClient.Wake 0; M_AioClient.Wake 1; M_AioClient.Wake 2]).
Definition s136 : world := w_run ascii_tables M_AioClient.NoTimer 1 [reg136] l136.
Definition k136 : oclient := hd {| o_hist := []; o_conns := [] |} (b_clients s136).
Definition now136 : M_AioClient.st := o_state M_AioClient.NoTimer k136.
Definition tk136 (i : nat) : M_AioClient.task := nth i (M_AioClient.s_tasks now136) {| M_AioClient.t_req := pkg_of_resp [] (resp_frame []) [] []; M_AioClient.t_addr := Raise ValueError; M_AioClient.t_pc := M_AioClient.Start |}.
Lemma rest136 : w_settled ascii_tables M_AioClient.NoTimer s136.
Proof. apply rest_world_settled; vm_compute; repeat split; repeat constructor. Qed.
Lemma conns136 : o_conns k136 = [PAio 0 0].
Proof. vm_compute. reflexivity. Qed.
Lemma lost136 : none_lost l136 k136.
Proof.
  intros a m H. rewrite conns136 in H. destruct H as [[= <- <-]|[]]. split; intros H; vm_compute in H; repeat (destruct H as [H|H]; [discriminate H|]); exact H.
Qed.
Lemma alone_intro k : forallb (fun o => match o with M_AioClient.Cancel _ | M_AioClient.DialFail _ | M_AioClient.DrainFail _ => false | _ => true end) (o_hist k) = true -> forall i, left_to_itself k i.
Proof. intros F i o H. rewrite forallb_forall in F. specialize (F o H). repeat split; intros ->; discriminate. Qed.
Lemma alone136 : forall i, left_to_itself k136 i.
Proof. apply alone_intro. vm_compute. reflexivity. Qed.
Lemma kept136 : kept M_AioClient.NoTimer k136 0.
Proof. apply kept_intro; vm_compute; reflexivity. Qed.
Lemma fine136 o : In (DNet (ZServer 0 (LConn 0 o))) (rest_steps l136) -> ~ fails o.
Proof. intros H. vm_compute in H. repeat (destruct H as [H|H]; [first [discriminate H|injection H as <-; intros []]|]). destruct H. Qed.
Lemma served136 c : z_served (d136 "m" c) 0 [reg136] (net_steps (rest_steps l136)).
Proof.
  split; [discriminate|]. split; [discriminate|]. split; [exists reg136; split; [reflexivity|]; eexists; split; [reflexivity|split; reflexivity]|].
  intros q H. vm_compute in H. repeat (destruct H as [H|H]; [discriminate H|]). exact H.
Qed.
Lemma ids136 : NoDup (w_ids 0 l136).
Proof. vm_compute. repeat constructor; cbn; intuition discriminate. Qed.
Lemma clear136 : clear_trace ascii_tables (d136 "m" "ho").
Proof. apply L_Settle.clear_intro; vm_compute; exact Logic.I. Qed.

Lemma aio_unsent_waits : exists U t n regs l p k i tk d rid c u a m, NoDup (w_ids p l) /\ let x := w_run U t n regs l in w_settled U t x /\ nth_error (b_clients x) p = Some k /\ none_lost l k /\ y_ptype d <> 2%Z /\
  made_for (o_state t k) i tk d rid /\ left_to_itself k i /\ asked_as (o_state t k) tk c u /\ kept t k c /\ nth_error (o_conns k) c = Some (PAio a m) /\ (forall o, In (DNet (ZServer a (LConn m o))) (rest_steps l) -> ~ fails o) /\
  z_served d a regs (net_steps (rest_steps l)) /\ clear_trace U d /\ method_of_unit (d_net (b_dep x)) a m u d (Ok (PBytes [])) /\ forall r, ~ gives (o_state t k) rid r.
Proof.
  exists ascii_tables, M_AioClient.NoTimer, 1, [reg136], l136, 0, k136, 2, (tk136 2), (d136 "m" "ho"), 3%Z, 0, 2, 0, 0. split; [exact ids136|]. intros x. split; [exact rest136|]. split; [vm_compute; reflexivity|]. split; [exact lost136|]. split; [discriminate|].
  split; [split; vm_compute; reflexivity|]. split; [exact (alone136 2)|]. split; [apply asked_as_intro; vm_compute; reflexivity|]. split; [exact kept136|]. split; [vm_compute; reflexivity|]. split; [exact fine136|]. split; [exact (served136 "ho")|]. split; [exact clear136|].
  split; [apply (unit_intro _ _ _ _ _ _ 2); vm_compute; repeat split|]. apply none_given. vm_compute. reflexivity.
Qed.

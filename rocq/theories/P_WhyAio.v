(** Property theorems C129: what the outcome of a call of the asyncio client says about what happened to it, for the
    client alone (M_AioClient) and together with the listeners (M_World). *)
From Coq Require Import Strings.String.
From Verif Require Import PyBase PyDict PyInt Struct M_SofaHeader M_Package L_Package M_RpcId M_Trace M_SyncClient M_AioServer S_Server M_SockServer M_System S_System M_Listener M_Net M_Deploy M_World S_WhyWorld L_WhyWorld.
From Verif Require M_AioClient L_AioClient2 S_WhyAio L_WhyAio.
Open Scope nat_scope.

(** ** C129 *)
(** every outcome has a cause; the one that should not be there is the reply that comes before the flush of the request
    has ended ([too_early]) *)
Theorem C129_outcome_partial : forall t l i tk r, L_AioClient2.distinct_ids (M_AioClient.init t) l -> nth_error (M_AioClient.s_tasks (M_AioClient.run t l)) i = Some tk -> M_AioClient.t_pc tk = M_AioClient.Done r -> S_WhyAio.outcome t l i tk r.
Proof. exact L_WhyAio.outcome_run. Qed.
Print Assumptions C129_outcome_partial.
(** among the listeners: an error that is not the resolver's, not a cancellation and not a failure to send was preceded
    by a reply that a listener has written *)
Theorem C129_world_partial : forall U t n regs l p k i tk r e, NoDup (w_ids p l) -> let x := w_run U t n regs l in nth_error (b_clients x) p = Some k ->
  nth_error (M_AioClient.s_tasks (o_state t k)) i = Some tk -> M_AioClient.t_pc tk = M_AioClient.Done r -> M_AioClient.caller_sees r = Raise e -> cause U t (b_dep x) k i tk e.
Proof. exact world_cause. Qed.
Print Assumptions C129_world_partial.
(** a reply that is read while its call is still sending never reaches it, whatever it says: the call ends in KeyError
    or is cancelled *)
Theorem C129_early_reply_is_lost_refuted : forall t l i tk r, L_AioClient2.distinct_ids (M_AioClient.init t) l -> nth_error (M_AioClient.s_tasks (M_AioClient.run t l)) i = Some tk ->
  S_WhyAio.too_early t l i (M_AioClient.rid_of (M_AioClient.t_req tk)) -> M_AioClient.t_pc tk = M_AioClient.Done r -> r = M_AioClient.RetErr KeyError \/ r = M_AioClient.RetErr CancelledError.
Proof. exact L_WhyAio.early_lost. Qed.
Print Assumptions C129_early_reply_is_lost_refuted.

(** *** the hypotheses of C129 can be met *)
Definition d129 (i m : string) : ycall := {| y_baggage := [(str "sofaTraceId", str "0a"); (str "sofaRpcId", str "0")]; y_interface := str i; y_method := str m; y_app := str "app"; y_uid := []; y_extra := [];
  y_content := bytes_lit "hi"; y_ptype := 1; y_timeout := PInt 50 |}.
Definition reg129 : registry := [(str "svc", {| sv_raises := None; sv_methods := fun m => pystr_eqb m (str "m") |})].
Definition thr129 : accepter := AThr 100 reg129 t_init (str "F") (fun _ _ b _ => Some (Ok (PBytes (b ++ b)))) None.
Definition cl129 (l : list M_AioClient.step) : list wstep := map (WClient 0) l.
Definition open129 (i : nat) : list wstep := cl129 [M_AioClient.Run i; M_AioClient.Acquire i] ++ [WDial 0 i thr129] ++ cl129 [M_AioClient.DrainOk i].
Definition answer129 (c : nat) : list wstep := cl129 [M_AioClient.Read c] ++ [WUp 0 c 1000; WDown 0 c 1000] ++ cl129 [M_AioClient.Read c; M_AioClient.Read c].
(** seven calls to threaded listeners, each at an address of its own: one is served, one names no method, one is answered
    while it is still flushing, one cannot be dialled, one has no address, one is cancelled, and one is left waiting *)
Definition l129 : list wstep :=
  [WCall 0 (d129 "svc" "m") 1 (Ok (-1)%Z)] ++ open129 0 ++ cl129 [M_AioClient.DrainOk 0] ++ answer129 0 ++ cl129 [M_AioClient.Wake 0] ++
  [WCall 0 (d129 "svc" "") 2 (Ok (-2)%Z)] ++ open129 1 ++ cl129 [M_AioClient.DrainOk 1] ++ answer129 1 ++ cl129 [M_AioClient.Wake 1] ++
  [WCall 0 (d129 "svc" "m") 3 (Ok (-3)%Z)] ++ open129 2 ++ answer129 2 ++ cl129 [M_AioClient.DrainOk 2] ++
  [WCall 0 (d129 "svc" "m") 4 (Ok (-4)%Z)] ++ cl129 [M_AioClient.Run 3; M_AioClient.Acquire 3; M_AioClient.DialFail 3] ++
  [WCall 0 (d129 "svc" "m") 5 (Raise ValueError)] ++ cl129 [M_AioClient.Run 4] ++
  [WCall 0 (d129 "svc" "m") 6 (Ok (-6)%Z)] ++ open129 5 ++ cl129 [M_AioClient.DrainOk 5; M_AioClient.Cancel 5] ++
  [WCall 0 (d129 "svc" "m") 7 (Ok (-7)%Z)] ++ open129 6.
Definition s129 : world := w_run ascii_tables M_AioClient.NoTimer 1 [] l129.
Example C129_case : w_ids 0 l129 = [1; 2; 3; 4; 5; 6; 7]%Z /\
  map (fun k => map (fun tk => match M_AioClient.t_pc tk with M_AioClient.Done o => Some (M_AioClient.caller_sees o) | _ => None end) (M_AioClient.s_tasks (o_state M_AioClient.NoTimer k))) (b_clients s129) =
  [[Some (Ok (PBytes (bytes_lit "hihi"))); Some (Raise KeyError); Some (Raise KeyError); Some (Raise AttributeError); Some (Raise ValueError); Some (Raise CancelledError); None]].
Proof. vm_compute. auto. Qed.
(** call 2 was answered with SUCCESS, and too early *)
Example C129_early_case : exists k tk p frame pre post, nth_error (b_clients s129) 0 = Some k /\ nth_error (M_AioClient.s_tasks (o_state M_AioClient.NoTimer k)) 2 = Some tk /\
  M_AioClient.t_pc tk = M_AioClient.Done (M_AioClient.RetErr KeyError) /\
  end_sent ascii_tables (b_dep s129) (PThr 2) = Some (pre ++ frame ++ post) /\ from_stream BoltResponse frame = Ok p /\ S_WhyAio.says_ok p /\ M_AioClient.rid_of p = M_AioClient.rid_of (M_AioClient.t_req tk).
Proof.
  assert (K : option_map (fun k => option_map (fun tk => (M_AioClient.t_pc tk, M_AioClient.rid_of (M_AioClient.t_req tk))) (nth_error (M_AioClient.s_tasks (o_state M_AioClient.NoTimer k)) 2)) (nth_error (b_clients s129) 0) =
    Some (Some (M_AioClient.Done (M_AioClient.RetErr KeyError), 3%Z))) by (vm_compute; reflexivity).
  destruct (nth_error (b_clients s129) 0) as [k|]; [|discriminate]. cbn [option_map] in K. destruct (nth_error _ 2) as [tk|] eqn:Et; [|discriminate]. cbn [option_map] in K. injection K as K1 K2.
  assert (F : option_map (fun b => match from_stream BoltResponse b with Ok p => (p_cmdcode p, p_respstatus p, M_AioClient.rid_of p) | Raise _ => (0, 0, 0)%Z end) (end_sent ascii_tables (b_dep s129) (PThr 2)) = Some (2, 0, 3)%Z) by (vm_compute; reflexivity).
  destruct (end_sent ascii_tables (b_dep s129) (PThr 2)) as [b|]; [|discriminate]. cbn [option_map] in F. destruct (from_stream BoltResponse b) as [p|] eqn:E; [|discriminate]. injection F as F1 F2 F3.
  exists k, tk, p, b, [], []. split; [reflexivity|]. split; [exact Et|]. split; [exact K1|]. split; [rewrite app_nil_r; reflexivity|]. split; [exact E|]. split; [split; assumption|congruence].
Qed.
(** the reply with SUCCESS is read at the ninth step, when call 0 is in its second flush *)
Definition req129 : pkg := match y_request (d129 "svc" "m") 3 with Ok p => p | Raise _ => pkg_of_resp [] (resp_frame []) [] [] end.
Definition ans129 : bytes := match end_sent ascii_tables (b_dep s129) (PThr 2) with Some b => b | None => [] end.
Definition e129 : list M_AioClient.step := [M_AioClient.Call req129 (Ok 1%Z); M_AioClient.Run 0; M_AioClient.Acquire 0; M_AioClient.DialOk 0; M_AioClient.DrainOk 0; M_AioClient.Read 0; M_AioClient.Feed 0 ans129; M_AioClient.Read 0].
Definition f129 : list M_AioClient.step := e129 ++ M_AioClient.Read 0 :: [M_AioClient.DrainOk 0].
Lemma some129 {A B} (f : A -> B) o y : option_map f o = Some y -> exists x, o = Some x /\ f x = y.
Proof. destruct o as [x|]; cbn; [intros [=]; eauto|intros [=]]. Qed.
Example C129_early_hypotheses : L_AioClient2.distinct_ids (M_AioClient.init M_AioClient.NoTimer) f129 /\ S_WhyAio.too_early M_AioClient.NoTimer f129 0 3 /\
  map M_AioClient.t_pc (M_AioClient.s_tasks (M_AioClient.run M_AioClient.NoTimer f129)) = [M_AioClient.Done (M_AioClient.RetErr KeyError)].
Proof.
  split; [|split].
  - split; [intros r _ (i & tk & Hi & _); destruct i; discriminate|]. repeat (split; [intros r [=]|]). exact I.
  - assert (T : option_map (fun tk => (M_AioClient.t_pc tk, M_AioClient.rid_of (M_AioClient.t_req tk))) (nth_error (M_AioClient.s_tasks (M_AioClient.run M_AioClient.NoTimer e129)) 0) = Some (M_AioClient.Drain2 3 0, 3%Z)) by (vm_compute; reflexivity).
    assert (A : option_map M_AioClient.k_frames (nth_error (M_AioClient.s_links (M_AioClient.run M_AioClient.NoTimer e129)) 0) = Some []) by (vm_compute; reflexivity).
    assert (B : option_map M_AioClient.k_frames (nth_error (M_AioClient.s_links (M_AioClient.run M_AioClient.NoTimer (e129 ++ [M_AioClient.Read 0]))) 0) = Some [ans129]) by (vm_compute; reflexivity).
    assert (C : match from_stream BoltResponse ans129 with Ok p => M_AioClient.rid_of p | Raise _ => 0%Z end = 3%Z) by (vm_compute; reflexivity).
    apply some129 in T as (tk & T0 & T). apply some129 in A as (k & A0 & A). apply some129 in B as (k' & B0 & B). injection T as T1 T2.
    destruct (from_stream BoltResponse ans129) as [p|] eqn:C0; [|discriminate C].
    exists e129, 0, [M_AioClient.DrainOk 0], tk, k, k', ans129, p. split; [reflexivity|]. split; [exact T0|]. split; [rewrite T1; exact I|]. split; [exact T2|]. split; [exact A0|]. split; [exact B0|]. split; [rewrite A, B; reflexivity|]. split; [exact C0|exact C].
  - vm_compute. reflexivity.
Qed.

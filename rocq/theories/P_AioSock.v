(** C99: an asyncio client that calls services of threaded listeners. *)
From Coq Require Import Strings.String.
From Verif Require Import PyBase PyDict PyInt M_SofaHeader M_Package M_RpcId M_Trace M_AioServer S_Server M_SockServer S_SockServer M_System S_System L_System M_AioSock S_AioSock L_AioSock.
From Verif Require M_AioClient M_Deploy.
Open Scope Z_scope.

(** A value that a call returns is what the method returned that was called for it, at the address of the call, by
    the thread of one of its connections. *)
Theorem C99_value_of_that_method : forall U t l d rid a v, NoDup (a_ids l) -> let s := a_run U t l in
  In (ACall d rid a) l -> gives (a_client t s) rid (Ok v) ->
  exists c x lk ctx, nth_error (a_thrs s) c = Some x /\ nth_error (M_AioClient.s_links (a_client t s)) c = Some lk /\ a = Ok (M_AioClient.k_addr lk) /\
    called_on U x = [(y_interface d, y_method d, y_content d, ctx)] /\ M_Deploy.th_call x (y_interface d) (y_method d) (y_content d) ctx = Some (Ok v).
Proof. exact avalue. Qed.
Print Assumptions C99_value_of_that_method.

(** The threads call nothing but what was asked for at their address, and each of them one method at most. *)
Theorem C99_called_as_asked : forall U t l c x sv m b ctx, let s := a_run U t l in nth_error (a_thrs s) c = Some x -> In (sv, m, b, ctx) (called_on U x) ->
  called_on U x = [(sv, m, b, ctx)] /\ exists d rid lk q, In (ACall d rid (Ok (M_AioClient.k_addr lk))) l /\ nth_error (M_AioClient.s_links (a_client t s)) c = Some lk /\
    sv = y_interface d /\ m = y_method d /\ b = y_content d /\ begins (received (M_Deploy.th_net x)) (IRequest q) /\ q_id q = rid.
Proof. exact called_as_asked. Qed.
Print Assumptions C99_called_as_asked.

(** At most three executions of the method of one call, and at most one more than flushes that failed. *)
Theorem C99_executions_bounded : forall U t l rid i tk L, NoDup (a_ids l) -> let s := a_run U t l in
  nth_error (M_AioClient.s_tasks (a_client t s)) i = Some tk -> p_request_id (M_AioClient.t_req tk) = PInt rid -> NoDup L -> (forall c, In c L -> served_for U s rid c) ->
  (List.length L <= 1 + failed_flushes i s)%nat /\ (List.length L <= 3)%nat.
Proof. exact aserved_three. Qed.
Print Assumptions C99_executions_bounded.

(** The full property, that calls which share a connection are each answered, is false of this code: however the
    programs run, there is never more than one value for each connection opened. *)
Theorem C99_calls_share_a_connection_refuted : forall U t l R, let s := a_run U t l in NoDup R -> (forall rid, In rid R -> exists v, gives (a_client t s) rid (Ok v)) ->
  (List.length R <= List.length (M_AioClient.s_links (a_client t s)))%nat.
Proof. exact avalues_bounded. Qed.
Print Assumptions C99_calls_share_a_connection_refuted.

(** two calls at a time on one connection; both requests arrive, all bytes sent back arrive and the client sees the
    end of the stream: the first call has its value, the second has none *)
Definition call7 : ycall := {| y_baggage := [(str "sofaTraceId", str "0a"); (str "sofaRpcId", str "0")]; y_interface := str "svc"; y_method := str "m"; y_app := str "app"; y_uid := []; y_extra := [(str "k", str "v")];
  y_content := bytes_lit "hi"; y_ptype := 1; y_timeout := PInt 50 |}.
Definition call8 : ycall := {| y_baggage := []; y_interface := str "svc"; y_method := str "m"; y_app := []; y_uid := []; y_extra := []; y_content := bytes_lit "yo"; y_ptype := 1; y_timeout := PInt 50 |}.
Definition twice : methods := fun _ _ b _ => Some (Ok (PBytes (b ++ b))).
Definition regs : registry := [(str "svc", {| sv_raises := None; sv_methods := fun m => pystr_eqb m (str "m") |})].
Definition dial (i : nat) : astep := ADial i 5 regs t_init (str "T") twice None.
Definition ac (l : list M_AioClient.step) : list astep := map AClient l.
Definition l99 : list astep :=
  [ACall call7 7 (Ok 1); ACall call8 8 (Ok 1)] ++ ac [M_AioClient.Run 0; M_AioClient.Acquire 0] ++ [dial 0] ++
  ac [M_AioClient.DrainOk 0; M_AioClient.DrainOk 0; M_AioClient.Run 1; M_AioClient.DrainOk 1; M_AioClient.DrainOk 1; M_AioClient.Read 0] ++
  [AUp 0 30; AUp 0 1000; ADown 0 30] ++ ac [M_AioClient.Read 0] ++ [ADown 0 1000] ++
  ac [M_AioClient.Read 0; M_AioClient.Read 0; M_AioClient.Read 0; M_AioClient.Wake 0; M_AioClient.Eof 0; M_AioClient.Read 0; M_AioClient.Wake 1].
Definition s99 : asys := a_run ascii_tables M_AioClient.NoTimer l99.
Example C99_case : NoDup (a_ids l99) /\ In (ACall call7 7 (Ok 1)) l99 /\ In (ACall call8 8 (Ok 1)) l99 /\ gives (a_client M_AioClient.NoTimer s99) 7 (Ok (PBytes (bytes_lit "hihi"))) /\
  map (called_on ascii_tables) (a_thrs s99) = [[(str "svc", str "m", bytes_lit "hi", 0%nat)]] /\
  map (fun x => (len (M_Deploy.arrived (M_Deploy.th_net x)), len (y_sent (a_client M_AioClient.NoTimer s99) 0))) (a_thrs s99) = [(468, 468)] /\
  match nth_error (M_AioClient.s_tasks (a_client M_AioClient.NoTimer s99)) 1 with Some tk => match M_AioClient.t_pc tk with M_AioClient.Done _ => False | _ => True end | None => False end.
Proof.
  split; [|split; [|split; [|split; [|split; [|split]]]]].
  - vm_compute. repeat constructor; cbn; intuition discriminate.
  - left. reflexivity.
  - right. left. reflexivity.
  - apply (gives_intro _ _ _ 0). vm_compute. split; reflexivity.
  - vm_compute. reflexivity.
  - vm_compute. reflexivity.
  - vm_compute. exact I.
Qed.
(** a flush that failed though everything arrived: executed twice, on two connections *)
Definition l99' : list astep :=
  [ACall call7 7 (Ok 1)] ++ ac [M_AioClient.Run 0; M_AioClient.Acquire 0] ++ [dial 0] ++ ac [M_AioClient.DrainOk 0; M_AioClient.DrainFail 0; M_AioClient.Acquire 0] ++ [dial 0] ++
  ac [M_AioClient.DrainOk 0; M_AioClient.DrainOk 0] ++ [AUp 0 1000; AUp 1 1000; AOver 0 (Some ConnectionResetError)].
Definition s99' : asys := a_run ascii_tables M_AioClient.NoTimer l99'.
Example C99_case2 : NoDup (a_ids l99') /\ map (fun tk => p_request_id (M_AioClient.t_req tk)) (M_AioClient.s_tasks (a_client M_AioClient.NoTimer s99')) = [PInt 7] /\
  map (called_on ascii_tables) (a_thrs s99') = [[(str "svc", str "m", bytes_lit "hi", 0%nat)]; [(str "svc", str "m", bytes_lit "hi", 0%nat)]] /\ failed_flushes 0 s99' = 1%nat /\
  (forall c, In c [0; 1]%nat -> served_for ascii_tables s99' 7 c).
Proof.
  split; [vm_compute; repeat constructor; intros []|]. split; [vm_compute; reflexivity|]. split; [vm_compute; reflexivity|]. split; [vm_compute; reflexivity|].
  assert (K : forall c, In c [0; 1]%nat -> exists x, nth_error (a_thrs s99') c = Some x /\ exists sv m b ctx, In (sv, m, b, ctx) (called_on ascii_tables x)).
  { intros c [<-|[<-|[]]]; (eexists; split; [vm_compute; reflexivity|]; do 4 eexists; vm_compute; left; reflexivity). }
  intros c Hc. destruct (K c Hc) as (x & Hx & sv & m & b & ctx & Hi). destruct (called_as_asked ascii_tables M_AioClient.NoTimer l99' c x sv m b ctx Hx Hi) as (_ & d & rid & lk & q & Hl & _ & _ & _ & _ & Bq & Q).
  exists x, q. split; [exact Hx|]. split; [intros E; rewrite E in Hi; destruct Hi|]. split; [exact Bq|]. rewrite Q.
  assert (I : In rid (a_ids l99')). { unfold a_ids. apply in_concat. exists [rid]. split; [|left; reflexivity]. apply in_map_iff. exists (ACall d rid (Ok (M_AioClient.k_addr lk))). auto. }
  vm_compute in I. destruct I as [<-|[]]. reflexivity.
Qed.

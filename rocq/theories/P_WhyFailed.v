(** Property theorems C128: what the error of a synchronous call says about what happened to it, in a deployment of any
    number of clients and listeners (M_Deploy). *)
From Coq Require Import Strings.String.
From Verif Require Import PyBase PyDict PyInt Struct M_SofaHeader M_Package M_RpcId M_Trace M_SyncClient M_AioServer S_Server M_SockServer M_System S_System L_System M_Listener S_Listener M_Net S_Net M_Deploy S_Deploy S_Answered S_WhyFailed L_WhyFailed.
From Verif Require M_AioClient.
Open Scope nat_scope.

(** ** C128 *)
(** every error has one of five causes: nothing came in time (then it is TimeoutError), the socket failed (then it is
    the socket's error), the call was refused before it had a connection, the connection could not be given back (then
    it is that error), or a listener of this library wrote a reply with an error status (then it is ServerError) *)
Theorem C128_reason : forall U t n regs l i c e, let s := d_run U t n regs l in nth_error (d_calls s) i = Some c -> c_pc c = SEnd (Raise e) -> reason U l s i c e.
Proof. exact why_failed. Qed.
Print Assumptions C128_reason.
(** a threaded listener reports an error only to a call that names no interface or no method ... *)
Theorem C128_thread_error : forall U t n regs l i c w k frame tail id cmd st v, let s := d_run U t n regs l in nth_error (d_calls s) i = Some c -> connection_of s i w (PThr k) -> end_sent U s (PThr k) = Some (frame ++ tail) -> response frame id cmd st v -> st <> 0%Z ->
  y_interface (c_what c) = [] \/ y_method (c_what c) = [].
Proof. exact thread_error. Qed.
Print Assumptions C128_thread_error.
(** ... so that any other call to one, if it runs into no timeout and no failure of its socket, fails only before it is sent *)
Theorem C128_thread_call : forall U t n regs l i c e, let s := d_run U t n regs l in nth_error (d_calls s) i = Some c -> c_pc c = SEnd (Raise e) -> (c_addr c < 0)%Z -> y_interface (c_what c) <> [] -> y_method (c_what c) <> [] -> undisturbed l i -> c_back c = Ok tt ->
  refused c e /\ no_connection s i.
Proof. exact thread_call_fails. Qed.
Print Assumptions C128_thread_call.

(** *** the hypotheses of C128 can be met *)
Definition d128 (i m : string) (tm : pyobj) : ycall := {| y_baggage := [(str "sofaTraceId", str "0a"); (str "sofaRpcId", str "0")]; y_interface := str i; y_method := str m; y_app := str "app"; y_uid := []; y_extra := [];
  y_content := bytes_lit "hi"; y_ptype := 1; y_timeout := tm |}.
Definition reg128 : registry := [(str "svc", {| sv_raises := None; sv_methods := fun m => pystr_eqb m (str "m") |})].
Definition twice128 : methods := fun _ _ b _ => Some (Ok (PBytes (b ++ b))).
Definition on128 (_ _ : nat) : bool := true.
Definition off128 (_ _ : nat) : bool := false.
Definition thread128 : accepter := AThr 100 reg128 t_init (str "F") twice128 None.
Definition answer128 (i : nat) (w : nat) : list dstep := [DUp w 1000; DDown w 1000; DRecv i (Avail 1000); DRecv i (Avail 1000)].
(** seven calls: one gets nothing in time, one has its socket fail, one has no number for a timeout, one gets no
    connection, one cannot give its connection back, one names no method, and one is served *)
Definition l128 : list dstep :=
  [DCall (d128 "svc" "m" (PInt 5)) (-1) false 7 (Ok tt); DRound 0 on128 off128 thread128 (Ok 1000%Z); DRecv 0 Silent;
   DCall (d128 "svc" "m" (PInt 5)) (-1) false 7 (Ok tt); DRound 1 on128 off128 thread128 (Ok 1000%Z); DRecv 1 (Broken OSError);
   DCall (d128 "svc" "m" PNone) (-1) false 7 (Ok tt);
   DCall (d128 "svc" "m" (PInt 5)) (-1) false 7 (Ok tt); DRound 3 off128 off128 thread128 (Ok 1000%Z); DRound 3 off128 off128 thread128 (Ok 1000%Z); DRound 3 off128 off128 thread128 (Ok 1000%Z);
   DCall (d128 "svc" "m" (PInt 5)) (-1) false 7 (Raise AttributeError); DRound 4 on128 off128 thread128 (Ok 1000%Z)] ++ answer128 4 2 ++
  [DCall (d128 "svc" "" (PInt 5)) (-1) false 7 (Ok tt); DRound 5 on128 off128 thread128 (Ok 1000%Z)] ++ answer128 5 3 ++
  [DCall (d128 "svc" "m" (PInt 5)) (-1) false 7 (Ok tt); DRound 6 on128 off128 thread128 (Ok 1000%Z)] ++ answer128 6 4.
Example C128_case : map c_pc (d_calls (d_run ascii_tables M_AioClient.NoTimer 0 [reg128] l128)) =
  [SEnd (Raise TimeoutError); SEnd (Raise OSError); SEnd (Raise AssertionError); SEnd (Raise NameError); SEnd (Raise AttributeError); SEnd (Raise ServerError); SEnd (Ok (PBytes (bytes_lit "hihi")))].
Proof. vm_compute. reflexivity. Qed.
Example C128_thread_case : let s := d_run ascii_tables M_AioClient.NoTimer 0 [reg128] l128 in undisturbed l128 3 /\ no_connection s 3 /\ exists c, nth_error (d_calls s) 3 = Some c /\ c_addr c = (-1)%Z /\ refused c NameError.
Proof.
  cbv zeta. split; [|split].
  - intros ev H. cbn in H. repeat (destruct H as [H|H]; [try discriminate H; injection H as <-; eauto|]). destruct H.
  - intros w x H. assert (L : map w_call (d_wires (d_run ascii_tables M_AioClient.NoTimer 0 [reg128] l128)) = [0; 1; 4; 5; 6]) by (vm_compute; reflexivity).
    apply (map_nth_error w_call) in H. rewrite L in H. intros E. rewrite E in H. do 5 (destruct w as [|w]; [discriminate H|]). destruct w; discriminate H.
  - assert (L : option_map c_addr (nth_error (d_calls (d_run ascii_tables M_AioClient.NoTimer 0 [reg128] l128)) 3) = Some (-1)%Z) by (vm_compute; reflexivity).
    destruct (nth_error (d_calls (d_run ascii_tables M_AioClient.NoTimer 0 [reg128] l128)) 3) as [c|]; [|discriminate]. injection L as L. exists c. split; [reflexivity|]. split; [exact L|]. right. right. reflexivity.
Qed.

(** Property theorems C117: a synchronous call to a healthy listener is answered, in a deployment of any number of clients
    and listeners (M_Deploy). *)
From Coq Require Import Strings.String.
From Verif Require Import PyBase PyDict PyInt Struct M_SofaHeader M_Package M_RpcId M_Trace M_SyncClient M_AioServer S_Server M_SockServer M_System S_System L_System M_Listener S_Listener M_Net S_Net M_Deploy S_Deploy S_Answered L_Answered.
From Verif Require M_AioClient S_Settle L_Settle.
Open Scope nat_scope.

(** ** C117 *)
(** a call is accepted exactly when its timeout is a number (and its request can be built) ... *)
Theorem C117_accepted : forall U t s d addr rid back, numeric (y_timeout d) -> (exists p, c_request (new_call d addr rid back) = Ok p) ->
  let s' := d_step U t (DCall d addr false rid back) s in d_calls s' = d_calls s ++ [new_call d addr rid back] /\ d_wires s' = d_wires s /\ d_thrs s' = d_thrs s.
Proof. exact call_accepted. Qed.
Print Assumptions C117_accepted.
Theorem C117_not_accepted : forall U t s d addr rid back, ~ numeric (y_timeout d) -> exists c, d_calls (d_step U t (DCall d addr false rid back) s) = d_calls s ++ [c] /\ c_pc c = SEnd (Raise AssertionError).
Proof. exact call_refused. Qed.
Print Assumptions C117_not_accepted.
(** ... and waits to send through everything that others do *)
Theorem C117_waits : forall U t n regs l1 l i c r conn, nth_error (d_calls (d_run U t n regs l)) i = Some c -> c_pc c = SSend r conn -> (forall mk dr acc send, ~ In (DRound i mk dr acc send) l1) -> nth_error (d_calls (d_run U t n regs (l ++ l1))) i = Some c.
Proof. exact waits_run. Qed.
Print Assumptions C117_waits.
(** a call that has written its whole request to a thread of a threaded listener that answers it, and whose connection
    has been emptied both ways, has returned the value of the method *)
Theorem C117_threaded : forall U t n regs l i w k x c v, let s := d_run U t n regs l in asked s i w (PThr k) -> undisturbed l i -> delivered U s i w -> nth_error (d_thrs s) k = Some x -> nth_error (d_calls s) i = Some c ->
  y_interface (c_what c) <> [] -> y_method (c_what c) <> [] -> S_Settle.clear_trace U (c_what c) -> answers_with x (c_what c) v ->
  c_pc c = SEnd (let! _ := c_back c in Ok (PBytes v)).
Proof. exact threaded_answered. Qed.
Print Assumptions C117_threaded.
(** and that can always be brought about: four steps, of the network and of the call itself, are enough *)
Theorem C117_can_be_answered : forall U t n regs l i w k x c v, let s := d_run U t n regs l in asked s i w (PThr k) -> undisturbed l i -> nth_error (d_thrs s) k = Some x -> (forall a, In a (th_net x) -> exists b, a = Arrive b) -> nth_error (d_calls s) i = Some c ->
  y_interface (c_what c) <> [] -> y_method (c_what c) <> [] -> S_Settle.clear_trace U (c_what c) -> answers_with x (c_what c) v ->
  exists n1 n2 n3, let s' := d_run U t n regs (l ++ [DUp w n1; DDown w n2; DRecv i (Avail n3); DRecv i (Avail n3)]) in
    exists c', nth_error (d_calls s') i = Some c' /\ c_what c' = c_what c /\ c_pc c' = SEnd (let! _ := c_back c in Ok (PBytes v)).
Proof. exact can_answer. Qed.
Print Assumptions C117_can_be_answered.
(** the whole life of a call: made at any moment, sent at any later moment, it returns the value of its method *)
Theorem C117_call_works : forall U t n regs l l1 d addr rid back bs mk dr fuel reg tr fresh call k v, let i := List.length (d_calls (d_run U t n regs l)) in
  numeric (y_timeout d) -> (let! p := c_request (new_call d addr rid back) in to_stream p) = Ok bs -> y_interface d <> [] -> y_method d <> [] -> S_Settle.clear_trace U d ->
  (forall mk dr acc send, ~ In (DRound i mk dr acc send) l1) -> undisturbed (l ++ l1) i ->
  (addr < 0)%Z -> (forall a, mk a 0 = true /\ mk a 1 = true /\ dr a 0 = false) -> (len bs <= k)%Z -> answers_with (new_thr addr fuel reg tr fresh call None) d v ->
  exists w n1 n2 n3, let s' := d_run U t n regs (l ++ DCall d addr false rid back :: l1 ++ [DRound i mk dr (AThr fuel reg tr fresh call None) (Ok k); DUp w n1; DDown w n2; DRecv i (Avail n3); DRecv i (Avail n3)]) in
    exists c, nth_error (d_calls s') i = Some c /\ c_what c = d /\ c_pc c = SEnd (let! _ := back in Ok (PBytes v)).
Proof. exact call_works. Qed.
Print Assumptions C117_call_works.
(** the same at an asyncio listener, as soon as that has written a reply: the call has ended, with the value of that
    reply if its status is success, and otherwise with ServerError *)
Theorem C117_asyncio : forall U t n regs l i w a m x u frame out, let s := d_run U t n regs l in asked s i w (PAio a m) -> undisturbed l i -> delivered U s i w -> z_conn (d_net s) a m = Some x -> v_out x = (u, frame) :: out ->
  exists c, nth_error (d_calls s) i = Some c /\
    ((exists cmd v, response frame (c_rid c) cmd 0 v /\ c_pc c = SEnd (let! _ := c_back c in Ok (PBytes v))) \/
     (exists id cmd st v, response frame id cmd st v /\ st <> 0%Z /\ c_pc c = SEnd (let! _ := c_back c in Raise ServerError))).
Proof. exact asyncio_reply. Qed.
Print Assumptions C117_asyncio.

(** *** the hypotheses of C117 can be met *)
Definition d117 (m c : string) : ycall := {| y_baggage := [(str "sofaTraceId", str "0a"); (str "sofaRpcId", str "0")]; y_interface := str "svc"; y_method := str m; y_app := str "app"; y_uid := []; y_extra := [];
  y_content := bytes_lit c; y_ptype := 1; y_timeout := PInt 50 |}.
Definition reg117 : registry := [(str "svc", {| sv_raises := None; sv_methods := fun m => pystr_eqb m (str "m") || pystr_eqb m (str "n") |})].
Definition twice : methods := fun _ _ b _ => Some (Ok (PBytes (b ++ b))).
Definition on (_ _ : nat) : bool := true.
Definition off (_ _ : nat) : bool := false.
Definition thread117 : accepter := AThr 100 reg117 t_init (str "F") twice None.
Definition sv117 (l : list sstep) : list dstep := map (fun o => DNet (ZServer 0 (LConn 0 o))) l.
(** call 0 goes to a threaded listener and call 1 to an asyncio listener; call 0 is half sent when call 2 is made *)
Definition l117 : list dstep := [DCall (d117 "m" "hi") (-1) false 7 (Ok tt); DCall (d117 "n" "ho") 0 false 7 (Ok tt); DRound 0 on off thread117 (Ok 1000%Z); DUp 0 20].
Definition m117 : list dstep := [DUp 0 1000; DRound 1 on off (AAio t_init) (Ok 1000%Z); DUp 1 1000; DDown 0 30; DRecv 0 (Avail 1000)] ++ sv117 (repeat Read 4 ++ [Dispatch 0 (str "T1")]) ++ [DNet (ZServer 0 LTake)] ++ sv117 [JobEnd 0 (Ok (PBytes (bytes_lit "hoho"))); Result 0; Drain 0 true].
Definition e117 : list dstep := [DDown 0 1000; DRecv 0 (Avail 1000); DRecv 0 (Avail 1000); DDown 1 1000; DRecv 1 (Avail 1000); DRecv 1 (Avail 1000)].
Definition run117 (l : list dstep) : dep := d_run ascii_tables M_AioClient.NoTimer 0 [reg117] l.
Example C117_answered_case : let s := run117 (l117 ++ m117 ++ e117) in
  asked s 0 0 (PThr 0) /\ delivered ascii_tables s 0 0 /\ S_Settle.clear_trace ascii_tables (d117 "m" "hi") /\
  (match nth_error (d_thrs s) 0 with Some x => answers_with x (d117 "m" "hi") (bytes_lit "hihi") | None => False end) /\
  asked s 1 1 (PAio 0 0) /\ delivered ascii_tables s 1 1 /\
  map c_pc (d_calls s) = [SEnd (Ok (PBytes (bytes_lit "hihi"))); SEnd (Ok (PBytes (bytes_lit "hoho")))].
Proof.
  cbv zeta. split; [apply asked_intro; vm_compute; reflexivity|]. split; [apply delivered_intro; vm_compute; reflexivity|]. split; [apply L_Settle.clear_intro; vm_compute; exact Logic.I|].
  split; [|split; [apply asked_intro; vm_compute; reflexivity|split; [apply delivered_intro; vm_compute; reflexivity|vm_compute; reflexivity]]].
  vm_compute. split; [repeat constructor|]. split; [reflexivity|]. split; [eexists; split; [reflexivity|split; reflexivity]|]. split; [reflexivity|discriminate].
Qed.
Example C117_undisturbed_case : undisturbed (l117 ++ m117 ++ e117) 0.
Proof. intros ev H. cbn in H. repeat (destruct H as [H|H]; [try discriminate H; injection H as <-; eauto|]). destruct H. Qed.
Example C117_works_case : let s := run117 (l117 ++ DCall (d117 "m" "yo") (-1) false 7 (Ok tt) :: m117 ++ [DRound 2 on off thread117 (Ok 1000%Z); DUp 2 1000; DDown 2 1000; DRecv 2 (Avail 1000); DRecv 2 (Avail 1000)]) in
  nth_error (map c_pc (d_calls s)) 2 = Some (SEnd (Ok (PBytes (bytes_lit "yoyo")))).
Proof. vm_compute. reflexivity. Qed.

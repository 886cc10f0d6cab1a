(** Property theorems C58-C60 and C62-C64: registration, and one connection of the threaded server.
    [handle fuel U reg tr fresh call w net]: what the thread of a connection does. [net]: what arrives from the
    client, in which pieces, and how the connection ends; [received net]: the bytes. [call]: what service methods
    do. [w]: an error of the write, if any. [fuel]: the number of rounds any one loop of the code may take; a
    statement for all [fuel] (from some on) is a statement about the code, one round suffices unless the loop
    never ends. [begins bs i]: bs begins with the frame i (S_Server.one). *)
From Coq Require Import Strings.String ZifyBool.
From Verif Require Import PyBase PyDict L_PyDict PyInt Struct M_SofaHeader M_Package M_RpcId M_Trace L_Trace2 S_Wire M_AioServer S_Server L_AioServer L_AioServer3 M_SockServer S_SockServer L_SockServer.
Open Scope Z_scope.

(** ** The setting of the examples *)
Definition bytes_of (r : res pkg) : bytes := match (let! p := r in to_stream p) with Ok b => b | Raise _ => [] end.
Definition hdr (sv m : string) : sofa_header := [(str "sofa_head_target_service", str sv); (str "sofa_head_method_name", str m)].
Definition req (ptype rid : Z) (h : sofa_header) (body : string) : bytes :=
  bytes_of (mk_package BoltRequest h (PBytes (bytes_lit body)) (PInt 1) (PInt ptype) (PInt 1) (PInt 1) (PInt rid) (PInt 11) (PInt 100) (PInt 0)).
Definition beat (rid : Z) : bytes := bytes_of (mk_package HeartbeatRequest [] (PBytes []) (PInt 1) (PInt 1) (PInt 0) (PInt 1) (PInt rid) (PInt 11) (PInt 100) (PInt 0)).
(** a request of another class *)
Definition other (rid : Z) : bytes := bytes_of (mk_package HeartbeatRequest (hdr "svc" "m") (PBytes []) (PInt 1) (PInt 1) (PInt 1) (PInt 1) (PInt rid) (PInt 11) (PInt 100) (PInt 0)).
Definition svc (r : option exn) : service := {| sv_raises := r; sv_methods := fun m => pystr_eqb m (str "m") || pystr_eqb m (str "x") |}.
Definition reg0 : registry := [(str "svc", svc None); (str "bad", svc (Some OtherError))].
(** method m returns its argument twice, x raises *)
Definition call0 : methods := fun sv m b c => Some (if pystr_eqb m (str "m") then Ok (PBytes (b ++ b)) else Raise OtherError).
Definition go (net : list arrival) : sout := handle 1 ascii_tables reg0 t_init (str "T") call0 None net.
Definition reply (rid cmd st : Z) (content : bytes) : bytes :=
  match (if cmd =? 0 then beat_bytes rid else if st =? 0 then result_bytes (PBytes content) rid else fail_bytes rid st) with Ok b => b | Raise _ => [] end.
Definition bytewise (bs : bytes) : list arrival := map (fun b => Arrive [b]) bs.
Definition q0 (ptype rid : Z) (h : sofa_header) (body : string) : request := {| q_type := ptype; q_id := rid; q_header := h; q_body := bytes_lit body; q_timeout := 100 |}.

(** ** C58 *)
(** Any listener finds what was registered last, on whatever listener. *)
Theorem C58_last_registration_serves_partial : forall l i name, (i < listeners l)%nat ->
  exists r, serving (regrun l) i = Some r /\ (forall sv, dget name r = Some sv <-> registered anywhere l name sv) /\
    (In name (publishing (regrun l) i) <-> exists sv, registered anywhere l name sv).
Proof. exact last_registration. Qed.
Print Assumptions C58_last_registration_serves_partial.

(** Registering on one listener makes the interface callable through, and published by, every other. *)
Theorem C58_separate_refuted : forall l i j name sv, (i < listeners l)%nat -> (j < listeners l)%nat ->
  let o := regrun (l ++ [RegisterOn i name sv]) in (exists r, serving o j = Some r /\ dget name r = Some sv) /\ In name (publishing o j).
Proof. exact not_separate. Qed.
Print Assumptions C58_separate_refuted.

Definition two : list regop := [NewListener Aio; NewListener Sock; RegisterOn 1 (str "a") (svc None); RegisterOn 0 (str "a") (svc (Some OtherError))].
Example C58_case : (1 < listeners two)%nat /\ registered anywhere two (str "a") (svc (Some OtherError)) /\ registered (eq 1%nat) two (str "a") (svc None) /\
  (exists r, serving (regrun two) 1 = Some r /\ option_map sv_raises (dget (str "a") r) = Some (Some OtherError)).
Proof.
  split; [vm_compute; lia|]. split; [|split].
  - apply (Reg_here anywhere [NewListener Aio; NewListener Sock; RegisterOn 1 (str "a") (svc None)] 0); [vm_compute; lia|exact I].
  - apply (Reg_later (eq 1%nat) [NewListener Aio; NewListener Sock; RegisterOn 1 (str "a") (svc None)] (RegisterOn 0 (str "a") (svc (Some OtherError)))).
    + apply (Reg_here (eq 1%nat) [NewListener Aio; NewListener Sock] 1); [vm_compute; lia|reflexivity].
    + intros i sv' [= <- _] _ H. discriminate.
  - eexists. split; reflexivity.
Qed.

(** ** C59 *)
Theorem C59_result_is_answered : forall fuel U reg tr fresh call net q sv m tr' c v, (1 <= fuel)%nat -> begins (received net) (IRequest q) ->
  names_service (q_header q) sv -> names_method (q_header q) m -> extract U tr (q_header q) fresh = (tr', Ok c) -> offers reg sv m ->
  call sv m (q_body q) c = Some (Ok (PBytes v)) -> len v <= 4294967295 ->
  exists bs, response bs (q_id q) 2 0 v /\
    handle fuel U reg tr fresh call None net = {| o_calls := [(sv, m, q_body q, c)]; o_sent := [bs]; o_trace := tr'; o_status := SEnded (Ok tt) |}.
Proof. exact sock_result. Qed.
Print Assumptions C59_result_is_answered.

Theorem C59_heartbeat_is_answered : forall fuel U reg tr fresh call net id, (1 <= fuel)%nat -> begins (received net) (IHeartbeat id) ->
  exists bs, response bs id 0 0 [] /\ handle fuel U reg tr fresh call None net = {| o_calls := []; o_sent := [bs]; o_trace := tr; o_status := SEnded (Ok tt) |}.
Proof. exact sock_beat. Qed.
Print Assumptions C59_heartbeat_is_answered.

Theorem C59_missing_name_is_reported : forall fuel U reg tr fresh call net q, (1 <= fuel)%nat -> begins (received net) (IRequest q) ->
  (~ exists sv, names_service (q_header q) sv) \/ (~ exists m, names_method (q_header q) m) ->
  exists bs, response bs (q_id q) 2 8 [] /\ handle fuel U reg tr fresh call None net = {| o_calls := []; o_sent := [bs]; o_trace := tr; o_status := SEnded (Ok tt) |}.
Proof. exact sock_unnamed. Qed.
Print Assumptions C59_missing_name_is_reported.

(** In all other cases nothing is sent, and where sending fails the beginning of the reply; and the only call is that of the named method with the body. *)
Theorem C59_otherwise_no_reply : forall fuel U reg tr fresh call w net, let o := handle fuel U reg tr fresh call w net in let D := received net in
  (o_sent o = [] \/ exists bs, sent_of w (o_sent o) bs /\ reply_for reg call D o bs) /\ (o_calls o = [] \/ calls_for U reg tr fresh D (o_calls o)).
Proof. exact sock_effects. Qed.
Print Assumptions C59_otherwise_no_reply.

(** The handler ends, which closes the connection. *)
Theorem C59_connection_is_closed : forall fuel U reg tr fresh call w net i, (1 <= fuel)%nat -> begins (received net) i -> (forall sv m b c, call sv m b c <> None) ->
  exists r, o_status (handle fuel U reg tr fresh call w net) = SEnded r.
Proof. exact sock_ends. Qed.
Print Assumptions C59_connection_is_closed.

Example C59_case : let net := bytewise (req 1 7 (hdr "svc" "m") "hi") in
  begins (received net) (IRequest (q0 1 7 (hdr "svc" "m") "hi")) /\ names_service (hdr "svc" "m") (str "svc") /\ names_method (hdr "svc" "m") (str "m") /\ offers reg0 (str "svc") (str "m") /\
  (exists tr' c, extract ascii_tables t_init (hdr "svc" "m") (str "T") = (tr', Ok c)) /\ o_sent (go net) = [reply 7 2 0 (bytes_lit "hihi")] /\ o_calls (go net) = [(str "svc", str "m", bytes_lit "hi", 0%nat)].
Proof.
  split; [eapply begins_case; vm_compute; reflexivity|]. split; [apply service_name_iff; reflexivity|]. split; [apply method_name_iff; reflexivity|]. split; [exists (svc None); repeat split|].
  split; [do 2 eexists; vm_compute; reflexivity|]. vm_compute. split; reflexivity.
Qed.
Example C59_other_cases :
  o_sent (go [Arrive (beat 8)]) = [reply 8 0 0 []] /\
  o_sent (go [Arrive (req 1 7 (hdr "svc" "") "hi")]) = [reply 7 2 8 []] /\
  o_sent (go [Arrive (req 1 7 (hdr "svc" "x") "hi")]) = [] /\ o_sent (go [Arrive (req 1 7 (hdr "bad" "m") "hi")]) = [] /\ o_sent (go [Arrive (req 1 7 (hdr "no" "m") "hi")]) = [] /\
  o_status (go [Arrive (req 1 7 (hdr "no" "m") "hi")]) = SEnded (Raise NoProcessorError).
Proof. vm_compute. repeat split. Qed.

Example C59_cut_off : let o := handle 1 ascii_tables reg0 t_init (str "T") call0 (Some (10%nat, ConnectionResetError)) [Arrive (beat 8)] in
  o_sent o = [firstn 10 (reply 8 0 0 [])] /\ o_status o = SEnded (Raise ConnectionResetError).
Proof. vm_compute. split; reflexivity. Qed.

(** ** C60 *)
(** A client that closes its side before a frame is complete leaves the thread in a loop that never ends. *)
Theorem C60_terminates_refuted : forall fuel U reg tr fresh call w net, incomplete (received net) -> ending net = Some Fin ->
  handle fuel U reg tr fresh call w net = {| o_calls := []; o_sent := []; o_trace := tr; o_status := SUnfinished |}.
Proof. exact sock_spins. Qed.
Print Assumptions C60_terminates_refuted.

(** It does end if the connection breaks; while it is open the thread waits. *)
Theorem C60_broken_connection_partial : forall fuel U reg tr fresh call w net, (1 <= fuel)%nat -> incomplete (received net) ->
  (forall e, ending net = Some (Err e) -> handle fuel U reg tr fresh call w net = {| o_calls := []; o_sent := []; o_trace := tr; o_status := SEnded (Raise e) |}) /\
  (ending net = None -> handle fuel U reg tr fresh call w net = {| o_calls := []; o_sent := []; o_trace := tr; o_status := SBlocked |}).
Proof. intros fuel U reg tr fresh call w net F I. split; [intros e E; exact (sock_broken fuel U reg tr fresh call w net e F I E)|intros E; exact (sock_waits fuel U reg tr fresh call w net F I E)]. Qed.
Print Assumptions C60_broken_connection_partial.

(** also a client that connects and closes without sending anything *)
Example C60_cases : let part := firstn 60 (req 1 7 (hdr "svc" "m") "hi") in incomplete part /\ incomplete [] /\
  o_status (go (bytewise part ++ [Fin])) = SUnfinished /\ o_status (go [Fin]) = SUnfinished /\ o_status (go (bytewise part ++ [Err ConnectionResetError])) = SEnded (Raise ConnectionResetError).
Proof. split; [apply incomplete_unit; vm_compute; reflexivity|]. split; [apply incomplete_unit; vm_compute; reflexivity|]. vm_compute. repeat split. Qed.

(** ** C62 *)
(** Only the first frame of a connection is dealt with. *)
Theorem C62_first_frame_partial : forall fuel U reg tr fresh call w net i l rest, cuts (received net) (i :: l) rest -> let o := handle fuel U reg tr fresh call w net in
  (o_sent o = [] \/ exists bs cmd st c, sent_of w (o_sent o) bs /\ response bs (item_id i) cmd st c) /\
  (o_calls o = [] \/ exists q sv m c, i = IRequest q /\ names_service (q_header q) sv /\ names_method (q_header q) m /\ o_calls o = [(sv, m, q_body q, c)]).
Proof. exact sock_first. Qed.
Print Assumptions C62_first_frame_partial.

Theorem C62_every_request_is_answered_refuted : forall fuel U reg tr fresh call w net i1 i2 l rest, cuts (received net) (i1 :: i2 :: l) rest -> item_id i1 <> item_id i2 ->
  forall bs cmd st c, In bs (o_sent (handle fuel U reg tr fresh call w net)) -> ~ response bs (item_id i2) cmd st c.
Proof. exact sock_second. Qed.
Print Assumptions C62_every_request_is_answered_refuted.

Example C62_case : let a := req 1 7 (hdr "svc" "m") "hi" in let b := req 1 8 (hdr "svc" "m") "ho" in
  cuts (received [Arrive a; Arrive b]) [IRequest (q0 1 7 (hdr "svc" "m") "hi"); IRequest (q0 1 8 (hdr "svc" "m") "ho")] [] /\
  o_sent (go [Arrive a; Arrive b]) = [reply 7 2 0 (bytes_lit "hihi")] /\ o_status (go [Arrive a; Arrive b]) = SEnded (Ok tt) /\
  o_sent (go [Arrive b]) = [reply 8 2 0 (bytes_lit "hoho")].
Proof.
  cbv zeta. assert (O : forall rid body, unit_of (req 1 rid (hdr "svc" "m") body) = Some (IRequest (q0 1 rid (hdr "svc" "m") body), len (req 1 rid (hdr "svc" "m") body)) -> one (req 1 rid (hdr "svc" "m") body) (IRequest (q0 1 rid (hdr "svc" "m") body))).
  { intros rid body H. apply unit_one in H as (_ & H). rewrite L_PyBase.py_take_all in H by apply Z.le_refl. exact H. }
  split; [|vm_compute; repeat split]. cbn [received]. apply Cuts_cons; [apply O; vm_compute; reflexivity|intros []|]. apply (Cuts_cons _ _ [] []); [apply O; vm_compute; reflexivity|intros []|apply Cuts_nil].
Qed.

(** ** C63 *)
(** One-way requests are answered like all others. *)
Theorem C63_one_way_answered_refuted : forall fuel U reg tr fresh call net q sv m tr' c v, (1 <= fuel)%nat -> begins (received net) (IRequest q) -> q_type q = 2 ->
  names_service (q_header q) sv -> names_method (q_header q) m -> extract U tr (q_header q) fresh = (tr', Ok c) -> offers reg sv m ->
  call sv m (q_body q) c = Some (Ok (PBytes v)) -> len v <= 4294967295 ->
  exists bs, response bs (q_id q) 2 0 v /\ o_sent (handle fuel U reg tr fresh call None net) = [bs].
Proof.
  intros fuel U reg tr fresh call net q sv m tr' c v F B _ Ns Nm Ex Of Ca L. destruct (sock_result fuel U reg tr fresh call net q sv m tr' c v F B Ns Nm Ex Of Ca L) as (bs & R & ->). exists bs. auto.
Qed.
Print Assumptions C63_one_way_answered_refuted.
Example C63_case : begins (received [Arrive (req 2 7 (hdr "svc" "m") "hi")]) (IRequest (q0 2 7 (hdr "svc" "m") "hi")) /\ o_sent (go [Arrive (req 2 7 (hdr "svc" "m") "hi")]) = [reply 7 2 0 (bytes_lit "hihi")].
Proof. split; [eapply begins_case; vm_compute; reflexivity|vm_compute; reflexivity]. Qed.

(** ** C64 *)
(** Failures other than a missing name (C59_missing_name_is_reported) are not reported to the client: unknown
    service or method, an exception of the method, a frame that is not a request or cannot be read. *)
Theorem C64_failures_are_reported_refuted :
  (forall fuel U reg tr fresh call w net q, (1 <= fuel)%nat -> begins (received net) (IRequest q) -> forall sv m tr' c,
    names_service (q_header q) sv -> names_method (q_header q) m -> extract U tr (q_header q) fresh = (tr', Ok c) ->
    (unknown reg sv m -> handle fuel U reg tr fresh call w net = {| o_calls := []; o_sent := []; o_trace := tr'; o_status := SEnded (Raise NoProcessorError) |}) /\
    (forall e, offers reg sv m -> call sv m (q_body q) c = Some (Raise e) -> handle fuel U reg tr fresh call w net = {| o_calls := [(sv, m, q_body q, c)]; o_sent := []; o_trace := tr'; o_status := SEnded (Raise e) |})) /\
  (forall fuel U reg tr fresh call w net i, (1 <= fuel)%nat -> begins (received net) i -> (exists id st, i = IBad id st) \/ fatal i ->
    exists e, handle fuel U reg tr fresh call w net = {| o_calls := []; o_sent := []; o_trace := tr; o_status := SEnded (Raise e) |}).
Proof. split; [exact sock_failures|exact sock_bad]. Qed.
Print Assumptions C64_failures_are_reported_refuted.
Example C64_case : let a := req 1 7 (hdr "no" "m") "hi" in begins (received [Arrive a]) (IRequest (q0 1 7 (hdr "no" "m") "hi")) /\ unknown reg0 (str "no") (str "m") /\ o_sent (go [Arrive a]) = [] /\
  o_sent (go [Arrive (req 1 7 (hdr "svc" "x") "hi")]) = [] /\ o_calls (go [Arrive (req 1 7 (hdr "svc" "x") "hi")]) = [(str "svc", str "x", bytes_lit "hi", 0%nat)] /\
  begins (received [Arrive (other 7)]) (IBad 7 8) /\ o_sent (go [Arrive (other 7)]) = [].
Proof.
  split; [eapply begins_case; vm_compute; reflexivity|]. split; [left; reflexivity|]. repeat (split; [vm_compute; reflexivity|]). split; [eapply begins_case; vm_compute; reflexivity|vm_compute; reflexivity].
Qed.

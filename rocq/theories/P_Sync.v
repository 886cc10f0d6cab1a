(** Property theorems C35-C39: the synchronous client. [srv] is everything the server will ever send on the
    connection; [evs] says how it becomes readable, as seen by select and recv; [Forall avail evs]: the socket is
    readable at every select (which is also the case once the server has closed its side). A result None means
    that the call has not returned when the events end. *)
From Coq Require Import Strings.String ZifyBool.
From Verif Require Import PyBase L_PyBase PyDict L_PyDict M_SofaHeader M_Package L_Package S_Wire M_SyncClient L_SyncClient.

(** a response to request 7 with content "ok", and one with status 8 (server thread pool busy) *)
Definition ok_package := mk_package BoltResponse [(str "k", str "v")] (PBytes (bytes_lit "ok"))
  (PInt 1) (PInt 0) (PInt 2) (PInt 1) (PInt 7) (PInt 11) PNone (PInt 0).
Definition bad_package := mk_package BoltResponse [] (PBytes []) (PInt 1) (PInt 0) (PInt 2) (PInt 1) (PInt 7) (PInt 11) PNone (PInt 3).
Definition bytes_of (p : res pkg) : bytes := match p with Ok p => match to_stream p with Ok b => b | _ => [] end | _ => [] end.
Definition ok_bytes := bytes_of ok_package.
Definition bytewise (n : nat) : list event := repeat (Avail 0) n.

(** ** C35 *)
Theorem C35_complete_response_is_received : forall frame f tail evs,
  response_layout frame f -> Forall avail evs -> len frame <= len evs ->
  exists s, recv_loop evs (rinit (frame ++ tail)) = Received s /\ y_buf s = frame /\ y_rest s = tail.
Proof. intros frame f tail evs L F H. exact (proj2 (sync_complete frame f tail evs 0 (Ok tt) L F H)). Qed.
Print Assumptions C35_complete_response_is_received.

Theorem C35_same_result_for_every_chunking : forall frame f tail rid back evs1 evs2,
  response_layout frame f -> Forall avail evs1 -> Forall avail evs2 ->
  sync_result rid back (frame ++ tail) evs1 <> None -> sync_result rid back (frame ++ tail) evs2 <> None ->
  sync_result rid back (frame ++ tail) evs1 = sync_result rid back (frame ++ tail) evs2.
Proof. exact sync_chunking_irrelevant. Qed.
Print Assumptions C35_same_result_for_every_chunking.

Theorem C35_always_returns : forall frame f tail rid back evs,
  response_layout frame f -> Forall avail evs -> len frame <= len evs -> sync_result rid back (frame ++ tail) evs <> None.
Proof. intros frame f tail rid back evs L F H. rewrite (proj1 (sync_complete frame f tail evs rid back L F H)). discriminate. Qed.
Print Assumptions C35_always_returns.

(** whatever happens, the bytes after the frame stay unread *)
Theorem C35_never_reads_beyond : forall frame f tail evs, response_layout frame f ->
  exists rest, y_rest (match recv_loop evs (rinit (frame ++ tail)) with Waiting s | Stopped _ _ s | Received s => s end) = rest ++ tail.
Proof. exact sync_no_overread. Qed.
Print Assumptions C35_never_reads_beyond.

Example C35_hypotheses_met : exists f, response_layout ok_bytes f /\ legal_common f /\ legal_status (fr_tos f) /\ (exists kvs, header_pairs (fr_header f) kvs) /\
  fr_request_id f = 7 /\ fr_tos f = 0 /\ fr_content f = bytes_lit "ok" /\ len ok_bytes = 78.
Proof.
  destruct (from_stream BoltResponse ok_bytes) as [p|] eqn:E; [|vm_compute in E; discriminate]. rewrite L_Codec.BoltResponse_eq in E.
  apply from_stream_resp_iff in E as (f & kvs & hb & L & C & S & H & _). assert (f = resp_frame ok_bytes) by (apply resp_layout_iff in L; apply L). subst f.
  exists (resp_frame ok_bytes). split; [exact L|]. split; [exact C|]. split; [exact S|]. split; [eauto|]. vm_compute. repeat split.
Qed.

Example C35_case : Forall avail (bytewise 78) /\ len ok_bytes <= len (bytewise 78) /\
  sync_result 7 (Ok tt) (ok_bytes ++ ok_bytes) (bytewise 78) = Some (Ok (PBytes (bytes_lit "ok"))) /\
  sync_result 7 (Ok tt) (ok_bytes ++ ok_bytes) [Avail 100; Avail 30; Avail 100] = Some (Ok (PBytes (bytes_lit "ok"))) /\
  sync_result 7 (Ok tt) (ok_bytes ++ ok_bytes) [Avail 100; Avail 30] = None.
Proof. split; [repeat (constructor; [exact I|]); constructor|]. vm_compute. repeat split; congruence. Qed.

(** ** C36 *)
Theorem C36_value_only_from_matching_success : forall header content timeout rid atts back srv evs log v,
  invoke_sync header content timeout rid atts back srv evs = (log, Some (Ok v)) ->
  exists p, new_request header content PTYPE_REQUEST (py_or timeout (PInt (-1))) rid = Ok p /\ p_request_id p = PInt rid /\
    (log = [] \/ exists c bs k, to_stream p = Ok bs /\ log = [(c, py_take k bs)]) /\
    exists frame tail f kvs, srv = frame ++ tail /\ response_layout frame f /\ legal_common f /\ header_pairs (fr_header f) kvs /\
      fr_request_id f = rid /\ fr_tos f = 0 /\ v = PBytes (fr_content f).
Proof. exact invoke_sync_value. Qed.
Print Assumptions C36_value_only_from_matching_success.

(** the outcome for a well-formed response: content, or ServerError for a foreign id or an error status *)
Theorem C36_wellformed_response : forall frame f tail rid evs kvs,
  response_layout frame f -> legal_common f -> legal_status (fr_tos f) -> header_pairs (fr_header f) kvs ->
  Forall avail evs -> sync_result rid (Ok tt) (frame ++ tail) evs <> None ->
  sync_result rid (Ok tt) (frame ++ tail) evs =
    Some (if fr_request_id f =? rid then if fr_tos f =? 0 then Ok (PBytes (fr_content f)) else Raise ServerError else Raise ServerError).
Proof. intros frame f tail rid evs kvs. exact (sync_verdict frame f tail rid (Ok tt) evs kvs). Qed.
Print Assumptions C36_wellformed_response.

Theorem C36_malformed_response : forall frame f tail rid evs, response_layout frame f ->
  ~ (legal_common f /\ legal_status (fr_tos f) /\ exists kvs, header_pairs (fr_header f) kvs) ->
  Forall avail evs -> sync_result rid (Ok tt) (frame ++ tail) evs <> None -> sync_result rid (Ok tt) (frame ++ tail) evs = Some (Raise DecodeError).
Proof. intros frame f tail rid evs. exact (sync_malformed frame f tail rid (Ok tt) evs). Qed.
Print Assumptions C36_malformed_response.

(** nothing readable at the deadline, with the response incomplete: TimeoutError, and the connection is closed *)
Theorem C36_deadline : forall rid back srv evs more, sync_result rid back srv evs = None ->
  sync_result rid back srv (evs ++ Silent :: more) = Some (Raise TimeoutError) /\
  exists s, recv_loop (evs ++ Silent :: more) (rinit srv) = Stopped TimeoutError true s.
Proof. exact sync_timeout. Qed.
Print Assumptions C36_deadline.

Definition one_conn (k : Z) (i : nat) : attempt := {| a_conn := Ok 5%nat; a_send := Ok k |}.
Example C36_cases :
  snd (invoke_sync [] (PBytes []) (PInt 100) 7 (one_conn 80) (Ok tt) ok_bytes (bytewise 78)) = Some (Ok (PBytes (bytes_lit "ok"))) /\
  sync_result 8 (Ok tt) ok_bytes (bytewise 78) = Some (Raise ServerError) /\
  sync_result 7 (Ok tt) (bytes_of bad_package) (bytewise 78) = Some (Raise ServerError) /\
  sync_result 7 (Ok tt) (Byte.x02 :: tl ok_bytes) (bytewise 78) = Some (Raise DecodeError) /\
  sync_result 7 (Ok tt) ok_bytes [Avail 9; Avail 3; Silent] = Some (Raise TimeoutError).
Proof. vm_compute. repeat split. Qed.

(** ** C37. False of this code: when the server closes the connection after any proper prefix of a response
    (for instance nothing at all), the socket stays readable, recv returns nothing, and the loop goes round for
    ever, also after the deadline. *)
Theorem C37_closed_by_server_refuted : forall frame f pre x rid back evs,
  response_layout frame f -> frame = pre ++ x -> x <> [] -> Forall avail evs -> sync_result rid back pre evs = None.
Proof. exact sync_hangs. Qed.
Print Assumptions C37_closed_by_server_refuted.

(** What holds: the call ends at the first select that finds nothing readable before the deadline and at the
    first recv that raises. Missing: the case of the end of the stream, which is neither. *)
Theorem C37_silence_or_reset_ends_the_call_partial : forall rid back srv evs, In Silent evs \/ (exists e, In (Broken e) evs) -> sync_result rid back srv evs <> None.
Proof. exact sync_terminates. Qed.
Print Assumptions C37_silence_or_reset_ends_the_call_partial.

Example C37_case : sync_result 7 (Ok tt) [] (bytewise 1000) = None /\ sync_result 7 (Ok tt) (firstn 75 ok_bytes) (bytewise 1000) = None /\
  sync_result 7 (Ok tt) (firstn 75 ok_bytes) [Avail 19; Avail 5; Broken ConnectionResetError] = Some (Raise ConnectionResetError).
Proof. vm_compute. repeat split. Qed.

(** ** C38. False of this code, in two ways: a send that takes only a part is taken for complete, and a request
    that cannot be encoded is not sent at all while the call goes on. *)
Theorem C38_partial_send_refuted : forall header content ptype timeout rid atts p bs c k,
  new_request header content ptype (py_or timeout (PInt (-1))) rid = Ok p -> to_stream p = Ok bs ->
  a_conn (atts 0%nat) = Ok c -> a_send (atts 0%nat) = Ok k -> 0 <= k < len bs ->
  raw_invoke header content ptype timeout rid atts = ([(c, py_take k bs)], Ok (rid, c)) /\ py_take k bs <> bs.
Proof.
  intros header content ptype timeout rid atts p bs c k N S Hc Hs Hk. destruct (raw_sends _ _ _ _ _ atts p N) as (_ & A & _).
  split; [exact (A _ _ _ S Hc Hs)|]. intros E. apply (f_equal (@len _)) in E. rewrite len_py_take in E; lia.
Qed.
Print Assumptions C38_partial_send_refuted.

Theorem C38_unencodable_refuted : forall header content ptype timeout rid atts p e c,
  new_request header content ptype (py_or timeout (PInt (-1))) rid = Ok p -> to_stream p = Raise e -> a_conn (atts 0%nat) = Ok c ->
  raw_invoke header content ptype timeout rid atts = ([], Ok (rid, c)).
Proof.
  intros header content ptype timeout rid atts p e c N S Hc. destruct (raw_sends _ _ _ _ _ atts p N) as (_ & _ & A). exact (A _ _ S Hc).
Qed.
Print Assumptions C38_unencodable_refuted.

(** What holds: there is never more than one write; on a normal return it went to the connection that is
    returned and is a prefix of the request; and it is the whole request when one of the three attempts, after
    attempts that only failed with SocketValueError, finds a socket that takes everything.
    Missing: that a normal return implies such an attempt. *)
Theorem C38_at_most_one_write_partial : forall header content ptype timeout rid atts log r,
  raw_invoke header content ptype timeout rid atts = (log, r) -> (List.length log <= 1)%nat.
Proof. exact raw_log. Qed.
Print Assumptions C38_at_most_one_write_partial.

Theorem C38_prefix_on_returned_connection_partial : forall header content ptype timeout rid atts p log c,
  new_request header content ptype (py_or timeout (PInt (-1))) rid = Ok p ->
  raw_invoke header content ptype timeout rid atts = (log, Ok (rid, c)) ->
  log = [] \/ exists bs i k, to_stream p = Ok bs /\ (i < 3)%nat /\ a_conn (atts i) = Ok c /\ a_send (atts i) = Ok k /\ log = [(c, py_take k bs)].
Proof. intros header content ptype timeout rid atts p log c N. exact (proj1 (raw_sends _ _ _ _ _ atts p N) log c). Qed.
Print Assumptions C38_prefix_on_returned_connection_partial.

Theorem C38_complete_after_retries_partial : forall header content ptype timeout rid atts p bs c i,
  new_request header content ptype (py_or timeout (PInt (-1))) rid = Ok p -> to_stream p = Ok bs -> (i < 3)%nat ->
  (forall j, (j < i)%nat -> a_conn (atts j) = Raise SocketValueError \/ (exists c', a_conn (atts j) = Ok c' /\ a_send (atts j) = Raise SocketValueError)) ->
  a_conn (atts i) = Ok c -> a_send (atts i) = Ok (len bs) ->
  raw_invoke header content ptype timeout rid atts = ([(c, bs)], Ok (rid, c)).
Proof. exact raw_retry. Qed.
Print Assumptions C38_complete_after_retries_partial.

Definition second_conn (i : nat) : attempt := match i with 0%nat => {| a_conn := Raise SocketValueError; a_send := Ok 0 |} | _ => {| a_conn := Ok i; a_send := Ok 69 |} end.
Example C38_cases :
  (exists p bs, new_request [] (PBytes (bytes_lit "abc")) PTYPE_REQUEST (py_or (PInt 50) (PInt (-1))) 7 = Ok p /\ to_stream p = Ok bs /\ len bs = 69 /\
     raw_invoke [] (PBytes (bytes_lit "abc")) PTYPE_REQUEST (PInt 50) 7 (one_conn 10) = ([(5%nat, py_take 10 bs)], Ok (7, 5%nat)) /\
     raw_invoke [] (PBytes (bytes_lit "abc")) PTYPE_REQUEST (PInt 50) 7 second_conn = ([(1%nat, bs)], Ok (7, 1%nat))) /\
  (exists p, new_request [] (PStr (str "abc")) PTYPE_REQUEST (py_or (PInt 50) (PInt (-1))) 7 = Ok p /\ to_stream p = Raise ParamTypeError) /\
  raw_invoke [] (PStr (str "abc")) PTYPE_REQUEST (PInt 50) 7 (one_conn 10) = ([], Ok (7, 5%nat)).
Proof.
  split; [|split; [|vm_compute; reflexivity]].
  - eexists. eexists. split; [vm_compute; reflexivity|]. split; [vm_compute; reflexivity|]. vm_compute. repeat split.
  - eexists. split; [vm_compute; reflexivity|]. vm_compute. reflexivity.
Qed.

(** ** C39. The reuse half is false of this code: every pool lookup makes a new pool manager, so no connection
    is ever handed out twice, over any history of calls. *)
Theorem C39_reuse_refuted : forall mk dr acts, NoDup (snd (crun mk dr acts)).
Proof. exact never_reused. Qed.
Print Assumptions C39_reuse_refuted.

(** What holds: two calls never get the same connection (so overlapping ones do not either).
    Missing: reuse, which is false. *)
Theorem C39_no_sharing_partial : forall mk dr acts i j c,
  nth_error (snd (crun mk dr acts)) i = Some c -> nth_error (snd (crun mk dr acts)) j = Some c -> i = j.
Proof.
  intros mk dr acts i j c Hi Hj. apply (proj1 (NoDup_nth_error _) (never_reused mk dr acts)); [|congruence].
  apply nth_error_Some. congruence.
Qed.
Print Assumptions C39_no_sharing_partial.

Example C39_case : snd (crun (fun _ _ => true) (fun _ _ => false) [CFetch 1; CGiveBack 1 (0, 0)%nat; CFetch 1; CFetch 2]) = [(0, 0); (2, 0); (3, 0)]%nat.
Proof. vm_compute. reflexivity. Qed.

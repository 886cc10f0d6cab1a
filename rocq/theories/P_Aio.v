(** Property theorems C40-C48: the asyncio client. [run t l] is the state after the steps [l]; the list says
    which coroutine runs, what the network does and who is cancelled, so "for all l" is "for every schedule".
    [t] is NoTimer, or Sleeping a for a client with a mesh at address a.
    [distinct_ids s l]: no call is started with the request id of a call still in progress.
    [consumes c frame s s']: in going from s to s' the reader of connection c consumed the bytes [frame].
    [waiting s i rid]: call i has sent its request, with id rid, and no answer has woken it yet.
    [ended s i r]: call i has ended with r. *)
From Coq Require Import Strings.String ZifyBool.
From Verif Require Import PyBase L_PyBase PyDict L_PyDict M_SofaHeader M_Package L_Package L_Codec S_Wire M_SyncClient L_SyncClient M_AioClient L_AioClient L_AioClient2 L_AioClient3 L_AioClient4 L_AioClient5.

(** ** The setting of the examples *)
Definition get (p : res pkg) : pkg := match p with Ok p => p | Raise _ => {| p_cls := BoltRequest; p_header := []; p_header_bytes := []; p_content := PNone; p_proto := 0; p_ptype := 0; p_cmdcode := 0; p_ver2 := 0; p_request_id := PNone; p_codec := 0; p_timeout := PNone; p_respstatus := 0 |} end.
Definition req7 : pkg := get (sync_request [(str "service", str "s")] (PBytes (bytes_lit "hi")) (PInt 100) 7).
Definition req8 : pkg := get (sync_request [(str "service", str "s")] (PBytes (bytes_lit "ho")) (PInt 100) 8).
Definition answer (rid status cmd : Z) (content : bytes) : bytes :=
  match mk_package BoltResponse [] (PBytes content) (PInt 1) (PInt 0) (PInt cmd) (PInt 1) (PInt rid) (PInt 11) PNone (PInt status) with
  | Ok p => match to_stream p with Ok b => b | Raise _ => [] end
  | Raise _ => []
  end.
(** call 0 dials and sends *)
Definition started (r : pkg) : list step := [Call r (Ok 1); Run 0; Acquire 0; DialOk 0; DrainOk 0; DrainOk 0; Read 0].
Definition fed (bs : bytes) : list step := [Feed 0 bs; Read 0; Read 0].
Definition pcs (s : st) : list pc := map t_pc (s_tasks s).

(** ** C40 *)
Theorem C40_value_only_from_matching_success : forall t l i tk r v rid,
  nth_error (s_tasks (run t l)) i = Some tk -> t_pc tk = Done r -> caller_sees r = Ok v -> p_request_id (t_req tk) = PInt rid ->
  exists c k frame f pre post, nth_error (s_links (run t l)) c = Some k /\ k_in k = pre ++ frame ++ post /\ response_layout frame f /\
    fr_request_id f = rid /\ fr_tos f = 0 /\ fr_cmdcode f = 2 /\ v = PBytes (fr_content f).
Proof.
  intros t l i tk r v rid Hi Hd Hv Hr. destruct r as [|p|e]; try discriminate Hv. injection Hv as <-. exact (returned t l i tk p rid Hi Hd Hr).
Qed.
Print Assumptions C40_value_only_from_matching_success.

Example C40_case : p_request_id req7 = PInt 7 /\ p_request_id req8 = PInt 8 /\
  pcs (run NoTimer (started req7 ++ [Call req8 (Ok 1); Run 1; DrainOk 1; DrainOk 1] ++ fed (answer 8 0 2 (bytes_lit "for8")) ++ fed (answer 7 0 2 (bytes_lit "for7")) ++ [Wake 1; Wake 0])) =
    [Done (RetPkg (get (from_stream BoltResponse (answer 7 0 2 (bytes_lit "for7"))))); Done (RetPkg (get (from_stream BoltResponse (answer 8 0 2 (bytes_lit "for8")))))] /\
  caller_sees (RetPkg (get (from_stream BoltResponse (answer 7 0 2 (bytes_lit "for7"))))) = Ok (PBytes (bytes_lit "for7")).
Proof. vm_compute. repeat split. Qed.

(** ** C41 *)
Theorem C41_response_is_delivered : forall t l c l2 i rid frame p,
  distinct_ids (init t) (l ++ Read c :: l2) -> waiting (run t l) i rid ->
  consumes c frame (run t l) (run t (l ++ [Read c])) -> from_stream BoltResponse frame = Ok p ->
  p_request_id p = PInt rid -> p_cmdcode p = CMDCODE_RESPONSE -> p_respstatus p = ST_SUCCESS -> ~ In (Cancel i) l2 ->
  ended (run t (l ++ Read c :: l2)) i (RetPkg p) \/
  (~ In (Wake i) l2 /\ ended (run t (l ++ Read c :: l2 ++ [Wake i])) i (RetPkg p)).
Proof. intros t l c l2 i rid frame p D W C F R S1 S2 N. exact (proj1 (decided t l c l2 i rid frame p D W C F R N) (conj S1 S2)). Qed.
Print Assumptions C41_response_is_delivered.

Theorem C41_strays_change_nothing : forall t l c frame p,
  consumes c frame (run t l) (run t (l ++ [Read c])) -> from_stream BoltResponse frame = Ok p -> dmem (rid_of p) (s_req (run t l)) = false ->
  view (run t (l ++ [Read c])) = view (run t l).
Proof. exact stray. Qed.
Print Assumptions C41_strays_change_nothing.

(** an ended call keeps its outcome *)
Theorem C41_outcome_is_final : forall t l l2 i r, ended (run t l) i r -> ended (run t (l ++ l2)) i r.
Proof.
  intros t l l2 i r (tk & Hi & Hd). exists tk. split; [|exact Hd]. unfold run at 1. rewrite fold_left_app. exact (done_from l2 (run t l) i tk r (inv_run t l) Hi Hd).
Qed.
Print Assumptions C41_outcome_is_final.

Definition l41 := started req7 ++ [Feed 0 (answer 7 0 2 (bytes_lit "one")); Read 0].
(** the answer, a duplicate with another content, a stray answer, the loss of the connection, then the caller runs *)
Definition l41b := fed (answer 7 0 2 (bytes_lit "two")) ++ fed (answer 9 0 2 (bytes_lit "stray")) ++ [Eof 0; Read 0; Wake 0].
Lemma distinct_one t r a l : (forall o, In o l -> new_rid o = None) -> distinct_ids (init t) (Call r a :: l).
Proof.
  intros H. split; [intros x _ (i & tk & Hi & _); destruct i; discriminate|]. generalize (run_step (Call r a) (init t)). induction l as [|o l IH]; intros s; [exact I|].
  split; [intros x Hx; rewrite (H o (or_introl eq_refl)) in Hx; discriminate|]. apply IH. intros o' Ho. apply H. right. exact Ho.
Qed.
Ltac no_calls := let o := fresh in let Ho := fresh in intros o Ho; cbn in Ho; repeat (destruct Ho as [<-|Ho]; [reflexivity|]); destruct Ho.
Example C41_hypotheses_met :
  distinct_ids (init NoTimer) (l41 ++ Read 0 :: l41b) /\ waiting (run NoTimer l41) 0 7 /\
  consumes 0 (answer 7 0 2 (bytes_lit "one")) (run NoTimer l41) (run NoTimer (l41 ++ [Read 0])) /\
  from_stream BoltResponse (answer 7 0 2 (bytes_lit "one")) = Ok (get (from_stream BoltResponse (answer 7 0 2 (bytes_lit "one")))) /\
  ~ In (Cancel 0) l41b /\
  pcs (run NoTimer (l41 ++ Read 0 :: l41b)) = [Done (RetPkg (get (from_stream BoltResponse (answer 7 0 2 (bytes_lit "one")))))].
Proof.
  split; [apply distinct_one; no_calls|]. split; [eexists _, _; vm_compute; repeat split|]. split; [eexists _, _; vm_compute; repeat split|].
  split; [vm_compute; reflexivity|]. split; [cbn; intuition discriminate|]. vm_compute. reflexivity.
Qed.

(** ** C42. False of this code: an error status wakes the caller, but leaves nothing for it to pop, so the
    call ends with KeyError; ServerError never reaches a caller (unless looking up the address raises it). *)
Theorem C42_error_status_gives_KeyError_refuted : forall t l c l2 i rid frame p,
  distinct_ids (init t) (l ++ Read c :: l2) -> waiting (run t l) i rid ->
  consumes c frame (run t l) (run t (l ++ [Read c])) -> from_stream BoltResponse frame = Ok p ->
  p_request_id p = PInt rid -> p_respstatus p <> ST_SUCCESS -> dget rid (s_resp (run t l)) = None -> ~ In (Cancel i) l2 ->
  ended (run t (l ++ Read c :: l2)) i (RetErr KeyError) \/
  (~ In (Wake i) l2 /\ ended (run t (l ++ Read c :: l2 ++ [Wake i])) i (RetErr KeyError)).
Proof. intros t l c l2 i rid frame p D W C F R S1 S2 N. apply (proj2 (decided t l c l2 i rid frame p D W C F R N)); [intros [_ H]; exact (S1 H)|exact S2]. Qed.
Print Assumptions C42_error_status_gives_KeyError_refuted.

Theorem C42_no_ServerError_refuted : forall t l i tk e, nth_error (s_tasks (run t l)) i = Some tk -> t_pc tk = Done (RetErr e) ->
  e = KeyError \/ e = CancelledError \/ t_addr tk = Raise e.
Proof. intros t l. exact (endings_run t l). Qed.
Print Assumptions C42_no_ServerError_refuted.

(** What holds: the error does reach the caller as some exception, and never as a value.
    Missing: that it is a ServerError naming the status, which is false. *)
Theorem C42_error_ends_the_call_partial : forall t l c l2 i rid frame p,
  distinct_ids (init t) (l ++ Read c :: l2) -> waiting (run t l) i rid ->
  consumes c frame (run t l) (run t (l ++ [Read c])) -> from_stream BoltResponse frame = Ok p ->
  p_request_id p = PInt rid -> p_respstatus p <> ST_SUCCESS -> dget rid (s_resp (run t l)) = None -> ~ In (Cancel i) l2 ->
  exists e, caller_sees (RetErr e) = Raise e /\ ended (run t (l ++ Read c :: l2 ++ [Wake i])) i (RetErr e).
Proof.
  intros t l c l2 i rid frame p D W C F R S1 S2 N. exists KeyError. split; [reflexivity|].
  destruct (C42_error_status_gives_KeyError_refuted t l c l2 i rid frame p D W C F R S1 S2 N) as [H|(_ & H)]; [|exact H].
  replace (l ++ Read c :: l2 ++ [Wake i]) with ((l ++ Read c :: l2) ++ [Wake i]) by (rewrite <- app_assoc; reflexivity). apply C41_outcome_is_final. exact H.
Qed.
Print Assumptions C42_error_ends_the_call_partial.

Definition l42 := started req7 ++ [Feed 0 (answer 7 8 2 []); Read 0].
Example C42_hypotheses_met :
  distinct_ids (init NoTimer) (l42 ++ [Read 0]) /\ waiting (run NoTimer l42) 0 7 /\ consumes 0 (answer 7 8 2 []) (run NoTimer l42) (run NoTimer (l42 ++ [Read 0])) /\
  p_respstatus (get (from_stream BoltResponse (answer 7 8 2 []))) = 8 /\ dget 7 (s_resp (run NoTimer l42)) = None /\
  pcs (run NoTimer (l42 ++ [Read 0; Wake 0])) = [Done (RetErr KeyError)].
Proof.
  split; [apply distinct_one; no_calls|]. split; [eexists _, _; vm_compute; repeat split|]. split; [eexists _, _; vm_compute; repeat split|]. vm_compute. repeat split.
Qed.

(** ** C43. False of this code: whatever happens to the connections, a waiting call for which no frame with its
    id was received keeps waiting. *)
Theorem C43_pending_calls_hang_refuted : forall t l l2 i rid tk ev,
  nth_error (s_tasks (run t l)) i = Some tk -> t_pc tk = WaitResp ev -> p_request_id (t_req tk) = PInt rid -> ~ In (Cancel i) l2 ->
  (forall c k frame f, nth_error (s_links (run t (l ++ l2))) c = Some k -> In frame (k_frames k) -> response_layout frame f -> fr_request_id f <> rid) ->
  nth_error (s_tasks (run t (l ++ l2))) i = Some tk.
Proof. exact forever. Qed.
Print Assumptions C43_pending_calls_hang_refuted.

(** What holds: the loss of the connection is noticed: its reader ends, and closes the connection, when the task is
    cancelled, the connection is reset, or the peer ends it before the bytes that the reader waits for ([n] of them),
    and only then; a connection is open as long as its reader is at work; and a call that is cancelled (as on the
    caller's timeout) does end.
    Missing: that the pending calls end, which is false. *)
Theorem C43_reader_ends_partial : forall s c k n, nth_error (s_links s) c = Some k -> (k_rd k = RdHead /\ n = 20 \/ exists fixed h, k_rd k = RdBody fixed h n) ->
  exists k', nth_error (s_links (run_step (Read c) s)) c = Some k' /\
    (k_rd k' = RdDone <-> k_cancel k = true \/ k_exn k = true \/ k_eof k = true /\ len (k_buf k) < n) /\ (k_rd k' = RdDone -> k_closed k' = true) /\ (k_rd k' <> RdDone -> k_closed k' = k_closed k).
Proof. exact reader_next. Qed.
Print Assumptions C43_reader_ends_partial.
Theorem C43_open_while_read_partial : forall t l c k, nth_error (s_links (run t l)) c = Some k -> k_closed k = true -> k_rd k = RdDone.
Proof. exact closed_done. Qed.
Print Assumptions C43_open_while_read_partial.
Theorem C43_cancelled_calls_end_partial : forall s i tk ev, nth_error (s_tasks s) i = Some tk -> t_pc tk = WaitResp ev -> ended (run_step (Cancel i) s) i (RetErr CancelledError).
Proof. intros s i tk ev Hi Hw. cbn [run_step]. rewrite Hi, Hw. eexists. split; [exact (upd_same _ _ _ _ Hi)|reflexivity]. Qed.
Print Assumptions C43_cancelled_calls_end_partial.

Example C43_case : pcs (run NoTimer (started req7)) = [WaitResp 0] /\
  let s := run NoTimer (started req7 ++ [Eof 0; Read 0; Wake 0; Reset 0; Read 0; Wake 0]) in
  pcs s = [WaitResp 0] /\ map k_closed (s_links s) = [true] /\ map k_frames (s_links s) = [[]].
Proof. vm_compute. repeat split. Qed.
(** a reader in the middle of an answer: it goes on waiting for the rest, and ends when the peer ends the connection *)
Example C43_middle : let part := firstn 30 (answer 7 0 2 (bytes_lit "one")) in
  let s := run NoTimer (started req7 ++ [Feed 0 part; Read 0; Read 0]) in
  map (fun k => (match k_rd k with RdBody _ _ n => n | _ => 0 end, len (k_buf k), k_closed k)) (s_links s) = [(49, 10, false)] /\
  map k_closed (s_links (run_step (Read 0) s)) = [false] /\ map k_closed (s_links (run NoTimer (started req7 ++ [Feed 0 part; Read 0; Read 0; Eof 0; Read 0]))) = [true].
Proof. vm_compute. repeat split. Qed.

(** ** C44. False of this code: once a heartbeat is out and all frames with its id are acknowledgements
    (cmdcode HEARTBEAT), the timer never sends another one. *)
Theorem C44_acknowledged_heartbeats_stop_refuted : forall t l l2 a i tk rid,
  s_timer (run t l) = InBeat a i -> nth_error (s_tasks (run t l)) i = Some tk -> p_request_id (t_req tk) = PInt rid ->
  (forall c k frame f, nth_error (s_links (run t (l ++ l2))) c = Some k -> In frame (k_frames k) -> response_layout frame f -> fr_request_id f = rid -> fr_cmdcode f = 0) ->
  s_timer (run t (l ++ l2)) = InBeat a i \/ s_timer (run t (l ++ l2)) = Dead.
Proof. exact beats_stop. Qed.
Print Assumptions C44_acknowledged_heartbeats_stop_refuted.
Theorem C44_dead_timer_stays_dead_refuted : forall o s, s_timer s = Dead -> s_timer (run_step o s) = Dead.
Proof. exact dead_stays. Qed.
Print Assumptions C44_dead_timer_stays_dead_refuted.

(** What holds: a heartbeat answered by a success RESPONSE frame lets the timer go on to the next one.
    Missing: the same for acknowledgements with cmdcode HEARTBEAT, which is false. *)
Theorem C44_next_heartbeat_partial : forall s a i tk p rid hb, s_timer s = InBeat a i -> nth_error (s_tasks s) i = Some tk -> t_pc tk = Done (RetPkg p) ->
  heartbeat_new_request rid = Ok hb ->
  let s' := run_step (Beat rid) (run_step BeatOver s) in
  s_timer s' = InBeat a (List.length (s_tasks s)) /\ s_tasks s' = s_tasks s ++ [{| t_req := hb; t_addr := Ok a; t_pc := Start |}].
Proof. intros s a i tk p rid hb T Hi Hd Hh. cbn [run_step]. rewrite T, Hi, Hd. cbn [s_timer set_timer]. rewrite Hh. split; reflexivity. Qed.
Print Assumptions C44_next_heartbeat_partial.

Definition beat (i : nat) (rid : Z) : list step := [Beat rid; Run i; Acquire i; DialOk i; DrainOk i; DrainOk i; Read 0].
Example C44_case :
  s_timer (run (Sleeping 1) (beat 0 5)) = InBeat 1 0 /\
  s_timer (run (Sleeping 1) (beat 0 5 ++ fed (answer 5 0 0 []) ++ [Wake 0; BeatOver; Beat 6])) = Dead /\
  s_timer (run (Sleeping 1) (beat 0 5 ++ fed (answer 5 0 2 []) ++ [Wake 0; BeatOver])) = Sleeping 1 /\
  s_timer (run (Sleeping 1) (beat 0 5 ++ fed (answer 5 0 2 []) ++ [Wake 0; BeatOver; Beat 6])) = InBeat 1 1.
Proof. vm_compute. repeat split. Qed.

(** ** C45. False of the asyncio client: its one-way calls are sent as two-way requests, and after sending they
    keep their entry and wait for an answer. *)
Theorem C45_aio_oneway_is_twoway_refuted : forall header content rid p bs, oneway_request header content rid = Ok p -> to_stream p = Ok bs ->
  exists f, request_layout bs f /\ fr_type f = 1 /\ fr_request_id f = rid /\ fr_cmdcode f = 1 /\ content = PBytes (fr_content f).
Proof. intros header content rid p bs H T. exact (new_request_frame header content PTYPE_REQUEST (PInt (-1)) rid p bs H T). Qed.
Print Assumptions C45_aio_oneway_is_twoway_refuted.
Theorem C45_aio_oneway_waits_refuted : forall header content rid p s i t n c ev,
  oneway_request header content rid = Ok p -> nth_error (s_tasks s) i = Some t -> t_req t = p -> t_pc t = Drain2 n c -> dget rid (s_req s) = Some ev ->
  run_step (DrainOk i) s = goto i (WaitResp ev) s.
Proof. exact oneway_waits. Qed.
Print Assumptions C45_aio_oneway_waits_refuted.

(** What holds: the synchronous client sends (a prefix of) a frame of type ONEWAY; the asyncio client would forget a
    request of type ONEWAY once sent.  Missing: that the asyncio client's invoke_oneway makes such a request. *)
Theorem C45_sync_oneway_partial : forall header content rid atts back log r c b, invoke_oneway header content rid atts back = (log, r) -> In (c, b) log ->
  exists bs f k, request_layout bs f /\ fr_type f = 2 /\ fr_request_id f = rid /\ b = py_take k bs /\ log = [(c, b)].
Proof.
  intros header content rid atts back log r c b H Hi. destruct (oneway_frame _ _ _ _ _ _ _ _ _ H Hi) as (p & bs & k & N & T & -> & _ & ->).
  destruct (new_request_frame _ _ _ _ _ _ _ N T) as (f & L & A & B & _). exists bs, f, k. auto.
Qed.
Print Assumptions C45_sync_oneway_partial.
Theorem C45_aio_forgets_oneway_partial : forall s i t n c ev,
  nth_error (s_tasks s) i = Some t -> p_ptype (t_req t) = PTYPE_ONEWAY -> t_pc t = Drain2 n c -> wf_dict (s_req s) -> dget (rid_of (t_req t)) (s_req s) = Some ev ->
  dget (rid_of (t_req t)) (s_req (run_step (DrainOk i) s)) = None /\ nth_error (s_tasks (run_step (DrainOk i) s)) i = Some (at_pc (Done RetNone) t).
Proof. exact oneway_forgets. Qed.
Print Assumptions C45_aio_forgets_oneway_partial.

Definition oneway7 := get (oneway_request [(str "service", str "s")] (PBytes (bytes_lit "hi")) 7).
Definition true_oneway7 := get (new_request [(str "service", str "s")] (PBytes (bytes_lit "hi")) PTYPE_ONEWAY (PInt (-1)) 7).
Example C45_case :
  oneway_request [(str "service", str "s")] (PBytes (bytes_lit "hi")) 7 = Ok oneway7 /\
  pcs (run NoTimer (started oneway7)) = [WaitResp 0] /\ s_req (run NoTimer (started oneway7)) = [(7, 0%nat)] /\
  pcs (run NoTimer (started true_oneway7)) = [Done RetNone] /\ s_req (run NoTimer (started true_oneway7)) = [].
Proof. vm_compute. repeat split. Qed.

(** ** C46. [quiet]: no drain fails and the request can be encoded. *)
Theorem C46_one_connection_per_address : forall t l a, Forall quiet l ->
  (count_occ Z.eq_dec (map k_addr (s_links (run t l))) a <= 1)%nat.
Proof. intros t l a Q. rewrite (d_count _ _ _ _ _ (dials_run t l Q) a). destruct (dget a (s_conn (run t l))); auto. Qed.
Print Assumptions C46_one_connection_per_address.
Theorem C46_dialing_is_exclusive : forall t l i j ti tj a n m li lj, Forall quiet l ->
  nth_error (s_tasks (run t l)) i = Some ti -> nth_error (s_tasks (run t l)) j = Some tj -> t_addr ti = Ok a -> t_addr tj = Ok a ->
  t_pc ti = Dialing n li -> t_pc tj = Dialing m lj -> i = j /\ count_occ Z.eq_dec (map k_addr (s_links (run t l))) a = 0%nat.
Proof.
  intros t l i j ti tj a n m li lj Q Hi Hj Ai Aj Pi Pj. pose proof (dials_run t l Q) as D.
  destruct (d_dialing _ _ _ _ _ D _ _ _ _ _ Hi Ai Pi) as (A & _ & C). destruct (d_dialing _ _ _ _ _ D _ _ _ _ _ Hj Aj Pj) as (B & _ & _).
  assert (li = lj) by congruence. subst lj. split; [exact (d_one _ _ _ _ _ D _ _ _ _ _ _ _ Hi Hj Pi Pj)|]. rewrite (d_count _ _ _ _ _ D a), C. reflexivity.
Qed.
Print Assumptions C46_dialing_is_exclusive.
Theorem C46_calls_use_the_connection_of_their_address : forall t l i tk a n c, Forall quiet l ->
  nth_error (s_tasks (run t l)) i = Some tk -> t_addr tk = Ok a -> t_pc tk = Drain1 n c \/ t_pc tk = Drain2 n c ->
  exists k, nth_error (s_links (run t l)) c = Some k /\ k_addr k = a.
Proof.
  intros t l i tk a n c Q Hi Ha Hp. pose proof (dials_run t l Q) as D. pose proof (d_conn _ _ _ _ _ D _ _ (d_drain _ _ _ _ _ D i tk a n c Hi Ha Hp)) as H.
  rewrite nth_error_map in H. destruct (nth_error (s_links (run t l)) c) as [k|]; [|discriminate]. exists k. split; [reflexivity|]. injection H as H. exact H.
Qed.
Print Assumptions C46_calls_use_the_connection_of_their_address.
(** a call that waits because of another one's dialing goes on when that has ended, however it ended *)
Theorem C46_waiting_for_a_dial_ends : forall t l i tk n k, nth_error (s_tasks (run t l)) i = Some tk -> t_pc tk = WaitLock n k ->
  (exists j tj m, j <> i /\ nth_error (s_tasks (run t l)) j = Some tj /\ t_pc tj = Dialing m k) \/
  (exists tk' m, nth_error (s_tasks (run t (l ++ [Acquire i]))) i = Some tk' /\ (t_pc tk' = Dialing m k \/ exists c, t_pc tk' = Drain1 m c)).
Proof. exact lock_progress. Qed.
Print Assumptions C46_waiting_for_a_dial_ends.

(** two calls start together: both take the slow path, one dials, the other finds the connection *)
Definition l46 : list step := [Call req7 (Ok 1); Call req8 (Ok 1); Run 0; Run 1; Acquire 1; Acquire 0; DialOk 1; Acquire 0; DrainOk 1; DrainOk 0].
Example C46_case : Forall quiet l46 /\
  pcs (run NoTimer (firstn 6 l46)) = [WaitLock 3 0; Dialing 3 0] /\
  pcs (run NoTimer (firstn 6 l46 ++ [Cancel 1; Acquire 0])) = [Dialing 3 0; Done (RetErr CancelledError)] /\
  pcs (run NoTimer l46) = [Drain2 3 0; Drain2 3 0] /\ map k_addr (s_links (run NoTimer l46)) = [1] /\
  (* the hypothesis is needed: after a failed drain a second connection is dialed *)
  map k_addr (s_links (run NoTimer (l46 ++ [DrainFail 1; Acquire 1; DialOk 1]))) = [1; 1].
Proof.
  split; [|vm_compute; repeat split]. unfold l46. repeat (constructor; [first [exact I|eexists; vm_compute; reflexivity]|]). constructor.
Qed.

(** ** C47. False of this code: a response that arrives before the sender is done flushing is stored and never
    fetched. *)
Definition l47 : list step := [Call req7 (Ok 1); Run 0; Acquire 0; DialOk 0; DrainOk 0; Read 0] ++ fed (answer 7 0 2 (bytes_lit "early")) ++ [DrainOk 0].
Theorem C47_response_entry_leaks_refuted : exists l i tk, no_cancel l /\ distinct_ids (init NoTimer) l /\
  nth_error (s_tasks (run NoTimer l)) i = Some tk /\ List.length (s_tasks (run NoTimer l)) = 1%nat /\ p_request_id (t_req tk) = PInt 7 /\
  t_pc tk = Done (RetErr KeyError) /\ s_req (run NoTimer l) = [] /\ dmem 7 (s_resp (run NoTimer l)) = true.
Proof.
  exists l47, 0%nat, {| t_req := req7; t_addr := Ok 1; t_pc := Done (RetErr KeyError) |}.
  split; [intros i H; cbn in H; repeat (destruct H as [H|H]; [discriminate H|]); destruct H|]. split; [apply distinct_one; no_calls|]. vm_compute. repeat split.
Qed.
Print Assumptions C47_response_entry_leaks_refuted.

(** What holds: no request entry remains, and no response entry if every call ended otherwise than by being
    abandoned or by KeyError.  Missing: the response entries in the case above. *)
Theorem C47_no_request_entry_partial : forall t l, distinct_ids (init t) l -> no_cancel l ->
  (forall i tk, nth_error (s_tasks (run t l)) i = Some tk -> exists r, t_pc tk = Done r) -> s_req (run t l) = [].
Proof. exact no_request_left. Qed.
Print Assumptions C47_no_request_entry_partial.
Theorem C47_no_response_entry_partial : forall t l, distinct_ids (init t) l -> no_cancel l ->
  (forall i tk, nth_error (s_tasks (run t l)) i = Some tk -> exists r, t_pc tk = Done r /\ r <> RetNone /\ r <> RetErr KeyError) -> s_resp (run t l) = [].
Proof. exact no_response_left. Qed.
Print Assumptions C47_no_response_entry_partial.
Example C47_case : let l := started req7 ++ fed (answer 7 0 2 (bytes_lit "x")) ++ [Wake 0] in
  distinct_ids (init NoTimer) l /\ no_cancel l /\ pcs (run NoTimer l) = [Done (RetPkg (get (from_stream BoltResponse (answer 7 0 2 (bytes_lit "x")))))] /\
  (s_req (run NoTimer (started req7)) = [(7, 0%nat)]) /\ s_req (run NoTimer l) = [] /\ s_resp (run NoTimer l) = [].
Proof.
  cbv zeta. split; [apply distinct_one; no_calls|]. split; [intros i H; cbn in H; repeat (destruct H as [H|H]; [discriminate H|]); destruct H|]. vm_compute. repeat split.
Qed.

(** ** C48 *)
(** however the bytes were chunked and whatever the frames contain, the frames consumed are the frames of the stream *)
Theorem C48_frames_are_delimited : forall t l c k fs tail, nth_error (s_links (run t l)) c = Some k ->
  k_in k = concat fs ++ tail -> Forall (fun fr => exists f, response_layout fr f) fs ->
  (exists more, fs = k_frames k ++ more) \/ (exists more, k_frames k = fs ++ more).
Proof.
  intros t l c k fs tail Hk E F. apply (cut_right (run t l) c k fs tail (run_links_ok t l) Hk E). eapply Forall_impl; [|exact F]. intros fr. apply frame_ok_iff.
Qed.
Print Assumptions C48_frames_are_delimited.
(** ... and all complete ones get consumed, as long as the reader is not stopped by cancellation or a reset *)
Theorem C48_all_frames_are_consumed : forall t l c k fs tail, nth_error (s_links (run t l)) c = Some k ->
  k_rd k <> RdDone -> k_cancel k = false -> k_exn k = false -> k_in k = concat fs ++ tail -> Forall (fun fr => exists f, response_layout fr f) fs ->
  exists n k' more, nth_error (s_links (run t (l ++ repeat (Read c) n))) c = Some k' /\ k_frames k' = fs ++ more /\ k_rd k' <> RdDone.
Proof.
  intros t l c k fs tail Hk R1 R2 R3 E F. destruct (catches_up (run t l) c k fs tail (run_links_ok t l) Hk (conj R1 (conj R2 R3)) E) as (n & k' & more & A & (B & _) & C).
  - eapply Forall_impl; [|exact F]. intros fr. apply frame_ok_iff.
  - exists n, k', more. unfold run. rewrite fold_left_app. auto.
Qed.
Print Assumptions C48_all_frames_are_consumed.
Theorem C48_malformed_frames_change_nothing : forall t l c frame e,
  consumes c frame (run t l) (run t (l ++ [Read c])) -> from_stream BoltResponse frame = Raise e -> view (run t (l ++ [Read c])) = view (run t l).
Proof. exact malformed_ignored. Qed.
Print Assumptions C48_malformed_frames_change_nothing.

(** a frame with an unknown codec, then the answer, in three chunks cutting both frames *)
Definition bad_frame : bytes := firstn 9 (answer 7 0 2 (bytes_lit "bad")) ++ bytes_lit "z" ++ skipn 10 (answer 7 0 2 (bytes_lit "bad")).
Definition stream48 : bytes := bad_frame ++ answer 7 0 2 (bytes_lit "good").
Definition l48 := started req7 ++ [Feed 0 (firstn 11 stream48); Read 0; Feed 0 (firstn 60 (skipn 11 stream48)); Read 0; Read 0; Read 0; Feed 0 (skipn 71 stream48); Read 0; Read 0; Wake 0].
Example C48_case : from_stream BoltResponse bad_frame = Raise DecodeError /\ (exists f, response_layout bad_frame f) /\
  map k_in (s_links (run NoTimer l48)) = [stream48] /\ map k_frames (s_links (run NoTimer l48)) = [[bad_frame; answer 7 0 2 (bytes_lit "good")]] /\
  pcs (run NoTimer l48) = [Done (RetPkg (get (from_stream BoltResponse (answer 7 0 2 (bytes_lit "good")))))].
Proof.
  split; [vm_compute; reflexivity|]. split; [apply frame_ok_iff; split; vm_compute; congruence|]. vm_compute. repeat split.
Qed.

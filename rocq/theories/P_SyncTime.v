(** Property theorems C94: how long a call of the synchronous client takes. [start]: when invoke_sync is called; [timeout]:
    its argument, in the unit of [SECOND]; [Some c]: the connection is established at time c; [st], the rounds and [bt]: how
    long the client's own steps take; [back]: what giving the connection back does; the server and the network are [w]. *)
From Coq Require Import Strings.String ZifyBool.
From Verif Require Import PyBase L_PyBase PyDict M_SofaHeader M_Package L_Package S_Wire M_SyncClient L_SyncClient M_SyncTime S_SyncTime L_SyncTime.

(** ** C94. The first half of the property is false of this code: a server that closes the connection early keeps the call
    going for ever (C37), long past the deadline ... *)
Theorem C94_closed_refuted : forall w start timeout rid c st rounds back bt,
  closed_early (start + timeout + SECOND) w -> Forall forward rounds ->
  exists t, timed_call w start timeout rid (Some c) st rounds back bt = TReading t /\ Z.max start c + st + own_time rounds <= t.
Proof. exact call_hangs. Qed.
Print Assumptions C94_closed_refuted.

(** ... and establishing the connection is not covered by the timeout: the call takes at least as long as that does. *)
Theorem C94_connect_refuted : forall w start timeout rid c st rounds back bt, Forall forward rounds -> 0 <= st -> 0 <= bt ->
  (forall t r, returned (timed_call w start timeout rid (Some c) st rounds back bt) = Some (t, r) -> c <= t) /\
  timed_call w start timeout rid None st rounds back bt = TSending.
Proof.
  intros w start timeout rid c st rounds back bt F H Hb. split; [|reflexivity]. intros t r R. pose proof (call_ends_by w start timeout rid c st rounds back bt F Hb) as B.
  destruct (timed_call w start timeout rid (Some c) st rounds back bt); try discriminate. cbn [returned] in R. injection R as -> _. lia.
Qed.
Print Assumptions C94_connect_refuted.

(** What holds. Waiting ends at the deadline: apart from establishing the connection, the call goes beyond it only by the
    time that the client's own steps take ... Missing: the two cases above. *)
Theorem C94_ends_by_partial : forall w start timeout rid c st rounds back bt t r, Forall forward rounds -> 0 <= bt ->
  returned (timed_call w start timeout rid (Some c) st rounds back bt) = Some (t, r) ->
  t <= Z.max (Z.max start c + st) (start + timeout + SECOND) + own_time rounds + bt.
Proof.
  intros w start timeout rid c st rounds back bt t r F Hb R. pose proof (call_ends_by w start timeout rid c st rounds back bt F Hb) as B.
  destruct (timed_call w start timeout rid (Some c) st rounds back bt); try discriminate. cbn [returned] in R. injection R as -> _. lia.
Qed.
Print Assumptions C94_ends_by_partial.

(** ... and if the server does not close the connection there are only so many steps, whatever it sends. *)
Theorem C94_ends_partial : forall w start timeout rid c st rounds back bt, w_end w = None -> Forall forward rounds -> longest <= len rounds ->
  returned (timed_call w start timeout rid (Some c) st rounds back bt) <> None.
Proof. exact call_ends. Qed.
Print Assumptions C94_ends_partial.

(** TimeoutError is raised at the deadline at the earliest, and only if no complete response has come by then. *)
Theorem C94_timeout_partial : forall w start timeout rid wr st rounds back bt t, 0 <= st -> Forall forward rounds -> back <> Raise TimeoutError ->
  returned (timed_call w start timeout rid wr st rounds back bt) = Some (t, Raise TimeoutError) ->
  start + timeout + SECOND <= t /\ forall frame f, response_layout frame f -> ~ answered_by (start + timeout + SECOND) w frame.
Proof. exact call_timeout. Qed.
Print Assumptions C94_timeout_partial.

(** A well-formed response that has come completely by the deadline is what the caller gets, however slow the client is,
    if it can give the connection back (C104). *)
Theorem C94_in_time_partial : forall w start timeout rid c st rounds bt frame f kvs,
  response_layout frame f -> legal_common f -> legal_status (fr_tos f) -> header_pairs (fr_header f) kvs ->
  answered_by (start + timeout + SECOND) w frame -> len frame <= len rounds ->
  exists t, returned (timed_call w start timeout rid (Some c) st rounds (Ok tt) bt) = Some (t, verdict rid f).
Proof. exact call_in_time. Qed.
Print Assumptions C94_in_time_partial.

(** a response to request 7; it comes 2 seconds after the call, in two parts; the timeouts are 1.5 and 0.5 seconds *)
Definition resp7 : bytes :=
  match mk_package BoltResponse [(str "k", str "v")] (PBytes (bytes_lit "ok")) (PInt 1) (PInt 0) (PInt 2) (PInt 1) (PInt 7) (PInt 11) PNone (PInt 0) with
  | Ok p => match to_stream p with Ok b => b | _ => [] end | _ => [] end.
Definition at_times (l : list (Z * bytes)) : list (Z * byte) := flat_map (fun x => map (pair (fst x)) (snd x)) l.
Definition slow : wire := {| w_bytes := at_times [(1900000, firstn 30 resp7); (2000000, skipn 30 resp7)]; w_end := None |}.
Definition slow_early : wire := {| w_bytes := at_times [(1900000, firstn 30 resp7)]; w_end := Some 2000000 |}.
Definition quick (n : nat) : list round := repeat {| r_before := 1000; r_after := 1000; r_upto := 4000 |} n.
(** a client that is busy for 10 seconds before it looks *)
Definition sleepy (n : nat) : list round := repeat {| r_before := 10000000; r_after := 0; r_upto := 4000 |} n.

Example C94_met : (exists f kvs, response_layout resp7 f /\ legal_common f /\ legal_status (fr_tos f) /\ header_pairs (fr_header f) kvs /\ verdict 7 f = Ok (PBytes (bytes_lit "ok"))) /\
  answered_by (0 + 1500000 + SECOND) slow resp7 /\ closed_early (0 + 1500000 + SECOND) slow_early /\ Forall forward (quick 100) /\ len resp7 <= len (quick 100).
Proof.
  destruct (from_stream BoltResponse resp7) as [p|] eqn:E; [|vm_compute in E; discriminate]. rewrite L_Codec.BoltResponse_eq in E.
  apply from_stream_resp_iff in E as (f & kvs & hb & L & C & S & H & _). assert (f = resp_frame resp7) by (apply resp_layout_iff in L; apply L). subst f.
  split; [|split; [|split; [|split]]].
  - exists (resp_frame resp7), kvs. split; [exact L|]. split; [exact C|]. split; [exact S|]. split; [exact H|vm_compute; reflexivity].
  - exists (List.length resp7). split; [vm_compute; reflexivity|]. split; [reflexivity|]. apply Forall_forall. intros x Hx.
    assert (A : forallb (fun x => fst x <=? 0 + 1500000 + SECOND) (firstn (List.length resp7) (w_bytes slow)) = true) by (vm_compute; reflexivity).
    rewrite forallb_forall in A. apply Z.leb_le. exact (A x Hx).
  - split; [|split].
    + apply Forall_forall. intros x Hx. assert (A : forallb (fun x => fst x <=? 0 + 1500000 + SECOND) (w_bytes slow_early) = true) by (vm_compute; reflexivity).
      rewrite forallb_forall in A. apply Z.leb_le. exact (A x Hx).
    + exists 2000000. split; [reflexivity|vm_compute; discriminate].
    + exists resp7, (resp_frame resp7), (skipn 30 resp7). split; [exact L|]. split; [vm_compute; reflexivity|vm_compute; discriminate].
  - apply Forall_forall. intros r Hr. apply repeat_spec in Hr. subst r. split; vm_compute; discriminate.
  - vm_compute. discriminate.
Qed.

Example C94_case :
  timed_call slow 0 1500000 7 (Some 100) 50 (quick 100) (Ok tt) 0 = TDone 2001000 (Ok (PBytes (bytes_lit "ok"))) /\
  timed_call slow 0 500000 7 (Some 100) 50 (quick 100) (Ok tt) 0 = TDone 1501000 (Raise TimeoutError) /\
  (* a slow client finds the response there long after the deadline *)
  timed_call slow 0 500000 7 (Some 100) 50 (sleepy 100) (Ok tt) 0 = TDone 20000150 (Ok (PBytes (bytes_lit "ok"))) /\
  (* the connection takes a minute *)
  timed_call slow 0 1500000 7 (Some 60000000) 50 (quick 100) (Ok tt) 0 = TDone 60004050 (Ok (PBytes (bytes_lit "ok"))) /\
  timed_call slow_early 0 1500000 7 (Some 100) 50 (sleepy 100) (Ok tt) 0 = TReading 1000000150 /\
  (* closed after the deadline *)
  timed_call slow_early 0 500000 7 (Some 100) 50 (quick 100) (Ok tt) 0 = TDone 1501000 (Raise TimeoutError).
Proof. repeat split; vm_compute; reflexivity. Qed.

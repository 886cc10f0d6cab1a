(** Property theorems C133: the connections of synchronous calls do not pile up. A connection nothing refers to any more
    is closed (its __del__). *)
From Verif Require Import PyBase M_ConnPool M_SyncClient M_Lifetime S_Lifetime L_Lifetime.

(** ** C133. Once a call has returned, or the caller has dropped the exception it raised, every connection it opened is
    closed. *)
Theorem C133_closed_when_over_partial : forall evs i c, opened_by (hrun evs) i c -> over (hrun evs) i -> ~ In c (g_open (hrun evs)).
Proof. exact closed_over. Qed.
Print Assumptions C133_closed_when_over_partial.

(** After a timeout they are closed at once, though the exception is still there. *)
Theorem C133_closed_by_timeout_partial : forall evs i x c, at_pc (hrun evs) i Wait -> i_error x = None -> i_silent x = true ->
  opened_by (hrun (evs ++ [ERun i x])) i c -> ~ In c (g_open (hrun (evs ++ [ERun i x]))).
Proof. exact timed_out. Qed.
Print Assumptions C133_closed_by_timeout_partial.

(** There are never more connections open than three for each running call and one for each exception that callers keep. *)
Theorem C133_bounded : forall evs, (List.length (g_open (hrun evs)) <= 3 * count is_running (hrun evs) + count is_kept (hrun evs))%nat.
Proof. exact bounded. Qed.
Print Assumptions C133_bounded.

(** While a call sends, waits for its answer or decodes it, no connection it opened is open except the one it uses. *)
Theorem C133_only_one : forall evs i c k, opened_by (hrun evs) i c -> at_pc (hrun evs) i k ->
  (match k with Lookup _ | Send _ | Return | Wait | Last | Kept _ => True | _ => False end) ->
  In c (g_open (hrun evs)) -> exists f, nth_error (g_calls (hrun evs)) i = Some f /\ f_conn f = Some c.
Proof. exact only_one. Qed.
Print Assumptions C133_only_one.

(** The connection that a running call uses is open, whatever other calls do and however often they end, as long as no
    connection looked dropped when it was taken from its pool. *)
Theorem C133_in_use : forall evs i f c, Forall healthy evs -> nth_error (g_calls (hrun evs)) i = Some f -> is_running f = true -> f_conn f = Some c ->
  In c (g_open (hrun evs)).
Proof. exact in_use. Qed.
Print Assumptions C133_in_use.

(** False of this code: "a call that has ended has no connection open". A call that raises after its answer has come (or
    cannot be decoded) leaves its connection open for as long as the caller keeps the exception, for whatever e and
    whatever else happens. *)
Theorem C133_kept_error_refuted : forall e, at_pc (hrun (bad_answer e)) 0 (Kept e) /\ opened_by (hrun (bad_answer e)) 0 (0, 0)%nat /\
  forall evs, Forall (leaves 0) evs -> In (0, 0)%nat (g_open (hrun (bad_answer e ++ evs))) /\ at_pc (hrun (bad_answer e ++ evs)) 0 (Kept e).
Proof. exact kept_error. Qed.
Print Assumptions C133_kept_error_refuted.

(** Two calls at a time: the first needs two rounds, and during the second has three connections open; the second waits *)
Definition retry : list levent :=
  EStart false :: EStart false :: repeat (ERun 1 fine) 6 ++ repeat (ERun 0 fine) 4 ++ [ERun 0 (raising SocketValueError); ERun 0 fine; ERun 0 fine].
Example C133_case : g_open (hrun retry) = [(0, 0); (1, 0); (2, 0); (2, 1)]%nat /\ map f_pc (g_calls (hrun retry)) = [Got 1; Wait] /\
  g_open (hrun (retry ++ repeat (ERun 0 fine) 7)) = [(0, 0)]%nat /\ map f_pc (g_calls (hrun (retry ++ repeat (ERun 0 fine) 7))) = [Returned; Wait] /\
  g_makers (hrun (retry ++ repeat (ERun 0 fine) 7)) = [1; 0; 0; 0]%nat.
Proof. vm_compute. repeat split; reflexivity. Qed.
Example C133_healthy : Forall healthy retry.
Proof. unfold retry. cbn. repeat constructor. Qed.
(** a call that times out, and one that gets a bad answer *)
Definition silent : input := {| i_mk := fun _ => true; i_dr := fun _ => false; i_error := None; i_silent := true; i_all := false |}.
Definition waiting : list levent := EStart false :: repeat (ERun 0 fine) 6.
Example C133_ends : map f_pc (g_calls (hrun waiting)) = [Wait] /\ g_open (hrun waiting) = [(0, 0)]%nat /\
  g_open (hrun (waiting ++ [ERun 0 silent])) = [] /\ map f_pc (g_calls (hrun (waiting ++ [ERun 0 silent]))) = [Kept TimeoutError] /\
  g_open (hrun (bad_answer ServerError)) = [(0, 0)]%nat /\ g_open (hrun (bad_answer ServerError ++ [ERun 0 fine])) = [].
Proof. vm_compute. repeat split; reflexivity. Qed.

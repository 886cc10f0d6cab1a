(** Property theorems C123: methods that raise StopIteration ([Lost]) on the asyncio listener. [x_run U reg l]: the listener
    after the steps [l]; [awaits s c i n q j]: coroutine i on connection c, which answers request q, frame n, awaits call j,
    whose method is running; [answers n k]: what has been written on connection k in answer to frame n. *)
From Coq Require Import Strings.String.
From Verif Require Import PyBase PyDict PyInt Struct M_SofaHeader M_Package M_RpcId M_Trace L_Trace2 S_Wire M_AioServer S_Server M_Listener S_Listener M_Exit S_Exit L_Lost P_AioServer P_Listener P_Exit.
Open Scope nat_scope.

(** when the method raises it, the coroutine waits on, whatever happens: without a timeout for ever, with one until it
    expires. So long nothing is answered. *)
Theorem C123_never_answered_refuted : forall U reg l1 l2 c i n q j k, awaits (x_l (x_run U reg l1)) c i n q j ->
  ((q_timeout q <= 0)%Z \/ ~ In (XStep (LConn c (Expire i))) l2) ->
  nth_error (n_conns (x_l (x_run U reg (l1 ++ XRaise c j Lost :: l2)))) c = Some k -> v_closed k = false ->
  answering k i n (Some q) (TWait j) /\ answers n k = [].
Proof. exact lost_unanswered. Qed.
Print Assumptions C123_never_answered_refuted.

(** when it expires, the caller is told of a timeout (status 7) *)
Theorem C123_times_out_refuted : forall U reg l1 l2 c i n q j k, let l := l1 ++ XRaise c j Lost :: l2 in awaits (x_l (x_run U reg l1)) c i n q j ->
  (0 < q_timeout q)%Z -> ~ In (XStep (LConn c (Expire i))) l2 -> x_dead (x_run U reg l) = false ->
  nth_error (n_conns (x_l (x_run U reg l))) c = Some k -> v_closed k = false ->
  exists k' bs, nth_error (n_conns (x_l (x_run U reg (l ++ [XStep (LConn c (Expire i)); XStep (LConn c (Drain i true))])))) c = Some k' /\
    response bs (q_id q) 2 7 [] /\ answers n k' = [bs].
Proof. exact lost_times_out. Qed.
Print Assumptions C123_times_out_refuted.

(** any other exception is answered at once, whether a timeout was given or not: status 3, or 7 for the two that are taken
    for a timeout *)
Theorem C123_answered_at_once_partial : forall U reg l c i n q j k e, awaits (x_l (x_run U reg l)) c i n q j -> x_dead (x_run U reg l) = false ->
  nth_error (n_conns (x_l (x_run U reg l))) c = Some k -> v_closed k = false ->
  exists k' bs, nth_error (n_conns (x_l (x_run U reg (l ++ map XStep [LConn c (JobEnd j (Raise e)); LConn c (Result i); LConn c (Drain i true)])))) c = Some k' /\
    response bs (q_id q) 2 (match e with CancelledError | TimeoutError => 7 | _ => 3 end)%Z [] /\ answers n k' = [bs].
Proof. exact exception_answered. Qed.
Print Assumptions C123_answered_at_once_partial.

(** a call with a timeout of 100 and, on the other connection, one without a timeout: each method raises StopIteration *)
Definition lost_end (c : nat) : list xstep := [XRaise c 0 Lost; XStep (LConn c (Result 0))].
Definition give_up (c : nat) : list xstep := map XStep (on c [Expire 0; Drain 0 true]).
Definition no_time (c : nat) : bool := match nth_error (n_conns (x_l (xgo (two_calls 1 ++ lost_end c)))) c with Some k => negb (v_closed k) | None => false end.
Example C123_case :
  awaits (x_l (xgo (two_calls 1))) 0 0 0 (q0 1 7 (hdr "svc" "m") "hi" 100) 0 /\ awaits (x_l (xgo (two_calls 1))) 1 0 0 (q0 1 8 (hdr "svc" "m") "ho" 0) 0 /\
  no_time 0 = true /\ no_time 1 = true /\ x_dead (xgo (two_calls 1 ++ lost_end 0)) = false /\
  sent (xgo (two_calls 1 ++ lost_end 0 ++ second_done)) = [Some 0; Some 1; Some 0] /\
  sent (xgo (two_calls 1 ++ lost_end 0 ++ give_up 0)) = [Some 1; Some 0; None] /\
  sent (xgo (two_calls 1 ++ lost_end 1 ++ give_up 1 ++ lost_end 1 ++ give_up 1)) = [Some 0; Some 0; None] /\
  sent (xgo (two_calls 1 ++ map XStep (on 1 [JobEnd 0 (Raise OtherError); Result 0; Drain 0 true]))) = [Some 0; Some 1; None].
Proof. split; [exact (proj1 C119_case)|]. split; [split; [eexists; split; vm_compute; reflexivity|vm_compute; reflexivity]|]. repeat split; vm_compute; reflexivity. Qed.

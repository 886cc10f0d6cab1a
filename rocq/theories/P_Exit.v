(** Property theorems C119: methods that raise what is not an Exception (SystemExit, KeyboardInterrupt: [Stops]; others:
    [Passes]) on the asyncio listener. [x_run U reg l]: the listener after the steps [l]; [out_on s c]: what has been
    written on connection c, None if nobody has connected so often; [awaits s c i n q j]: coroutine i on connection c, which
    answers request q, frame n, awaits call j, whose method is running; [hit U reg l c i j b l2]: in the history [l] that
    method raises b while it is awaited, and then [l2] happens. *)
From Coq Require Import Strings.String.
From Verif Require Import PyBase PyDict PyInt Struct M_SofaHeader M_Package M_RpcId M_Trace L_Trace2 S_Wire M_AioServer S_Server M_Listener S_Listener M_Exit S_Exit L_Exit P_AioServer P_Listener.
Open Scope nat_scope.

(** once its coroutine gets it, SystemExit ends the listener: whatever happens, nothing is written any more on any
    connection, and no connection is accepted *)
Theorem C119_listener_stops_refuted : forall U reg l1 l2 c i n q j c', awaits (x_l (x_run U reg l1)) c i n q j ->
  out_on (x_l (x_run U reg (l1 ++ [XRaise c j Stops; XStep (LConn c (Result i))] ++ l2))) c' = out_on (x_l (x_run U reg l1)) c'.
Proof. exact exit_stops. Qed.
Print Assumptions C119_listener_stops_refuted.

(** other such exceptions end the coroutine: while the connection is open its request is not answered, not even after the
    timeout that it came with *)
Theorem C119_never_answered_refuted : forall U reg l1 l2 c i n q j k, awaits (x_l (x_run U reg l1)) c i n q j -> x_dead (x_run U reg l1) = false ->
  nth_error (n_conns (x_l (x_run U reg (l1 ++ [XRaise c j Passes; XStep (LConn c (Result i))] ++ l2)))) c = Some k -> v_closed k = false ->
  answering k i n (Some q) (TWait j) /\ answers n k = [].
Proof. exact passes_unanswered. Qed.
Print Assumptions C119_never_answered_refuted.

(** as long as the listener has not stopped, the others notice nothing: all is as if an ordinary exception had been
    raised, except that the coroutines hit take no more steps *)
Theorem C119_others_served_partial : forall U reg l, x_dead (x_run U reg l) = false ->
  exists l', part_but (of_hit U reg l) l' (map plain_step l) /\ x_l (x_run U reg l) = lrun U reg l'.
Proof. exact others. Qed.
Print Assumptions C119_others_served_partial.

(** it stops only when a coroutine gets SystemExit or KeyboardInterrupt from the method that it awaits *)
Theorem C119_stops_only_then_partial : forall U reg l, x_dead (x_run U reg l) = true ->
  exists c i j l2, hit U reg l c i j Stops l2 /\ In (XStep (LConn c (Result i))) l2.
Proof. exact dead_means. Qed.
Print Assumptions C119_stops_only_then_partial.

(** what is raised by methods that nobody awaits (one-way calls, calls given up) harms nobody *)
Theorem C119_not_awaited_harmless_partial : forall U reg l, (forall c i j b l2, ~ hit U reg l c i j b l2) ->
  x_dead (x_run U reg l) = false /\ x_l (x_run U reg l) = lrun U reg (map plain_step l).
Proof. exact harmless. Qed.
Print Assumptions C119_not_awaited_harmless_partial.

(** two connections with one request each, both methods running *)
Definition two_calls (ty : Z) : list xstep := map XStep (
  [LAccept t_init; LAccept t_init] ++ on 0 (Feed (req ty 7 (hdr "svc" "m") "hi" 100) :: reads 1 ++ [Dispatch 0 (str "T")]) ++
  on 1 (Feed (req 1 8 (hdr "svc" "m") "ho" 0) :: reads 1 ++ [Dispatch 0 (str "T")]) ++ [LTake; LTake]).
(** the second method returns, and its answer is written; somebody connects *)
Definition second_done : list xstep := map XStep (on 1 [JobEnd 0 (Ok (PBytes (bytes_lit "x"))); Result 0; Drain 0 true; Drain 0 true] ++ [LAccept t_init]).
Definition xgo (l : list xstep) : xst := x_run ascii_tables reg0 l.
Definition the_end (b : base_exn) : list xstep := [XRaise 0 0 b; XStep (LConn 0 (Result 0))].
(** what was written on the three connections, as numbers of frames *)
Definition sent (s : xst) : list (option nat) := map (fun c => option_map (@List.length _) (out_on (x_l s) c)) [0; 1; 2].
Example C119_case :
  awaits (x_l (xgo (two_calls 1))) 0 0 0 (q0 1 7 (hdr "svc" "m") "hi" 100) 0 /\
  sent (xgo (two_calls 1 ++ second_done)) = [Some 0; Some 1; Some 0] /\
  sent (xgo (two_calls 1 ++ the_end Stops ++ second_done)) = [Some 0; Some 0; None] /\
  sent (xgo (two_calls 1 ++ the_end Passes ++ second_done ++ map XStep (on 0 [Expire 0; Drain 0 true]))) = [Some 0; Some 1; Some 0] /\
  sent (xgo (two_calls 1 ++ second_done ++ map XStep (on 0 [Expire 0; Drain 0 true]) ++ the_end Stops ++ map XStep [LAccept t_init])) = [Some 1; Some 1; Some 0] /\
  x_dead (xgo (two_calls 2 ++ the_end Stops ++ second_done)) = false /\ sent (xgo (two_calls 2 ++ the_end Stops ++ second_done)) = [Some 0; Some 1; Some 0].
Proof. split; [split; [eexists; split; [vm_compute; reflexivity|vm_compute; reflexivity]|vm_compute; reflexivity]|]. repeat split; vm_compute; reflexivity. Qed.
(** the exception reaches the coroutine *)
Example C119_hit_case : hit ascii_tables reg0 (two_calls 1 ++ the_end Stops) 0 0 0 Stops [XStep (LConn 0 (Result 0))] /\ x_dead (xgo (two_calls 1 ++ the_end Stops)) = true /\ x_dead (xgo (two_calls 1 ++ the_end Passes)) = false.
Proof. split; [|split; vm_compute; reflexivity]. exists (two_calls 1), 0, (q0 1 7 (hdr "svc" "m") "hi" 100). split; [reflexivity|exact (proj1 C119_case)]. Qed.

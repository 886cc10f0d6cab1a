(** Property theorems C118: callbacks of invoke_async that use the client (M_Callback). [e_run U t l] is the state after
    the steps [l]; [e_loop] says what the thread of the event loop is doing. *)
From Coq Require Import Strings.String.
From Verif Require Import PyBase PyDict PyInt Struct M_SofaHeader M_Package M_RpcId M_Trace M_AioServer S_Server M_System S_System L_System M_Front S_Front M_Callback S_Callback L_Callback P_System P_Front.
From Verif Require M_AioClient.
Open Scope nat_scope.

(** ** C118. False of this code: an invoke_sync made by a callback never returns a value, ... *)
Theorem C118_sync_never_returns_refuted : forall U t l i d rid v, sync_in_callback U t l i d rid -> ~ In (Ok v) (outcomes i (e_front (e_run U t l))).
Proof. exact sync_never. Qed.
Print Assumptions C118_sync_never_returns_refuted.
(** ... it holds up the loop until its time is over, and then raises TimeoutError *)
Theorem C118_sync_times_out_refuted : forall U t l i d rid, sync_in_callback U t l i d rid -> is_number (y_timeout d) = true -> (exists p, y_request (entry_call ASync d) rid = Ok p) ->
  ((exists j, e_loop (e_run U t l) = Blocked j i) /\ outcomes i (e_front (e_run U t l)) = []) \/ outcomes i (e_front (e_run U t l)) = [Raise TimeoutError].
Proof. exact sync_times_out. Qed.
Print Assumptions C118_sync_times_out_refuted.
(** While a callback runs, whatever it does, no other call gets on: nothing is written, nothing is read, no other
    callback is called, and no caller is told how its call ended *)
Theorem C118_others_stand_still_refuted : forall U t l l2, is_free (e_loop (e_run U t l)) = false -> (forall b, ~ In (EEnd b) l2) -> let w := e_front (e_run U t l) in let w' := e_front (e_run U t (l ++ l2)) in
  stands_still (w_client U t w) (w_client U t w') /\ quiet w w'.
Proof. exact busy_run. Qed.
Print Assumptions C118_others_stand_still_refuted.
(** What holds: callers see nothing that they could not see if the callbacks made no calls and others made them instead
    (so C69-C74 hold here too), ... *)
Theorem C118_as_from_outside_partial : forall U t l, exists l', e_front (e_run U t l) = w_run U t l' /\ part_of l' (concat (map plain l)).
Proof. exact simulated. Qed.
Print Assumptions C118_as_from_outside_partial.
(** ... and the loop gets free again, as soon as the time of the call is over and the callback returns, unless a
    callback has ended it before (C122). Missing: calls that wait for their result inside a callback. *)
Theorem C118_loop_gets_free_partial : forall U t l, e_loop (e_run U t l) <> Gone -> exists l2, List.length l2 <= 2 /\ e_loop (e_run U t (l ++ l2)) = Free.
Proof. exact gets_free. Qed.
Print Assumptions C118_loop_gets_free_partial.
(** What others do meanwhile is not held up: calls are made, cancelled and given up, and the servers go on. *)
Theorem C118_elsewhere_goes_on : forall U t l o, elsewhere o -> e_front (e_run U t (l ++ [EOut o])) = w_step U t o (e_front (e_run U t l)).
Proof. exact elsewhere_goes. Qed.
Print Assumptions C118_elsewhere_goes_on.
(** The loop is taken by a callback exactly when it calls one, ... *)
Theorem C118_taken_by_callback : forall U t l o j, is_free (e_loop (e_run U t l)) = true -> let s := e_run U t l in let s' := e_run U t (l ++ [EOut o]) in
  e_loop s' = InCallback j <-> exists v, w_log (e_front s') = w_log (e_front s) ++ [ECallback j v].
Proof. exact callback_holds. Qed.
Print Assumptions C118_taken_by_callback.
(** ... it is given back, or ends, exactly when the callback ends; of the calls that the callback makes only an invoke_sync that
    does not end at once holds it up, ... *)
Theorem C118_held_by_callback : forall U t l o j, e_loop (e_run U t l) = InCallback j -> let s := e_run U t l in
  e_loop (e_run U t (l ++ [o])) = match o with
  | EEnd stops => if stops then Gone else Free
  | EAct ASync d rid addr => if over (List.length (w_calls (e_front s))) (e_front (e_run U t (l ++ [o]))) then InCallback j else Blocked j (List.length (w_calls (e_front s)))
  | _ => InCallback j
  end.
Proof. exact callback_goes_on. Qed.
Print Assumptions C118_held_by_callback.
(** ... and only until it ends *)
Theorem C118_held_by_call : forall U t l o j i, e_loop (e_run U t l) = Blocked j i ->
  e_loop (e_run U t (l ++ [o])) = if over i (e_front (e_run U t (l ++ [o]))) then InCallback j else Blocked j i.
Proof. exact blocked_until. Qed.
Print Assumptions C118_held_by_call.

(** call 0 is answered and its callback runs in the loop; call 1 is answered too, but the loop does not get to it before
    the invoke_sync of the callback (call 2) is over *)
Definition e118 : list cbstep := map EOut (f69 ++ [WSettle 0]) ++ [EAct ASync d8 9 (Ok 1%Z)].
Definition run118 (l : list cbstep) : cbst := e_run ascii_tables M_AioClient.NoTimer l.
Example C118_case : sync_in_callback ascii_tables M_AioClient.NoTimer e118 2 d8 9 /\ e_loop (run118 e118) = Blocked 0 2 /\ callbacks 0 (e_front (run118 e118)) = [PBytes (bytes_lit "hihi")] /\
  outcomes 1 (e_front (run118 (e118 ++ map EOut [WSettle 1; WReturn 1]))) = [] /\
  (let s := run118 (e118 ++ [EOut (WLate 2); EEnd false] ++ map EOut [WSettle 1; WReturn 1]) in e_loop s = Free /\ outcomes 1 (e_front s) = [Ok (PBytes (bytes_lit "yoyo"))] /\ outcomes 2 (e_front s) = [Raise TimeoutError]).
Proof.
  split; [exists (map EOut (f69 ++ [WSettle 0])), [], 0, (Ok 1%Z); split; [reflexivity|]; split; vm_compute; reflexivity|]. split; [vm_compute; reflexivity|]. split; [vm_compute; reflexivity|]. split; [vm_compute; reflexivity|]. cbv zeta. split; [vm_compute; reflexivity|]. split; vm_compute; reflexivity.
Qed.
(** invoke_async in a callback: the call gets on once the callback has returned *)
Example C118_async_case : let s := run118 (map EOut (f69 ++ [WSettle 0]) ++ [EAct (AAsync true) d7 9 (Ok 1%Z); EOut (WSys (YClient (M_AioClient.Run 2))); EEnd false; EOut (WSys (YClient (M_AioClient.Run 2)))]) in
  e_loop s = Free /\ (match nth_error (M_AioClient.s_tasks (w_client ascii_tables M_AioClient.NoTimer (e_front s))) 2 with Some k => M_AioClient.t_pc k = M_AioClient.Drain1 3 0 | None => False end).
Proof. vm_compute. split; reflexivity. Qed.

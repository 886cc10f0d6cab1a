(** Property theorems C122: callbacks of invoke_async that raise (M_Callback). [EEnd true]: the callback that is running
    raises SystemExit or KeyboardInterrupt; [EEnd false]: it returns or raises an Exception. *)
From Coq Require Import Strings.String.
From Verif Require Import PyBase PyDict PyInt Struct M_SofaHeader M_Package M_RpcId M_Trace M_AioServer S_Server M_System S_System L_System M_Front S_Front M_Callback S_Callback L_ClientGone P_System P_Front P_Callback.
From Verif Require M_AioClient.
Open Scope nat_scope.

(** ** C122. False of this code: once a callback has raised SystemExit nothing of the client ever happens again: nothing
    is written or read, no callback is called, no outcome is passed on to a caller who did not have it, ... *)
Theorem C122_client_gone_refuted : forall U t l j l2, e_loop (e_run U t l) = InCallback j -> let w := e_front (e_run U t l) in let w' := e_front (e_run U t (l ++ EEnd true :: l2)) in
  stands_still (w_client U t w) (w_client U t w') /\ quiet w w'.
Proof. exact client_gone. Qed.
Print Assumptions C122_client_gone_refuted.
(** ... and an invoke_sync made afterwards, by whomever, ends in TimeoutError or not at all *)
Theorem C122_later_calls_refuted : forall U t l j l2 i d rid, e_loop (e_run U t l) = InCallback j -> sync_after U t (l ++ [EEnd true]) l2 i d rid ->
  is_number (y_timeout d) = true -> (exists p, y_request (entry_call ASync d) rid = Ok p) ->
  let w := e_front (e_run U t ((l ++ [EEnd true]) ++ l2)) in outcomes i w = [] \/ outcomes i w = [Raise TimeoutError].
Proof. intros U t l j l2 i d rid E. exact (sync_after_gone U t (l ++ [EEnd true]) l2 i d rid (raises_gone U t l j E)). Qed.
Print Assumptions C122_later_calls_refuted.
(** What holds: nothing else ends the client, in particular no callback that raises an Exception, ... *)
Theorem C122_only_then_partial : forall U t l, e_loop (e_run U t l) = Gone -> exists l1 j l2, l = l1 ++ EEnd true :: l2 /\ e_loop (e_run U t l1) = InCallback j.
Proof. exact gone_because. Qed.
Print Assumptions C122_only_then_partial.
(** ... and the call whose callback it was is answered. Missing: the other calls. *)
Theorem C122_own_call_partial : forall U t l j, e_loop (e_run U t l) = InCallback j -> exists v, In (ECallback j v) (w_log (e_front (e_run U t l))).
Proof. intros U t l j E. apply called_run. rewrite E. reflexivity. Qed.
Print Assumptions C122_own_call_partial.

(** call 0 is answered and its callback runs; call 1 is answered too. If the callback of call 0 raises SystemExit, call 1
    and a later call 2 end in TimeoutError; if it raises ValueError, call 1 returns its value *)
Definition before122 : list cbstep := map EOut (f69 ++ [WSettle 0]).
Definition after122 : list cbstep := map EOut [WSettle 1; WReturn 1; WLate 1; WInvoke ASync d8 9 (Ok 1%Z); WSys (YClient (M_AioClient.Run 2)); WLate 2].
Example C122_case : e_loop (run118 before122) = InCallback 0 /\
  (let s := run118 (before122 ++ EEnd true :: after122) in e_loop s = Gone /\ outcomes 1 (e_front s) = [Raise TimeoutError] /\ outcomes 2 (e_front s) = [Raise TimeoutError]) /\
  (let s := run118 (before122 ++ EEnd false :: after122) in e_loop s = Free /\ outcomes 1 (e_front s) = [Ok (PBytes (bytes_lit "yoyo"))]) /\
  sync_after ascii_tables M_AioClient.NoTimer (before122 ++ [EEnd true]) after122 2 d8 9 /\ is_number (y_timeout d8) = true /\ (exists p, y_request (entry_call ASync d8) 9 = Ok p).
Proof.
  split; [vm_compute; reflexivity|]. split; [cbv zeta; split; [vm_compute; reflexivity|split; vm_compute; reflexivity]|]. split; [cbv zeta; split; vm_compute; reflexivity|].
  split; [exists (map EOut [WSettle 1; WReturn 1; WLate 1]), (map EOut [WSys (YClient (M_AioClient.Run 2)); WLate 2]), (Ok 1%Z); split; [reflexivity|vm_compute; reflexivity]|]. split; [reflexivity|]. eexists. vm_compute. reflexivity.
Qed.

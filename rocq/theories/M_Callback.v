(** Model of who runs the callbacks of invoke_async: anthunder/client/aio_client.py:92-118 on top of M_Front. A callback
    added to a future that is not done yet (line 102) runs in the thread that settles the future, which is the thread of
    the event loop (lines 59-64): until it returns, no coroutine of the client runs and nothing that arrives is read.
    While it runs it may itself call the client (lines 74-104); invoke_sync then waits, in the thread of the loop, for its
    future (line 86).
    A callback that raises an Exception has ended (the future logs it). One that raises SystemExit or KeyboardInterrupt
    takes the loop with it: neither the future nor asyncio catches these, so run_forever (line 62) ends, and with it the
    thread; nobody starts it again, while the entry points still queue their coroutines for it. (Since Python 3.8 asyncio
    logs any other exception that is not an Exception; before, they do the same as SystemExit.)
    Simplifications: a callback makes its calls and ends, what else it does does not matter here; [EEarly] (the future
    was done before the callback was added, which then runs in the caller's thread, between lines 100 and 103) may occur
    for any call. Cancelling a future with a callback calls nothing (lines 113-115). *)
From Verif Require Import PyBase PyDict PyInt M_SofaHeader M_Package M_RpcId M_Trace M_AioServer M_System M_Front.
From Verif Require M_AioClient.
Open Scope nat_scope.

(** the thread of the loop: running coroutines; in the callback of call j; in it, inside invoke_sync, call i; ended *)
Inductive owner := Free | InCallback (j : nat) | Blocked (j i : nat) | Gone.
Record cbst := { e_front : front; e_loop : owner }.
Definition e_init : cbst := {| e_front := w_init; e_loop := Free |}.

Inductive cbstep :=
| EOut (o : fstep)                                          (* a step of M_Front *)
| EEarly (j : nat)                                          (* the callback of call j runs in the thread of its caller *)
| EAct (k : api) (d : ycall) (rid : Z) (addr : res Z)       (* the callback being run calls the client *)
| EEnd (stops : bool).                                      (* the callback being run returns or raises; [stops]: it
                                                               raises SystemExit or KeyboardInterrupt *)

(** the steps that are done by the thread of the loop: all of the client's coroutines, its sockets and its futures; not
    those of the servers and of the network towards them, nor those of the callers *)
Definition by_loop (o : fstep) : bool :=
  match o with
  | WSettle _ => true
  | WSys (YServer _ _) | WSys (YUp _ _) => false
  | WSys _ => true
  | _ => false
  end.
Definition is_free (x : owner) : bool := match x with Free => true | _ => false end.
Definition over (i : nat) (w : front) : bool := match nth_error (w_calls w) i with Some c => f_over c | None => true end.
(** the loop after a step that led from w to w' *)
Definition loop_after (o : fstep) (w w' : front) (x : owner) : owner :=
  match x with
  | Free => match o with
            | WSettle j => match skipn (List.length (w_log w)) (w_log w') with [] => Free | _ => InCallback j end     (* line 116 *)
            | _ => Free
            end
  | Blocked j i => if over i w' then InCallback j else Blocked j i                                                   (* lines 86-90 *)
  | InCallback j => InCallback j
  | Gone => Gone
  end.

Definition e_step (U : tables) (t : M_AioClient.timer) (o : cbstep) (s : cbst) : cbst :=
  match o with
  | EOut o =>
      if by_loop o && negb (is_free (e_loop s)) then s
      else let w' := w_step U t o (e_front s) in {| e_front := w'; e_loop := loop_after o (e_front s) w' (e_loop s) |}
  | EEarly j => if is_free (e_loop s) then {| e_front := w_step U t (WSettle j) (e_front s); e_loop := Free |} else s
  | EAct k d rid addr =>
      match e_loop s with
      | InCallback j =>
          let i := List.length (w_calls (e_front s)) in
          let w' := w_step U t (WInvoke k d rid addr) (e_front s) in
          {| e_front := w'; e_loop := match k with ASync => if over i w' then InCallback j else Blocked j i | _ => InCallback j end |}
      | _ => s
      end
  | EEnd stops => match e_loop s with InCallback _ => {| e_front := e_front s; e_loop := if stops then Gone else Free |} | _ => s end
  end.
Definition e_run (U : tables) (t : M_AioClient.timer) (l : list cbstep) : cbst := fold_left (fun s o => e_step U t o s) l e_init.

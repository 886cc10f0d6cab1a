(** Model of what becomes of the asyncio listener when a method raises something that is not an Exception:
    anthunder/listener/aio_listener.py:70, 108-114, 150-165, on top of M_Listener. The executor keeps whatever the method
    raised in the future of the call; the coroutine that awaits it (line 156) gets it. [except Exception] (line 161) does
    not catch it, so the coroutine ends without an answer. If it is SystemExit or KeyboardInterrupt, asyncio lets it
    through: run_forever (line 114) ends with it, and no coroutine of the listener ever runs again; its sockets stay as
    they are. StopIteration, which is an Exception, is a case of its own: an asyncio future refuses it (set_exception raises
    TypeError, which the loop logs), so the future that line 156 awaits stays pending, for ever or until wait_for gives up.
    (So in the versions of Python that the project is tested with, 3.5 to 3.9; later ones turn it into RuntimeError.)
    Nobody awaits the future of a one-way call (lines 150-152), nor that of a call that has timed out.
    Simplification: service classes (line 68, which run in the loop) raise Exceptions only, as in M_AioServer. *)
From Verif Require Import PyBase PyDict PyInt M_RpcId M_Trace M_AioServer M_Listener.
Open Scope nat_scope.

(** [Stops]: SystemExit, KeyboardInterrupt; [Passes]: any other BaseException that is not an Exception (GeneratorExit);
    [Lost]: StopIteration *)
Inductive base_exn := Stops | Passes | Lost.
Record xst := {
  x_l : lst;
  x_raised : list (nat * nat * base_exn);   (* calls that ended so: connection, number of the job *)
  x_gone : list (nat * nat);                (* coroutines that ended so: connection, number of the task *)
  x_dead : bool                             (* run_forever has ended *)
}.
Definition x_init (reg : registry) : xst := {| x_l := linit reg; x_raised := []; x_gone := []; x_dead := false |}.

Inductive xstep :=
| XStep (o : lstep)
| XRaise (c j : nat) (b : base_exn).        (* the method of job j on connection c raises b *)

(** done by the thread of the loop; the others are the worker threads and whoever registers a service *)
Definition by_loop (o : lstep) : bool := match o with LRegister _ _ | LTake | LConn _ (JobEnd _ _) => false | _ => true end.
(** the coroutine that a step runs *)
Definition runs_task (o : lstep) : option (nat * nat) := match o with LConn c (Dispatch i _) | LConn c (Drain i _) | LConn c (Result i) | LConn c (Expire i) => Some (c, i) | _ => None end.
Definition same (p q : nat * nat) : bool := Nat.eqb (fst p) (fst q) && Nat.eqb (snd p) (snd q).
Definition is_gone (o : lstep) (s : xst) : bool := match runs_task o with Some p => existsb (same p) (x_gone s) | None => false end.
Definition raised (c j : nat) (s : xst) : option base_exn := option_map snd (find (fun x => same (c, j) (fst x)) (x_raised s)).
(** what the coroutine gets that a step wakes up with the result of its job *)
Definition gets (o : lstep) (s : xst) : option (nat * nat * base_exn) :=
  match o with
  | LConn c (Result i) =>
      match nth_error (n_conns (x_l s)) c with
      | Some k => match nth_error (v_tasks k) i with
                  | Some t => match a_pc t, a_req t with TWait j, Some _ => option_map (fun b => (c, i, b)) (raised c j s) | _, _ => None end
                  | None => None
                  end
      | None => None
      end
  | _ => None
  end.

Definition x_step (U : tables) (o : xstep) (s : xst) : xst :=
  match o with
  | XStep o =>
      if (x_dead s && by_loop o) || is_gone o s then s
      else match gets o s with
           | Some (_, _, Stops) => {| x_l := x_l s; x_raised := x_raised s; x_gone := x_gone s; x_dead := true |}
           | Some (c, i, Passes) => {| x_l := x_l s; x_raised := x_raised s; x_gone := (c, i) :: x_gone s; x_dead := x_dead s |}
           | Some (_, _, Lost) => s
           | None => {| x_l := lrun_step U o (x_l s); x_raised := x_raised s; x_gone := x_gone s; x_dead := x_dead s |}
           end
  | XRaise c j b =>
      let running := match nth_error (n_conns (x_l s)) c with
                     | Some k => match option_map j_state (nth_error (v_jobs k) j) with Some JRunning => true | _ => false end
                     | None => false
                     end in
      {| x_l := lrun_step U (LConn c (JobEnd j (Raise OtherError))) (x_l s);
         x_raised := if running then (c, j, b) :: x_raised s else x_raised s; x_gone := x_gone s; x_dead := x_dead s |}
  end.
Definition x_run (U : tables) (reg : registry) (l : list xstep) : xst := fold_left (fun s o => x_step U o s) l (x_init reg).

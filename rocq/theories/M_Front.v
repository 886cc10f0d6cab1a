(** Model of the three entry points of the asyncio client as its callers see them: anthunder/client/aio_client.py:74-118,
    on top of the coroutines of M_AioClient, inside the system of M_System. The caller's thread and the event loop
    meet in a concurrent.futures.Future, made by asyncio.run_coroutine_threadsafe; what happens to it is given by
    the steps: the loop tells it how the coroutine ended, its owner cancels it, the time the caller is willing to
    wait is over, the caller's thread runs.
    Simplifications: a timeout too large for a Python float or for a lock raises OverflowError in Python, here it is
    like any other. A callback that raises is logged by the future and has no other effect: what it does with its
    argument is not modelled. *)
From Verif Require Import PyBase PyDict Struct PyInt M_SofaHeader M_Package M_RpcId M_Trace M_AioServer M_System.
From Verif Require M_AioClient.

(** invoke_sync (line 79); invoke_async with or without a callable callback (line 92); invoke_oneway (line 74) *)
Inductive api := ASync | AAsync (callback : bool) | AOneway.

(** the future of a call; FNone: the entry point raised before there was one *)
Inductive future := FNone | FPending | FCancelled | FDone (r : M_AioClient.ret).

(** a call: which entry point, its coroutine, its future; [f_over]: the entry point has returned or raised *)
Record fcall := { f_api : api; f_task : nat; f_fut : future; f_over : bool }.

(** what can be observed of call j: invoke_sync returns or raises (another entry point raises); its callback is called
    with a value; timeout_ms have passed *)
Inductive fevent := EOver (j : nat) (r : res pyobj) | ECallback (j : nat) (v : pyobj) | ELate (j : nat).

Record front := { w_hist : list ystep; w_calls : list fcall; w_log : list fevent }.
Definition w_init : front := {| w_hist := []; w_calls := []; w_log := [] |}.

Definition is_number (o : pyobj) : bool := match o with PBool _ | PInt _ | PFloat _ _ => true | _ => false end.

(** the request each entry point makes: lines 76, 83, 99 *)
Definition entry_call (k : api) (d : ycall) : ycall :=
  {| y_baggage := y_baggage d; y_interface := y_interface d; y_method := y_method d; y_app := y_app d; y_uid := y_uid d; y_extra := y_extra d;
     y_content := y_content d; y_ptype := PTYPE_REQUEST;
     y_timeout := match k with ASync => y_timeout d | AAsync _ => py_or (y_timeout d) (PInt (-1)) | AOneway => PInt (-1) end |}.
(** line 81 *)
Definition entry_ok (k : api) (d : ycall) : bool := match k with ASync => is_number (y_timeout d) | _ => true end.
(** line 102: timeout_ms / 1000, evaluated after the coroutine has been started *)
Definition callback_ok (k : api) (d : ycall) : bool :=
  match k with AAsync true => negb (truthy (y_timeout d)) || is_number (y_timeout d) | _ => true end.

(** lines 109-116 run when the future is done; the future's result(timeout) does not wait then *)
Definition callback_wrapper (k : api) (j : nat) (u : future) : list fevent :=
  match k, u with
  | AAsync true, FDone (M_AioClient.RetPkg p) => [ECallback j (p_content p)]   (* line 116 *)
  | _, _ => []      (* cancelled: lines 113-115; any other exception, and None.content, leave the callback uncalled *)
  end.
(** Future.result(timeout) of a future that is done, and line 90; None while it is not done *)
Definition result_now (u : future) : option (res pyobj) :=
  match u with FDone r => Some (M_AioClient.caller_sees r) | FCancelled => Some (Raise CancelledError) | _ => None end.
(** how the future of a coroutine that ended with r ends: a cancelled task cancels it *)
Definition future_of (r : M_AioClient.ret) : future := match r with M_AioClient.RetErr CancelledError => FCancelled | _ => FDone r end.

Inductive fstep :=
| WInvoke (k : api) (d : ycall) (rid : Z) (addr : res Z)
| WSys (o : ystep)           (* any step of the system other than a new call *)
| WSettle (j : nat)          (* the loop passes the outcome of the coroutine on to the future of call j *)
| WCancel (j : nat)          (* the owner of the future returned by invoke_async cancels it *)
| WLate (j : nat)            (* timeout_ms have passed *)
| WReturn (j : nat).         (* the thread blocked in invoke_sync sees that the future is done *)

Definition w_client (U : tables) (t : M_AioClient.timer) (w : front) : M_AioClient.st := y_client t (y_run U t (w_hist w)).
Definition set_call (j : nat) (f : fcall -> fcall) (evs : list fevent) (w : front) : front :=
  {| w_hist := w_hist w; w_calls := upd j f (w_calls w); w_log := w_log w ++ evs |}.
Definition with_fut (u : future) (c : fcall) : fcall := {| f_api := f_api c; f_task := f_task c; f_fut := u; f_over := f_over c |}.
Definition mark_over (c : fcall) : fcall := {| f_api := f_api c; f_task := f_task c; f_fut := f_fut c; f_over := true |}.
Definition add_call (c : fcall) (h : list ystep) (evs : list fevent) (w : front) : front :=
  {| w_hist := w_hist w ++ h; w_calls := w_calls w ++ [c]; w_log := w_log w ++ evs |}.

Definition w_step (U : tables) (t : M_AioClient.timer) (o : fstep) (w : front) : front :=
  match o with
  | WInvoke k d rid addr =>
      let j := List.length (w_calls w) in
      if entry_ok k d then
        match y_request (entry_call k d) rid with
        | Raise e => add_call {| f_api := k; f_task := 0; f_fut := FNone; f_over := true |} [] [EOver j (Raise e)] w
        | Ok _ =>
            let i := List.length (M_AioClient.s_tasks (w_client U t w)) in
            if callback_ok k d then add_call {| f_api := k; f_task := i; f_fut := FPending; f_over := false |} [YCall (entry_call k d) rid addr] [] w
            else add_call {| f_api := AAsync false; f_task := i; f_fut := FPending; f_over := true |} [YCall (entry_call k d) rid addr] [EOver j (Raise TypeError)] w
        end
      else add_call {| f_api := k; f_task := 0; f_fut := FNone; f_over := true |} [] [EOver j (Raise AssertionError)] w
  | WSys o => match o with YCall _ _ _ => w | _ => {| w_hist := w_hist w ++ [o]; w_calls := w_calls w; w_log := w_log w |} end
  | WSettle j =>
      match nth_error (w_calls w) j with
      | Some c =>
          match f_fut c, nth_error (M_AioClient.s_tasks (w_client U t w)) (f_task c) with
          | FPending, Some tk =>
              match M_AioClient.t_pc tk with
              | M_AioClient.Done r => set_call j (with_fut (future_of r)) (callback_wrapper (f_api c) j (future_of r)) w
              | _ => w
              end
          | _, _ => w
          end
      | None => w
      end
  | WCancel j =>
      match nth_error (w_calls w) j with
      | Some c =>
          match f_api c, f_fut c with
          | AAsync _, FPending => set_call j (with_fut FCancelled) (callback_wrapper (f_api c) j FCancelled) w
          | _, _ => w
          end
      | None => w
      end
  | WLate j =>
      match nth_error (w_calls w) j with
      | Some c =>
          match f_api c, f_over c with
          | ASync, false => set_call j mark_over [ELate j; EOver j (match result_now (f_fut c) with Some r => r | None => Raise TimeoutError end)] w   (* lines 86-89 *)
          | _, _ => set_call j (fun c => c) [ELate j] w
          end
      | None => w
      end
  | WReturn j =>
      match nth_error (w_calls w) j with
      | Some c =>
          match f_api c, f_over c, result_now (f_fut c) with
          | ASync, false, Some r => set_call j mark_over [EOver j r] w                   (* lines 86, 90 *)
          | _, _, _ => w
          end
      | None => w
      end
  end.
Definition w_run (U : tables) (t : M_AioClient.timer) (l : list fstep) : front := fold_left (fun w o => w_step U t o w) l w_init.

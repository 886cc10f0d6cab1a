(** Model of anthunder/client/aio_client.py: the asyncio client as a step machine. One step runs one coroutine
    from one await to the next (asyncio runs nothing else in between); which coroutine runs, what the network
    does and who is cancelled is given by the list of steps. An await may or may not suspend: it always ends a
    step here, and the next step of the same coroutine may follow at once, so both cases are covered.
    Cancellation is that of Python >= 3.8: CancelledError is not an Exception.
    Connections, locks, asyncio.Events and tasks are named by their number in the order of creation. *)
From Verif Require Import PyBase PyDict Struct M_SofaHeader M_Package.

(** what a coroutine [invoke] ended with: aio_client.py:162-175 *)
Inductive ret := RetNone | RetPkg (p : pkg) | RetErr (e : exn).

(** where a coroutine [invoke] stands. [n] is the argument [retry] of the current [_send]. *)
Inductive pc :=
| Start                       (* not run yet *)
| WaitLock (n l : nat)        (* line 151: acquiring the lock l *)
| Dialing (n l : nat)         (* line 155: open_connection, holding l *)
| Drain1 (n c : nat)          (* line 191 *)
| Drain2 (n c : nat)          (* line 193 *)
| WaitResp (ev : nat)         (* line 174: event.wait() *)
| Done (r : ret).

(** [t_addr]: what line 167 yields; a Python exception when the service is unknown (KeyError ...) *)
Record task := { t_req : pkg; t_addr : res Z; t_pc : pc }.

(** the coroutine [_recv_response] of a connection, lines 220-260 *)
Inductive reader :=
| RdNew                                       (* the task has not run yet *)
| RdHead                                      (* line 229 *)
| RdBody (fixed : bytes) (h : bolt_headers) (size : Z)   (* line 231; fixed: the bytes read at line 229 *)
| RdDone.
(** a connection: the bytes received and not consumed yet, end of stream or error seen by the StreamReader,
    cancellation requested; [k_closed]: writer.close() was called. Not in the code, for stating properties:
    [k_frames], the frames consumed so far, and [k_in], all bytes received so far. *)
Record link := { k_addr : Z; k_buf : bytes; k_eof : bool; k_exn : bool; k_rd : reader; k_cancel : bool; k_closed : bool; k_frames : list bytes; k_in : bytes }.

(** the heartbeat coroutine, lines 121-125: sleeping, or in the invoke of task i, or ended by an exception *)
Inductive timer := NoTimer | Sleeping (a : Z) | InBeat (a : Z) (i : nat) | Dead.

Record st := {
  s_req : dict Z nat;              (* request_mapping: request id -> event *)
  s_resp : dict Z pkg;             (* response_mapping *)
  s_conn : dict Z nat;             (* connection_mapping: address -> connection *)
  s_dial : dict Z nat;             (* _pending_dial: address -> lock *)
  s_locks : list bool;             (* held? *)
  s_events : list bool;            (* set? *)
  s_links : list link;
  s_tasks : list task;
  s_written : list (nat * bytes);  (* the writer.write calls *)
  s_timer : timer
}.
Definition init (t : timer) : st :=
  {| s_req := []; s_resp := []; s_conn := []; s_dial := []; s_locks := []; s_events := []; s_links := []; s_tasks := []; s_written := []; s_timer := t |}.

Fixpoint upd {A} (i : nat) (f : A -> A) (l : list A) : list A :=
  match l, i with
  | [], _ => []
  | x :: r, O => f x :: r
  | x :: r, S j => x :: upd j f r
  end.

Definition set_req (s : st) d := {| s_req := d; s_resp := s_resp s; s_conn := s_conn s; s_dial := s_dial s; s_locks := s_locks s; s_events := s_events s; s_links := s_links s; s_tasks := s_tasks s; s_written := s_written s; s_timer := s_timer s |}.
Definition set_resp (s : st) d := {| s_req := s_req s; s_resp := d; s_conn := s_conn s; s_dial := s_dial s; s_locks := s_locks s; s_events := s_events s; s_links := s_links s; s_tasks := s_tasks s; s_written := s_written s; s_timer := s_timer s |}.
Definition set_conn (s : st) d := {| s_req := s_req s; s_resp := s_resp s; s_conn := d; s_dial := s_dial s; s_locks := s_locks s; s_events := s_events s; s_links := s_links s; s_tasks := s_tasks s; s_written := s_written s; s_timer := s_timer s |}.
Definition set_dial (s : st) d l := {| s_req := s_req s; s_resp := s_resp s; s_conn := s_conn s; s_dial := d; s_locks := l; s_events := s_events s; s_links := s_links s; s_tasks := s_tasks s; s_written := s_written s; s_timer := s_timer s |}.
Definition set_events (s : st) d := {| s_req := s_req s; s_resp := s_resp s; s_conn := s_conn s; s_dial := s_dial s; s_locks := s_locks s; s_events := d; s_links := s_links s; s_tasks := s_tasks s; s_written := s_written s; s_timer := s_timer s |}.
Definition set_links (s : st) d := {| s_req := s_req s; s_resp := s_resp s; s_conn := s_conn s; s_dial := s_dial s; s_locks := s_locks s; s_events := s_events s; s_links := d; s_tasks := s_tasks s; s_written := s_written s; s_timer := s_timer s |}.
Definition set_tasks (s : st) d := {| s_req := s_req s; s_resp := s_resp s; s_conn := s_conn s; s_dial := s_dial s; s_locks := s_locks s; s_events := s_events s; s_links := s_links s; s_tasks := d; s_written := s_written s; s_timer := s_timer s |}.
Definition set_written (s : st) d := {| s_req := s_req s; s_resp := s_resp s; s_conn := s_conn s; s_dial := s_dial s; s_locks := s_locks s; s_events := s_events s; s_links := s_links s; s_tasks := s_tasks s; s_written := d; s_timer := s_timer s |}.
Definition set_timer (s : st) t := {| s_req := s_req s; s_resp := s_resp s; s_conn := s_conn s; s_dial := s_dial s; s_locks := s_locks s; s_events := s_events s; s_links := s_links s; s_tasks := s_tasks s; s_written := s_written s; s_timer := t |}.

Definition at_pc (p : pc) (t : task) : task := {| t_req := t_req t; t_addr := t_addr t; t_pc := p |}.
Definition goto (i : nat) (p : pc) (s : st) : st := set_tasks s (upd i (at_pc p) (s_tasks s)).
Definition set_lock (l : nat) (b : bool) (s : st) : st := set_dial s (s_dial s) (upd l (fun _ => b) (s_locks s)).

(** the key used in the mappings; request ids are ints *)
Definition rid_of (p : pkg) : Z := match int_value (p_request_id p) with Some r => r | None => 0 end.

(** lines 205-212: pop the event (KeyError when it is gone) and return None *)
Definition abandon (i : nat) (rid : Z) (s : st) : st :=
  if dmem rid (s_req s) then goto i (Done RetNone) (set_req s (ddel rid (s_req s))) else goto i (Done (RetErr KeyError)) s.

(** [_send(n)] (lines 186-191) up to the first await *)
Definition enter_send (i : nat) (rid : Z) (a : Z) (n : nat) (s : st) : st :=
  match n with
  | O => abandon i rid s                                                   (* lines 187-188 *)
  | S _ =>
      match dget a (s_conn s) with
      | Some c => goto i (Drain1 n c) s                                    (* lines 148-149 *)
      | None =>
          match dget a (s_dial s) with                                     (* line 151 *)
          | Some l => goto i (WaitLock n l) s
          | None => let l := List.length (s_locks s) in goto i (WaitLock n l) (set_dial s (dset a l (s_dial s)) (s_locks s ++ [false]))
          end
      end
  end.

(** readtask.cancel() *)
Definition cancel_reader (c : nat) (s : st) : st :=
  set_links s (upd c (fun k => {| k_addr := k_addr k; k_buf := k_buf k; k_eof := k_eof k; k_exn := k_exn k; k_rd := k_rd k; k_cancel := true; k_closed := k_closed k; k_frames := k_frames k; k_in := k_in k |}) (s_links s)).

(** lines 194-199, with the handlers of lines 205-212 for the KeyError of a failing pop *)
Definition send_failed (i : nat) (rid : Z) (a : Z) (n c : nat) (s : st) : st :=
  let s := cancel_reader c s in
  if dmem a (s_conn s) then
    let s := set_conn s (ddel a (s_conn s)) in
    if dmem a (s_dial s) then enter_send i rid a (pred n) (set_dial s (ddel a (s_dial s)) (s_locks s))
    else abandon i rid s
  else abandon i rid s.

(** lines 214-218 and the end of invoke: lines 171-174 *)
Definition sent (i : nat) (req : pkg) (s : st) : st :=
  let rid := rid_of req in
  match dget rid (s_req s) with
  | Some ev => if p_ptype req =? PTYPE_ONEWAY then goto i (Done RetNone) (set_req s (ddel rid (s_req s))) else goto i (WaitResp ev) s
  | None => goto i (Done (RetErr KeyError)) s
  end.

(** the finally clause, lines 256-260 *)
Definition wake (rid : Z) (s : st) : st :=
  match dget rid (s_req s) with
  | Some ev => set_events (set_req s (ddel rid (s_req s))) (upd ev (fun _ => true) (s_events s))
  | None => s
  end.

(** lines 232-260 for the package decoded from a frame; the test on class_name compares a class attribute with
    itself. cmdcode is one of 0 (HEARTBEAT), 1 (REQUEST), 2 (RESPONSE). *)
Definition deliver (p : pkg) (s : st) : st :=
  let rid := rid_of p in
  if p_cmdcode p =? CMDCODE_HEARTBEAT then wake rid s
  else if p_cmdcode p =? CMDCODE_REQUEST then wake rid s
  else if negb (p_respstatus p =? ST_SUCCESS) then wake rid s
  else if dmem rid (s_req s) then wake rid (set_resp s (dset rid p (s_resp s)))
  else wake rid s.
Definition process (h : bolt_headers) (bs : bytes) (s : st) : st :=
  match bolt_content_from_stream BoltResponse bs h with
  | Ok p => deliver p s
  | Raise _ => s                          (* DecodeError is a PyboltError: lines 246-247, pkg is None *)
  end.

Definition set_link (c : nat) (k : link) (s : st) : st := set_links s (upd c (fun _ => k) (s_links s)).
Definition rd_goto (k : link) r := {| k_addr := k_addr k; k_buf := k_buf k; k_eof := k_eof k; k_exn := k_exn k; k_rd := r; k_cancel := k_cancel k; k_closed := k_closed k; k_frames := k_frames k; k_in := k_in k |}.
(** lines 248-255: writer.close(); break *)
Definition rd_close (k : link) := {| k_addr := k_addr k; k_buf := k_buf k; k_eof := k_eof k; k_exn := k_exn k; k_rd := RdDone; k_cancel := k_cancel k; k_closed := true; k_frames := k_frames k; k_in := k_in k |}.
Definition rd_take (k : link) (n : Z) r fs := {| k_addr := k_addr k; k_buf := py_drop n (k_buf k); k_eof := k_eof k; k_exn := k_exn k; k_rd := r; k_cancel := k_cancel k; k_closed := k_closed k; k_frames := k_frames k ++ fs; k_in := k_in k |}.

(** one run of the reader of connection c; nothing happens while the bytes it waits for are not there *)
Definition body_size (h : bolt_headers) : Z :=
  match bh_int f_class_len h, bh_int f_header_len h, bh_int f_content_len h with
  | Ok a, Ok b, Ok c => a + b + c
  | _, _, _ => 0
  end.
Definition read (c : nat) (s : st) : st :=
  match nth_error (s_links s) c with
  | None => s
  | Some k =>
      match k_rd k with
      | RdDone => s
      | RdNew => set_link c (rd_goto k (if k_cancel k then RdDone else RdHead)) s
      | RdHead =>
          if k_cancel k || k_exn k then set_link c (rd_close k) s
          else if bolt_header_size BoltResponse <=? len (k_buf k) then
            let fixed := py_take (bolt_header_size BoltResponse) (k_buf k) in
            match bolt_header_from_stream BoltResponse fixed with
            | Ok h => set_link c (rd_take k (bolt_header_size BoltResponse) (RdBody fixed h (body_size h)) []) s
            | Raise _ => set_link c (rd_take k (bolt_header_size BoltResponse) RdHead []) s
            end
          else if k_eof k then set_link c (rd_close k) s
          else s
      | RdBody fixed h n =>
          if k_cancel k || k_exn k then set_link c (rd_close k) s
          else if n <=? len (k_buf k) then
            process h (py_take n (k_buf k)) (set_link c (rd_take k n RdHead [fixed ++ py_take n (k_buf k)]) s)
          else if k_eof k then set_link c (rd_close k) s
          else s
      end
  end.

(** ** The steps *)
Inductive step :=
| Call (req : pkg) (addr : res Z)      (* run_coroutine_threadsafe(self.invoke(req)): lines 77, 84, 100 *)
| Run (i : nat)                        (* first run of the coroutine i *)
| Acquire (i : nat)                    (* coroutine i gets the lock it waits for *)
| DialOk (i : nat) | DialFail (i : nat)
| DrainOk (i : nat) | DrainFail (i : nat)
| Wake (i : nat)                       (* coroutine i runs because its event is set *)
| Cancel (i : nat)
| Feed (c : nat) (bs : bytes) | Eof (c : nat) | Reset (c : nat)   (* what arrives on connection c *)
| Read (c : nat)
| Beat (rid : Z)                       (* the timer's sleep is over; rid is next(RequestId) *)
| BeatOver.                            (* the timer resumes after its invoke has ended *)

Definition new_link (a : Z) : link := {| k_addr := a; k_buf := []; k_eof := false; k_exn := false; k_rd := RdNew; k_cancel := false; k_closed := false; k_frames := []; k_in := [] |}.
Definition call (req : pkg) (addr : res Z) (s : st) : st := set_tasks s (s_tasks s ++ [{| t_req := req; t_addr := addr; t_pc := Start |}]).
Definition on_link (c : nat) (f : link -> link) (s : st) : st := set_links s (upd c f (s_links s)).

Definition run_step (o : step) (s : st) : st :=
  match o with
  | Call req addr => call req addr s
  | Run i =>
      match nth_error (s_tasks s) i with
      | Some t =>
          match t_pc t, t_addr t with
          | Start, Raise e => goto i (Done (RetErr e)) s                     (* line 167 *)
          | Start, Ok a =>
              let rid := rid_of (t_req t) in
              enter_send i rid a 3 (set_events (set_req s (dset rid (List.length (s_events s)) (s_req s))) (s_events s ++ [false]))   (* lines 202, 204 *)
          | _, _ => s
          end
      | None => s
      end
  | Acquire i =>
      match nth_error (s_tasks s) i with
      | Some t =>
          match t_pc t, t_addr t with
          | WaitLock n l, Ok a =>
              match nth_error (s_locks s) l with
              | Some false =>
                  match dget a (s_conn s) with
                  | Some c => goto i (Drain1 n c) s                          (* lines 152-153; the lock is released *)
                  | None => goto i (Dialing n l) (set_lock l true s)
                  end
              | _ => s
              end
          | _, _ => s
          end
      | None => s
      end
  | DialOk i =>
      match nth_error (s_tasks s) i with
      | Some t =>
          match t_pc t, t_addr t with
          | Dialing n l, Ok a =>                                             (* lines 155-157 *)
              let c := List.length (s_links s) in
              let s := set_lock l false (set_links s (s_links s ++ [new_link a])) in
              let '(d, c') := dsetdefault a c (s_conn s) in
              goto i (Drain1 n c') (set_conn s d)
          | _, _ => s
          end
      | None => s
      end
  | DialFail i =>
      match nth_error (s_tasks s) i with
      | Some t => match t_pc t with
                  | Dialing n l => abandon i (rid_of (t_req t)) (set_lock l false s)   (* lines 158-160, 205-212 *)
                  | _ => s
                  end
      | None => s
      end
  | DrainOk i =>
      match nth_error (s_tasks s) i with
      | Some t =>
          match t_pc t, t_addr t with
          | Drain1 n c, Ok a =>
              match to_stream (t_req t) with
              | Ok bs => goto i (Drain2 n c) (set_written s (s_written s ++ [(c, bs)]))   (* line 192 *)
              | Raise _ => send_failed i (rid_of (t_req t)) a n c s
              end
          | Drain2 n c, _ => sent i (t_req t) s
          | _, _ => s
          end
      | None => s
      end
  | DrainFail i =>
      match nth_error (s_tasks s) i with
      | Some t =>
          match t_pc t, t_addr t with
          | Drain1 n c, Ok a | Drain2 n c, Ok a => send_failed i (rid_of (t_req t)) a n c s
          | _, _ => s
          end
      | None => s
      end
  | Wake i =>
      match nth_error (s_tasks s) i with
      | Some t =>
          match t_pc t with
          | WaitResp ev =>
              match nth_error (s_events s) ev with
              | Some true =>                                                  (* line 175 *)
                  match dget (rid_of (t_req t)) (s_resp s) with
                  | Some p => goto i (Done (RetPkg p)) (set_resp s (ddel (rid_of (t_req t)) (s_resp s)))
                  | None => goto i (Done (RetErr KeyError)) s
                  end
              | _ => s
              end
          | _ => s
          end
      | None => s
      end
  | Cancel i =>
      match nth_error (s_tasks s) i with
      | Some t =>
          match t_pc t with
          | Done _ => s
          | Dialing _ l => goto i (Done (RetErr CancelledError)) (set_lock l false s)
          | _ => goto i (Done (RetErr CancelledError)) s
          end
      | None => s
      end
  | Feed c bs => on_link c (fun k => {| k_addr := k_addr k; k_buf := k_buf k ++ bs; k_eof := k_eof k; k_exn := k_exn k; k_rd := k_rd k; k_cancel := k_cancel k; k_closed := k_closed k; k_frames := k_frames k; k_in := k_in k ++ bs |}) s
  | Eof c => on_link c (fun k => {| k_addr := k_addr k; k_buf := k_buf k; k_eof := true; k_exn := k_exn k; k_rd := k_rd k; k_cancel := k_cancel k; k_closed := k_closed k; k_frames := k_frames k; k_in := k_in k |}) s
  | Reset c => on_link c (fun k => {| k_addr := k_addr k; k_buf := k_buf k; k_eof := k_eof k; k_exn := true; k_rd := k_rd k; k_cancel := k_cancel k; k_closed := k_closed k; k_frames := k_frames k; k_in := k_in k |}) s
  | Read c => read c s
  | Beat rid =>                                                               (* lines 125, 134-135 *)
      match s_timer s with
      | Sleeping a =>
          match heartbeat_new_request rid with
          | Ok p => set_timer (call p (Ok a) s) (InBeat a (List.length (s_tasks s)))
          | Raise _ => set_timer s Dead
          end
      | _ => s
      end
  | BeatOver =>                                                               (* lines 136-143 *)
      match s_timer s with
      | InBeat a i =>
          match nth_error (s_tasks s) i with
          | Some t => match t_pc t with
                      | Done (RetPkg _) => set_timer s (Sleeping a)
                      | Done _ => set_timer s Dead                            (* None has no request_id *)
                      | _ => s
                      end
          | None => s
          end
      | _ => s
      end
  end.
Definition run (t : timer) (l : list step) : st := fold_left (fun s o => run_step o s) l (init t).

(** ** Two of the three entry points, lines 74-90; all three with their checks: [M_Front.entry_call] *)
Definition oneway_request (header : sofa_header) (content : pyobj) (rid : Z) : res pkg := new_request header content PTYPE_REQUEST (PInt (-1)) rid.
Definition sync_request (header : sofa_header) (content timeout_ms : pyobj) (rid : Z) : res pkg := new_request header content PTYPE_REQUEST timeout_ms rid.
(** lines 85-90: what the caller of invoke_sync sees once the coroutine has ended in time *)
Definition caller_sees (r : ret) : res pyobj :=
  match r with RetPkg p => Ok (p_content p) | RetNone => Raise AttributeError | RetErr e => Raise e end.

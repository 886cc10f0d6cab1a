(** Model of anthunder/listener/aio_listener.py: one connection of the asyncio listener, as a step machine.
    A step runs one coroutine from one await to the next, or is something done by the network, by a thread of
    the executor or by whoever registers interfaces; the list of steps is the schedule. Every await ends a
    step, also those that do not suspend in practice, so more interleavings are covered than can occur.
    Connections share the handler only (its registry and its executor). Here a queued job may start at any time;
    the bound of 30 worker threads and the order in which they take jobs are in M_Listener.
    The listener cancels no coroutine. *)
From Coq Require Import Strings.String.
From Verif Require Import PyBase PyDict PyInt Struct M_SofaHeader M_Package M_RpcId M_Trace.

(** ** The handler: lines 51-94 *)

(** A registered service class: what calling it with a span context raises, if anything, and the attributes
    of the object (simplification: the same for every span context). *)
Record service := { sv_raises : option exn; sv_methods : pystr -> bool }.
Definition registry := dict pystr service.

(** lines 62-72; Ok: the bound method *)
Definition find_method (reg : registry) (name method : pystr) : res unit :=
  match dget name reg with
  | None => Raise NoProcessorError
  | Some sv =>
      match sv_raises sv with
      | Some AttributeError => Raise NoProcessorError
      | Some e => Raise e
      | None => if sv_methods sv method then Ok tt else Raise NoProcessorError
      end
  end.

(** a job given to the executor, line 74: the function named by service and method, its argument and span
    context. [JEnded r]: it returned or raised; [JCancelled]: cancelled before it started *)
Inductive jstate := JQueued | JRunning | JEnded (r : res pyobj) | JCancelled.
Record job := { j_frame : nat; j_service : pystr; j_method : pystr; j_body : bytes; j_ctx : nat; j_state : jstate }.

(** ** Coroutines that answer: _dispatch and the _write_msg of a heartbeat *)
Record request := { q_type : Z; q_id : Z; q_header : sofa_header; q_body : bytes; q_timeout : Z }.
Inductive tpc :=
| TStart                     (* not run yet *)
| TWait (j : nat)            (* line 156: waiting for job j *)
| TDrain1 (bs : bytes)       (* line 176, the message in hand *)
| TDrain2                    (* line 178 *)
| TDone
| TRaised (e : exn).
(** [a_frame]: the number of the frame it answers, for stating properties; [a_req] None: a heartbeat *)
Record atask := { a_frame : nat; a_req : option request; a_pc : tpc }.

(** ** The coroutine _handler_connection: lines 180-271 *)
Inductive rpc :=
| RFixed                                                     (* line 190 *)
| RClass (h : bolt_headers)                                  (* line 204 *)
| RHead (h : bolt_headers) (class_name : bytes)              (* line 207 *)
| RBody (h : bolt_headers) (class_name : bytes) (sofa : sofa_header)   (* line 211 *)
| RFail1 (bs : bytes) | RFail2                               (* lines 231, 237: _write_msg; then continue *)
| RLast1 (status : Z)                                        (* lines 244, 261 *)
| RLast2                                                     (* lines 251, 267 *)
| REnd                                                       (* lines 254-255, 270-271: closed *)
| RDied.                                                     (* an exception in an except clause *)

(** what was found on the stream; not in the code, for stating properties *)
Inductive item :=
| IRequest (q : request)                (* dispatched *)
| IHeartbeat (id : Z)
| IBad (id status : Z)                  (* answered with an error status, the connection goes on *)
| IFatal (id : Z).                      (* answered with UNKNOWN, the connection is closed *)
Definition item_id (i : item) : Z := match i with IRequest q => q_id q | IHeartbeat id => id | IBad id _ => id | IFatal id => id end.

Record sst := {
  v_reg : registry;
  v_trace : tstate;
  v_rd : rpc;
  v_heads : list Z;                (* request ids of the headers read, the last is that of the variable [header];
                                      the code keeps the last only *)
  v_buf : bytes; v_eof : bool; v_exn : bool;        (* the StreamReader *)
  v_tasks : list atask;
  v_jobs : list job;
  v_out : list (nat * bytes);      (* what was given to the transport, with the number of the frame it is for *)
  v_closed : bool;                 (* write_eof was called: later writes raise *)
  v_items : list item;             (* ghost: what was found so far, one per header whose frame was dealt with *)
  v_in : bytes                     (* ghost: all bytes received so far *)
}.
Definition sinit (reg : registry) (tr : tstate) : sst :=
  {| v_reg := reg; v_trace := tr; v_rd := RFixed; v_heads := []; v_buf := []; v_eof := false; v_exn := false; v_tasks := []; v_jobs := []; v_out := []; v_closed := false; v_items := []; v_in := [] |}.

Fixpoint upd {A} (i : nat) (f : A -> A) (l : list A) : list A :=
  match l, i with
  | [], _ => []
  | x :: r, O => f x :: r
  | x :: r, S j => x :: upd j f r
  end.

Definition set_reg s x := {| v_reg := x; v_trace := v_trace s; v_rd := v_rd s; v_heads := v_heads s; v_buf := v_buf s; v_eof := v_eof s; v_exn := v_exn s; v_tasks := v_tasks s; v_jobs := v_jobs s; v_out := v_out s; v_closed := v_closed s; v_items := v_items s; v_in := v_in s |}.
Definition set_trace s x := {| v_reg := v_reg s; v_trace := x; v_rd := v_rd s; v_heads := v_heads s; v_buf := v_buf s; v_eof := v_eof s; v_exn := v_exn s; v_tasks := v_tasks s; v_jobs := v_jobs s; v_out := v_out s; v_closed := v_closed s; v_items := v_items s; v_in := v_in s |}.
Definition set_rd s x := {| v_reg := v_reg s; v_trace := v_trace s; v_rd := x; v_heads := v_heads s; v_buf := v_buf s; v_eof := v_eof s; v_exn := v_exn s; v_tasks := v_tasks s; v_jobs := v_jobs s; v_out := v_out s; v_closed := v_closed s; v_items := v_items s; v_in := v_in s |}.
Definition set_heads s x := {| v_reg := v_reg s; v_trace := v_trace s; v_rd := v_rd s; v_heads := x; v_buf := v_buf s; v_eof := v_eof s; v_exn := v_exn s; v_tasks := v_tasks s; v_jobs := v_jobs s; v_out := v_out s; v_closed := v_closed s; v_items := v_items s; v_in := v_in s |}.
Definition set_stream s b e x i := {| v_reg := v_reg s; v_trace := v_trace s; v_rd := v_rd s; v_heads := v_heads s; v_buf := b; v_eof := e; v_exn := x; v_tasks := v_tasks s; v_jobs := v_jobs s; v_out := v_out s; v_closed := v_closed s; v_items := v_items s; v_in := i |}.
Definition set_tasks s x := {| v_reg := v_reg s; v_trace := v_trace s; v_rd := v_rd s; v_heads := v_heads s; v_buf := v_buf s; v_eof := v_eof s; v_exn := v_exn s; v_tasks := x; v_jobs := v_jobs s; v_out := v_out s; v_closed := v_closed s; v_items := v_items s; v_in := v_in s |}.
Definition set_jobs s x := {| v_reg := v_reg s; v_trace := v_trace s; v_rd := v_rd s; v_heads := v_heads s; v_buf := v_buf s; v_eof := v_eof s; v_exn := v_exn s; v_tasks := v_tasks s; v_jobs := x; v_out := v_out s; v_closed := v_closed s; v_items := v_items s; v_in := v_in s |}.
Definition set_out s x c := {| v_reg := v_reg s; v_trace := v_trace s; v_rd := v_rd s; v_heads := v_heads s; v_buf := v_buf s; v_eof := v_eof s; v_exn := v_exn s; v_tasks := v_tasks s; v_jobs := v_jobs s; v_out := x; v_closed := c; v_items := v_items s; v_in := v_in s |}.
Definition set_items s x := {| v_reg := v_reg s; v_trace := v_trace s; v_rd := v_rd s; v_heads := v_heads s; v_buf := v_buf s; v_eof := v_eof s; v_exn := v_exn s; v_tasks := v_tasks s; v_jobs := v_jobs s; v_out := v_out s; v_closed := v_closed s; v_items := x; v_in := v_in s |}.

(** [header['request_id']]; None: NameError, no header was read yet *)
Definition last_id (s : sst) : option Z := nth_error (rev (v_heads s)) 0.
Definition take (n : Z) (s : sst) : sst := set_stream s (py_drop n (v_buf s)) (v_eof s) (v_exn s) (v_in s).
Definition with_pc (p : tpc) (t : atask) : atask := {| a_frame := a_frame t; a_req := a_req t; a_pc := p |}.
Definition tgoto (i : nat) (p : tpc) (s : sst) : sst := set_tasks s (upd i (with_pc p) (v_tasks s)).
(** asyncio.ensure_future; the frame is the one just read *)
Definition spawn (q : option request) (p : tpc) (s : sst) : sst :=
  set_tasks s (v_tasks s ++ [{| a_frame := List.length (v_heads s) - 1; a_req := q; a_pc := p |}]).
Definition set_jstate (j : nat) (x : jstate) (s : sst) : sst :=
  set_jobs s (upd j (fun b => {| j_frame := j_frame b; j_service := j_service b; j_method := j_method b; j_body := j_body b; j_ctx := j_ctx b; j_state := x |}) (v_jobs s)).

(** [FailResponse.response_to(id, status).to_stream()], [HeartbeatResponse.response_to(id).to_stream()],
    [BoltResponse.response_to(result, request_id=id).to_stream()] *)
Definition fail_bytes (id status : Z) : res bytes := let! p := fail_response_to id status in to_stream p.
Definition beat_bytes (id : Z) : res bytes := let! p := heartbeat_response_to id in to_stream p.
Definition result_bytes (v : pyobj) (id : Z) : res bytes := let! p := response_to v id in to_stream p.

Definition int_of (f : fname) (h : bolt_headers) : Z := match bh_int f h with Ok z => z | Raise _ => 0 end.
Definition SofaRequest_name : bytes := bytes_lit "com.alipay.sofa.rpc.core.request.SofaRequest".

(** the except clauses of lines 229-239: the answer is written, then the loop goes on *)
Definition rfail (id status : Z) (s : sst) : sst :=
  match fail_bytes id status with Ok bs => set_rd s (RFail1 bs) | Raise _ => set_rd s RDied end.

(** lines 214-228 *)
Definition found (h : bolt_headers) (class_name : bytes) (sofa : sofa_header) (body : bytes) (s : sst) : sst :=
  let id := int_of f_request_id h in
  if int_of f_cmdcode h =? CMDCODE_HEARTBEAT then
    let s := set_items s (v_items s ++ [IHeartbeat id]) in
    match beat_bytes id with
    | Ok bs => set_rd (spawn None (TDrain1 bs) s) RFixed
    | Raise _ => set_rd s (RLast1 ST_UNKNOWN)
    end
  else if int_of f_cmdcode h =? CMDCODE_RESPONSE then rfail id ST_CLIENT_SEND_ERROR (set_items s (v_items s ++ [IBad id ST_CLIENT_SEND_ERROR]))
  else if negb (bytes_eqb class_name SofaRequest_name) then rfail id ST_CLIENT_SEND_ERROR (set_items s (v_items s ++ [IBad id ST_CLIENT_SEND_ERROR]))
  else
    let q := {| q_type := int_of f_ptype h; q_id := id; q_header := sofa; q_body := body; q_timeout := int_of f_timeout h |} in
    set_rd (spawn (Some q) TStart (set_items s (v_items s ++ [IRequest q]))) RFixed.

(** a readexactly that cannot be satisfied: IncompleteReadError (an EOFError) at the end of the stream,
    ConnectionResetError when the transport reported an error; otherwise it keeps waiting *)
Definition starved (s : sst) : sst :=
  if v_exn s then set_rd s (RLast1 ST_UNKNOWN)
  else if v_eof s then set_rd s (RLast1 ST_CONNECTION_CLOSED)
  else s.
Definition ready (n : Z) (s : sst) : bool := negb (v_exn s) && (n <=? len (v_buf s)).

(** one run of the connection handler from one readexactly to the next *)
Definition sread (s : sst) : sst :=
  match v_rd s with
  | RFixed =>
      let n := bolt_header_size BoltRequest in
      if ready n s then
        match bolt_header_from_stream BoltRequest (py_take n (v_buf s)) with
        | Ok h => set_rd (set_heads (take n s) (v_heads s ++ [int_of f_request_id h])) (RClass h)
        | Raise _ => match last_id s with                     (* DecodeError; [header] is the previous one *)
                     | Some id => rfail id ST_CODEC_EXCEPTION (take n s)
                     | None => set_rd (take n s) RDied
                     end
        end
      else starved s
  | RClass h =>
      let n := int_of f_class_len h in
      if ready n s then set_rd (take n s) (RHead h (py_take n (v_buf s))) else starved s
  | RHead h c =>
      let n := int_of f_header_len h in
      if ready n s then
        match from_bytes (py_take n (v_buf s)) with
        | Ok sofa => set_rd (take n s) (RBody h c sofa)
        | Raise UnicodeDecodeError => set_rd (set_items (take n s) (v_items s ++ [IFatal (int_of f_request_id h)])) (RLast1 ST_UNKNOWN)
        | Raise _ => rfail (int_of f_request_id h) ST_CODEC_EXCEPTION (set_items (take n s) (v_items s ++ [IBad (int_of f_request_id h) ST_CODEC_EXCEPTION]))
        end
      else starved s
  | RBody h c sofa =>
      let n := int_of f_content_len h in
      if ready n s then found h c sofa (py_take n (v_buf s)) (take n s) else starved s
  | _ => s
  end.

(** [writer.write(bs)] for frame n; after write_eof it raises (false) *)
Definition swrite (n : nat) (bs : bytes) (s : sst) : sst * bool :=
  if v_closed s then (s, false) else (set_out s (v_out s ++ [(n, bs)]) (v_closed s), true).
(** writer.write_eof() *)
Definition swrite_eof (s : sst) : sst := set_out s (v_out s) true.

(** the drains of the connection handler; [ok] says whether the drain succeeds *)
Definition sdrain (ok : bool) (s : sst) : sst :=
  match v_rd s with
  | RFail1 bs => if ok then let '(s, w) := swrite (List.length (v_heads s) - 1) bs s in set_rd s (if w then RFail2 else RDied) else set_rd s RDied
  | RFail2 => set_rd s (if ok then RFixed else RDied)
  | RLast1 st =>                                             (* lines 243-250, 260-266 *)
      let s := if ok then match last_id s with
                          | Some id => match fail_bytes id st with Ok bs => fst (swrite (List.length (v_heads s) - 1) bs s) | Raise _ => s end
                          | None => s                        (* NameError, swallowed *)
                          end
               else s in
      set_rd (swrite_eof s) RLast2
  | RLast2 => set_rd s REnd                                  (* lines 251-255 *)
  | _ => s
  end.

(** [_write_msg(writer, FailResponse...)] of a dispatch coroutine *)
Definition tfail (i : nat) (id status : Z) (s : sst) : sst :=
  match fail_bytes id status with Ok bs => tgoto i (TDrain1 bs) s | Raise e => tgoto i (TRaised e) s end.

(** [d.get(a) or d.get(b)], then the test [not x] *)
Definition nonempty_str (o : option pystr) : option pystr := match o with Some (c :: r) => Some (c :: r) | _ => None end.
Definition service_name (h : sofa_header) : option pystr :=
  match nonempty_str (dget (str "sofa_head_target_service") h) with
  | Some x => Some x
  | None => nonempty_str (dget (str "service") h)
  end.
Definition method_name (h : sofa_header) : option pystr := nonempty_str (dget (str "sofa_head_method_name") h).

(** lines 125-152: _dispatch up to its first await. [fresh]: the trace id generated if none was sent *)
Definition dispatch (U : tables) (i : nat) (n : nat) (q : request) (fresh : pystr) (s : sst) : sst :=
  match service_name (q_header q) with
  | None => tfail i (q_id q) ST_CLIENT_SEND_ERROR s
  | Some sv =>
      match method_name (q_header q) with
      | None => tfail i (q_id q) ST_CLIENT_SEND_ERROR s
      | Some m =>
          match extract U (v_trace s) (q_header q) fresh with
          | (tr, Raise e) => tgoto i (TRaised e) (set_trace s tr)               (* line 138, outside the try *)
          | (tr, Ok c) =>
              let s := set_trace s tr in
              match find_method (v_reg s) sv m with
              | Raise NoProcessorError => tfail i (q_id q) ST_NO_PROCESSOR s
              | Raise CancelledError => tgoto i (TRaised CancelledError) s       (* not an Exception *)
              | Raise _ => tfail i (q_id q) ST_SERVER_EXCEPTION s
              | Ok _ =>
                  let j := List.length (v_jobs s) in
                  let s := set_jobs s (v_jobs s ++ [{| j_frame := n; j_service := sv; j_method := m; j_body := q_body q; j_ctx := c; j_state := JQueued |}]) in
                  if q_type q =? PTYPE_ONEWAY then tgoto i TDone s else tgoto i (TWait j) s
              end
          end
      end
  end.

(** lines 154-173: the awaited job has ended. The injection of line 168 is into a dict that is dropped. An
    exception of line 169 ends the coroutine too *)
Definition conclude (i : nat) (q : request) (r : res pyobj) (s : sst) : sst :=
  match r with
  | Raise CancelledError | Raise TimeoutError => tfail i (q_id q) ST_TIMEOUT s
  | Raise _ => tfail i (q_id q) ST_UNKNOWN s
  | Ok v => if truthy v then
              match result_bytes v (q_id q) with
              | Ok bs => tgoto i (TDrain1 bs) s
              | Raise _ => tgoto i TDone s                   (* lines 172-173 *)
              end
            else tgoto i TDone s
  end.

(** ** The steps *)
Inductive sstep :=
| Register (name : pystr) (sv : service)
| Feed (bs : bytes) | Eof | Reset
| Read | DrainR (ok : bool)
| Dispatch (i : nat) (fresh : pystr)
| Drain (i : nat) (ok : bool)
| JobRun (j : nat) | JobEnd (j : nat) (r : res pyobj)
| Result (i : nat)                 (* the awaited job has ended *)
| Expire (i : nat).                (* wait_for times out *)

Definition srun_step (U : tables) (o : sstep) (s : sst) : sst :=
  match o with
  | Register name sv => set_reg s (dset name sv (v_reg s))                      (* line 94 *)
  | Feed bs => set_stream s (v_buf s ++ bs) (v_eof s) (v_exn s) (v_in s ++ bs)
  | Eof => set_stream s (v_buf s) true (v_exn s) (v_in s)
  | Reset => set_stream s (v_buf s) (v_eof s) true (v_in s)
  | Read => sread s
  | DrainR ok => sdrain ok s
  | Dispatch i fresh =>
      match nth_error (v_tasks s) i with
      | Some t => match a_pc t, a_req t with
                  | TStart, Some q => dispatch U i (a_frame t) q fresh s
                  | _, _ => s
                  end
      | None => s
      end
  | Drain i ok =>
      match nth_error (v_tasks s) i with
      | Some t => match a_pc t with
                  | TDrain1 bs => if ok then let '(s, w) := swrite (a_frame t) bs s in tgoto i (if w then TDrain2 else TRaised OtherError) s
                                  else tgoto i (TRaised ConnectionResetError) s
                  | TDrain2 => tgoto i (if ok then TDone else TRaised ConnectionResetError) s
                  | _ => s
                  end
      | None => s
      end
  | JobRun j =>
      match nth_error (v_jobs s) j with
      | Some b => match j_state b with JQueued => set_jstate j JRunning s | _ => s end
      | None => s
      end
  | JobEnd j r =>
      match nth_error (v_jobs s) j with
      | Some b => match j_state b with JRunning => set_jstate j (JEnded r) s | _ => s end
      | None => s
      end
  | Result i =>
      match nth_error (v_tasks s) i with
      | Some t => match a_pc t, a_req t with
                  | TWait j, Some q =>
                      match nth_error (v_jobs s) j with
                      | Some b => match j_state b with JEnded r => conclude i q r s | _ => s end
                      | None => s
                      end
                  | _, _ => s
                  end
      | None => s
      end
  | Expire i =>
      match nth_error (v_tasks s) i with
      | Some t => match a_pc t, a_req t with
                  | TWait j, Some q =>
                      if 0 <? q_timeout q then
                        (* cancelling the future cancels a job that has not started *)
                        let s := match nth_error (v_jobs s) j with
                                 | Some b => match j_state b with JQueued => set_jstate j JCancelled s | _ => s end
                                 | None => s
                                 end in
                        tfail i (q_id q) ST_TIMEOUT s
                      else s
                  | _, _ => s
                  end
      | None => s
      end
  end.
Definition srun (U : tables) (reg : registry) (tr : tstate) (l : list sstep) : sst := fold_left (fun s o => srun_step U o s) l (sinit reg tr).

(** Model of anthunder/listener/sock_listener.py: the handler thread of one connection of the threaded
    listener (ThreadingTCPServer runs [handle] once for every connection, in a thread of its own). Threads share
    the registry and the tracer only. *)
From Coq Require Import Strings.String.
From Verif Require Import PyBase PyDict PyInt Struct M_SofaHeader M_Package M_RpcId M_Trace M_AioServer.

(** ** The socket: what recv gives, in order. [Arrive]: some bytes; [Fin]: the client has closed its side, recv
    returns b"" from then on; [Err e]: recv raises e. After the list recv blocks. *)
Inductive arrival := Arrive (bs : bytes) | Fin | Err (e : exn).

(** The outcome of reading: bytes, with the state of the reader after it; blocked in recv; an exception; or, for
    loops given a number of rounds, still in the loop after them. *)
Inductive rread (A : Type) :=
| Got (x : A) (buf : bytes) (net : list arrival)
| Blocked
| Failed (e : exn)
| Unfinished.
Arguments Got {A}. Arguments Blocked {A}. Arguments Failed {A}. Arguments Unfinished {A}.

(** [self.rfile.read(n)]: rfile is a buffered reader on a blocking socket, so read gives n bytes, or fewer at the
    end of the stream only (python, io.BufferedReader) *)
Fixpoint rfile_read (n : Z) (buf : bytes) (net : list arrival) : rread bytes :=
  if n <=? len buf then Got (py_take n buf) (py_drop n buf) net
  else match net with
       | [] => Blocked
       | Arrive bs :: r => rfile_read n (buf ++ bs) r
       | Fin :: _ => Got buf [] net
       | Err e :: _ => Failed e
       end.

(** lines 85-89: at most [fuel] rounds of the loop *)
Fixpoint readexactly (fuel : nat) (n : Z) (bs buf : bytes) (net : list arrival) : rread bytes :=
  if len bs <? n then
    match fuel with
    | O => Unfinished
    | S fuel' => match rfile_read (n - len bs) buf net with
                 | Got x buf' net' => readexactly fuel' n (bs ++ x) buf' net'
                 | r => r
                 end
    end
  else Got bs buf net.

(** ** What a thread does: the calls of service methods it makes, with service, method, argument and span
    context; what it sends; and where it is then: blocked in recv, in a loop, or at the end of [handle] (with the
    exception that was logged or raised again, if any; the connection is then closed). *)
Inductive tstatus := SBlocked | SUnfinished | SEnded (r : res unit).
Record sout := { o_calls : list (pystr * pystr * bytes * nat); o_sent : list bytes; o_trace : tstate; o_status : tstatus }.
Definition sdone (tr : tstate) (x : tstatus) : sout := {| o_calls := []; o_sent := []; o_trace := tr; o_status := x |}.
Definition sfails (tr : tstate) (e : exn) : sout := sdone tr (SEnded (Raise e)).

(** [self.wfile.write(bs)]; wfile is unbuffered: sendall. [w]: None, it succeeds; Some (k, e), it raises e when k
    bytes have been sent *)
Definition sent_part (k : nat) (bs : bytes) : list bytes := match firstn k bs with [] => [] | p => [p] end.
Definition wfile_write (calls : list (pystr * pystr * bytes * nat)) (tr : tstate) (w : option (nat * exn)) (r : res bytes) : sout :=
  match r with
  | Raise e => {| o_calls := calls; o_sent := []; o_trace := tr; o_status := SEnded (Raise e) |}
  | Ok bs => match w with
             | Some (k, e) => {| o_calls := calls; o_sent := sent_part k bs; o_trace := tr; o_status := SEnded (Raise e) |}
             | None => {| o_calls := calls; o_sent := [bs]; o_trace := tr; o_status := SEnded (Ok tt) |}
             end
  end.

(** What a method does when called: None, it does not return. *)
Definition methods := pystr -> pystr -> bytes -> nat -> option (res pyobj).

(** lines 105-133 with 46-60. [find_method] (M_AioServer, lines 62-72 of aio_listener.py) is the same code as
    lines 48-58; [reg] is the registry when it is looked at *)
Definition sock_answer (U : tables) (reg : registry) (tr : tstate) (fresh : pystr) (call : methods) (w : option (nat * exn))
    (h : bolt_headers) (class_name : bytes) (sofa : sofa_header) (body : bytes) : sout :=
  let id := int_of f_request_id h in
  if int_of f_cmdcode h =? CMDCODE_HEARTBEAT then wfile_write [] tr w (beat_bytes id)
  else if int_of f_cmdcode h =? CMDCODE_RESPONSE then sfails tr ClientError
  else if negb (bytes_eqb class_name SofaRequest_name) then sfails tr ClientError
  else match service_name sofa with
       | None => wfile_write [] tr w (fail_bytes id ST_CLIENT_SEND_ERROR)
       | Some sv =>
           match method_name sofa with
           | None => wfile_write [] tr w (fail_bytes id ST_CLIENT_SEND_ERROR)
           | Some m =>
               match extract U tr sofa fresh with
               | (tr', Raise e) => sfails tr' e
               | (tr', Ok c) =>
                   match find_method reg sv m with
                   | Raise e => sfails tr' e
                   | Ok _ =>
                       let calls := [(sv, m, body, c)] in
                       match call sv m body c with
                       | None => {| o_calls := calls; o_sent := []; o_trace := tr'; o_status := SUnfinished |}
                       | Some (Raise e) => wfile_write calls tr' w (Raise e)
                       | Some (Ok v) => wfile_write calls tr' w (result_bytes v id)
                       end
                   end
               end
           end
       end.

(** lines 91-140, every loop given [fuel] rounds. OSErrors other than ECONNRESET are raised again and reported by
    the server, all others are logged; in both cases the thread ends. *)
Definition handle (fuel : nat) (U : tables) (reg : registry) (tr : tstate) (fresh : pystr) (call : methods) (w : option (nat * exn))
    (net : list arrival) : sout :=
  match readexactly fuel (bolt_header_size BoltRequest) [] [] net with
  | Blocked => sdone tr SBlocked | Unfinished => sdone tr SUnfinished | Failed e => sfails tr e
  | Got fixed buf net =>
      match bolt_header_from_stream BoltRequest fixed with
      | Raise e => sfails tr e
      | Ok h =>
          match readexactly fuel (int_of f_class_len h) [] buf net with
          | Blocked => sdone tr SBlocked | Unfinished => sdone tr SUnfinished | Failed e => sfails tr e
          | Got class_name buf net =>
              match readexactly fuel (int_of f_header_len h) [] buf net with
              | Blocked => sdone tr SBlocked | Unfinished => sdone tr SUnfinished | Failed e => sfails tr e
              | Got hb buf net =>
                  match from_bytes hb with
                  | Raise e => sfails tr e
                  | Ok sofa =>
                      match readexactly fuel (int_of f_content_len h) [] buf net with
                      | Blocked => sdone tr SBlocked | Unfinished => sdone tr SUnfinished | Failed e => sfails tr e
                      | Got body _ _ => sock_answer U reg tr fresh call w h class_name sofa body
                      end
                  end
              end
          end
      end
  end.

(** ** Registration: base_listener.py:41-51, 71; sock_listener.py:64-79, 143-150; aio_listener.py:54-57, 78-94 *)

(** Python objects: the dicts that exist, the one that the class attribute [BaseHandler.interface_mapping] refers
    to, for every handler created so far the dict of an attribute of its own (None: it has none), and
    [SockBoltHandler.service_handler]. Handlers are numbered in the order of creation, as are their listeners. *)
Inductive lkind := Aio | Sock.
Record objects := { h_dicts : list registry; h_class_attr : nat; h_handlers : list (lkind * option nat); h_service_handler : option nat }.
Definition objects0 : objects := {| h_dicts := [[]]; h_class_attr := 0; h_handlers := []; h_service_handler := None |}.

(** [handler.interface_mapping]: the attribute of the instance, else that of the class *)
Definition mapping_ref (o : objects) (i : nat) : option nat :=
  match nth_error (h_handlers o) i with
  | None => None
  | Some (_, Some d) => Some d
  | Some (_, None) => Some (h_class_attr o)
  end.
Definition mapping (o : objects) (i : nat) : option registry :=
  match mapping_ref o i with Some d => nth_error (h_dicts o) d | None => None end.

(** creating a listener: [self.handler = self.handlerCls()]; no handler assigns the attribute *)
Definition new_listener (k : lkind) (o : objects) : objects :=
  let i := List.length (h_handlers o) in
  {| h_dicts := h_dicts o; h_class_attr := h_class_attr o; h_handlers := h_handlers o ++ [(k, None)];
     h_service_handler := match k with Sock => Some i | Aio => h_service_handler o end |}.
(** [handler.register_interface(name, service)]: [self.interface_mapping[interface] = ...] *)
Definition register_interface (i : nat) (name : pystr) (sv : service) (o : objects) : objects :=
  match mapping_ref o i with
  | None => o
  | Some d => {| h_dicts := upd d (dset name sv) (h_dicts o); h_class_attr := h_class_attr o; h_handlers := h_handlers o; h_service_handler := h_service_handler o |}
  end.
Inductive regop := NewListener (k : lkind) | RegisterOn (i : nat) (name : pystr) (sv : service).
Definition regstep (o : objects) (x : regop) : objects :=
  match x with NewListener k => new_listener k o | RegisterOn i name sv => register_interface i name sv o end.
Definition regrun (l : list regop) : objects := fold_left regstep l objects0.

(** the registry in which listener i looks up services: that of its handler, for an asyncio listener; that of
    the injected handler, for a threaded one (line 131) *)
Definition serving (o : objects) (i : nat) : option registry :=
  match nth_error (h_handlers o) i with
  | Some (Aio, _) => mapping o i
  | Some (Sock, _) => match h_service_handler o with Some j => mapping o j | None => None end
  | None => None
  end.
(** base_listener.py:88, 102: the interfaces that listener i publishes and unpublishes *)
Definition publishing (o : objects) (i : nat) : list pystr := match mapping o i with Some r => keys r | None => [] end.

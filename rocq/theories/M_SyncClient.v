(** Model of anthunder/client/client.py (the synchronous client) with mysockpool/connection.py:57-66. *)
From Coq Require Import Strings.String.
From Verif Require Import PyBase PyDict Utf8 Struct M_SofaHeader M_Package M_Lru M_ConnPool M_PoolManager.

(** ** Sending: client.py:55-88 _raw_invoke *)

(** One round of the loop: what [self._get_pool(interface).get_conn()] does, and how many bytes
    [conn.send(data)] accepts (connection.py:57-59: a single send on a non-blocking socket, which may take
    only a part), or what it raises. *)
Record attempt := { a_conn : res nat; a_send : res Z }.

(** the for loop, lines 72-86; the result is the log of writes and the variable [conn] (None: unbound) *)
Fixpoint send_loop (p : pkg) (atts : list attempt) (conn : option nat) : list (nat * bytes) * option nat :=
  match atts with
  | [] => ([], conn)
  | a :: r =>
      match a_conn a with
      | Raise SocketValueError => send_loop p r conn
      | Raise _ => ([], conn)
      | Ok c =>
          match to_stream p with
          | Raise SocketValueError => send_loop p r (Some c)
          | Raise _ => ([], Some c)
          | Ok bs =>
              match a_send a with
              | Raise SocketValueError => send_loop p r (Some c)
              | Raise _ => ([], Some c)
              | Ok k => ([(c, py_take k bs)], Some c)
              end
          end
      end
  end.

(** line 88: [return p.request_id, conn]; an unbound [conn] is an UnboundLocalError. The header is built
    before (line 69, modelled in M_Trace.build_header); [rid] is next(RequestId). *)
Definition raw_invoke (header : sofa_header) (content : pyobj) (ptype : Z) (timeout_ms : pyobj) (rid : Z)
    (atts : nat -> attempt) : list (nat * bytes) * res (Z * nat) :=
  match new_request header content ptype (py_or timeout_ms (PInt (-1))) rid with
  | Raise e => ([], Raise e)
  | Ok p => match send_loop p [atts 0%nat; atts 1%nat; atts 2%nat] None with
            | (log, Some c) => (log, Ok (rid, c))
            | (log, None) => (log, Raise NameError)
            end
  end.

(** ** Receiving: client.py:117-141 *)

(** What happens at a [sel.select] and the [recv] that follows it: up to n+1 bytes are there to be read
    (none at all when the server has closed its side and everything was read: then the socket is readable
    and recv returns b""), nothing becomes readable before the deadline, or recv raises e. The last also stands for
    [sel.register] (line 118) raising e, which happens before the first round: ValueError for a connection that its
    pool handed out closed (connection_pool.py:124-130). *)
Inductive event := Avail (n : nat) | Silent | Broken (e : exn).

Record rstate := { y_buf : bytes; y_total : Z; y_header : option bolt_headers; y_rest : bytes }.
Definition rinit (srv : bytes) : rstate :=
  {| y_buf := []; y_total := bolt_header_size BoltResponse; y_header := None; y_rest := srv |}.

Inductive outcome :=
| Waiting (s : rstate)                                     (* still in the loop when the events end *)
| Stopped (e : exn) (closed : bool) (s : rstate)           (* the loop raised *)
| Received (s : rstate).                                   (* the loop ended *)

(** lines 128-133 *)
Definition receive (n : nat) (s : rstate) : res rstate :=
  let want := y_total s - len (y_buf s) in
  let got := py_take (Z.min (Z.of_nat n + 1) want) (y_rest s) in
  let buf := y_buf s ++ got in
  let rest := py_drop (len got) (y_rest s) in
  match y_header s with
  | Some _ => Ok {| y_buf := buf; y_total := y_total s; y_header := y_header s; y_rest := rest |}
  | None =>
      if y_total s <=? len buf then
        let! h := bolt_header_from_stream BoltResponse buf in
        let! cl := bh_int f_class_len h in
        let! hl := bh_int f_header_len h in
        let! ctl := bh_int f_content_len h in
        Ok {| y_buf := buf; y_total := y_total s + (cl + hl + ctl); y_header := Some h; y_rest := rest |}
      else Ok {| y_buf := buf; y_total := y_total s; y_header := None; y_rest := rest |}
  end.

(** lines 122-133 *)
Fixpoint recv_loop (evs : list event) (s : rstate) : outcome :=
  if len (y_buf s) <? y_total s then
    match evs with
    | [] => Waiting s
    | Silent :: _ => Stopped TimeoutError true s
    | Broken e :: _ => Stopped e false s
    | Avail n :: r => match receive n s with Ok s' => recv_loop r s' | Raise e => Stopped e false s end
    end
  else Received s.

(** lines 136-141; a missing header makes the decoder raise inside its try block *)
Definition finish (rid : Z) (s : rstate) : res pyobj :=
  let! resp := match y_header s with
               | Some h => bolt_content_from_stream BoltResponse (py_drop (bolt_header_size BoltResponse) (y_buf s)) h
               | None => Raise DecodeError
               end in
  match int_value (p_request_id resp) with
  | Some r => if r =? rid then if p_respstatus resp =? ST_SUCCESS then Ok (p_content resp) else Raise ServerError else Raise ServerError
  | None => Raise ServerError
  end.

(** lines 117-141: what the caller sees after the request was sent; None: the call has not returned. [back]: what
    [self._get_pool(interface)] does in line 134; put_conn itself raises nothing *)
Definition sync_result (rid : Z) (back : res unit) (srv : bytes) (evs : list event) : option (res pyobj) :=
  match recv_loop evs (rinit srv) with
  | Waiting _ => None
  | Stopped e _ _ => Some (Raise e)
  | Received s => Some (let! _ := back in finish rid s)
  end.

(** lines 99-141 *)
Definition invoke_sync (header : sofa_header) (content timeout_ms : pyobj) (rid : Z) (atts : nat -> attempt) (back : res unit)
    (srv : bytes) (evs : list event) : list (nat * bytes) * option (res pyobj) :=
  match timeout_ms with
  | PInt _ | PBool _ | PFloat _ _ =>
      match raw_invoke header content PTYPE_REQUEST timeout_ms rid atts with
      | (log, Raise e) => (log, Some (Raise e))
      | (log, Ok (r, c)) => (log, sync_result r back srv evs)
      end
  | _ => ([], Some (Raise AssertionError))
  end.

(** lines 94-97; [back] as above, for line 97 *)
Definition invoke_oneway (header : sofa_header) (content : pyobj) (rid : Z) (atts : nat -> attempt) (back : res unit) : list (nat * bytes) * res unit :=
  match raw_invoke header content PTYPE_ONEWAY PNone rid atts with
  | (log, Raise e) => (log, Raise e)
  | (log, Ok _) => (log, back)
  end.

(** ** Which connections are used: client.py:75, 90-92, 97, 134 *)

(** connection_pool.py:45-51, pool_manager.py:45: the defaults, which _get_pool uses *)
Definition default_config : config := {| max_connections := 20; max_free := 5; min_free := 1; initial := 1; block := false |}.

(** [self._get_pool(interface).get_conn()]: the pool manager is created anew by every call of _get_pool, so
    the pool is too. Connections are named by the serial number of their manager and their number in its
    pool; [n] counts the managers created so far. *)
Definition fetch (mk : nat -> nat -> bool) (dr : nat -> nat -> bool) (key : Z) (n : nat) : nat * res (nat * nat) :=
  match lookup 10 default_config (fun _ => mk n) (w_init (K:=Z)) key with
  | (_, Raise e) => (S n, Raise e)
  | (w, Ok i) =>
      match nth_error (w_pools w) i with
      | None => (S n, Raise AttributeError)
      | Some p => match get_conn default_config (mk n) (dr n) p with
                  | (_, Ok c) => (S n, Ok (n, c))
                  | (_, Raise e) => (S n, Raise e)
                  end
      end
  end.

(** [self._get_pool(interface).put_conn(c)], lines 97, 134: another new manager with a new pool, which opens its own
    first connection before it is given c; put_conn raises nothing (connection_pool.py:132-162) *)
Definition give_back (mk : nat -> nat -> bool) (key : Z) (n : nat) : nat * res unit :=
  match lookup 10 default_config (fun _ => mk n) (w_init (K:=Z)) key with
  | (_, Raise e) => (S n, Raise e)
  | (_, Ok _) => (S n, Ok tt)
  end.

(** A call fetches connections (once per round of the send loop) and gives the last one to yet another new
    pool at its end. Calls of several threads interleave; a history is a sequence of these two actions. *)
Inductive caction := CFetch (key : Z) | CGiveBack (key : Z) (c : nat * nat).
Definition cstep (mk dr : nat -> nat -> bool) (s : nat * list (nat * nat)) (a : caction) : nat * list (nat * nat) :=
  let '(n, used) := s in
  match a with
  | CFetch key => let '(n', r) := fetch mk dr key n in (n', match r with Ok c => used ++ [c] | Raise _ => used end)
  | CGiveBack key _ => (fst (give_back mk key n), used)
  end.
Definition crun mk dr (acts : list caction) : nat * list (nat * nat) := fold_left (cstep mk dr) acts (0%nat, []).

(** how many connections an action opens: those of the sockets of its pool that could be created; [pool_after]: the pool at the end
    of the action, None if its constructor failed at its first connection, which is also its only one *)
Definition pool_after (mk dr : nat -> nat -> bool) (a : caction) (n : nat) : option pool :=
  let key := match a with CFetch key | CGiveBack key _ => key end in
  match lookup 10 default_config (fun _ => mk n) (w_init (K:=Z)) key with
  | (_, Raise _) => None
  | (w, Ok i) => option_map (fun p => match a with CFetch _ => fst (get_conn default_config (mk n) (dr n) p) | CGiveBack _ c => put_conn default_config p (snd c) end) (nth_error (w_pools w) i)
  end.
Definition opens (mk dr : nat -> nat -> bool) (a : caction) (n : nat) : nat :=
  match pool_after mk dr a n with Some p => List.length (filter (mk n) (seq 0 (p_attempts p))) | None => 0%nat end.
Fixpoint opened (mk dr : nat -> nat -> bool) (acts : list caction) (n : nat) : nat :=
  match acts with
  | [] => 0%nat
  | a :: r => (opens mk dr a n + opened mk dr r (fst (cstep mk dr (n, []) a)))%nat
  end.

(** Model of how long the connections of the synchronous client stay open: anthunder/client/client.py:55-141 with
    mysockpool/pool_manager.py:45-98, connection_pool.py and connection.py:81-82 (__del__ closes the connection).
    CPython frees an object as soon as nothing refers to it; nothing refers back to a connection, a pool or a pool
    manager that these functions use, so that no cycle delays it (EmptyPoolError, which refers to itself,
    exceptions.py:30, is not raised by a pool of which at most two connections were asked for). What refers to a
    connection of a call is: the variable [conn] of _raw_invoke or [c] of its caller (one of the two at a time), the
    pool of the pool manager made by the present _get_pool, the connection being returned by get_conn; and, when the
    call has raised, the traceback of the exception, which keeps the variables of the function, until the caller drops
    the exception. Selectors refer to a connection only while one of these does. *)
From Verif Require Import PyBase PyDict M_ConnPool M_SyncClient.

(** a connection: the serial number of its pool, and its number in the pool (as in M_SyncClient.fetch) *)
Definition cid := (nat * nat)%type.
Definition cid_eqb (a b : cid) : bool := Nat.eqb (fst a) (fst b) && Nat.eqb (snd a) (snd b).

(** where a call is; r is the round of the loop of client.py:72 *)
Inductive pc :=
| Begin                       (* before the loop: lines 66-71, 111-114 *)
| Lookup (r : nat)            (* line 75, self._get_pool(interface) *)
| Get (r : nat)               (* line 75, get_conn() *)
| Got (r : nat)               (* line 75, the assignment to conn; the pool and its manager are freed *)
| Send (r : nat)              (* line 76 *)
| Return                      (* line 88 *)
| Wait                        (* lines 117-133 *)
| LookupBack                  (* lines 97, 134: self._get_pool(interface) *)
| Give                        (* lines 97, 134: put_conn(c) *)
| Last                        (* lines 136-141 *)
| Returned                    (* the call has returned *)
| Kept (e : exn)              (* it has raised e, which the caller still has *)
| Dropped (e : exn).          (* the caller has dropped e *)

Record frame := { f_oneway : bool; f_pc : pc; f_conn : option cid; f_pool : option (nat * pool); f_got : option cid }.
Definition goto (k : pc) (f : frame) : frame := {| f_oneway := f_oneway f; f_pc := k; f_conn := f_conn f; f_pool := None; f_got := None |}.

(** what the surroundings do in a step: [i_mk k] the socket of the k-th connection of the pool can be created; [i_dr k]
    it looks dropped (utils.py:40-45); [i_error] the exception raised by the step, if it is one of those that can
    raise one (lines 66-71, 111; the lookup of the address; line 76; a select, recv or the decoding of the response, lines
    118-133, 136-140); [i_silent], [i_all]: at a select, the deadline passes, or all the response has come *)
Record input := { i_mk : nat -> bool; i_dr : nat -> bool; i_error : option exn; i_silent : bool; i_all : bool }.

(** lines 77-86: after SocketValueError the loop goes on, after another exception it ends *)
Definition failed (r : nat) (e : exn) (f : frame) : frame :=
  match e with
  | SocketValueError => if Nat.ltb (S r) 3 then goto (Lookup (S r)) f else goto Return f
  | _ => goto Return f
  end.

(** the sockets the pool created between two of its states *)
Definition created (mk : nat -> bool) (n : nat) (from to : nat) : list cid :=
  map (pair n) (filter mk (seq from (to - from))).

(** One step of a call: the frame afterwards, the connections opened, and those closed by close(). [n] is the number
    of the next pool to be made. A pool of which the only initial connection cannot be created has opened none. *)
Definition fstep (n : nat) (x : input) (f : frame) : frame * list cid * list cid :=
  match f_pc f with
  | Begin => (match i_error x with Some e => goto (Kept e) f | None => goto (Lookup 0) f end, [], [])
  | Lookup r =>
      match i_error x with
      | Some e => (failed r e f, [], [])
      | None => match build default_config (i_mk x) with
                | Built p => ({| f_oneway := f_oneway f; f_pc := Get r; f_conn := f_conn f; f_pool := Some (n, p); f_got := None |},
                              created (i_mk x) n 0 (p_attempts p), [])
                | Failed e => (failed r e f, [], [])
                | Blocks => (f, [], [])
                end
      end
  | Get r =>
      match f_pool f with
      | None => (f, [], [])
      | Some (m, p) =>
          let '(p', g) := get_conn default_config (i_mk x) (i_dr x) p in
          let new := created (i_mk x) m (p_attempts p) (p_attempts p') in
          let gone := map (pair m) (p_closed p') in
          match g with
          | Ok c => ({| f_oneway := f_oneway f; f_pc := Got r; f_conn := f_conn f; f_pool := Some (m, p'); f_got := Some (m, c) |}, new, gone)
          | Raise e => (failed r e f, new, gone)
          end
      end
  | Got r => ({| f_oneway := f_oneway f; f_pc := Send r; f_conn := f_got f; f_pool := None; f_got := None |}, [], [])
  | Send r => (match i_error x with Some e => failed r e f | None => goto Return f end, [], [])
  | Return => (match f_conn f with
               | None => goto (Kept NameError) f
               | Some _ => if f_oneway f then goto LookupBack f else goto Wait f
               end, [], [])
  | Wait => match i_error x with
            | Some e => (goto (Kept e) f, [], [])
            | None => if i_silent x then (goto (Kept TimeoutError) f, [], match f_conn f with Some c => [c] | None => [] end)
                      else if i_all x then (goto LookupBack f, [], [])
                      else (f, [], [])
            end
  | LookupBack =>
      match i_error x with
      | Some e => (goto (Kept e) f, [], [])
      | None => match build default_config (i_mk x) with
                | Built p => ({| f_oneway := f_oneway f; f_pc := Give; f_conn := f_conn f; f_pool := Some (n, p); f_got := None |},
                              created (i_mk x) n 0 (p_attempts p), [])
                | Failed e => (goto (Kept e) f, [], [])
                | Blocks => (f, [], [])
                end
      end
  | Give =>                     (* the pool knows the connection by a number none of its own has *)
      match f_pool f, f_conn f with
      | Some (m, p), Some c =>
          (goto Last f, [], if mem_nat (p_attempts p) (p_closed (put_conn default_config p (p_attempts p))) then [c] else [])
      | _, _ => (goto Last f, [], [])
      end
  | Last => (match (if f_oneway f then None else i_error x) with
             | Some e => goto (Kept e) f
             | None => {| f_oneway := f_oneway f; f_pc := Returned; f_conn := None; f_pool := None; f_got := None |}
             end, [], [])
  | Kept e => ({| f_oneway := f_oneway f; f_pc := Dropped e; f_conn := None; f_pool := None; f_got := None |}, [], [])
  | Returned | Dropped _ => (f, [], [])
  end.

(** what a call refers to *)
Definition held (o : option cid) : list cid := match o with Some c => [c] | None => [] end.
Definition pooled (o : option (nat * pool)) : list cid :=
  match o with Some (n, p) => map (pair n) (match p_free p with Some q => q | None => [] end) | None => [] end.
Definition refs (f : frame) : list cid := held (f_conn f) ++ held (f_got f) ++ pooled (f_pool f).

(** Any number of calls in any number of threads. [g_makers] says for each pool made so far which call made it (the
    next pool gets the number of its length); [g_open] are the connections that are open on this side. *)
Record heap := { g_makers : list nat; g_open : list cid; g_calls : list frame }.
Inductive levent := EStart (oneway : bool) | ERun (i : nat) (x : input).

Definition member (c : cid) (l : list cid) : bool := existsb (cid_eqb c) l.

(** connection.py:81-82: connections nothing refers to are closed *)
Definition collect (fs : list frame) (l : list cid) : list cid := filter (fun c => member c (flat_map refs fs)) l.

(** does the step make a pool? *)
Definition makes (x : input) (f : frame) : bool :=
  match f_pc f, i_error x with Lookup _, None | LookupBack, None => true | _, _ => false end.

Fixpoint replace {A} (i : nat) (y : A) (l : list A) : list A :=
  match l, i with [], _ => [] | _ :: r, O => y :: r | x :: r, S j => x :: replace j y r end.

Definition hstep (s : heap) (e : levent) : heap :=
  match e with
  | EStart ow => {| g_makers := g_makers s; g_open := g_open s;
                    g_calls := g_calls s ++ [{| f_oneway := ow; f_pc := Begin; f_conn := None; f_pool := None; f_got := None |}] |}
  | ERun i x =>
      match nth_error (g_calls s) i with
      | None => s
      | Some f =>
          let '(f', new, gone) := fstep (List.length (g_makers s)) x f in
          let fs := replace i f' (g_calls s) in
          {| g_makers := g_makers s ++ (if makes x f then [i] else []);
             g_open := collect fs (filter (fun c => negb (member c gone)) (g_open s ++ new)); g_calls := fs |}
      end
  end.
Definition hrun (evs : list levent) : heap := fold_left hstep evs {| g_makers := []; g_open := []; g_calls := [] |}.

(** Model of which connections of a pool are open when its users also let go of connections, of the pool and of
    exceptions: mysockpool/connection_pool.py (as in M_ConnPool, one thread), connection.py:81-82 (__del__ closes the
    connection), exceptions.py:28-30. CPython frees an object as soon as nothing refers to it, except that objects in a
    cycle of references wait for the cyclic garbage collector, which runs at any time. The errors of the pool are in
    such a cycle: MysockpoolError.__init__ passes [self] to the constructor of Exception, which keeps it in [args]
    (exceptions.py:30). An exception refers to the pool and, by the frames of its traceback, to the variable [conn] of
    get_conn (connection_pool.py:107-128). Constructors that fail are in
    M_PoolMake. *)
From Verif Require Import PyBase PyDict M_ConnPool.

(** an exception raised by get_conn: whether the caller still has it, whether it refers to itself, and the connection
    that was in the variable [conn] *)
Record err := { e_mine : bool; e_cycle : bool; e_lost : list nat }.

(** [u_held]: the user has the pool; [u_lent]: the connections users got and still have; [u_shut]: those that users
    closed; [u_open]: the connections whose sockets are open; [u_errs]: the exceptions in memory *)
Record life := { u_pool : pool; u_held : bool; u_lent : list nat; u_shut : list nat; u_open : list nat; u_errs : list err }.

(** what refers to connection c: a user, an exception, or the pool, if something refers to it (connections do not) *)
Definition pool_alive (s : life) : bool := u_held s || match u_errs s with [] => false | _ => true end.
Definition referred (s : life) (c : nat) : bool :=
  mem_nat c (u_lent s) || existsb (fun e => mem_nat c (e_lost e)) (u_errs s) || (pool_alive s && mem_nat c (match p_free (u_pool s) with Some q => q | None => [] end)).

(** after each operation: exceptions nobody has are freed unless they are in a cycle, then connections nothing refers to
    are closed; those the pool or a user closed are closed *)
Definition tidy (s : life) : life :=
  let s1 := {| u_pool := u_pool s; u_held := u_held s; u_lent := u_lent s; u_shut := u_shut s; u_open := u_open s; u_errs := filter (fun e => e_mine e || e_cycle e) (u_errs s) |} in
  {| u_pool := u_pool s1; u_held := u_held s1; u_lent := u_lent s1; u_shut := u_shut s1; u_errs := u_errs s1;
     u_open := filter (fun c => referred s1 c && negb (mem_nat c (p_closed (u_pool s1))) && negb (mem_nat c (u_shut s1))) (u_open s1) |}.

(** exceptions.py:37-44: these two refer to themselves; OSError (socket.socket, connection.py:36) does not *)
Definition cyclic (e : exn) : bool := match e with EmptyPoolError | ClosedPoolError => true | _ => false end.
(** connection_pool.py:107-128: [conn] is what the queue gave *)
Definition in_variable (p : pool) : list nat := match p_free p with Some (c :: _) => [c] | _ => [] end.
(** the sockets created between two states of the pool *)
Definition made (mk : nat -> bool) (p p' : pool) : list nat := filter mk (seq (p_attempts p) (p_attempts p' - p_attempts p)).

Definition forget (i : nat) (l : list err) : list err :=
  match nth_error l i with
  | Some e => firstn i l ++ {| e_mine := false; e_cycle := e_cycle e; e_lost := e_lost e |} :: skipn (S i) l
  | None => l
  end.

Inductive uop :=
| UGet (dr : nat -> bool)      (* get_conn; [dr] as in M_ConnPool *)
| UPut (c : nat)               (* put_conn, of a connection the user has *)
| UShut (c : nat)              (* conn.close() *)
| UDrop (c : nat)              (* the user lets go of a connection without giving it back *)
| UClose                       (* pool.close() *)
| UForgetPool                  (* the user lets go of the pool *)
| UForget (i : nat)            (* the user lets go of an exception *)
| UCollect.                    (* the cyclic garbage collector runs *)

Definition set_pool (s : life) (p : pool) : life := {| u_pool := p; u_held := u_held s; u_lent := u_lent s; u_shut := u_shut s; u_open := u_open s; u_errs := u_errs s |}.
(** one operation, and what get_conn gave *)
Definition ustep (cfg : config) (mk : nat -> bool) (s : life) (o : uop) : life * option (res nat) :=
  match o with
  | UGet dr =>
      if u_held s then
        let '(p, r) := get_conn cfg mk (fun c => dr c || mem_nat c (u_shut s)) (u_pool s) in
        (tidy {| u_pool := p; u_held := true; u_shut := u_shut s; u_open := u_open s ++ made mk (u_pool s) p;
                 u_lent := match r with Ok c => c :: u_lent s | Raise _ => u_lent s end;
                 u_errs := match r with Ok _ => u_errs s | Raise e => u_errs s ++ [{| e_mine := true; e_cycle := cyclic e; e_lost := in_variable (u_pool s) |}] end |}, Some r)
      else (s, None)
  | UPut c =>
      if u_held s && mem_nat c (u_lent s)
      then (tidy {| u_pool := put_conn cfg (u_pool s) c; u_held := true; u_lent := remove Nat.eq_dec c (u_lent s); u_shut := u_shut s; u_open := u_open s; u_errs := u_errs s |}, None)
      else (s, None)
  | UShut c =>
      (if mem_nat c (u_lent s) then tidy {| u_pool := u_pool s; u_held := u_held s; u_lent := u_lent s; u_shut := c :: u_shut s; u_open := u_open s; u_errs := u_errs s |} else s, None)
  | UDrop c => (tidy {| u_pool := u_pool s; u_held := u_held s; u_lent := remove Nat.eq_dec c (u_lent s); u_shut := u_shut s; u_open := u_open s; u_errs := u_errs s |}, None)
  | UClose => (if u_held s then tidy (set_pool s (fst (pool_close (u_pool s)))) else s, None)
  | UForgetPool => (tidy {| u_pool := u_pool s; u_held := false; u_lent := u_lent s; u_shut := u_shut s; u_open := u_open s; u_errs := u_errs s |}, None)
  | UForget i => (tidy {| u_pool := u_pool s; u_held := u_held s; u_lent := u_lent s; u_shut := u_shut s; u_open := u_open s; u_errs := forget i (u_errs s) |}, None)
  | UCollect => (tidy {| u_pool := u_pool s; u_held := u_held s; u_lent := u_lent s; u_shut := u_shut s; u_open := u_open s; u_errs := filter e_mine (u_errs s) |}, None)
  end.
Fixpoint ufrom (cfg : config) (mk : nat -> bool) (s : life) (l : list uop) : life := match l with [] => s | o :: r => ufrom cfg mk (fst (ustep cfg mk s o)) r end.
(** what the calls of get_conn gave *)
Fixpoint ugave (cfg : config) (mk : nat -> bool) (s : life) (l : list uop) : list (res nat) :=
  match l with [] => [] | o :: r => (match snd (ustep cfg mk s o) with Some g => [g] | None => [] end) ++ ugave cfg mk (fst (ustep cfg mk s o)) r end.
(** a pool that was just made *)
Definition ustart (p : pool) : life := {| u_pool := p; u_held := true; u_lent := []; u_shut := []; u_open := match p_free p with Some q => q | None => [] end; u_errs := [] |}.

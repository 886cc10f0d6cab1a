(** Model of mysockpool/connection_pool.py (with utils.py and connection.py:31-55): sequential histories. *)
From Verif Require Import PyBase PyDict.

(** Connections are numbered in the order of the attempts to create them. *)
Definition mem_nat (c : nat) (l : list nat) : bool := existsb (Nat.eqb c) l.

(** connection_pool.py:45-51: constructor parameters *)
Record config := { max_connections : Z; max_free : Z; min_free : Z; initial : nat; block : bool }.

(** connection_pool.py:55-65: [p_free] is the LifoQueue, next element first, None after close(); [p_num] is
    num_connections; [p_attempts] counts connections created; [p_closed] lists the close() calls the pool made *)
Record pool := { p_free : option (list nat); p_num : Z; p_attempts : nat; p_closed : list nat }.

Definition set_free (p : pool) f := {| p_free := f; p_num := p_num p; p_attempts := p_attempts p; p_closed := p_closed p |}.
Definition add_num (p : pool) d := {| p_free := p_free p; p_num := p_num p + d; p_attempts := p_attempts p; p_closed := p_closed p |}.
Definition close_conn (p : pool) c := {| p_free := p_free p; p_num := p_num p; p_attempts := p_attempts p; p_closed := p_closed p ++ [c] |}.

(** connection_pool.py:80-92 _new_conn. [mk n] says whether the n-th socket can be created (socket.socket
    may raise OSError; a failing connect is swallowed, connection.py:40-43). The counter is incremented
    before the socket is created. *)
Definition new_conn (cfg : config) (mk : nat -> bool) (p : pool) : pool * res nat :=
  if max_connections cfg <=? p_num p then (p, Raise EmptyPoolError)
  else let p1 := {| p_free := p_free p; p_num := p_num p + 1; p_attempts := S (p_attempts p); p_closed := p_closed p |} in
       if mk (p_attempts p) then (p1, Ok (p_attempts p)) else (p1, Raise OSError).

(** queue.LifoQueue(maxsize): full when 0 < maxsize <= qsize *)
Definition q_full (cfg : config) (q : list nat) : bool := (0 <? max_free cfg) && (max_free cfg <=? len q).

(** connection_pool.py:132-162 put_conn *)
Definition put_conn (cfg : config) (p : pool) (c : nat) : pool :=
  match p_free p with
  | None => close_conn p c
  | Some q => if q_full cfg q then close_conn (add_num p (-1)) c else set_free p (Some (c :: q))
  end.

(** connection_pool.py:94-130 get_conn, utils.py:26-45. [dr c] is what is_connection_dropped would see on
    connection c from outside (readable or not); a connection closed locally always counts as dropped.
    A blocking get on an empty queue either times out, which is this model's outcome EmptyPoolError, or is
    the same as a get at the later moment when a connection was put. *)
Definition dropped (dr : nat -> bool) (p : pool) (c : nat) : bool := dr c || mem_nat c (p_closed p).
Definition get_conn (cfg : config) (mk dr : nat -> bool) (p : pool) : pool * res nat :=
  match p_free p with
  | None => (p, Raise ClosedPoolError)
  | Some [] => if block cfg then (p, Raise EmptyPoolError) else new_conn cfg mk p
  | Some (c :: q) =>
      let p0 := set_free p (Some q) in
      let '(p1, r) := if len q <? min_free cfg
                      then match new_conn cfg mk p0 with
                           | (p', Ok n) => (put_conn cfg p' n, Ok tt)
                           | (p', Raise e) => (p', Raise e)
                           end
                      else (p0, Ok tt) in
      match r with
      | Raise e => (p1, Raise e)                 (* c is dropped on the floor *)
      | Ok _ => if dropped dr p1 c
                then (add_num (close_conn p1 c) (-1), Ok c)     (* [conn or _new_conn()]: conn is truthy *)
                else (p1, Ok c)
      end
  end.

(** connection_pool.py:164-178 close *)
Definition pool_close (p : pool) : pool * res unit :=
  match p_free p with
  | None => (p, Raise AttributeError)
  | Some q => ({| p_free := None; p_num := p_num p; p_attempts := p_attempts p; p_closed := p_closed p ++ q |}, Ok tt)
  end.

(** connection_pool.py:61-67, the constructor; the initial [put] is a blocking one *)
Inductive built := Built (p : pool) | Failed (e : exn) | Blocks.
Fixpoint fill (cfg : config) (mk : nat -> bool) (n : nat) (p : pool) : built :=
  match n with
  | O => Built p
  | S n' => match new_conn cfg mk p with
            | (_, Raise e) => Failed e
            | (p1, Ok c) => match p_free p1 with
                            | Some q => if q_full cfg q then Blocks else fill cfg mk n' (set_free p1 (Some (c :: q)))
                            | None => Failed AttributeError
                            end
            end
  end.
Definition build (cfg : config) (mk : nat -> bool) : built :=
  fill cfg mk (initial cfg) {| p_free := Some []; p_num := 0; p_attempts := 0; p_closed := [] |}.

(** Histories of one pool. [s_lent]: connections returned by get_conn and not given back; [s_user]:
    connections closed by their borrowers. Connections neither free nor lent are garbage: CPython closes
    their sockets (connection.py:81-82), which is not modelled. *)
Record pstate := { s_pool : pool; s_lent : list nat; s_user : list nat }.
Inductive pop := PGet (dr : nat -> bool) | PPut (c : nat) | PClose | PUserClose (c : nat).
Definition pstep (cfg : config) (mk : nat -> bool) (s : pstate) (o : pop) : pstate * option (res nat) :=
  match o with
  | PGet dr => let '(p, r) := get_conn cfg mk (fun c => dr c || mem_nat c (s_user s)) (s_pool s) in
               ({| s_pool := p; s_lent := match r with Ok c => c :: s_lent s | Raise _ => s_lent s end; s_user := s_user s |}, Some r)
  | PPut c => ({| s_pool := put_conn cfg (s_pool s) c; s_lent := remove Nat.eq_dec c (s_lent s); s_user := s_user s |}, None)
  | PClose => ({| s_pool := fst (pool_close (s_pool s)); s_lent := s_lent s; s_user := s_user s |}, None)
  | PUserClose c => ({| s_pool := s_pool s; s_lent := s_lent s; s_user := c :: s_user s |}, None)
  end.
Fixpoint prun (cfg : config) (mk : nat -> bool) (s : pstate) (ops : list pop) : pstate :=
  match ops with [] => s | o :: r => prun cfg mk (fst (pstep cfg mk s o)) r end.
Definition start_pool (p : pool) : pstate := {| s_pool := p; s_lent := []; s_user := [] |}.

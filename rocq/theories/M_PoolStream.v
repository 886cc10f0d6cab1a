(** Model of what the users of one connection pool read: the pool of M_ConnPool, and for every connection the bytes
    that the peer sends on it. Calls of one thread (connection_pool.py:94-178, connection.py:61-62, utils.py:26-45).
    A use is what happens between the get_conn that hands a connection out and the put_conn that gives it back, which
    connection_scope (pool_manager.py:100-112) makes also when its body raises. Uses are numbered in the order of
    their get_conn. Every byte is marked with the use that asked for it. *)
From Verif Require Import PyBase PyDict M_ConnPool.
Open Scope nat_scope.

(** one connection: bytes under way, bytes that have arrived and have not been read, and whether the peer has closed *)
Record stream := { f_flight : list (nat * byte); f_unread : list (nat * byte); f_eof : bool }.
Definition no_stream : stream := {| f_flight := []; f_unread := []; f_eof := false |}.
Record use := { v_conn : nat; v_over : bool; v_read : list (nat * byte) }.
Record ustate := { u_pool : pstate; u_str : nat -> stream; u_uses : list use }.
Definition u_start (p : pool) : ustate := {| u_pool := start_pool p; u_str := fun _ => no_stream; u_uses := [] |}.

Inductive ustep :=
| UGet                             (* get_conn: the beginning of a use *)
| UAnswer (u : nat) (bs : bytes)   (* the peer sends bytes for use u, on the connection of that use; it may be late *)
| UArrive (c n : nat)              (* at most n bytes arrive on connection c *)
| UFin (c : nat)                   (* the peer has closed connection c *)
| URecv (u n : nat)                (* use u calls recv(n) *)
| UGive (u : nat)                  (* put_conn: the end of use u *)
| UShut (u : nat)                  (* use u closes its connection *)
| UClose.                          (* close() of the pool *)

(** utils.py:42-45: what wait_for_read(sock, timeout=0.0) says of a socket that is open *)
Definition readable (f : stream) : bool := match f_unread f with [] => f_eof f | _ => true end.
(** closed by the pool or by a user *)
Definition shut (s : ustate) (c : nat) : bool := mem_nat c (p_closed (s_pool (u_pool s))) || mem_nat c (s_user (u_pool s)).

Definition with_pool (p : pstate) (s : ustate) : ustate := {| u_pool := p; u_str := u_str s; u_uses := u_uses s |}.
Definition with_stream (c : nat) (f : stream -> stream) (s : ustate) : ustate :=
  {| u_pool := u_pool s; u_str := fun x => if Nat.eqb x c then f (u_str s x) else u_str s x; u_uses := u_uses s |}.
Fixpoint upd_use (u : nat) (f : use -> use) (l : list use) : list use :=
  match l, u with [], _ => [] | x :: r, O => f x :: r | x :: r, S v => x :: upd_use v f r end.
Definition with_use (u : nat) (f : use -> use) (s : ustate) : ustate := {| u_pool := u_pool s; u_str := u_str s; u_uses := upd_use u f (u_uses s) |}.

Definition send (u : nat) (bs : bytes) (f : stream) : stream := {| f_flight := f_flight f ++ map (pair u) bs; f_unread := f_unread f; f_eof := f_eof f |}.
Definition arrive (n : nat) (f : stream) : stream := {| f_flight := skipn n (f_flight f); f_unread := f_unread f ++ firstn n (f_flight f); f_eof := f_eof f |}.
Definition fin (f : stream) : stream := {| f_flight := f_flight f; f_unread := f_unread f; f_eof := true |}.
Definition taken (n : nat) (f : stream) : stream := {| f_flight := f_flight f; f_unread := skipn n (f_unread f); f_eof := f_eof f |}.
Definition reads (l : list (nat * byte)) (x : use) : use := {| v_conn := v_conn x; v_over := v_over x; v_read := v_read x ++ l |}.
Definition ends (x : use) : use := {| v_conn := v_conn x; v_over := true; v_read := v_read x |}.

Definition ustep_do (cfg : config) (mk : nat -> bool) (o : ustep) (s : ustate) : ustate :=
  match o with
  | UGet =>
      let '(p, r) := pstep cfg mk (u_pool s) (PGet (fun c => readable (u_str s c))) in
      match r with
      | Some (Ok c) => {| u_pool := p; u_str := u_str s; u_uses := u_uses s ++ [{| v_conn := c; v_over := false; v_read := [] |}] |}
      | _ => with_pool p s
      end
  | UAnswer u bs => match nth_error (u_uses s) u with Some x => with_stream (v_conn x) (send u bs) s | None => s end
  | UArrive c n => with_stream c (arrive n) s
  | UFin c => with_stream c fin s
  | URecv u n =>
      match nth_error (u_uses s) u with
      | Some x => if v_over x || shut s (v_conn x) then s
                  else with_stream (v_conn x) (taken n) (with_use u (reads (firstn n (f_unread (u_str s (v_conn x))))) s)
      | None => s
      end
  | UGive u =>
      match nth_error (u_uses s) u with
      | Some x => if v_over x then s else with_use u ends (with_pool (fst (pstep cfg mk (u_pool s) (PPut (v_conn x)))) s)
      | None => s
      end
  | UShut u =>
      match nth_error (u_uses s) u with
      | Some x => if v_over x then s else with_pool (fst (pstep cfg mk (u_pool s) (PUserClose (v_conn x)))) s
      | None => s
      end
  | UClose => with_pool (fst (pstep cfg mk (u_pool s) PClose)) s
  end.
Definition u_run (cfg : config) (mk : nat -> bool) (p : pool) (l : list ustep) : ustate := fold_left (fun s o => ustep_do cfg mk o s) l (u_start p).

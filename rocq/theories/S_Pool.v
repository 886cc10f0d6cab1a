(** Specification vocabulary for connection pools. *)
From Verif Require Import PyBase PyDict M_ConnPool.

Definition free_conns (p : pool) : list nat := match p_free p with Some q => q | None => [] end.

(** callers only give back connections they were lent *)
Fixpoint lawful (cfg : config) (mk : nat -> bool) (s : pstate) (ops : list pop) : Prop :=
  match ops with
  | [] => True
  | o :: r => match o with PPut c => In c (s_lent s) | _ => True end /\ lawful cfg mk (fst (pstep cfg mk s o)) r
  end.

(** callers do not give back a connection that the pool itself has closed *)
Fixpoint no_closed_returned (cfg : config) (mk : nat -> bool) (s : pstate) (ops : list pop) : Prop :=
  match ops with
  | [] => True
  | o :: r => match o with PPut c => ~ In c (p_closed (s_pool s)) | _ => True end /\ no_closed_returned cfg mk (fst (pstep cfg mk s o)) r
  end.

(** the open connections: free or lent, closed neither by the pool nor by the borrower *)
Definition is_open (s : pstate) (c : nat) : Prop :=
  (In c (free_conns (s_pool s)) \/ In c (s_lent s)) /\ ~ In c (p_closed (s_pool s)) /\ ~ In c (s_user s).

(** a new connection can be made: the limit is not reached and the system provides a socket *)
Definition room (cfg : config) (mk : nat -> bool) (p : pool) : Prop := p_num p < max_connections cfg /\ mk (p_attempts p) = true.
(** what get_conn needs: a free connection, with enough others behind it or room for one more; without a free connection,
    room for a new one and no setting that makes the caller wait *)
Definition can_serve (cfg : config) (mk : nat -> bool) (p : pool) : Prop :=
  match p_free p with
  | None => False
  | Some [] => block cfg = false /\ room cfg mk p
  | Some (_ :: q) => min_free cfg <= len q \/ room cfg mk p
  end.

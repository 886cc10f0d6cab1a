(** What C139 compares threads that share a pool (M_PoolThreads) with: one thread that does the same operations one after
    the other (M_ConnPool). *)
From Verif Require Import PyBase M_ConnPool M_PoolThreads.

(** an operation that a thread begins *)
Inductive asked := AGet | APut (c : nat) | AClose.
Definition ready (t : thr) : bool := match t_pc t with Idle => true | _ => false end.
(** the operation that a step begins, if it begins one *)
Definition begins (s : ts) (o : tstep) : list asked :=
  match o with
  | TGet i _ => match nth_error (h_threads s) i with Some t => if ready t then [AGet] else [] | None => [] end
  | TClose i => match nth_error (h_threads s) i with Some t => if ready t then [AClose] else [] | None => [] end
  | TPut i c => match nth_error (h_threads s) i with Some t => if ready t && mem_nat c (t_lent t) then [APut c] else [] | None => [] end
  | TStep _ _ | THand _ _ _ => []
  end.
Fixpoint begun (cfg : config) (s : ts) (l : list tstep) : list asked :=
  match l with [] => [] | o :: r => begins s o ++ begun cfg (t_step cfg o s) r end.

(** at no moment are two threads in an operation *)
Definition in_turn (cfg : config) (p : pool) (n : nat) (l : list tstep) : Prop := forall l1 l2, l = l1 ++ l2 ->
  forall i j t u, nth_error (h_threads (t_run cfg p n l1)) i = Some t -> nth_error (h_threads (t_run cfg p n l1)) j = Some u -> t_pc t <> Idle -> t_pc u <> Idle -> i = j.

(** an operation of one thread; to get_conn the world says which sockets can be made and which connections look dropped *)
Inductive sop := SGet (mk dr : nat -> bool) | SPut (c : nat) | SClose.
Definition s_do (cfg : config) (o : sop) (p : pool) : pool * outcome :=
  match o with
  | SGet mk dr => let '(p', r) := get_conn cfg mk dr p in (p', match r with Ok c => OGot c | Raise e => OErr e end)
  | SPut c => (put_conn cfg p c, ODone)
  | SClose => let '(p', r) := pool_close p in (p', match r with Ok _ => ODone | Raise e => OErr e end)
  end.
Fixpoint s_run (cfg : config) (l : list sop) (p : pool) : pool * list outcome :=
  match l with [] => (p, []) | o :: r => let '(p1, x) := s_do cfg o p in let '(p2, xs) := s_run cfg r p1 in (p2, x :: xs) end.

(** the operations are the same, when connection c of the threads is connection [f c] of the one thread (the two number
    them differently when a socket could not be made) *)
Definition same_op (f : nat -> nat) (o : sop) (a : asked) : Prop :=
  match o, a with
  | SGet _ _, AGet => True
  | SPut d, APut c => d = f c
  | SClose, AClose => True
  | _, _ => False
  end.
Definition named (f : nat -> nat) (o : outcome) : outcome := match o with OGot c => OGot (f c) | ODone => ODone | OErr e => OErr e end.
(** different connections have different numbers *)
Definition apart (f : nat -> nat) (n : nat) : Prop := forall c d, (c < n)%nat -> (d < n)%nat -> f c = f d -> c = d.
(** the pool of the threads is as that of the one thread *)
Definition same_pool (f : nat -> nat) (s : ts) (q : pool) : Prop :=
  p_free q = (if h_open s then Some (map f (h_queue s)) else None) /\ p_num q = h_num s /\ p_closed q = map f (h_closed s).
(** one thread that does the same operations has got the same *)
Definition as_one_thread (cfg : config) (p : pool) (n : nat) (l : list tstep) : Prop := exists ops f q, let s := t_run cfg p n l in
  apart f (h_made s) /\ Forall2 (same_op f) ops (firstn (List.length (h_log s)) (begun cfg (t_init p n) l)) /\ s_run cfg ops p = (q, map (fun x => named f (snd x)) (h_log s)) /\
  ((forall i t, nth_error (h_threads s) i = Some t -> t_pc t = Idle) -> List.length (begun cfg (t_init p n) l) = List.length (h_log s) /\ same_pool f s q).

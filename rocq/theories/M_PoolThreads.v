(** Threads using one connection pool at the same time: mysockpool/connection_pool.py:80-178 as a step machine. One
    step of a thread is one access to an attribute of the pool, one operation of the queue (queue.LifoQueue is
    thread-safe: put and get are atomic), one acquisition of the lock, or one call into a connection; other threads
    may run between any two of them. [self.num_connections += 1] is a load and a store. The check of lines 81-86 is
    one step, taken when the lock is free: it only loads the attribute while the lock is held.
    The only queue there ever is belongs to the pool or, after close(), to nobody: [h_open] says whether self.pool is
    still that queue or None. Connections are numbered in the order of their creation. *)
From Verif Require Import PyBase M_ConnPool.

(** _new_conn is called at line 130, or at line 111 while get_conn already has a connection *)
Inductive whose := ForCaller | ForRefill (c : nat).
(** put_conn is called by the user, or at line 111 *)
Inductive back := ToCaller | ToGet (c : nat).

(** where a thread stands; [tmo]: a timeout was given to get_conn *)
Inductive tpc :=
| Idle
| GLoad (tmo : bool) | GTake (tmo : bool)                                          (* line 108: self.pool; .get(...) *)
| GSizeLoad (c : nat) | GSize (c : nat)                                            (* line 110: self.pool; .qsize() *)
| NCheck (w : whose) | NLoad (w : whose) | NStore (w : whose) (v : Z) | NMake (w : whose)   (* lines 81-82, 87, 91 *)
| PLoad (k : back) (c : nat) | PPut (k : back) (c : nat)                           (* line 147: self.pool; .put(...) *)
| PLock (k : back) (c : nat) | PDecLoad (k : back) (c : nat) | PDecStore (k : back) (c : nat) (v : Z)   (* lines 157-158 *)
| PClose (k : back) (c : nat)                                                      (* lines 161-162 *)
| GDrop (c : nat) | GClose (c : nat) | GLock (c : nat) | GDecLoad (c : nat) | GDecStore (c : nat) (v : Z)   (* lines 124-128 *)
| CLoad | CStore (was : bool)                                                      (* line 169 *)
| CDrain (was : bool) | CShut (c : nat).                                           (* lines 173, 175 *)

(** how an operation ended: get_conn returned a connection; put_conn or close returned; an exception *)
Inductive outcome := OGot (c : nat) | ODone | OErr (e : exn).

(** [t_lent]: the connections that get_conn returned to this thread and that it has not given back *)
Record thr := { t_pc : tpc; t_lent : list nat }.
Record ts := { h_open : bool; h_queue : list nat; h_num : Z; h_lock : option nat; h_closed : list nat; h_made : nat; h_threads : list thr; h_log : list (nat * outcome) }.

Fixpoint updt {A} (i : nat) (x : A) (l : list A) : list A :=
  match l, i with
  | [], _ => []
  | _ :: r, O => x :: r
  | y :: r, S j => y :: updt j x r
  end.
Definition set_thr (i : nat) (t : thr) (s : ts) : ts :=
  {| h_open := h_open s; h_queue := h_queue s; h_num := h_num s; h_lock := h_lock s; h_closed := h_closed s; h_made := h_made s; h_threads := updt i t (h_threads s); h_log := h_log s |}.
Definition set_queue (q : list nat) (s : ts) : ts :=
  {| h_open := h_open s; h_queue := q; h_num := h_num s; h_lock := h_lock s; h_closed := h_closed s; h_made := h_made s; h_threads := h_threads s; h_log := h_log s |}.
Definition set_num (n : Z) (s : ts) : ts :=
  {| h_open := h_open s; h_queue := h_queue s; h_num := n; h_lock := h_lock s; h_closed := h_closed s; h_made := h_made s; h_threads := h_threads s; h_log := h_log s |}.
Definition set_lock (l : option nat) (s : ts) : ts :=
  {| h_open := h_open s; h_queue := h_queue s; h_num := h_num s; h_lock := l; h_closed := h_closed s; h_made := h_made s; h_threads := h_threads s; h_log := h_log s |}.
Definition shut (c : nat) (s : ts) : ts :=
  {| h_open := h_open s; h_queue := h_queue s; h_num := h_num s; h_lock := h_lock s; h_closed := h_closed s ++ [c]; h_made := h_made s; h_threads := h_threads s; h_log := h_log s |}.
Definition made_one (s : ts) : ts :=
  {| h_open := h_open s; h_queue := h_queue s; h_num := h_num s; h_lock := h_lock s; h_closed := h_closed s; h_made := S (h_made s); h_threads := h_threads s; h_log := h_log s |}.
Definition set_none (s : ts) : ts :=
  {| h_open := false; h_queue := h_queue s; h_num := h_num s; h_lock := h_lock s; h_closed := h_closed s; h_made := h_made s; h_threads := h_threads s; h_log := h_log s |}.
Definition log (i : nat) (o : outcome) (s : ts) : ts :=
  {| h_open := h_open s; h_queue := h_queue s; h_num := h_num s; h_lock := h_lock s; h_closed := h_closed s; h_made := h_made s; h_threads := h_threads s; h_log := h_log s ++ [(i, o)] |}.

(** thread i, which was t, goes on at p; or its operation ends *)
Definition at_ (i : nat) (t : thr) (p : tpc) (s : ts) : ts := set_thr i {| t_pc := p; t_lent := t_lent t |} s.
Definition fails (i : nat) (t : thr) (e : exn) (s : ts) : ts := log i (OErr e) (at_ i t Idle s).
Definition gives (i : nat) (t : thr) (c : nat) (s : ts) : ts := log i (OGot c) (set_thr i {| t_pc := Idle; t_lent := c :: t_lent t |} s).
(** the end of put_conn *)
Definition put_over (i : nat) (t : thr) (k : back) (s : ts) : ts :=
  match k with ToCaller => log i ODone (at_ i t Idle s) | ToGet c => at_ i t (GDrop c) s end.

(** is the lock free for the taking? *)
Definition lock_free (s : ts) : bool := match h_lock s with None => true | Some _ => false end.

(** one step of thread i; [b] is what the world says: the socket cannot be created (line 91), the connection looks
    dropped (line 124), the timeout is over (line 108) *)
Definition go (cfg : config) (i : nat) (b : bool) (t : thr) (s : ts) : ts :=
  match t_pc t with
  | Idle => s
  | GLoad tmo => if h_open s then at_ i t (GTake tmo) s else fails i t ClosedPoolError s          (* lines 113-114 *)
  | GTake tmo =>
      match h_queue s with
      | c :: q => at_ i t (GSizeLoad c) (set_queue q s)
      | [] => if block cfg then if tmo && b then fails i t EmptyPoolError s else s                (* lines 117-120 *)
              else at_ i t (NCheck ForCaller) s                                                   (* lines 121, 130 *)
      end
  | GSizeLoad c => if h_open s then at_ i t (GSize c) s else fails i t ClosedPoolError s
  | GSize c => if len (h_queue s) <? min_free cfg then at_ i t (NCheck (ForRefill c)) s else at_ i t (GDrop c) s
  | NCheck w => if lock_free s then if max_connections cfg <=? h_num s then fails i t EmptyPoolError s else at_ i t (NLoad w) s else s
  | NLoad w => at_ i t (NStore w (h_num s + 1)) s
  | NStore w v => at_ i t (NMake w) (set_num v s)
  | NMake w =>
      if b then fails i t OSError s
      else match w with
           | ForCaller => gives i t (h_made s) (made_one s)
           | ForRefill c => at_ i t (PLoad (ToGet c) (h_made s)) (made_one s)
           end
  | PLoad k c => if h_open s then at_ i t (PPut k c) s else at_ i t (PClose k c) s                (* lines 149-151 *)
  | PPut k c => if q_full cfg (h_queue s) then at_ i t (PLock k c) s else put_over i t k (set_queue (c :: h_queue s) s)
  | PLock k c => if lock_free s then at_ i t (PDecLoad k c) (set_lock (Some i) s) else s
  | PDecLoad k c => at_ i t (PDecStore k c (h_num s - 1)) s
  | PDecStore k c v => at_ i t (PClose k c) (set_lock None (set_num v s))
  | PClose k c => put_over i t k (shut c s)
  | GDrop c => if b || mem_nat c (h_closed s) then at_ i t (GClose c) s else gives i t c s
  | GClose c => at_ i t (GLock c) (shut c s)
  | GLock c => if lock_free s then at_ i t (GDecLoad c) (set_lock (Some i) s) else s
  | GDecLoad c => at_ i t (GDecStore c (h_num s - 1)) s
  | GDecStore c v => gives i t c (set_lock None (set_num v s))                                    (* line 130: conn is truthy *)
  | CLoad => at_ i t (CStore (h_open s)) s
  | CStore was => at_ i t (CDrain was) (set_none s)
  | CDrain was =>
      if was then
        match h_queue s with
        | c :: q => at_ i t (CShut c) (set_queue q s)
        | [] => log i ODone (at_ i t Idle s)                                                      (* lines 177-178 *)
        end
      else fails i t AttributeError s                                                             (* None.get *)
  | CShut c => at_ i t (CDrain true) (shut c s)
  end.

(** what happens: an idle thread begins get_conn, put_conn of a connection lent to it, or close; a thread makes one
    step; a thread hands a connection lent to it to another thread *)
Inductive tstep := TGet (i : nat) (tmo : bool) | TPut (i c : nat) | TClose (i : nat) | TStep (i : nat) (b : bool) | THand (i j c : nat).
Definition begin (i : nat) (p : tpc) (t : thr) (s : ts) : ts := match t_pc t with Idle => at_ i t p s | _ => s end.
Definition drop (c : nat) (l : list nat) : list nat := remove Nat.eq_dec c l.
Definition t_step (cfg : config) (o : tstep) (s : ts) : ts :=
  match o with
  | TGet i tmo => match nth_error (h_threads s) i with Some t => begin i (GLoad tmo) t s | None => s end
  | TClose i => match nth_error (h_threads s) i with Some t => begin i CLoad t s | None => s end
  | TPut i c =>
      match nth_error (h_threads s) i with
      | Some t => match t_pc t with
                  | Idle => if mem_nat c (t_lent t) then set_thr i {| t_pc := PLoad ToCaller c; t_lent := drop c (t_lent t) |} s else s
                  | _ => s
                  end
      | None => s
      end
  | TStep i b => match nth_error (h_threads s) i with Some t => go cfg i b t s | None => s end
  | THand i j c =>
      match nth_error (h_threads s) i, nth_error (h_threads s) j with
      | Some t, Some u =>
          if mem_nat c (t_lent t) && negb (Nat.eqb i j)
          then set_thr j {| t_pc := t_pc u; t_lent := c :: t_lent u |} (set_thr i {| t_pc := t_pc t; t_lent := drop c (t_lent t) |} s)
          else s
      | _, _ => s
      end
  end.

(** n threads share the pool p that the constructor has built (M_ConnPool.build) *)
Definition t_init (p : pool) (n : nat) : ts :=
  {| h_open := true; h_queue := match p_free p with Some q => q | None => [] end; h_num := p_num p; h_lock := None; h_closed := []; h_made := p_attempts p;
     h_threads := repeat {| t_pc := Idle; t_lent := [] |} n; h_log := [] |}.
Definition t_run (cfg : config) (p : pool) (n : nat) (l : list tstep) : ts := fold_left (fun s o => t_step cfg o s) l (t_init p n).

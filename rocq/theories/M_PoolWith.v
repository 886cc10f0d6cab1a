(** with statements over pools and pool managers: mysockpool/connection_pool.py:72-78 and pool_manager.py:50-56, in one
    thread. The exit methods close (clear) and return False: an exception of the body goes on, unless closing raises
    another one, which then takes its place. *)
From Verif Require Import PyBase PyDict M_Lru M_ConnPool M_PoolManager.

Definition unit_of {A} (r : res A) : res unit := match r with Ok _ => Ok tt | Raise e => Raise e end.

(** one operation with what its caller sees of it; the change is that of [mstep]. Simplified: operations on a pool that the
    manager never made change nothing. *)
Definition op_do {K} `{EqDec K} (mp : Z) (cfg : config) (mk : nat -> nat -> bool) (o : mop K) (w : world K) : world K * res unit :=
  (mstep mp cfg mk w o,
   match o with
   | MLookup k => unit_of (snd (lookup mp cfg mk w k))
   | MClear => snd (manager_clear w)
   | MGet i dr => match nth_error (w_pools w) i with Some p => unit_of (snd (get_conn cfg (mk i) dr p)) | None => Ok tt end
   | MPut _ _ => Ok tt
   | MUserClose i => match nth_error (w_pools w) i with Some p => snd (pool_close p) | None => Ok tt end
   end).

(** connection_pool.py:72-78: [with pool: body] *)
Definition with_pool {K} `{EqDec K} mp cfg mk (i : nat) (body : world K -> world K * res unit) (w : world K) : world K * res unit :=
  let '(w1, r) := body w in
  let '(w2, c) := op_do mp cfg mk (MUserClose i) w1 in
  (w2, match c with Ok _ => r | Raise e => Raise e end).
(** pool_manager.py:50-56: [with manager: body] *)
Definition with_manager {K} (body : world K -> world K * res unit) (w : world K) : world K * res unit :=
  let '(w1, r) := body w in
  let '(w2, c) := manager_clear w1 in
  (w2, match c with Ok _ => r | Raise e => Raise e end).

(** programs: operations, exceptions of the program itself, and [with manager.connection_pool_from_pool_key(k): body] *)
Inductive stm (K : Type) := SOp (o : mop K) | SRaise (e : exn) | SWith (k : K) (body : list (stm K)).
Arguments SOp {K} o.
Arguments SRaise {K} e.
Arguments SWith {K} k body.
Fixpoint run_stm {K} `{EqDec K} mp cfg mk (s : stm K) (w : world K) : world K * res unit :=
  match s with
  | SOp o => op_do mp cfg mk o w
  | SRaise e => (w, Raise e)
  | SWith k body =>
      match lookup mp cfg mk w k with
      | (w1, Raise e) => (w1, Raise e)
      | (w1, Ok i) => with_pool mp cfg mk i ((fix go l w := match l with [] => (w, Ok tt) | x :: r => match run_stm mp cfg mk x w with (w', Ok _) => go r w' | (w', Raise e) => (w', Raise e) end end) body) w1
      end
  end.
Fixpoint run_stms {K} `{EqDec K} mp cfg mk (l : list (stm K)) (w : world K) : world K * res unit :=
  match l with [] => (w, Ok tt) | x :: r => match run_stm mp cfg mk x w with (w', Ok _) => run_stms mp cfg mk r w' | (w', Raise e) => (w', Raise e) end end.

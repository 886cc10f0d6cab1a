(** Threads that share one pool manager: mysockpool/pool_manager.py:45-112 with the container of M_LruThreads and, for
    every pool that has been made, the pool with threads of M_PoolThreads. A call of the manager (the lookup of a pool,
    clear()) is run by a thread; where it makes a pool (line 95) the constructor is run, as one step, or not at all when
    it blocks for ever (connection_pool.py:66-67 with more initial than free connections); where it disposes of a pool
    (line 48) the thread runs close() of that pool, step by step, and goes on when that has ended. A thread does one
    thing at a time: it is in a call of the manager, or in one operation of one pool, or idle. connection_scope
    (lines 100-112) is a lookup, a get_conn and a put_conn by the same thread, with anything in between. *)
From Verif Require Import PyBase PyDict M_Lru M_LruThreads M_ConnPool M_PoolThreads.

(** the manager, the pools in the order of their creation, the thread of every call of the manager, the calls that are
    inside close() of a pool *)
Record gs (K : Type) := { g_m : tstate K; g_pools : list ts; g_who : list nat; g_closing : list nat }.
Arguments g_m {K}. Arguments g_pools {K}. Arguments g_who {K}. Arguments g_closing {K}.
Definition g_init {K} : gs K := {| g_m := tinit; g_pools := []; g_who := []; g_closing := [] |}.

(** what happens: a thread calls the manager; call j makes a step ([b] as in M_PoolThreads.go); a thread does
    something with pool v *)
Inductive gop (K : Type) := GLookup (k : K) | GClear.
Arguments GLookup {K}. Arguments GClear {K}.
Definition top_of {K} (o : gop K) : top K := match o with GLookup k => TLookup k | GClear => TClear end.
Inductive gstep (K : Type) := GCall (i : nat) (o : gop K) | GStep (j : nat) (b : bool) | GUse (v : nat) (o : tstep).
Arguments GCall {K}. Arguments GStep {K}. Arguments GUse {K}.

(** is thread i in a call of the manager? has it nothing to do? *)
Definition over {K} (p : prog K) : bool := match p with Done _ => true | _ => false end.
Definition calling {K} (i : nat) (s : gs K) : bool :=
  existsb (fun x => Nat.eqb i (fst x) && negb (over (snd (snd x)))) (combine (g_who s) (t_calls (g_m s))).
Definition idle_in (i : nat) (h : ts) : bool :=
  match nth_error (h_threads h) i with Some t => match t_pc t with Idle => true | _ => false end | None => false end.
Definition free {K} (i : nat) (s : gs K) : bool := negb (calling i s) && forallb (idle_in i) (g_pools s).

(** how the operation that thread i has just ended did end: the exception, if there was one *)
Fixpoint failure (i : nat) (l : list (nat * outcome)) : option exn :=
  match l with
  | [] => None
  | (j, o) :: r =>
      if existsb (fun x => Nat.eqb i (fst x)) r then failure i r
      else if Nat.eqb i j then match o with OErr e => Some e | _ => None end else None
  end.

Definition with_m {K} (m : tstate K) (s : gs K) : gs K := {| g_m := m; g_pools := g_pools s; g_who := g_who s; g_closing := g_closing s |}.
Definition with_pools {K} (l : list ts) (s : gs K) : gs K := {| g_m := g_m s; g_pools := l; g_who := g_who s; g_closing := g_closing s |}.
Definition with_closing {K} (l : list nat) (s : gs K) : gs K := {| g_m := g_m s; g_pools := g_pools s; g_who := g_who s; g_closing := l |}.

(** line 95: the exception that the constructor raises for call j, if any; [mks j n]: call j, making a pool, can create
    its n-th socket *)
Definition raises (cfg : config) (mks : nat -> nat -> bool) (j : nat) : option exn := match build cfg (mks j) with Failed e => Some e | _ => None end.
Definition no_exn : nat -> nat -> option exn := fun _ _ => None.

(** call j, run by thread i, which stands at p *)
Definition g_instr {K} `{EqDec K} (cfg : config) (n : nat) (mks : nat -> nat -> bool) (j i : nat) (b : bool) (p : prog K) (s : gs K) : gs K :=
  match p with
  | New _ =>
      match build cfg (mks j) with
      | Built q => with_pools (g_pools s ++ [t_init q n]) (with_m (tinstr no_exn (g_m s) j p) s)
      | _ => s
      end
  | Dispose v _ =>
      match nth_error (g_pools s) v with
      | None => s
      | Some h =>
          if mem_nat j (g_closing s) then
            if idle_in i h then with_closing (drop j (g_closing s)) (with_m (tinstr (fun _ _ => failure i (h_log h)) (g_m s) j p) s)
            else with_pools (updt v (t_step cfg (TStep i b) h) (g_pools s)) s
          else with_closing (j :: g_closing s) (with_pools (updt v (t_step cfg (TClose i) h) (g_pools s)) s)
      end
  | _ => with_m (tinstr no_exn (g_m s) j p) s
  end.

(** an operation of a pool begins only in a thread that is free; a thread that is in a call of the manager makes no steps
    of its own in a pool *)
Definition may {K} (o : tstep) (s : gs K) : bool :=
  match o with
  | TGet i _ | TPut i _ | TClose i => free i s
  | TStep i _ => negb (calling i s)
  | THand _ _ _ => true
  end.

Definition g_step {K} `{EqDec K} (m : Z) (cfg : config) (n : nat) (mks : nat -> nat -> bool) (o : gstep K) (s : gs K) : gs K :=
  match o with
  | GCall i o =>
      if Nat.ltb i n && free i s then
        {| g_m := M_LruThreads.tstep m (raises cfg mks) no_exn (g_m s) (TBegin (top_of o)); g_pools := g_pools s; g_who := g_who s ++ [i]; g_closing := g_closing s |}
      else s
  | GStep j b =>
      match nth_error (t_calls (g_m s)) j, nth_error (g_who s) j with
      | Some (_, p), Some i => g_instr cfg n mks j i b p s
      | _, _ => s
      end
  | GUse v o =>
      match nth_error (g_pools s) v with
      | Some h => if may o s then with_pools (updt v (t_step cfg o h) (g_pools s)) s else s
      | None => s
      end
  end.
(** n threads, at most m pools *)
Definition g_run {K} `{EqDec K} (m : Z) (cfg : config) (n : nat) (mks : nat -> nat -> bool) (l : list (gstep K)) : gs K :=
  fold_left (fun s o => g_step m cfg n mks o s) l g_init.

(** Model of mysockpool/recently_used_container.py and of pool_manager.py:79-98 with threads: any number of calls in
    progress, interleaved between any two accesses to the container. Each call is a program whose instructions are the
    accesses of the Python code, in its order; one instruction is one step.  Assumed: single operations on an
    OrderedDict are atomic (they are C functions run under the interpreter lock, keys being strings or tuples), and an
    RLock is held by at most one thread, which may take it again. *)
From Verif Require Import PyBase PyDict M_Lru.

(** what an operation returns: nothing (None), a value, a length, the list of keys *)
Inductive obs (K : Type) := ONone | OVal (v : nat) | OLen (n : Z) | OKeys (l : list K).
Arguments ONone {K}. Arguments OVal {K}. Arguments OLen {K}. Arguments OKeys {K}.

Inductive prog (K : Type) :=
| Done (r : res (obs K))                             (* the call has ended *)
| Acq (p : prog K)                                   (* lock.acquire() *)
| Rel (p : prog K)                                   (* lock.release() *)
| PopKey (k : K) (f : option nat -> prog K)          (* _container.pop(k) *)
| GetKey (k : K) (f : option nat -> prog K)          (* _container.get(k, _Null) *)
| Store (k : K) (v : nat) (p : prog K)               (* _container[k] = v *)
| Count (f : Z -> prog K)                            (* len(_container) *)
| Names (f : list K -> prog K)                       (* list(_container.keys()) *)
| PopFirst (f : option nat -> prog K)                (* _container.popitem(last=False) *)
| Values (f : list nat -> prog K)                    (* list(_container.values()) *)
| Wipe (p : prog K)                                  (* _container.clear() *)
| New (f : nat -> prog K)                            (* a new ConnectionPool *)
| Dispose (v : nat) (f : option exn -> prog K).      (* dispose_func(v): pool.close(), which may raise *)
Arguments Done {K}. Arguments Acq {K}. Arguments Rel {K}. Arguments PopKey {K}. Arguments GetKey {K}. Arguments Store {K}. Arguments Count {K}. Arguments Names {K}.
Arguments PopFirst {K}. Arguments Values {K}. Arguments Wipe {K}. Arguments New {K}. Arguments Dispose {K}.

(** 51-56 [self[k]]; [ret] is what follows *)
Definition getitem {K} (k : K) (ret : res nat -> prog K) : prog K :=
  Acq (PopKey k (fun o => match o with None => Rel (ret (Raise KeyError)) | Some v => Store k v (Rel (ret (Ok v))) end)).
(** 70-71, 77-78 *)
Definition dispose {K} (v : nat) (ret : res unit -> prog K) : prog K :=
  Dispose v (fun x => match x with None => ret (Ok tt) | Some e => ret (Raise e) end).
(** 58-71 [self[k] = v] *)
Definition setitem {K} (m : Z) (k : K) (v : nat) (ret : res unit -> prog K) : prog K :=
  Acq (GetKey k (fun old => Store k v (Count (fun n =>
    if m <? n then PopFirst (fun o => match o with None => Rel (ret (Raise KeyError)) | Some w => Rel (dispose w ret) end)
    else Rel (match old with None => ret (Ok tt) | Some w => dispose w ret end))))).
(** 73-78 [del self[k]] *)
Definition delitem {K} (k : K) (ret : res unit -> prog K) : prog K :=
  Acq (PopKey k (fun o => match o with None => Rel (ret (Raise KeyError)) | Some v => Rel (dispose v ret) end)).
(** 93-95: an exception of one dispose call skips the rest *)
Fixpoint dispose_all {K} (l : list nat) (ret : res unit -> prog K) : prog K :=
  match l with [] => ret (Ok tt) | v :: r => dispose v (fun x => match x with Ok _ => dispose_all r ret | Raise e => ret (Raise e) end) end.
(** 87-95 [clear()] *)
Definition clear {K} (ret : res unit -> prog K) : prog K := Acq (Values (fun l => Wipe (Rel (dispose_all l ret)))).

Definition none_of {K} (r : res unit) : prog K := Done (match r with Ok _ => Ok ONone | Raise e => Raise e end).
Definition val_of {K} (v : nat) (r : res unit) : prog K := Done (match r with Ok _ => Ok (OVal v) | Raise e => Raise e end).

(** the operations. TGetOr, TPop and TSetDefault are get, pop (with a default) and setdefault of
    collections.abc.MutableMapping, which are written with the operators above. TLookup is
    PoolManager.connection_pool_from_pool_key. *)
Inductive top (K : Type) :=
| TGet (k : K) | TGetOr (k : K) | TSet (k : K) (v : nat) | TDel (k : K) | TLen | TKeys | TClear | TLookup (k : K) | TPop (k : K) | TSetDefault (k : K) (v : nat).
Arguments TGet {K}. Arguments TGetOr {K}. Arguments TSet {K}. Arguments TDel {K}. Arguments TLen {K}. Arguments TKeys {K}. Arguments TClear {K}. Arguments TLookup {K}. Arguments TPop {K}. Arguments TSetDefault {K}.

(** [mk]: the exception the constructor of the pool raises, if any *)
Definition prog_of {K} (m : Z) (mk : option exn) (o : top K) : prog K :=
  match o with
  | TGet k => getitem k (fun r => Done (match r with Ok v => Ok (OVal v) | Raise e => Raise e end))
  | TGetOr k => getitem k (fun r => Done (match r with Ok v => Ok (OVal v) | Raise _ => Ok ONone end))
  | TSet k v => setitem m k v none_of
  | TDel k => delitem k none_of
  | TLen => Acq (Count (fun n => Rel (Done (Ok (OLen n)))))                      (* 80-82 *)
  | TKeys => Acq (Names (fun l => Rel (Done (Ok (OKeys l)))))                    (* 97-99 *)
  | TClear => clear none_of
  | TLookup k =>                                                                 (* pool_manager.py:87-98 *)
      Acq (getitem k (fun r => match r with
        | Ok v => Rel (Done (Ok (OVal v)))
        | Raise _ => match mk with
                     | Some e => Rel (Done (Raise e))
                     | None => New (fun v => setitem m k v (fun x => Rel (val_of v x)))
                     end
        end))
  | TPop k => getitem k (fun r => match r with Raise _ => Done (Ok ONone) | Ok v => delitem k (val_of v) end)
  | TSetDefault k v => getitem k (fun r => match r with Ok w => Done (Ok (OVal w)) | Raise _ => setitem m k v (val_of v) end)
  end.

(** the container, the number of pools made so far, the owner of the lock and how often it holds it, the calls in
    progress, the calls of dispose_func with the call that made them, and the calls in the order in which they first
    took the lock (the last two are ghosts) *)
Record tstate (K : Type) := { t_c : dict K nat; t_new : nat; t_lock : option (nat * nat); t_calls : list (top K * prog K); t_disposed : list (nat * nat); t_order : list nat }.
Arguments t_c {K}. Arguments t_new {K}. Arguments t_lock {K}. Arguments t_calls {K}. Arguments t_disposed {K}. Arguments t_order {K}.
Definition tinit {K} : tstate K := {| t_c := []; t_new := 0; t_lock := None; t_calls := []; t_disposed := []; t_order := [] |}.

(** a call begins, or call i makes one step *)
Inductive tevent (K : Type) := TBegin (o : top K) | TStep (i : nat).
Arguments TBegin {K}. Arguments TStep {K}.

Fixpoint set_prog {K} (i : nat) (p : prog K) (l : list (top K * prog K)) : list (top K * prog K) :=
  match l, i with [], _ => [] | (o, _) :: r, O => (o, p) :: r | a :: r, S j => a :: set_prog j p r end.

Definition with_prog {K} (s : tstate K) (i : nat) (p : prog K) : tstate K :=
  {| t_c := t_c s; t_new := t_new s; t_lock := t_lock s; t_calls := set_prog i p (t_calls s); t_disposed := t_disposed s; t_order := t_order s |}.
Definition with_c {K} (s : tstate K) (c : dict K nat) : tstate K :=
  {| t_c := c; t_new := t_new s; t_lock := t_lock s; t_calls := t_calls s; t_disposed := t_disposed s; t_order := t_order s |}.
Definition with_lock {K} (s : tstate K) (x : option (nat * nat)) : tstate K :=
  {| t_c := t_c s; t_new := t_new s; t_lock := x; t_calls := t_calls s; t_disposed := t_disposed s; t_order := t_order s |}.

(** one instruction of call i; a thread that cannot take the lock waits *)
Definition tinstr {K} `{EqDec K} (bad : nat -> nat -> option exn) (s : tstate K) (i : nat) (p : prog K) : tstate K :=
  match p with
  | Done _ => s
  | Acq q =>
      match t_lock s with
      | None => with_prog {| t_c := t_c s; t_new := t_new s; t_lock := Some (i, 1%nat); t_calls := t_calls s; t_disposed := t_disposed s; t_order := t_order s ++ [i] |} i q
      | Some (j, d) => if Nat.eqb i j then with_prog (with_lock s (Some (i, S d))) i q else s
      end
  | Rel q =>
      match t_lock s with
      | Some (j, S (S d)) => with_prog (with_lock s (Some (j, S d))) i q
      | _ => with_prog (with_lock s None) i q
      end
  | PopKey k f => with_prog (with_c s (ddel k (t_c s))) i (f (dget k (t_c s)))
  | GetKey k f => with_prog s i (f (dget k (t_c s)))
  | Store k v q => with_prog (with_c s (dset k v (t_c s))) i q
  | Count f => with_prog s i (f (len (t_c s)))
  | Names f => with_prog s i (f (keys (t_c s)))
  | PopFirst f => match t_c s with [] => with_prog s i (f None) | (_, v) :: c => with_prog (with_c s c) i (f (Some v)) end
  | Values f => with_prog s i (f (vals (t_c s)))
  | Wipe q => with_prog (with_c s []) i q
  | New f => with_prog {| t_c := t_c s; t_new := S (t_new s); t_lock := t_lock s; t_calls := t_calls s; t_disposed := t_disposed s; t_order := t_order s |} i (f (t_new s))
  | Dispose v f => with_prog {| t_c := t_c s; t_new := t_new s; t_lock := t_lock s; t_calls := t_calls s; t_disposed := t_disposed s ++ [(i, v)]; t_order := t_order s |} i (f (bad i v))
  end.

(** [m] is maxsize; [mk i]: the exception raised by the constructor when call i makes a pool; [bad i v]: the exception
    raised by dispose_func when call i passes v to it *)
Definition tstep {K} `{EqDec K} (m : Z) (mk : nat -> option exn) (bad : nat -> nat -> option exn) (s : tstate K) (e : tevent K) : tstate K :=
  match e with
  | TBegin o => {| t_c := t_c s; t_new := t_new s; t_lock := t_lock s; t_calls := t_calls s ++ [(o, prog_of m (mk (length (t_calls s))) o)]; t_disposed := t_disposed s; t_order := t_order s |}
  | TStep i => match nth_error (t_calls s) i with Some (_, p) => tinstr bad s i p | None => s end
  end.
Definition trun {K} `{EqDec K} m mk bad (l : list (tevent K)) : tstate K := fold_left (tstep m mk bad) l tinit.

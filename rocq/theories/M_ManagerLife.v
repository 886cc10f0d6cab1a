(** Model of which connections are open when the users of a pool manager also let go of the manager, of pools, of connections and
    of exceptions: mysockpool/pool_manager.py:45-98 over M_PoolLife. What refers to a pool is a user, or the container of a
    manager that somebody has; nothing in the manager, its container or its pools refers back, so that they are freed at once.
    Simplified: pools are used by get_conn and put_conn (connection_scope only adds references of exceptions to the manager); a lookup
    whose new pool cannot be made leaves nothing behind (what it does leave is in M_PoolMake). *)
From Verif Require Import PyBase PyDict M_Lru M_ConnPool M_PoolLife.

(** [y_lru]: the container; [y_lives]: the pools in the order in which they were made; [y_held]: the user has the manager; [y_mine]: the pools that the user
    has a reference to *)
Record mlife (K : Type) := { y_lru : dict K nat; y_lives : list life; y_held : bool; y_mine : list nat }.
Arguments y_lru {K}. Arguments y_lives {K}. Arguments y_held {K}. Arguments y_mine {K}.

Definition pool_referred {K} (y : mlife K) (i : nat) : bool := mem_nat i (y_mine y) || (y_held y && mem_nat i (map snd (y_lru y))).
Fixpoint each {A} (f : nat -> A -> A) (n : nat) (l : list A) : list A := match l with [] => [] | a :: r => f n a :: each f (S n) r end.
Definition at_pool (i : nat) (f : life -> life) (l : list life) : list life := each (fun j s => if Nat.eqb j i then f s else s) 0 l.
(** pools that nothing refers to any more are let go of *)
Definition settle {K} (cfg : config) (mk : nat -> nat -> bool) (y : mlife K) : mlife K :=
  {| y_lru := y_lru y; y_held := y_held y; y_mine := y_mine y;
     y_lives := each (fun i s => if u_held s && negb (pool_referred y i) then fst (ustep cfg (mk i) s UForgetPool) else s) 0 (y_lives y) |}.
(** recently_used_container.py:70-71, 93-95 with the function of pool_manager.py:48: [p.close()] of one pool after the other; the
    error of a pool that is closed already ends it *)
Fixpoint dispose (cfg : config) (mk : nat -> nat -> bool) (lives : list life) (l : list nat) : list life * res unit :=
  match l with
  | [] => (lives, Ok tt)
  | i :: r => match nth_error lives i with
              | None => (lives, Raise AttributeError)
              | Some s => match snd (pool_close (u_pool s)) with
                          | Ok _ => dispose cfg mk (at_pool i (fun s => fst (ustep cfg (mk i) s UClose)) lives) r
                          | Raise e => (lives, Raise e)
                          end
              end
  end.

Inductive yop (K : Type) :=
| YLookup (k : K)              (* connection_pool_from_pool_key *)
| YClear                       (* clear() *)
| YForgetManager               (* the user lets go of the manager *)
| YForgetPool (i : nat)        (* the user lets go of a pool *)
| YGet (i : nat) (dr : nat -> bool) | YPut (i c : nat) | YClose (i : nat)   (* operations of a pool that the user has *)
| YShut (i c : nat) | YDrop (i c : nat) | YForget (i e : nat)               (* of its connections and exceptions *)
| YCollect.                    (* the garbage collector runs *)
Arguments YLookup {K}. Arguments YClear {K}. Arguments YForgetManager {K}. Arguments YForgetPool {K}. Arguments YGet {K}. Arguments YPut {K}. Arguments YClose {K}.
Arguments YShut {K}. Arguments YDrop {K}. Arguments YForget {K}. Arguments YCollect {K}.

Definition with_lives {K} (y : mlife K) (l : list life) : mlife K := {| y_lru := y_lru y; y_lives := l; y_held := y_held y; y_mine := y_mine y |}.
Definition use_of {K} (cfg : config) (mk : nat -> nat -> bool) (y : mlife K) (i : nat) (o : uop) : mlife K :=
  with_lives y (at_pool i (fun s => fst (ustep cfg (mk i) s o)) (y_lives y)).
Definition y_do {K} {E : EqDec K} (mp : Z) (cfg : config) (mk : nat -> nat -> bool) (y : mlife K) (o : yop K) : mlife K :=
  match o with
  | YLookup k =>
      if y_held y then
        match lru_get (y_lru y) k with
        | (c, Ok i) => {| y_lru := c; y_lives := y_lives y; y_held := true; y_mine := i :: y_mine y |}
        | (c, Raise _) =>
            let i := length (y_lives y) in
            match build cfg (mk i) with
            | Built p =>
                let '(c', gone) := lru_set mp c k i in
                let '(lives, r) := dispose cfg mk (y_lives y ++ [ustart p]) gone in
                {| y_lru := c'; y_lives := lives; y_held := true; y_mine := match r with Ok _ => i :: y_mine y | Raise _ => y_mine y end |}
            | _ => y
            end
        end
      else y
  | YClear =>
      if y_held y then
        let '(c, gone) := lru_clear (y_lru y) in
        let '(lives, r) := dispose cfg mk (y_lives y) gone in
        {| y_lru := c; y_lives := lives; y_held := true; y_mine := y_mine y |}
      else y
  | YForgetManager => {| y_lru := y_lru y; y_lives := y_lives y; y_held := false; y_mine := y_mine y |}
  | YForgetPool i => {| y_lru := y_lru y; y_lives := y_lives y; y_held := y_held y; y_mine := remove Nat.eq_dec i (y_mine y) |}
  | YGet i dr => if mem_nat i (y_mine y) then use_of cfg mk y i (UGet dr) else y
  | YPut i c => if mem_nat i (y_mine y) then use_of cfg mk y i (UPut c) else y
  | YClose i => if mem_nat i (y_mine y) then use_of cfg mk y i UClose else y
  | YShut i c => use_of cfg mk y i (UShut c)
  | YDrop i c => use_of cfg mk y i (UDrop c)
  | YForget i e => use_of cfg mk y i (UForget e)
  | YCollect => with_lives y (each (fun i s => fst (ustep cfg (mk i) s UCollect)) 0 (y_lives y))
  end.
Definition y_step {K} {E : EqDec K} mp cfg mk (y : mlife K) (o : yop K) : mlife K := settle cfg mk (y_do mp cfg mk y o).
Definition y_init (K : Type) : mlife K := {| y_lru := []; y_lives := []; y_held := true; y_mine := [] |}.
Definition y_run {K} {E : EqDec K} mp cfg mk (l : list (yop K)) : mlife K := fold_left (y_step mp cfg mk) l (y_init K).
(** how a lookup or clear() of a manager that the user has ends; for a lookup that has to make a pool, as in [y_do] *)
Definition y_result {K} {E : EqDec K} (mp : Z) (cfg : config) (mk : nat -> nat -> bool) (y : mlife K) (o : yop K) : res unit :=
  match o with
  | YLookup k =>
      match lru_get (y_lru y) k with
      | (_, Ok _) => Ok tt
      | (c, Raise _) => match build cfg (mk (length (y_lives y))) with
                        | Built p => snd (dispose cfg mk (y_lives y ++ [ustart p]) (snd (lru_set mp c k (length (y_lives y)))))
                        | Failed e => Raise e
                        | Blocks => Raise TimeoutError
                        end
      end
  | YClear => snd (dispose cfg mk (y_lives y) (snd (lru_clear (y_lru y))))
  | _ => Ok tt
  end.

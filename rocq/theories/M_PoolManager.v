(** Model of mysockpool/pool_manager.py over the container and pool models. *)
From Verif Require Import PyBase PyDict M_Lru M_ConnPool.

Section Manager.
  Context {K : Type} `{EqDec K}.

  (** pool_manager.py:45-48. Pools are numbered in order of creation; [w_closes] lists the calls p.close()
      made by the manager, [w_puts] the calls pool.put_conn(conn) made by connection_scope (both ghost). *)
  Record world := { w_lru : dict K nat; w_pools : list pool; w_closes : list nat; w_puts : list (nat * nat) }.
  Definition w_init : world := {| w_lru := []; w_pools := []; w_closes := []; w_puts := [] |}.

  Fixpoint set_pool (i : nat) (p : pool) (l : list pool) : list pool :=
    match l, i with [], _ => [] | _ :: r, O => p :: r | a :: r, S j => a :: set_pool j p r end.

  (** the dispose function of line 48: [p.close()], which raises when the pool is already closed *)
  Definition close_pool (w : world) (i : nat) : world * res unit :=
    match nth_error (w_pools w) i with
    | None => (w, Raise AttributeError)
    | Some p => let '(p', r) := pool_close p in
                ({| w_lru := w_lru w; w_pools := set_pool i p' (w_pools w); w_closes := w_closes w ++ [i]; w_puts := w_puts w |}, r)
    end.
  (** recently_used_container.py:70-71, 93-95: an exception of one dispose call skips the rest *)
  Fixpoint close_pools (w : world) (l : list nat) : world * res unit :=
    match l with
    | [] => (w, Ok tt)
    | i :: r => match close_pool w i with (w', Ok _) => close_pools w' r | (w', Raise e) => (w', Raise e) end
    end.

  (** pool_manager.py:58-68, 79-98. [mk i n]: can pool i create its n-th socket. Simplified: a constructor
      that blocks forever (more initial than free connections) is reported as TimeoutError.
      [dict.get] of MutableMapping is __getitem__ with KeyError turned into None; a pool is always truthy. *)
  Definition lookup (max_pools : Z) (cfg : config) (mk : nat -> nat -> bool) (w : world) (k : K) : world * res nat :=
    match lru_get (w_lru w) k with
    | (c, Ok i) => ({| w_lru := c; w_pools := w_pools w; w_closes := w_closes w; w_puts := w_puts w |}, Ok i)
    | (c, Raise _) =>
        let i := length (w_pools w) in
        match build cfg (mk i) with
        | Failed e => (w, Raise e)
        | Blocks => (w, Raise TimeoutError)
        | Built p =>
            let '(c', disposed) := lru_set max_pools c k i in
            match close_pools {| w_lru := c'; w_pools := w_pools w ++ [p]; w_closes := w_closes w; w_puts := w_puts w |} disposed with
            | (w', Ok _) => (w', Ok i)
            | (w', Raise e) => (w', Raise e)
            end
        end
    end.

  (** pool_manager.py:70-77 *)
  Definition manager_clear (w : world) : world * res unit :=
    let '(c, disposed) := lru_clear (w_lru w) in
    close_pools {| w_lru := c; w_pools := w_pools w; w_closes := w_closes w; w_puts := w_puts w |} disposed.

  (** operations on the pools by their users; [UseClose] is a user calling close() on a pool *)
  Inductive mop := MLookup (k : K) | MClear | MGet (i : nat) (dr : nat -> bool) | MPut (i c : nat) | MUserClose (i : nat).
  Definition use_pool (w : world) (i : nat) (f : pool -> pool) : world :=
    match nth_error (w_pools w) i with
    | None => w
    | Some p => {| w_lru := w_lru w; w_pools := set_pool i (f p) (w_pools w); w_closes := w_closes w; w_puts := w_puts w |}
    end.
  Definition mstep (max_pools : Z) (cfg : config) (mk : nat -> nat -> bool) (w : world) (o : mop) : world :=
    match o with
    | MLookup k => fst (lookup max_pools cfg mk w k)
    | MClear => fst (manager_clear w)
    | MGet i dr => use_pool w i (fun p => fst (get_conn cfg (mk i) dr p))
    | MPut i c => use_pool w i (fun p => put_conn cfg p c)
    | MUserClose i => use_pool w i (fun p => fst (pool_close p))
    end.
  Definition mrun max_pools cfg mk (ops : list mop) : world := fold_left (mstep max_pools cfg mk) ops w_init.

  (** pool_manager.py:110 [pool.put_conn(conn)], logged *)
  Definition do_put (cfg : config) (w : world) (i c : nat) : world :=
    let w' := use_pool w i (fun p => put_conn cfg p c) in
    {| w_lru := w_lru w'; w_pools := w_pools w'; w_closes := w_closes w'; w_puts := w_puts w' ++ [(i, c)] |}.

  (** pool_manager.py:100-112 connection_scope. The body of the with statement is an arbitrary change of the
      world with an outcome. When the lookup or get_conn raised, [pool] or [conn] is unbound in the finally
      clause and the resulting UnboundLocalError (a NameError) is swallowed. *)
  Definition scope {A} (max_pools : Z) (cfg : config) (mk : nat -> nat -> bool) (dr : nat -> bool) (w : world) (k : K)
      (body : world -> nat -> nat -> world * res A) : world * res A :=
    match lookup max_pools cfg mk w k with
    | (w1, Raise e) => (w1, Raise e)
    | (w1, Ok i) =>
        match nth_error (w_pools w1) i with
        | None => (w1, Raise AttributeError)
        | Some p =>
            match get_conn cfg (mk i) dr p with
            | (p', Raise e) => (use_pool w1 i (fun _ => p'), Raise e)
            | (p', Ok c) =>
                let '(w2, r) := body (use_pool w1 i (fun _ => p')) i c in
                (do_put cfg w2 i c, r)
            end
        end
    end.
End Manager.
Arguments world : clear implicits.
Arguments mop : clear implicits.

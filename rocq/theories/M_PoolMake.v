(** Model of a constructor of a pool that does not return: mysockpool/connection_pool.py:45-67. M_ConnPool.build says how
    it ends; here is what it leaves behind, for M_PoolLife. *)
From Verif Require Import PyBase PyDict M_ConnPool M_PoolLife.

(** connection_pool.py:65-67: the pool when the loop stops, as in M_ConnPool.fill *)
Fixpoint fill_at (cfg : config) (mk : nat -> bool) (n : nat) (p : pool) : pool :=
  match n with
  | O => p
  | S n' => match new_conn cfg mk p with
            | (p1, Raise _) => p1
            | (p1, Ok c) => match p_free p1 with
                            | Some q => if q_full cfg q then p1 else fill_at cfg mk n' (set_free p1 (Some (c :: q)))
                            | None => p1
                            end
            end
  end.
Definition empty_pool : pool := {| p_free := Some []; p_num := 0; p_attempts := 0; p_closed := [] |}.
(** the constructor has raised e: nobody has the pool, but the exception refers to it (the variable [self] of __init__, and
    [pool] of the errors of the pool, exceptions.py:29) *)
Definition ufail (cfg : config) (mk : nat -> bool) (e : exn) : life :=
  let p := fill_at cfg mk (initial cfg) empty_pool in
  {| u_pool := p; u_held := false; u_lent := []; u_shut := []; u_open := match p_free p with Some q => q | None => [] end; u_errs := [{| e_mine := true; e_cycle := cyclic e; e_lost := [] |}] |}.

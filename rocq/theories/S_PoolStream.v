(** Specification of what the users of a pool may read. *)
From Verif Require Import PyBase PyDict M_ConnPool M_PoolStream.

(** use u has the connection c *)
Definition has (s : ustate) (u c : nat) : Prop := exists x, nth_error (u_uses s) u = Some x /\ v_conn x = c /\ v_over x = false.
(** use u has read the bytes l, each with the use that asked for it *)
Definition has_read (s : ustate) (u : nat) (l : list (nat * byte)) : Prop := exists x, nth_error (u_uses s) u = Some x /\ v_read x = l.
(** bytes that arrive while a use has the connection are for that use *)
Definition timely (cfg : config) (mk : nat -> bool) (p : pool) (l : list ustep) : Prop :=
  forall l1 c n l2, l = l1 ++ UArrive c n :: l2 -> let s := u_run cfg mk p l1 in
  forall u, has s u c -> Forall (fun b => fst b = u) (firstn n (f_flight (u_str s c))).

(** the configuration of a pool that is created without further arguments (connection_pool.py:45-51) *)
Definition usual : config := {| max_connections := 20; max_free := 5; min_free := 1; initial := 1; block := false |}.
(** one use ends without waiting for its answer; the next use reads it *)
Definition late (bs : bytes) : list ustep := [UGet; UGive 0; UGet; UAnswer 0 bs; UArrive 0 (List.length bs); URecv 1 (List.length bs)].
(** peers close only connections that have been made *)
Definition closes_made (cfg : config) (mk : nat -> bool) (p : pool) (l : list ustep) : Prop :=
  forall l1 c l2, l = l1 ++ UFin c :: l2 -> (c < p_attempts (s_pool (u_pool (u_run cfg mk p l1))))%nat.

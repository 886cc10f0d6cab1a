(** C139: threads that share a pool get what one thread would get. *)
From Verif Require Import PyBase M_ConnPool M_PoolThreads S_PoolSerial L_PoolSerial.

(** Any number of threads do operations on one pool, with their steps interleaved in any way, but never two of them are in
    an operation at the same time. Then one thread that does the same operations in the same order, on the same pool, gets
    the same results, connection for connection and exception for exception; and when no operation is under way the pool
    is the same: as many connections in the count, the same ones idle in the same order, the same ones closed. *)
Theorem C139_in_turn_partial : forall cfg mk p n l, build cfg mk = Built p -> in_turn cfg p n l -> as_one_thread cfg p n l.
Proof. exact serial_runs. Qed.
Print Assumptions C139_in_turn_partial.

(** Not so when operations overlap: two threads get a connection each from a pool for one, which no one thread can. *)
Theorem C139_overlap_refuted : exists cfg n l, max_connections cfg = 1 /\ forall mk p, build cfg mk = Built p -> h_log (t_run cfg p n l) = [(0, OGot 0); (1, OGot 1)]%nat /\ ~ as_one_thread cfg p n l.
Proof. exists tight, 2%nat, overlapping. split; [reflexivity|]. intros mk p B. split; [exact (overlapping_two mk p B)|exact (not_one_thread mk p B)]. Qed.
Print Assumptions C139_overlap_refuted.

(** *** the hypotheses of C139 can be met: a socket fails, connections change hands, the pool refills, discards and is closed *)
Definition cfg139 : config := {| max_connections := 4; max_free := 1; min_free := 1; initial := 1; block := false |}.
Definition p139 : pool := {| p_free := Some [0%nat]; p_num := 1; p_attempts := 1; p_closed := [] |}.
Definition run139 (i k : nat) : list tstep := repeat (TStep i false) k.
Definition l139 : list tstep :=
  [TGet 0 false] ++ run139 0 7 ++ [TStep 0 true] ++ [TGet 1 true] ++ run139 1 20 ++ [TGet 0 true] ++ run139 0 20 ++ [THand 0 1 2] ++ [TPut 1 1] ++ run139 1 20 ++ [TPut 1 2] ++ run139 1 20 ++ [TGet 0 false] ++ run139 0 20 ++ [TClose 1] ++ run139 1 20 ++ [TGet 0 false] ++ run139 0 20.
Example C139_case : build cfg139 (fun _ => true) = Built p139 /\ in_turn cfg139 p139 2 l139.
Proof. split; [reflexivity|]. apply turns_ok. vm_compute. reflexivity. Qed.
Example C139_what_happens : h_log (t_run cfg139 p139 2 l139) = [(0, OErr OSError); (1, OGot 1); (0, OGot 2); (1, ODone); (1, ODone); (0, OGot 1); (1, ODone); (0, OErr ClosedPoolError)]%nat /\
  begun cfg139 (t_init p139 2) l139 = [AGet; AGet; AGet; APut 1; APut 2; AGet; AClose; AGet] /\ h_closed (t_run cfg139 p139 2 l139) = [2; 3]%nat.
Proof. vm_compute. auto. Qed.

(** C75-C78: threads that use one connection pool at the same time. The scheduler, the peers and the callers are
    arbitrary: a history is any list of steps of any threads. *)
From Verif Require Import PyBase M_ConnPool M_PoolThreads S_PoolThreads L_PoolThreads.

Definition two_max : config := {| max_connections := 2; max_free := 1; min_free := 0; initial := 1; block := false |}.
Definition waiting : config := {| max_connections := 2; max_free := 1; min_free := 0; initial := 0; block := true |}.
Definition all_sockets : nat -> bool := fun _ => true.
Definition pool_of (cfg : config) : pool := match build cfg all_sockets with Built p => p | _ => {| p_free := None; p_num := 0; p_attempts := 0; p_closed := [] |} end.
(** thread i makes k steps *)
Definition steps (i k : nat) : list tstep := repeat (TStep i false) k.

(** ** C75. A connection is lent to one thread at a time, and not while it is free; the free list is bounded. *)
Theorem C75_one_thread_at_a_time : forall cfg mk p n l i j t u c, build cfg mk = Built p ->
  nth_error (h_threads (t_run cfg p n l)) i = Some t -> nth_error (h_threads (t_run cfg p n l)) j = Some u ->
  In c (t_lent t) -> In c (t_lent u) -> i = j.
Proof. exact one_holder. Qed.
Print Assumptions C75_one_thread_at_a_time.

Theorem C75_lent_once : forall cfg mk p n l i t, build cfg mk = Built p -> nth_error (h_threads (t_run cfg p n l)) i = Some t -> NoDup (t_lent t).
Proof. exact held_once. Qed.
Print Assumptions C75_lent_once.

Theorem C75_lent_is_not_free : forall cfg mk p n l i t c, build cfg mk = Built p -> nth_error (h_threads (t_run cfg p n l)) i = Some t ->
  In c (t_lent t) -> ~ In c (h_queue (t_run cfg p n l)).
Proof. exact lent_not_free. Qed.
Print Assumptions C75_lent_is_not_free.

Theorem C75_free_once : forall cfg mk p n l, build cfg mk = Built p -> NoDup (h_queue (t_run cfg p n l)).
Proof. exact free_once. Qed.
Print Assumptions C75_free_once.

Theorem C75_free_bounded : forall cfg mk p n l, build cfg mk = Built p -> 0 < max_free cfg -> len (h_queue (t_run cfg p n l)) <= max_free cfg.
Proof. exact free_fits. Qed.
Print Assumptions C75_free_bounded.

(** two threads get a connection at the same time, give both back, and one of them is too many *)
Definition meet : list tstep := [TGet 0 false; TGet 1 false; TStep 0 false; TStep 1 false; TStep 1 false; TStep 0 false] ++ steps 0 5 ++ steps 1 5.
Definition part_again : list tstep := [TPut 0 1; TPut 1 0] ++ steps 1 3 ++ steps 0 6.
Example C75_case : build two_max all_sockets = Built (pool_of two_max) /\
  map t_lent (h_threads (t_run two_max (pool_of two_max) 2 meet)) = [[1]; [0]]%nat /\
  (let s := t_run two_max (pool_of two_max) 2 (meet ++ part_again) in h_queue s = [0]%nat /\ h_closed s = [1]%nat /\ h_num s = 1).
Proof. vm_compute. repeat split. Qed.

(** ** C76. Full property: after close() has returned, no connection of the pool stays open unless it is lent. It is
    false: a put_conn that read the queue just before close() puts its connection where nobody looks any more.
    Proved: calls that begin after the pool was closed behave as documented; when no get_conn has failed, a
    connection that is neither closed nor lent is in that queue; and that queue, once drained, stays empty unless a
    put_conn is just putting something into it. *)
Theorem C76_get_after_close_partial : forall cfg p n l i t tmo m b, h_open (t_run cfg p n l) = false -> nth_error (h_threads (t_run cfg p n l)) i = Some t -> t_pc t = Idle ->
  (forall b, ~ In (TStep i b) m) ->
  h_log (t_run cfg p n (l ++ TGet i tmo :: m ++ [TStep i b])) = h_log (t_run cfg p n (l ++ TGet i tmo :: m)) ++ [(i, OErr ClosedPoolError)].
Proof. exact closed_get. Qed.
Print Assumptions C76_get_after_close_partial.

Theorem C76_put_after_close_partial : forall cfg p n l i t c m b m' b', h_open (t_run cfg p n l) = false -> nth_error (h_threads (t_run cfg p n l)) i = Some t -> t_pc t = Idle -> In c (t_lent t) ->
  (forall b, ~ In (TStep i b) m) -> (forall b, ~ In (TStep i b) m') ->
  In c (h_closed (t_run cfg p n (l ++ TPut i c :: m ++ TStep i b :: m' ++ [TStep i b']))).
Proof. exact closed_put. Qed.
Print Assumptions C76_put_after_close_partial.

(** closing it again ends with AttributeError *)
Theorem C76_close_again_partial : forall cfg p n l i t m1 b1 m2 b2 m3 b3, h_open (t_run cfg p n l) = false -> nth_error (h_threads (t_run cfg p n l)) i = Some t -> t_pc t = Idle ->
  (forall b, ~ In (TStep i b) (m1 ++ m2 ++ m3)) -> let l' := l ++ TClose i :: m1 ++ TStep i b1 :: m2 ++ TStep i b2 :: m3 in
  h_log (t_run cfg p n (l' ++ [TStep i b3])) = h_log (t_run cfg p n l') ++ [(i, OErr AttributeError)].
Proof. exact closed_close. Qed.
Print Assumptions C76_close_again_partial.

Theorem C76_nothing_lost_partial : forall cfg mk p n l c, build cfg mk = Built p ->
  (forall i t, nth_error (h_threads (t_run cfg p n l)) i = Some t -> t_pc t = Idle) ->
  (forall i e, In (i, OErr e) (h_log (t_run cfg p n l)) -> e = AttributeError) -> (c < h_made (t_run cfg p n l))%nat ->
  In c (h_closed (t_run cfg p n l)) \/ In c (h_queue (t_run cfg p n l)) \/ exists i t, nth_error (h_threads (t_run cfg p n l)) i = Some t /\ In c (t_lent t).
Proof. exact nothing_lost. Qed.
Print Assumptions C76_nothing_lost_partial.

Theorem C76_drained_stays_empty_partial : forall cfg p n l m, h_open (t_run cfg p n l) = false -> h_queue (t_run cfg p n l) = [] ->
  (forall j u k c, nth_error (h_threads (t_run cfg p n l)) j = Some u -> t_pc u <> PPut k c) -> h_queue (t_run cfg p n (l ++ m)) = [].
Proof. intros cfg p n l m O Q N. apply stays_empty. exact (conj O (conj Q N)). Qed.
Print Assumptions C76_drained_stays_empty_partial.

(** of the calls of close(), at most all but one end with an error: a pool that is closed once is closed without *)
Theorem C76_close_works_partial : forall cfg p n l, failed_closes (h_log (t_run cfg p n l)) = 0%nat \/ (failed_closes (h_log (t_run cfg p n l)) < closes l)%nat.
Proof. exact close_works. Qed.
Print Assumptions C76_close_works_partial.

(** two connections are free; thread 0 closes the pool, then thread 1 tries to *)
Definition close_twice : list tstep := [TGet 0 false; TGet 1 false] ++ steps 0 5 ++ steps 1 6 ++ [TPut 0 0; TPut 1 1] ++ steps 0 3 ++ steps 1 6 ++ [TClose 0] ++ steps 0 5 ++ [TClose 1] ++ steps 1 3.
Example C76_close_case : let s := t_run two_max (pool_of two_max) 2 close_twice in closes close_twice = 2%nat /\ failed_closes (h_log s) = 1%nat /\ h_log s = [(0, OGot 0); (1, OGot 1); (0, ODone); (1, ODone); (0, ODone); (1, OErr AttributeError)]%nat /\ h_closed s = [1; 0]%nat.
Proof. vm_compute. repeat split. Qed.

(** thread 0 has a connection and starts to give it back; thread 1 closes the pool; thread 0 ends its put_conn *)
Definition put_races_close : list tstep :=
  [TGet 0 false] ++ steps 0 5 ++ [TPut 0 0; TStep 0 false] ++ [TClose 1] ++ steps 1 3 ++ steps 0 1.
Theorem C76_put_races_close_refuted : exists cfg mk p n l, build cfg mk = Built p /\
  let s := t_run cfg p n l in
  h_log s = [(0, OGot 0); (1, ODone); (0, ODone)]%nat /\ h_open s = false /\ (forall t, In t (h_threads s) -> t_pc t = Idle /\ t_lent t = []) /\ h_made s = 1%nat /\ h_closed s = [].
Proof. exists two_max, all_sockets, (pool_of two_max), 2%nat, put_races_close. vm_compute. repeat split; intros; intuition (subst; reflexivity). Qed.
Print Assumptions C76_put_races_close_refuted.

(** thread 1 closes the pool while thread 0 has a connection; both go on *)
Definition close_first : list tstep := [TGet 0 false] ++ steps 0 5 ++ [TClose 1] ++ steps 1 3.
Example C76_case : let s := t_run two_max (pool_of two_max) 2 close_first in
  h_open s = false /\ map t_pc (h_threads s) = [Idle; Idle] /\ map t_lent (h_threads s) = [[0]; []]%nat /\
  h_log (t_run two_max (pool_of two_max) 2 (close_first ++ [TGet 1 false; TPut 0 0; TStep 0 false; TStep 1 false; TStep 0 false])) = [(0, OGot 0); (1, ODone); (1, OErr ClosedPoolError); (0, ODone)]%nat.
Proof. vm_compute. repeat split. Qed.

(** ** C77. Full property: a get_conn that waits for a connection ends when the pool is closed. It is false: it
    waits for ever, whatever happens afterwards. Proved: with a timeout it ends with EmptyPoolError when the time is
    over, and it never waits when block is False. *)
Theorem C77_waits_for_ever_refuted : forall cfg p n l m i t, h_open (t_run cfg p n l) = false -> h_queue (t_run cfg p n l) = [] ->
  (forall j u k c, nth_error (h_threads (t_run cfg p n l)) j = Some u -> t_pc u <> PPut k c) -> block cfg = true ->
  nth_error (h_threads (t_run cfg p n l)) i = Some t -> t_pc t = GTake false ->
  exists t', nth_error (h_threads (t_run cfg p n (l ++ m))) i = Some t' /\ t_pc t' = GTake false.
Proof. intros cfg p n l m i t O Q N. apply waits_for_ever. exact (conj O (conj Q N)). Qed.
Print Assumptions C77_waits_for_ever_refuted.

Theorem C77_timeout_ends_the_wait_partial : forall cfg p n l i t, block cfg = true -> nth_error (h_threads (t_run cfg p n l)) i = Some t -> t_pc t = GTake true -> h_queue (t_run cfg p n l) = [] ->
  h_log (t_run cfg p n (l ++ [TStep i true])) = h_log (t_run cfg p n l) ++ [(i, OErr EmptyPoolError)].
Proof. exact wait_ends. Qed.
Print Assumptions C77_timeout_ends_the_wait_partial.

Theorem C77_no_wait_without_block_partial : forall cfg p n l i t tmo b, block cfg = false -> nth_error (h_threads (t_run cfg p n l)) i = Some t -> t_pc t = GTake tmo ->
  exists t', nth_error (h_threads (t_run cfg p n (l ++ [TStep i b]))) i = Some t' /\ t_pc t' <> t_pc t.
Proof. exact no_wait. Qed.
Print Assumptions C77_no_wait_without_block_partial.

Definition wait_then_close : list tstep := [TGet 0 false; TStep 0 false; TClose 1] ++ steps 1 3.
Example C77_case : build waiting all_sockets = Built (pool_of waiting) /\
  let s := t_run waiting (pool_of waiting) 2 wait_then_close in h_open s = false /\ h_queue s = [] /\ map t_pc (h_threads s) = [GTake false; Idle].
Proof. vm_compute. repeat split. Qed.

Example C77_timeout_case : h_log (t_run waiting (pool_of waiting) 2 [TGet 0 true; TStep 0 false; TClose 1; TStep 1 false; TStep 1 false; TStep 0 true]) = [(0%nat, OErr EmptyPoolError)].
Proof. vm_compute. reflexivity. Qed.

(** ** C78. The operations of any number of threads end: when no new ones begin, the threads can only make a bounded
    number of steps that change anything, and when nothing changes any more, every operation is over, except
    get_conn calls that wait without a timeout for a connection to be given back. *)
Theorem C78_bounded_work : forall cfg p n l k s, busy cfg k (t_run cfg p n l) s -> (k <= 40 * n + 3 * List.length (h_queue (t_run cfg p n l)))%nat.
Proof. exact finite_work. Qed.
Print Assumptions C78_bounded_work.

Theorem C78_no_deadlock : forall cfg p n l i t, at_a_standstill cfg (t_run cfg p n l) -> nth_error (h_threads (t_run cfg p n l)) i = Some t ->
  t_pc t = Idle \/ (t_pc t = GTake false /\ block cfg = true /\ h_queue (t_run cfg p n l) = []).
Proof. exact at_rest. Qed.
Print Assumptions C78_no_deadlock.

(** two threads discard a connection at the same time: one waits for the lock of the other, and both end *)
Definition full_house : config := {| max_connections := 5; max_free := 1; min_free := 0; initial := 1; block := false |}.
Definition both_discard : list tstep :=
  [TGet 0 false] ++ steps 0 5 ++ [TGet 0 false] ++ steps 0 6 ++ [TGet 1 false] ++ steps 1 6 ++ [TPut 0 0] ++ steps 0 2 ++ [TPut 0 1; TPut 1 2] ++ steps 0 2 ++ steps 1 2 ++ steps 0 1 ++ steps 1 1.
Example C78_case : let s := t_run full_house (pool_of full_house) 2 both_discard in
  map t_pc (h_threads s) = [PDecLoad ToCaller 1; PLock ToCaller 2] /\ h_lock s = Some 0%nat /\
  (let s' := t_run full_house (pool_of full_house) 2 (both_discard ++ steps 0 3 ++ steps 1 4) in map t_pc (h_threads s') = [Idle; Idle] /\ h_closed s' = [1; 2]%nat /\ h_num s' = 1).
Proof. vm_compute. repeat split. Qed.

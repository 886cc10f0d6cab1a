(** Property theorems C127: what threads leave of the capacity of a pool that they share. [t_run cfg p n l]: n threads
    that use the pool p, after the steps l. *)
From Coq Require Import Lia.
From Verif Require Import PyBase M_ConnPool M_PoolThreads S_PoolLimit S_PoolCap L_PoolCap P_PoolThreads.

(** ** C127. Full property: when the threads have finished their operations, the pool counts no more connections than
    are open, so that get_conn can make one as long as fewer than max_connections are open. *)
(** It is false: two threads can leave a pool limited to three connections, with all its sockets working and nobody
    closing it, in a state in which no connection is open, no operation is under way, and get_conn never again
    returns a connection, whatever happens *)
Theorem C127_all_lost_refuted : forall mk p, build three mk = Built p ->
  exists l, never_closed l /\ no_closed_back three p 2 l /\ nothing_runs (t_run three p 2 l) /\ no_socket (h_log (t_run three p 2 l)) = 0 /\
    (forall c, ~ open_now (t_run three p 2 l) c) /\
    forall m, no_closed_back three p 2 (l ++ m) ->
      exists k, h_log (t_run three p 2 (l ++ m)) = h_log (t_run three p 2 l) ++ k /\ forall i c, ~ In (i, OGot c) k.
Proof. exact lost_for_ever. Qed.
Print Assumptions C127_all_lost_refuted.

(** Proved: as long as no two threads are about to change num_connections at the same time, only a socket that could
    not be created costs capacity, and each costs one *)
Theorem C127_nothing_lost_partial : forall cfg mk p n l x, build cfg mk = Built p -> one_at_a_time cfg p n l -> never_closed l ->
  nothing_runs (t_run cfg p n l) -> lists_open (t_run cfg p n l) x ->
  h_num (t_run cfg p n l) <= len x + no_socket (h_log (t_run cfg p n l)).
Proof. exact nothing_lost. Qed.
Print Assumptions C127_nothing_lost_partial.

(** and get_conn makes a connection when none is free *)
Theorem C127_can_still_make_partial : forall cfg mk p n l x i tmo, build cfg mk = Built p -> one_at_a_time cfg p n l -> never_closed l ->
  nothing_runs (t_run cfg p n l) -> lists_open (t_run cfg p n l) x ->
  len x + no_socket (h_log (t_run cfg p n l)) < max_connections cfg -> block cfg = false -> h_queue (t_run cfg p n l) = [] -> (i < n)%nat ->
  h_log (t_run cfg p n (l ++ TGet i tmo :: plain i 6)) = h_log (t_run cfg p n l) ++ [(i, OGot (h_made (t_run cfg p n l)))].
Proof. exact can_still_make. Qed.
Print Assumptions C127_can_still_make_partial.

Example C127_refuted_case : build three all_sockets = Built (pool_of three) /\ (List.length all_lost = 107)%nat.
Proof. split; vm_compute; reflexivity. Qed.
(** two threads take two connections, one is closed because the free list is full, one because it looks dropped, and
    one socket cannot be created *)
Definition turns : list tstep :=
  (TGet 1 false :: plain 1 5) ++ [TGet 0 false; TGet 1 false] ++ plain 0 2 ++ plain 1 2 ++ plain 0 4 ++ plain 1 3 ++ [TStep 1 true] ++
  [TPut 0 1; TPut 1 0] ++ plain 1 1 ++ plain 0 1 ++ plain 1 1 ++ plain 0 5 ++ drops 0 ++ plain 0 4.
Example C127_case : let s := t_run three (pool_of three) 2 turns in
  build three all_sockets = Built (pool_of three) /\ one_at_a_time three (pool_of three) 2 turns /\ never_closed turns /\ nothing_runs s /\ lists_open s [] /\
  h_num s = 1 /\ no_socket (h_log s) = 1 /\ h_queue s = [] /\ h_closed s = [1; 0]%nat /\ h_made s = 2%nat.
Proof.
  cbv zeta. split; [vm_compute; reflexivity|]. split; [apply takes_turns_ok; vm_compute; reflexivity|]. split; [|split; [|split; [|vm_compute; repeat split]]].
  - intros i X. cbn in X. repeat destruct X as [X|X]; discriminate || destruct X.
  - intros [|[|[|i]]] t H; vm_compute in H; try discriminate; injection H as <-; reflexivity.
  - split; [constructor|]. intros c. split; [intros []|]. intros (A & B). vm_compute in A. apply B. vm_compute. destruct c as [|[|c]]; [right; left; reflexivity|left; reflexivity|lia].
Qed.

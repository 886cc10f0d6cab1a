(** Property theorems C28-C34: pool manager and connection pools. [mk n] says whether the n-th socket of
    the pool can be created; [dr c] whether connection c looks dropped to is_connection_dropped. *)
From Coq Require Import Strings.String Sorting.Permutation ZifyBool.
From Verif Require Import PyBase L_PyBase PyDict L_PyDict M_Lru L_Lru M_ConnPool S_Pool L_ConnPool L_ConnPool2 M_ConnRace L_ConnRace M_PoolManager L_PoolManager.

(** the defaults of connection_pool.py:45-51 *)
Definition defaults : config := {| max_connections := 20; max_free := 5; min_free := 1; initial := 1; block := false |}.
Definition ok_sockets (n : nat) : bool := true.
Definition alive_peer (c : nat) : bool := false.
Definition dead_peer (c : nat) : bool := true.
Definition fresh (cfg : config) : pool := match build cfg ok_sockets with Built p => p | _ => {| p_free := None; p_num := 0; p_attempts := 0; p_closed := [] |} end.

(** ** C28: histories of lookups, clears, and gets and puts on the pools *)
Theorem C28_pools_bounded : forall (K : Type) (E : EqDec K) max_pools cfg mk (ops : list (mop K)), Forall ordinary ops ->
  let w := mrun max_pools cfg mk ops in len (w_lru w) <= Z.max 0 max_pools /\ NoDup (keys (w_lru w)).
Proof. exact manager_bounded. Qed.
Print Assumptions C28_pools_bounded.

Theorem C28_discarded_closed_exactly_once : forall (K : Type) (E : EqDec K) max_pools cfg mk (ops : list (mop K)), Forall ordinary ops ->
  let w := mrun max_pools cfg mk ops in
  Permutation (seq 0 (List.length (w_pools w))) (vals (w_lru w) ++ w_closes w) /\
  (forall i p, In i (vals (w_lru w)) -> nth_error (w_pools w) i = Some p -> p_free p <> None) /\
  (forall i p, In i (w_closes w) -> nth_error (w_pools w) i = Some p -> p_free p = None).
Proof. exact manager_closes. Qed.
Print Assumptions C28_discarded_closed_exactly_once.

Theorem C28_same_key_same_pool : forall (K : Type) (E : EqDec K) max_pools cfg mk (pre post : list (mop K)) k i,
  Forall ordinary pre -> Forall ordinary post ->
  snd (lookup max_pools cfg mk (mrun max_pools cfg mk pre) k) = Ok i ->
  let w := mrun max_pools cfg mk (pre ++ MLookup k :: post) in
  ~ In i (w_closes w) -> snd (lookup max_pools cfg mk w k) = Ok i.
Proof. exact manager_same_pool. Qed.
Print Assumptions C28_same_key_same_pool.

Theorem C28_lookup_retains : forall (K : Type) (E : EqDec K) max_pools cfg mk (ops : list (mop K)) k i, Forall ordinary ops -> 1 <= max_pools ->
  snd (lookup max_pools cfg mk (mrun max_pools cfg mk ops) k) = Ok i ->
  dget k (w_lru (mrun max_pools cfg mk (ops ++ [MLookup k]))) = Some i.
Proof. exact manager_retains. Qed.
Print Assumptions C28_lookup_retains.

Theorem C28_clear_closes_all : forall (K : Type) (E : EqDec K) max_pools cfg mk (ops : list (mop K)), Forall ordinary ops ->
  let w := mrun max_pools cfg mk (ops ++ [MClear]) in
  w_lru w = [] /\ forall i p, nth_error (w_pools w) i = Some p -> p_free p = None.
Proof. exact manager_clear_all. Qed.
Print Assumptions C28_clear_closes_all.

(** the hypothesis that users do not close pools themselves is needed: then a later clear raises and leaves
    the remaining pools open although they are no longer retained *)
Theorem C28_user_close_breaks_clear : exists (ops : list (mop Z)) cfg mk w,
  w = mrun 10 cfg mk ops /\ snd (manager_clear w) = Raise AttributeError /\
  exists i p, nth_error (w_pools (fst (manager_clear w))) i = Some p /\ p_free p <> None /\ w_lru (fst (manager_clear w)) = [].
Proof.
  exists [MLookup 1; MLookup 2; MUserClose 0], defaults, (fun _ => ok_sockets). eexists. split; [reflexivity|]. split; [vm_compute; reflexivity|].
  exists 1%nat. eexists. split; [vm_compute; reflexivity|]. split; [discriminate|vm_compute; reflexivity].
Qed.
Print Assumptions C28_user_close_breaks_clear.

Definition three_keys : list (mop Z) := [MLookup 1; MLookup 2; MGet 0 alive_peer; MLookup 1; MLookup 3; MPut 0 0].
Example C28_case : Forall ordinary three_keys /\ w_lru (mrun 2 defaults (fun _ => ok_sockets) three_keys) = [(1, 0%nat); (3, 2%nat)]
  /\ w_closes (mrun 2 defaults (fun _ => ok_sockets) three_keys) = [1%nat].
Proof. split; [repeat constructor|vm_compute; split; reflexivity]. Qed.

(** ** C29 *)
Theorem C29_never_lent_twice : forall cfg mk p ops, build cfg mk = Built p -> lawful cfg mk (start_pool p) ops ->
  let s := prun cfg mk (start_pool p) ops in
  NoDup (s_lent s) /\ NoDup (free_conns (s_pool s)) /\ (forall c, In c (free_conns (s_pool s)) -> ~ In c (s_lent s)) /\
  (0 < max_free cfg -> len (free_conns (s_pool s)) <= max_free cfg).
Proof. exact never_lent_twice. Qed.
Print Assumptions C29_never_lent_twice.

(** the connection a get returns was not lent to anyone *)
Theorem C29_get_returns_unlent : forall cfg mk p ops dr c, build cfg mk = Built p -> lawful cfg mk (start_pool p) ops ->
  snd (pstep cfg mk (prun cfg mk (start_pool p) ops) (PGet dr)) = Some (Ok c) -> ~ In c (s_lent (prun cfg mk (start_pool p) ops)).
Proof. exact get_unlent. Qed.
Print Assumptions C29_get_returns_unlent.

Definition two_users : list pop := [PGet alive_peer; PGet alive_peer; PPut 0; PGet alive_peer; PPut 1; PClose; PPut 0].
Example C29_case : build defaults ok_sockets = Built (fresh defaults) /\ lawful defaults ok_sockets (start_pool (fresh defaults)) two_users /\
  s_lent (prun defaults ok_sockets (start_pool (fresh defaults)) (firstn 4 two_users)) = [0%nat; 1%nat].
Proof. split; [vm_compute; reflexivity|]. split; [vm_compute; tauto|vm_compute; reflexivity]. Qed.

(** ** C30. Full property: at most max_connections connections are open at any time, in every history and
    thread interleaving. It is false. Proved: it holds for the histories of single calls in which callers
    give back only connections that the pool has not closed. *)
Theorem C30_open_connections_bounded_partial : forall cfg mk p ops l, build cfg mk = Built p -> lawful cfg mk (start_pool p) ops ->
  no_closed_returned cfg mk (start_pool p) ops -> NoDup l -> (forall c, In c l -> is_open (prun cfg mk (start_pool p) ops) c) ->
  len l <= Z.max 0 (max_connections cfg).
Proof. exact open_bounded. Qed.
Print Assumptions C30_open_connections_bounded_partial.

(** n threads that all need a new connection can all get one, whatever the limit *)
Theorem C30_race_exceeds_limit_refuted : forall n max, (1 <= n)%nat -> 1 <= max -> exists schedule,
  let s := race_run max (race_init n) schedule in connections_returned s = n /\ (forall p, In p (r_pcs s) -> p = Returned) /\ r_num s = 1.
Proof. exact race_exceeds. Qed.
Print Assumptions C30_race_exceeds_limit_refuted.

(** without threads: a connection found dropped is handed out and given back, and each round lowers the count *)
Definition small : config := {| max_connections := 2; max_free := 5; min_free := 0; initial := 1; block := false |}.
Definition recycle : list pop := [PGet dead_peer; PPut 0; PGet dead_peer; PPut 0; PGet alive_peer;
  PGet alive_peer; PGet alive_peer; PGet alive_peer; PGet alive_peer].
Theorem C30_dropped_connections_refuted : exists cfg mk p ops l, build cfg mk = Built p /\ lawful cfg mk (start_pool p) ops /\
  NoDup l /\ (forall c, In c l -> is_open (prun cfg mk (start_pool p) ops) c) /\ Z.max 0 (max_connections cfg) < len l.
Proof.
  exists small, ok_sockets, (fresh small), recycle, [1; 2; 3; 4]%nat. split; [vm_compute; reflexivity|]. split; [vm_compute; tauto|].
  split; [repeat (constructor; [cbn; intuition lia|]); constructor|]. split; [|vm_compute; reflexivity].
  intros c Hc. unfold is_open. destruct Hc as [<-|[<-|[<-|[<-|[]]]]]; vm_compute; intuition congruence.
Qed.
Print Assumptions C30_dropped_connections_refuted.

Example C30_case : lawful defaults ok_sockets (start_pool (fresh defaults)) two_users /\ no_closed_returned defaults ok_sockets (start_pool (fresh defaults)) two_users.
Proof. split; vm_compute; intuition congruence. Qed.

(** ** C31. Full property: get_conn never hands out a closed connection. It is false. Proved: it does not
    when the connection did not look dropped (and had not been closed before). *)
Theorem C31_undropped_not_closed_partial : forall cfg mk p ops dr c s', build cfg mk = Built p -> lawful cfg mk (start_pool p) ops ->
  let s := prun cfg mk (start_pool p) ops in
  pstep cfg mk s (PGet dr) = (s', Some (Ok c)) -> dr c = false -> ~ In c (s_user s) -> ~ In c (p_closed (s_pool s)) ->
  ~ In c (p_closed (s_pool s')) /\ ~ In c (s_user s').
Proof. exact get_undropped. Qed.
Print Assumptions C31_undropped_not_closed_partial.

(** whenever the free connection on top looks dropped or was closed, get_conn closes it and returns it *)
Theorem C31_dropped_returned_closed_refuted : forall cfg mk dr p c q p' r, p_free p = Some (c :: q) -> dr c = true ->
  get_conn cfg mk dr p = (p', Ok r) -> r = c /\ In r (p_closed p').
Proof. exact get_dropped_closed. Qed.
Print Assumptions C31_dropped_returned_closed_refuted.
Example C31_dropped_returned_closed_case : p_free (fresh defaults) = Some [0%nat] /\
  snd (get_conn defaults ok_sockets dead_peer (fresh defaults)) = Ok 0%nat /\ In 0%nat (p_closed (fst (get_conn defaults ok_sockets dead_peer (fresh defaults)))).
Proof. vm_compute. tauto. Qed.
Example C31_case : exists s', pstep defaults ok_sockets (start_pool (fresh defaults)) (PGet alive_peer) = (s', Some (Ok 0%nat)).
Proof. eexists. vm_compute. reflexivity. Qed.

(** ** C32. Full property: get_conn succeeds while a free connection exists, and no capacity is ever lost.
    It is false. Proved: it succeeds when the refill that follows is unnecessary or possible, or when
    nothing is free and the limit is not reached. *)
Theorem C32_get_succeeds_partial : forall cfg mk dr p,
  (forall c q, p_free p = Some (c :: q) -> min_free cfg <= len q \/ (p_num p < max_connections cfg /\ mk (p_attempts p) = true) ->
     exists p', get_conn cfg mk dr p = (p', Ok c)) /\
  (p_free p = Some [] -> block cfg = false -> p_num p < max_connections cfg -> mk (p_attempts p) = true ->
     exists p', get_conn cfg mk dr p = (p', Ok (p_attempts p))).
Proof. exact get_succeeds. Qed.
Print Assumptions C32_get_succeeds_partial.

(** exactly then: with the setting and sockets as they are, get_conn returns a connection if and only if the pool can serve, and
    refuses for being closed only a closed pool; a refused call of a pool with a free connection loses that connection, which
    is neither free afterwards nor closed by the pool *)
Theorem C32_exactly_partial : forall cfg mk dr p,
  ((exists c, snd (get_conn cfg mk dr p) = Ok c) <-> can_serve cfg mk p) /\
  (snd (get_conn cfg mk dr p) = Raise ClosedPoolError <-> p_free p = None) /\
  (forall c q, p_free p = Some (c :: q) -> ~ can_serve cfg mk p ->
     p_free (fst (get_conn cfg mk dr p)) = Some q /\ p_closed (fst (get_conn cfg mk dr p)) = p_closed p).
Proof. exact get_exactly. Qed.
Print Assumptions C32_exactly_partial.

(** with the default configuration, 19 connections lent, 1 free and 20 allowed, get_conn fails and the
    free connection is lost *)
Theorem C32_free_connection_lost_refuted : exists ops, lawful defaults ok_sockets (start_pool (fresh defaults)) ops /\
  let s := prun defaults ok_sockets (start_pool (fresh defaults)) ops in
  let s' := fst (pstep defaults ok_sockets s (PGet alive_peer)) in
  free_conns (s_pool s) = [19%nat] /\ List.length (s_lent s) = 19%nat /\ p_closed (s_pool s) = [] /\
  snd (pstep defaults ok_sockets s (PGet alive_peer)) = Some (Raise EmptyPoolError) /\
  ~ In 19%nat (free_conns (s_pool s')) /\ ~ In 19%nat (s_lent s') /\ ~ In 19%nat (p_closed (s_pool s')).
Proof.
  exists (repeat (PGet alive_peer) 19). split; [vm_compute; tauto|]. vm_compute. intuition congruence.
Qed.
Print Assumptions C32_free_connection_lost_refuted.

(** and a pool of one connection never serves any request, whatever happens later *)
Definition single : config := {| max_connections := 1; max_free := 5; min_free := 1; initial := 1; block := false |}.
Theorem C32_capacity_lost_for_ever_refuted : forall dr ops dr', lawful single ok_sockets (start_pool (fresh single)) (PGet dr :: ops) ->
  snd (pstep single ok_sockets (start_pool (fresh single)) (PGet dr)) = Some (Raise EmptyPoolError) /\
  get_refused (snd (pstep single ok_sockets (prun single ok_sockets (start_pool (fresh single)) (PGet dr :: ops)) (PGet dr'))).
Proof.
  intros dr ops dr' [_ L]. split; [vm_compute; reflexivity|]. apply stuck_step; [|exact I]. cbn [prun]. apply stuck_run; [|exact L].
  split; [left; vm_compute; reflexivity|]. split; [vm_compute; reflexivity|vm_compute; discriminate].
Qed.
Print Assumptions C32_capacity_lost_for_ever_refuted.
Example C32_case : p_free (fresh defaults) = Some [0%nat] /\ p_num (fresh defaults) < max_connections defaults.
Proof. vm_compute. split; reflexivity. Qed.

(** ** C33 *)
Theorem C33_close_releases_everything : forall cfg mk s post,
  let s1 := fst (pstep cfg mk s PClose) in
  let s2 := prun cfg mk s1 post in
  (forall c, In c (free_conns (s_pool s)) -> In c (p_closed (s_pool s1))) /\
  (forall c, In (PPut c) post -> In c (p_closed (s_pool s2))) /\
  (forall dr, snd (pstep cfg mk s2 (PGet dr)) = Some (Raise ClosedPoolError)) /\
  incl (s_lent s2) (s_lent s) /\ free_conns (s_pool s2) = [].
Proof. exact close_releases. Qed.
Print Assumptions C33_close_releases_everything.

(** so a connection lent at the time of the close and given back later has been closed, and nothing else is open *)
Theorem C33_nothing_left_open : forall cfg mk s post c,
  let s2 := prun cfg mk (fst (pstep cfg mk s PClose)) post in is_open s2 c -> In c (s_lent s) /\ ~ In (PPut c) post.
Proof. exact close_left_open. Qed.
Print Assumptions C33_nothing_left_open.

Theorem C33_second_close_raises : forall p p' r, pool_close p = (p', r) -> pool_close p' = (p', Raise AttributeError).
Proof. exact second_close. Qed.
Print Assumptions C33_second_close_raises.

Example C33_case : let s := prun defaults ok_sockets (start_pool (fresh defaults)) two_users in
  p_closed (s_pool s) = [1; 2; 0]%nat /\ s_lent s = [] /\ p_free (s_pool s) = None.
Proof. vm_compute. tauto. Qed.

(** ** C34 *)
Theorem C34_given_back_exactly_once : forall (K A : Type) (E : EqDec K) max_pools cfg mk dr (w : world K) k (body : world K -> nat -> nat -> world K * res A) w' r,
  scope max_pools cfg mk dr w k body = (w', r) ->
  (exists e, r = Raise e /\ w_puts w' = w_puts w /\ (snd (lookup max_pools cfg mk w k) = Raise e \/
     exists w1 i p p', lookup max_pools cfg mk w k = (w1, Ok i) /\ nth_error (w_pools w1) i = Some p /\ get_conn cfg (mk i) dr p = (p', Raise e))) \/
  (exists w1 i p p' c w2, lookup max_pools cfg mk w k = (w1, Ok i) /\ nth_error (w_pools w1) i = Some p /\ get_conn cfg (mk i) dr p = (p', Ok c) /\
     body (use_pool w1 i (fun _ => p')) i c = (w2, r) /\
     w_puts w' = w_puts w2 ++ [(i, c)] /\
     nth_error (w_pools w') i = option_map (fun p2 => put_conn cfg p2 c) (nth_error (w_pools w2) i) /\
     (forall j, j <> i -> nth_error (w_pools w') j = nth_error (w_pools w2) j) /\ w_lru w' = w_lru w2 /\ w_closes w' = w_closes w2) \/
  (exists w1 i, lookup max_pools cfg mk w k = (w1, Ok i) /\ nth_error (w_pools w1) i = None).
Proof. exact scope_spec. Qed.
Print Assumptions C34_given_back_exactly_once.

(** the last case above does not occur for a manager reached by lookups, clears, gets and puts *)
Theorem C34_looked_up_pool_exists : forall (K : Type) (E : EqDec K) max_pools cfg mk (ops : list (mop K)) k w1 i, Forall ordinary ops ->
  lookup max_pools cfg mk (mrun max_pools cfg mk ops) k = (w1, Ok i) -> nth_error (w_pools w1) i <> None.
Proof. exact lookup_exists. Qed.
Print Assumptions C34_looked_up_pool_exists.

(** giving back means that the connection is the next free one, or, if the pool is closed or full, closed *)
Theorem C34_given_back_means : forall cfg p c,
  (forall q, p_free p = Some q -> max_free cfg <= 0 \/ len q < max_free cfg -> p_free (put_conn cfg p c) = Some (c :: q) /\ p_closed (put_conn cfg p c) = p_closed p) /\
  (p_free p = None \/ (exists q, p_free p = Some q /\ 0 < max_free cfg <= len q) -> p_free (put_conn cfg p c) = p_free p /\ p_closed (put_conn cfg p c) = p_closed p ++ [c]).
Proof. exact put_means. Qed.
Print Assumptions C34_given_back_means.

Example C34_case : let '(w, r) := scope 2 defaults (fun _ => ok_sockets) alive_peer w_init 7 (fun w i c => (w, Raise (A:=unit) ValueError)) in
  r = Raise ValueError /\ w_puts w = [(0%nat, 0%nat)] /\ map p_free (w_pools w) = [Some [0%nat; 1%nat]].
Proof. vm_compute. tauto. Qed.
Example C34_case_failed_lookup : let '(w, r) := scope 2 defaults (fun _ _ => false) alive_peer w_init 7 (fun w i c => (w, Ok tt)) in
  r = Raise OSError /\ w_puts w = [].
Proof. vm_compute. tauto. Qed.

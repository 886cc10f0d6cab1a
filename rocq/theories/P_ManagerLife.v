(** Property theorems C146: which connections of the pools of a manager are open. [s] is pool i after the operations [l]. *)
From Verif Require Import PyBase PyDict PyInt M_Lru M_ConnPool M_PoolLife S_PoolLife L_PoolLife M_ManagerLife S_ManagerLife L_ManagerLife.
Open Scope nat_scope.

(** a connection that somebody can use is open unless a user or a pool closed it *)
Theorem C146_in_use_open : forall K (E : EqDec K) mp cfg mk (l : list (yop K)) i s c, let y := y_run mp cfg mk l in nth_error (y_lives y) i = Some s ->
  usable_of y i s c -> ~ shut s c -> In c (u_open s).
Proof. exact m_in_use_open. Qed.
Print Assumptions C146_in_use_open.
(** and closed if one of them did *)
Theorem C146_shut_closed : forall K (E : EqDec K) mp cfg mk (l : list (yop K)) i s c, let y := y_run mp cfg mk l in nth_error (y_lives y) i = Some s ->
  shut s c -> ~ In c (u_open s).
Proof. exact m_shut_closed. Qed.
Print Assumptions C146_shut_closed.
(** an open connection can be used by somebody or is kept by an exception that its caller has, as long as no other exception of the
    pool is in memory *)
Theorem C146_at_once_partial : forall K (E : EqDec K) mp cfg mk (l : list (yop K)) i s c, let y := y_run mp cfg mk l in nth_error (y_lives y) i = Some s ->
  no_stray_error s -> In c (u_open s) -> usable_of y i s c \/ kept_by_error s c.
Proof. exact m_at_once. Qed.
Print Assumptions C146_at_once_partial.
(** and whatever there was, after a run of the garbage collector *)
Theorem C146_collected_partial : forall K (E : EqDec K) mp cfg mk (l : list (yop K)) i s c, let y := y_run mp cfg mk (l ++ [YCollect]) in nth_error (y_lives y) i = Some s ->
  In c (u_open s) -> usable_of y i s c \/ kept_by_error s c.
Proof. exact m_collected. Qed.
Print Assumptions C146_collected_partial.
(** a manager that is dropped needs no clear(): a pool that nobody can get at, of which nobody has a connection or an exception, has
    no open connection *)
Theorem C146_gone : forall K (E : EqDec K) mp cfg mk (l : list (yop K)) i s, let y := y_run mp cfg mk l in nth_error (y_lives y) i = Some s ->
  ~ reachable_pool y i -> u_lent s = [] -> u_errs s = [] -> u_open s = [].
Proof. exact m_gone. Qed.
Print Assumptions C146_gone.
(** after clear() only users can get at pools, also when it ended early by the error of a pool that was closed already *)
Theorem C146_cleared : forall K (E : EqDec K) mp cfg mk (l : list (yop K)) i, let y := y_run mp cfg mk (l ++ [YClear]) in reachable_pool y i -> In i (y_mine y).
Proof. exact m_cleared. Qed.
Print Assumptions C146_cleared.

(** after the manager was dropped, users can only get at the pools that they had *)
Theorem C146_manager_dropped : forall K (E : EqDec K) mp cfg mk (l l2 : list (yop K)) i, let y := y_run mp cfg mk (l ++ YForgetManager :: l2) in
  reachable_pool y i -> In i (y_mine y) /\ In i (y_mine (y_run mp cfg mk l)).
Proof. exact m_let_go_ever. Qed.
Print Assumptions C146_manager_dropped.
(** a pool that the manager stops keeping by a lookup or clear() that returns is closed, whoever has it *)
Theorem C146_left_closed : forall K (E : EqDec K) mp cfg mk (l : list (yop K)) o i s, let y := y_run mp cfg mk l in let y' := y_run mp cfg mk (l ++ [o]) in
  y_result mp cfg mk y o = Ok tt -> keeps y i -> ~ keeps y' i -> nth_error (y_lives y') i = Some s -> closed_pool s.
Proof. exact m_left. Qed.
Print Assumptions C146_left_closed.

(** Missing from the claim: the connection that a failing get_conn had taken stays open until the garbage collector runs, though
    the manager, the pool, all connections and the exception were let go of. *)
Definition mk146 (i n : nat) : bool := true.
Definition lost146 : list (yop nat) := [YLookup 7; YGet 0 dr137; YGet 0 dr137; YForget 0 0; YDrop 0 0; YForgetPool 0; YForgetManager].
Theorem C146_lost_refuted : exists mp cfg mk (l : list (yop nat)) i s c, let y := y_run mp cfg mk l in nth_error (y_lives y) i = Some s /\
  y_held y = false /\ y_mine y = [] /\ In c (u_open s) /\ ~ usable_of y i s c /\ ~ kept_by_error s c.
Proof.
  exists 10%Z, cfg137, mk146, lost146, 0. eexists. exists 1. cbv zeta. split; [vm_compute; reflexivity|]. split; [vm_compute; reflexivity|]. split; [vm_compute; reflexivity|]. split; [vm_compute; auto|]. split.
  - intros [[]|([H|(H & _)] & _)]; vm_compute in H; [exact H|discriminate].
  - intros (e & [<-|[]] & H & _). discriminate.
Qed.
Print Assumptions C146_lost_refuted.

(** ** Concrete cases: a manager that keeps one pool *)
Definition big146 : config := {| max_connections := 20; max_free := 5; min_free := 1; initial := 1; block := false |}.
Definition opened (l : list (yop nat)) : list (list nat) := map u_open (y_lives (y_run 1 big146 mk146 l)).
(** the second lookup evicts and closes the first pool: its idle connection is closed, the lent one is not, until it is dropped *)
Example C146_evicted : opened [YLookup 7; YGet 0 dr137] = [[0; 1]] /\ opened [YLookup 7; YGet 0 dr137; YLookup 8] = [[0]; [0]] /\ opened [YLookup 7; YGet 0 dr137; YLookup 8; YDrop 0 0] = [[]; [0]].
Proof. vm_compute. repeat split. Qed.
(** the manager is dropped: the pool stays as long as the user has it *)
Example C146_dropped : opened [YLookup 7; YForgetManager] = [[0]] /\ opened [YLookup 7; YForgetManager; YForgetPool 0] = [[]] /\ opened [YLookup 7; YForgetPool 0] = [[0]] /\ opened [YLookup 7; YForgetPool 0; YForgetManager] = [[]].
Proof. vm_compute. repeat split. Qed.
Example C146_usable_case : let y := y_run 1 big146 mk146 [YLookup 7; YForgetPool 0] in exists s, nth_error (y_lives y) 0 = Some s /\ usable_of y 0 s 0 /\ ~ shut s 0 /\ no_stray_error s.
Proof. vm_compute. eexists. split; [reflexivity|]. split; [right; split; [right; split; [reflexivity|exists 7; left; reflexivity]|exists [0]; split; [reflexivity|left; reflexivity]]|]. split; [intros [[]|[]]|intros e []]. Qed.
(** of two pools the user closed the first one: clear() fails there, and the second one is closed because nobody has it *)
Definition early : list (yop nat) := [YLookup 7; YLookup 8; YForgetPool 1; YClose 0; YClear].
Example C146_early : let y := y_run 2 big146 mk146 early in y_lru y = [] /\ map u_open (y_lives y) = [[]; []] /\ map (fun s => p_closed (u_pool s)) (y_lives y) = [[0]; []] /\ y_mine y = [0].
Proof. vm_compute. repeat split. Qed.
(** the eviction of [C146_evicted] *)
Example C146_left_case : let y := y_run 1 big146 mk146 [YLookup 7; YGet 0 dr137] in let y' := y_run 1 big146 mk146 ([YLookup 7; YGet 0 dr137] ++ [YLookup 8]) in
  y_result 1 big146 mk146 y (YLookup 8) = Ok tt /\ y_lru y = [(7, 0)] /\ y_lru y' = [(8, 1)] /\ map (fun s => p_free (u_pool s)) (y_lives y') = [None; Some [0]].
Proof. vm_compute. repeat split. Qed.
Example C146_early_result : y_result 2 big146 mk146 (y_run 2 big146 mk146 [YLookup 7; YLookup 8; YForgetPool 1; YClose 0]) YClear = Raise AttributeError.
Proof. vm_compute. reflexivity. Qed.

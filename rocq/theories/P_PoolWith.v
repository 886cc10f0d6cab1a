(** Property theorems C140: pools and pool managers in with statements. [mk i n] says whether the n-th socket of pool i
    can be created. Programs are in one thread. *)
From Verif Require Import PyBase PyDict M_Lru M_ConnPool M_PoolManager L_PoolManager M_PoolWith S_PoolWith L_PoolWith.

(** a program that closes no pool itself leaves none open, and its own outcome is the outcome of the with statement *)
Theorem C140_manager_exit_partial : forall (K : Type) (E : EqDec K) max_pools cfg mk (before : list (mop K)) (body : list (stm K)), Forall ordinary before -> Forall hands_off body ->
  let w := mrun max_pools cfg mk before in let '(w1, r) := with_manager (run_stms max_pools cfg mk body) w in
  r = snd (run_stms max_pools cfg mk body w) /\ w_lru w1 = [] /\ forall i, made w1 i -> is_closed w1 i.
Proof. exact manager_exit. Qed.
Print Assumptions C140_manager_exit_partial.

(** after with pool the pool is closed. The outcome is that of the body if the pool was open until then; otherwise it is
    AttributeError, whatever the body did. *)
Theorem C140_pool_exit : forall (K : Type) (E : EqDec K) max_pools cfg mk i (body : world K -> world K * res unit) w w1 r, body w = (w1, r) -> made w1 i ->
  is_closed (fst (with_pool max_pools cfg mk i body w)) i /\ (is_open w1 i -> snd (with_pool max_pools cfg mk i body w) = r) /\
  (is_closed w1 i -> snd (with_pool max_pools cfg mk i body w) = Raise AttributeError).
Proof. exact pool_exit. Qed.
Print Assumptions C140_pool_exit.

(** and it is the pool of the key that a program names in its with statement which is closed then, and no other *)
Theorem C140_with_statement : forall (K : Type) (E : EqDec K) max_pools cfg mk (k : K) body w i, snd (lookup max_pools cfg mk w k) = Ok i ->
  let w1 := fst (run_stms max_pools cfg mk body (fst (lookup max_pools cfg mk w k))) in let r := snd (run_stms max_pools cfg mk body (fst (lookup max_pools cfg mk w k))) in made w1 i ->
  is_closed (fst (run_stm max_pools cfg mk (SWith k body) w)) i /\ (is_open w1 i -> snd (run_stm max_pools cfg mk (SWith k body) w) = r) /\
  (forall j, j <> i -> nth_error (w_pools (fst (run_stm max_pools cfg mk (SWith k body) w))) j = nth_error (w_pools w1) j).
Proof. exact with_statement. Qed.
Print Assumptions C140_with_statement.

(** the connections that lie idle at the end are closed, in every pool of the manager or in the one pool; those still lent are
    closed when they are given back, however much later *)
Theorem C140_manager_exit_idle_partial : forall (K : Type) (E : EqDec K) max_pools cfg mk (before : list (mop K)) (body : list (stm K)) i c, Forall ordinary before -> Forall hands_off body ->
  let w := mrun max_pools cfg mk before in idle (fst (run_stms max_pools cfg mk body w)) i c -> has_closed (fst (with_manager (run_stms max_pools cfg mk body) w)) i c.
Proof. exact manager_exit_idle. Qed.
Print Assumptions C140_manager_exit_idle_partial.

Theorem C140_pool_exit_idle : forall (K : Type) (E : EqDec K) max_pools cfg mk i (body : world K -> world K * res unit) w c, idle (fst (body w)) i c -> has_closed (fst (with_pool max_pools cfg mk i body w)) i c.
Proof. exact pool_exit_idle. Qed.
Print Assumptions C140_pool_exit_idle.

Theorem C140_given_back_closed : forall (K : Type) (E : EqDec K) max_pools cfg mk (w : world K) i c ops, is_closed w i ->
  has_closed (mstep max_pools cfg mk (fold_left (mstep max_pools cfg mk) ops w) (MPut i c)) i c.
Proof. exact given_back_closed. Qed.
Print Assumptions C140_given_back_closed.

(** missing from the claim: a manager that retains a closed pool when its with statement ends. The outcome is AttributeError
    whatever the body did, and pools after the closed one stay open though the manager no longer has them. *)
Theorem C140_manager_exit_refuted : forall (K : Type) (body : world K -> world K * res unit) w w1 r i, body w = (w1, r) -> In i (vals (w_lru w1)) -> is_closed w1 i ->
  snd (with_manager body w) = Raise AttributeError /\ w_lru (fst (with_manager body w)) = [] /\
  forall pre post j, vals (w_lru w1) = pre ++ i :: post -> In j post -> ~ In j pre -> j <> i -> is_open w1 j -> is_open (fst (with_manager body w)) j.
Proof. exact exit_raises. Qed.
Print Assumptions C140_manager_exit_refuted.

(** and a pool closed by its with statement is given out again for as long as the manager has it, with every get_conn failing *)
Theorem C140_closed_given_out_refuted : forall (K : Type) (E : EqDec K) max_pools cfg mk (w : world K) k i ops dr, is_closed w i ->
  let w1 := fold_left (mstep max_pools cfg mk) ops w in dget k (w_lru w1) = Some i ->
  snd (lookup max_pools cfg mk w1 k) = Ok i /\ snd (op_do max_pools cfg mk (MGet i dr) (fst (lookup max_pools cfg mk w1 k))) = Raise ClosedPoolError.
Proof. exact given_out_closed. Qed.
Print Assumptions C140_closed_given_out_refuted.

(** and once it is the one to be evicted, the lookup of another key fails with AttributeError, though the manager has the new pool: the next lookup gives it *)
Theorem C140_evicts_closed_refuted : forall (K : Type) (E : EqDec K) max_pools cfg mk (w : world K) k k0 i rest p, dget k (w_lru w) = None -> w_lru w = (k0, i) :: rest -> len (w_lru w) = max_pools -> is_closed w i -> build cfg (mk (List.length (w_pools w))) = Built p ->
  let w1 := fst (lookup max_pools cfg mk w k) in snd (lookup max_pools cfg mk w k) = Raise AttributeError /\ snd (lookup max_pools cfg mk w1 k) = Ok (List.length (w_pools w)).
Proof. exact evicts_closed. Qed.
Print Assumptions C140_evicts_closed_refuted.

Definition usual : config := {| max_connections := 20; max_free := 5; min_free := 1; initial := 1; block := false |}.
Definition every (i n : nat) : bool := true.
Definition live (c : nat) : bool := false.
Definition run1 := run_stms (K := Z) 2 usual every.

(** two pools, a borrowed connection and an exception of the program *)
Definition careful : list (stm Z) := [SOp (MLookup 1); SOp (MLookup 2); SOp (MGet 0 live); SRaise ValueError; SOp (MLookup 3)].
Example C140_careful_case : Forall hands_off careful /\ snd (with_manager (run1 careful) w_init) = Raise ValueError
  /\ map p_free (w_pools (fst (with_manager (run1 careful) w_init))) = [None; None].
Proof. split; [repeat constructor|vm_compute; split; reflexivity]. Qed.

(** with manager: with the pool of 1: get a connection; then the pool of 2 is looked up. Nothing fails inside. *)
Definition nested : list (stm Z) := [SWith 1 [SOp (MGet 0 live); SOp (MPut 0 0)]; SOp (MLookup 2)].
Example C140_nested_case : snd (run1 nested w_init) = Ok tt /\ vals (w_lru (fst (run1 nested w_init))) = [0%nat; 1%nat] /\ is_closed (fst (run1 nested w_init)) 0 /\ is_open (fst (run1 nested w_init)) 1
  /\ snd (with_manager (run1 nested) w_init) = Raise AttributeError /\ is_open (fst (with_manager (run1 nested) w_init)) 1.
Proof.
  split; [vm_compute; reflexivity|]. split; [vm_compute; reflexivity|]. split; [eexists; split; vm_compute; reflexivity|]. split; [eexists; split; [vm_compute; reflexivity|discriminate]|].
  split; [vm_compute; reflexivity|]. eexists; split; [vm_compute; reflexivity|discriminate].
Qed.
Example C140_with_case : let w := fst (run1 [SOp (MLookup 2)] w_init) in snd (lookup 2 usual every w 1) = Ok 1%nat /\ made (fst (run1 [SOp (MGet 1 live)] (fst (lookup 2 usual every w 1)))) 1.
Proof. vm_compute. split; [reflexivity|]. repeat constructor. Qed.
Example C140_again_case : dget 1 (w_lru (fst (run1 nested w_init))) = Some 0%nat /\ snd (run1 (nested ++ [SOp (MLookup 1); SOp (MGet 0 live)]) w_init) = Raise ClosedPoolError.
Proof. vm_compute; split; reflexivity. Qed.

(** after [nested] the pool of 1 is closed and is the next to be evicted *)
Example C140_evicts_case : let w := fst (run1 nested w_init) in map fst (w_lru w) = [1; 2] /\ is_closed w 0 /\ snd (lookup 2 usual every w 3) = Raise AttributeError /\ snd (lookup 2 usual every (fst (lookup 2 usual every w 3)) 3) = Ok 2%nat.
Proof. split; [vm_compute; reflexivity|]. split; [eexists; split; vm_compute; reflexivity|]. vm_compute. split; reflexivity. Qed.

(** the manager evicts the pool during its with statement: the body's own exception is lost *)
Example C140_evicted_case : snd (run1 [SWith 1 [SOp (MLookup 2); SOp (MLookup 3); SRaise ValueError]] w_init) = Raise AttributeError
  /\ snd (run1 [SWith 1 [SOp (MLookup 2); SRaise ValueError]] w_init) = Raise ValueError.
Proof. vm_compute; split; reflexivity. Qed.

(** the pool of 1 made a second connection when the first was borrowed; it lies idle at the end and is closed. The borrowed one is
    closed when it is given back after the with statement. *)
Example C140_idle_case : idle (fst (run1 careful w_init)) 0 1 /\ map p_closed (w_pools (fst (with_manager (run1 careful) w_init))) = [[1%nat]; [0%nat]]
  /\ map p_closed (w_pools (mstep 2 usual every (fst (with_manager (run1 careful) w_init)) (MPut 0 0))) = [[1%nat; 0%nat]; [0%nat]].
Proof. split; [do 2 eexists; split; [vm_compute; reflexivity|split; [reflexivity|left; reflexivity]]|vm_compute; split; reflexivity]. Qed.

(** Property theorems C107-C109: threads that share a pool manager. The words are in S_MgrThreads. [l] is any history
    of calls and steps of [n] threads, [m] is max_pools; [mks j]: which sockets call j can create when it makes a pool. *)
From Coq Require Import Strings.String.
From Verif Require Import PyBase PyDict M_Lru M_LruThreads S_LruThreads M_ConnPool M_PoolThreads M_MgrThreads S_MgrThreads L_MgrThreads L_MgrThreads2 L_MgrThreads3.

(** thread i does what call j of the manager has to do; thread i uses pool v *)
Definition look (i j : nat) (k : Z) : list (gstep Z) := GCall i (GLookup k) :: repeat (GStep j false) 30.
Definition uses (v i : nat) (o : tstep) : list (gstep Z) := GUse v o :: repeat (GUse v (TStep i false)) 12.
Definition shared : config := {| max_connections := 2; max_free := 1; min_free := 0; initial := 1; block := false |}.
Definition tight : config := {| max_connections := 5; max_free := 1; min_free := 0; initial := 2; block := false |}.
Definition all_up : nat -> nat -> bool := fun _ _ => true.

(** ** C107. A connection is lent to one thread at a time, whatever the threads do with the manager; ... *)
Theorem C107_one_thread : forall K (E : EqDec K) m cfg n mks (l : list (gstep K)) v i j c, let s := g_run m cfg n mks l in
  lent_to s v i c -> lent_to s v j c -> i = j.
Proof. exact @one_thread. Qed.
Print Assumptions C107_one_thread.
Theorem C107_lent_is_not_free : forall K (E : EqDec K) m cfg n mks (l : list (gstep K)) v i c, let s := g_run m cfg n mks l in lent_to s v i c -> ~ is_free s v c.
Proof. exact @not_free. Qed.
Print Assumptions C107_lent_is_not_free.
(** ... a thread that has borrowed one may pass it on to another, ... *)
Theorem C107_passed_on : forall K (E : EqDec K) m cfg n mks (l : list (gstep K)) v i j c, lent_to (g_run m cfg n mks l) v i c -> i <> j -> (j < n)%nat ->
  lent_to (g_run m cfg n mks (l ++ [GUse v (THand i j c)])) v j c.
Proof. exact @passed_on. Qed.
Print Assumptions C107_passed_on.
(** ... when pools are closed by the manager only: once all its calls have ended, the open pools are those it holds, ... *)
Theorem C107_open_is_held : forall K (E : EqDec K) m cfg n mks (l : list (gstep K)) v h, closed_by_manager l -> let s := g_run m cfg n mks l in
  all_ended s -> nth_error (g_pools s) v = Some h -> (h_open h = true <-> holds s v).
Proof. exact @open_iff_held. Qed.
Print Assumptions C107_open_is_held.
(** ... they are at most max_pools, ... *)
Theorem C107_open_at_most : forall K (E : EqDec K) m cfg n mks (l : list (gstep K)), closed_by_manager l -> let s := g_run m cfg n mks l in
  all_ended s -> Z.of_nat (List.length (filter h_open (g_pools s))) <= Z.max 0 m.
Proof. exact @open_count. Qed.
Print Assumptions C107_open_at_most.
(** ... and a call of the manager raises nothing but what the constructor of a pool raises *)
Theorem C107_errors : forall K (E : EqDec K) m cfg n mks (l : list (gstep K)) j e, closed_by_manager l -> returned (g_run m cfg n mks l) j (Raise e) -> build cfg (mks j) = Failed e.
Proof. exact @manager_errors. Qed.
Print Assumptions C107_errors.

(** two threads share the pool of address 1 and both borrow; a third asks for address 2, which closes that pool; a
    fourth cannot connect to address 3 *)
Definition meet : list (gstep Z) := look 0 0 1 ++ uses 0 0 (TGet 0 false) ++ look 1 1 1 ++ uses 0 1 (TGet 1 false).
Definition three : list (gstep Z) := meet ++ look 2 2 2 ++ look 3 3 3.
Definition third_down : nat -> nat -> bool := fun j _ => negb (Nat.eqb j 3).
Example C107_case : closed_by_manager three /\
  (let s := g_run 1 shared 4 third_down meet in returned s 0 (Ok (OVal 0%nat)) /\ returned s 1 (Ok (OVal 0%nat)) /\ lent_to s 0 0 0 /\ lent_to s 0 1 1) /\
  (let s := g_run 1 shared 4 third_down three in all_ended s /\ map h_open (g_pools s) = [false; true] /\ ~ holds s 0 /\ holds s 1 /\ returned s 3 (Raise OSError)).
Proof.
  split.
  - intros v i I. assert (X : forallb (fun e => match e with GUse _ (TClose _) => false | _ => true end) three = true) by (vm_compute; reflexivity). rewrite forallb_forall in X. specialize (X _ I). discriminate X.
  - split.
    + vm_compute g_run. unfold returned, lent_to. split; [eexists; reflexivity|]. split; [eexists; reflexivity|]. split; (eexists; eexists; split; [reflexivity|]; split; [reflexivity|]; left; reflexivity).
    + vm_compute g_run. split; [|split; [reflexivity|split; [|split; [|]]]].
      * intros i o p. cbn. destruct i as [|[|[|[|i]]]]; cbn; intros X; try (injection X as <- <-; eexists; reflexivity). destruct i; discriminate X.
      * intros (k & [X|[]]). discriminate X.
      * exists 2. left. reflexivity.
      * eexists. reflexivity.
Qed.

(** ** C108. Full property: a thread that has got a pool from the manager can borrow from it whatever the others ask
    for. It is false: with max_pools = 1 the lookup of another address closes the pool between the two. *)
Definition robbed : list (gstep Z) := look 0 0 1 ++ look 1 1 2 ++ uses 0 0 (TGet 0 false).
Theorem C108_pool_closed_meanwhile_refuted : exists m cfg n mks (l : list (gstep Z)), 1 <= m /\ closed_by_manager l /\ let s := g_run m cfg n mks l in
  began s 0 (GLookup 1) /\ returned s 0 (Ok (OVal 0%nat)) /\ began s 1 (GLookup 2) /\ exists h, nth_error (g_pools s) 0 = Some h /\ h_log h = [(1%nat, ODone); (0%nat, OErr ClosedPoolError)].
Proof.
  exists 1, shared, 2%nat, all_up, robbed. split; [lia|]. split.
  - intros v i I. assert (X : forallb (fun e => match e with GUse _ (TClose _) => false | _ => true end) robbed = true) by (vm_compute; reflexivity). rewrite forallb_forall in X. specialize (X _ I). discriminate X.
  - vm_compute g_run. split; [eexists; reflexivity|]. split; [eexists; reflexivity|]. split; [eexists; reflexivity|]. eexists. split; reflexivity.
Qed.
Print Assumptions C108_pool_closed_meanwhile_refuted.
(** What holds: when no more addresses than max_pools are ever asked for, every pool stays open and no get_conn ends
    with ClosedPoolError. Missing: more addresses, and clear(). *)
Theorem C108_undisturbed_partial : forall K (E : EqDec K) m cfg n mks (ks : list K) l v h, Z.of_nat (List.length ks) <= m -> only_asks_for ks l -> closed_by_manager l ->
  nth_error (g_pools (g_run m cfg n mks l)) v = Some h -> h_open h = true /\ forall i, ~ In (i, OErr ClosedPoolError) (h_log h).
Proof. exact @undisturbed. Qed.
Print Assumptions C108_undisturbed_partial.
(** the same threads with max_pools = 2 *)
Example C108_case : only_asks_for [1; 2] robbed /\ closed_by_manager robbed /\ (let s := g_run 2 shared 2 all_up robbed in map h_open (g_pools s) = [true; true] /\ map h_log (g_pools s) = [[(0%nat, OGot 0)]; []]).
Proof.
  split.
  - intros i o I. assert (X : forallb (fun e => match e with GCall _ (GLookup k) => (k =? 1) || (k =? 2) | GCall _ _ => false | _ => true end) robbed = true) by (vm_compute; reflexivity).
    rewrite forallb_forall in X. specialize (X _ I). cbn in X. destruct o as [k|]; [|discriminate X]. exists k. split; [reflexivity|]. apply orb_true_iff in X as [X|X]; apply Z.eqb_eq in X; subst k; cbn; auto.
  - split; [|vm_compute; split; reflexivity].
    intros v i I. assert (X : forallb (fun e => match e with GUse _ (TClose _) => false | _ => true end) robbed = true) by (vm_compute; reflexivity). rewrite forallb_forall in X. specialize (X _ I). discriminate X.
Qed.

(** ** C109. Full property: every call of the manager ends. It is false: with more initial than free connections the
    constructor of the first pool waits for ever with the lock of the manager, and neither that call nor any call that
    begins later ever ends, whatever happens. *)
Theorem C109_waits_for_ever_refuted : forall K (E : EqDec K) m cfg n mks (l l' : list (gstep K)) j, building (g_run m cfg n mks l) j -> build cfg (mks j) = Blocks ->
  forall a r, (a = j \/ List.length (t_calls (g_m (g_run m cfg n mks l))) <= a)%nat -> ~ returned (g_run m cfg n mks (l ++ l')) a r.
Proof. exact @hangs. Qed.
Print Assumptions C109_waits_for_ever_refuted.
Example C109_waits_case : build tight (all_up 0) = Blocks /\ building (g_run 10 tight 2 all_up (look 0 0 1)) 0 /\ (let s := g_run 10 tight 2 all_up (look 0 0 1 ++ look 1 1 2) in building s 0 /\ began s 1 (GLookup 2) /\ g_pools s = []).
Proof. split; [vm_compute; reflexivity|]. split; [do 2 eexists; vm_compute; reflexivity|]. split; [do 2 eexists; vm_compute; reflexivity|]. split; [eexists; vm_compute; reflexivity|vm_compute; reflexivity]. Qed.
(** What holds: otherwise, when no thread can do anything, all calls of the manager have ended and every operation on
    a pool has, except get_conn calls that wait, without a timeout, for a connection to be given back; ... *)
Theorem C109_no_deadlock_partial : forall K (E : EqDec K) m cfg n mks (l : list (gstep K)), max_free cfg <= 0 \/ Z.of_nat (initial cfg) <= max_free cfg -> let s := g_run m cfg n mks l in
  (forall e, goes_on e = true -> g_step m cfg n mks e s = s) ->
  all_ended s /\ forall v h i t, nth_error (g_pools s) v = Some h -> nth_error (h_threads h) i = Some t -> t_pc t = Idle \/ (t_pc t = GTake false /\ block cfg = true /\ h_queue h = []).
Proof. exact @rests. Qed.
Print Assumptions C109_no_deadlock_partial.
(** ... and without new calls there is no infinite sequence of steps that change something *)
Theorem C109_terminates_partial : forall K (E : EqDec K) m cfg n mks (s : gs K), Acc (works m cfg n mks) s.
Proof. exact @works_wf. Qed.
Print Assumptions C109_terminates_partial.
(** two threads in the manager at once: one waits for the lock of the other, which is closing a pool; both end *)
Definition crossing : list (gstep Z) := look 0 0 1 ++ [GCall 0 (GLookup 2); GCall 1 (GLookup 1)] ++ repeat (GStep 1 false) 14 ++ repeat (GStep 2 false) 3.
Example C109_case : (let s := g_run 1 shared 2 all_up crossing in g_closing s = [1]%nat /\ g_step 1 shared 2 all_up (GStep 2 false) s = s /\ g_step 1 shared 2 all_up (GStep 1 false) s <> s) /\
  (let s := g_run 1 shared 2 all_up (crossing ++ repeat (GStep 1 false) 20 ++ repeat (GStep 2 false) 30) in returned s 1 (Ok (OVal 1%nat)) /\ returned s 2 (Ok (OVal 2%nat)) /\ map h_open (g_pools s) = [false; false; true]).
Proof.
  split.
  - split; [vm_compute; reflexivity|]. split; [vm_compute; reflexivity|]. intros X. apply (f_equal (fun s => map (fun h => map t_pc (h_threads h)) (g_pools s))) in X. vm_compute in X. discriminate X.
  - split; [eexists; vm_compute; reflexivity|]. split; [eexists; vm_compute; reflexivity|]. vm_compute. reflexivity.
Qed.

(** Property theorems C98: the limit of a connection pool that threads share. [t_run cfg p n l]: n threads that use the
    pool p, after the steps l. [in_use s c]: connection c is open, and free or lent. *)
From Coq Require Import Lia.
From Verif Require Import PyBase M_ConnPool M_PoolThreads S_PoolLimit L_PoolLimit P_PoolThreads.

(** ** C98. Full property: at most max_connections connections are open, and free or lent, whatever the threads do. *)
(** It is false, without any bound: two threads that use a pool limited to three connections can have any number *)
Theorem C98_no_limit_refuted : forall mk p k, build three mk = Built p ->
  exists l x, NoDup x /\ List.length x = k /\ forall c, In c x -> in_use (t_run three p 2 l) c.
Proof. exact no_limit. Qed.
Print Assumptions C98_no_limit_refuted.

(** Proved: it holds as long as no two threads are about to change num_connections at the same time, and no thread
    gives back a connection that the pool has closed *)
Theorem C98_limit_partial : forall cfg mk p n l x, build cfg mk = Built p -> one_at_a_time cfg p n l -> no_closed_back cfg p n l ->
  NoDup x -> (forall c, In c x -> in_use (t_run cfg p n l) c) -> len x <= h_num (t_run cfg p n l) <= Z.max 0 (max_connections cfg).
Proof. exact limit_holds. Qed.
Print Assumptions C98_limit_partial.

Example C98_refuted_case : build three all_sockets = Built (pool_of three) /\ max_connections three = 3.
Proof. split; vm_compute; reflexivity. Qed.
(** two threads that get a connection each, one after the other for the counter, the limit being two *)
Definition careful : list tstep := [TGet 0 false; TGet 1 false; TStep 0 false; TStep 1 false; TStep 1 false; TStep 0 false] ++ steps 0 5 ++ steps 1 5.
Example C98_case : build two_max all_sockets = Built (pool_of two_max) /\ one_at_a_time two_max (pool_of two_max) 2 careful /\ no_closed_back two_max (pool_of two_max) 2 careful /\
  (forall c, In c [0; 1]%nat -> in_use (t_run two_max (pool_of two_max) 2 careful) c) /\ h_num (t_run two_max (pool_of two_max) 2 careful) = 2.
Proof.
  split; [vm_compute; reflexivity|]. split; [|split; [|split; [|vm_compute; reflexivity]]].
  - intros l1 l2 E. assert (L : l1 = firstn (List.length l1) careful) by (rewrite E, firstn_app, Nat.sub_diag, firstn_all, firstn_O, app_nil_r; reflexivity). rewrite L.
    assert (Le : (List.length l1 <= 16)%nat) by (apply (f_equal (@List.length _)) in E; rewrite app_length in E; change (List.length careful) with 16%nat in E; lia).
    generalize dependent (List.length l1). intros k _ Le i j t u Hi Hj A B. do 17 (destruct k as [|k]; [vm_compute in Hi, Hj; destruct i as [|[|[|i]]]; try discriminate; destruct j as [|[|[|j]]]; try discriminate; try reflexivity; injection Hi as <-; injection Hj as <-; discriminate|]). lia.
  - intros l1 i c l2 E. exfalso. assert (In (TPut i c) careful) by (rewrite E; apply in_or_app; right; left; reflexivity). cbn in H. repeat destruct H as [H|H]; discriminate || destruct H.
  - intros c Hc. split; [vm_compute; intros []|]. right. destruct Hc as [<-|[<-|[]]]; [exists 1%nat|exists 0%nat]; eexists; (split; [vm_compute; reflexivity|left; reflexivity]).
Qed.

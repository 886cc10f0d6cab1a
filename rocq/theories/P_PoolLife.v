(** Property theorems C137: which connections of a pool are open when its users also let go of connections, pools and
    exceptions (M_PoolLife). *)
From Verif Require Import PyBase PyDict M_ConnPool M_PoolLife S_PoolLife L_PoolLife.
Open Scope nat_scope.

(** ** C137 *)
(** a connection that is lent, or idle in a pool its user has, is open unless the pool or a user closed it *)
Theorem C137_in_use_open : forall cfg mk p l c, build cfg mk = Built p -> let s := ufrom cfg mk (ustart p) l in usable s c -> ~ shut s c -> In c (u_open s).
Proof. exact in_use_open. Qed.
Print Assumptions C137_in_use_open.
(** and closed if one of them did *)
Theorem C137_shut_closed : forall cfg mk p l c, build cfg mk = Built p -> let s := ufrom cfg mk (ustart p) l in shut s c -> ~ In c (u_open s).
Proof. exact open_not_shut. Qed.
Print Assumptions C137_shut_closed.
(** a lent connection that its borrower drops is closed, if no exception has it *)
Theorem C137_dropped : forall cfg mk p l c, build cfg mk = Built p -> let s := ufrom cfg mk (ustart p) l in In c (u_lent s) -> (forall e, In e (u_errs s) -> ~ In c (e_lost e)) -> ~ In c (u_open (ufrom cfg mk (ustart p) (l ++ [UDrop c]))).
Proof. exact dropped_closed. Qed.
Print Assumptions C137_dropped.
(** as long as get_conn raised no error of the pool, every open connection is lent, or idle in a pool its user has, or kept
    by an exception that the caller has *)
Theorem C137_at_once_partial : forall cfg mk p l c, build cfg mk = Built p -> no_pool_error (ugave cfg mk (ustart p) l) -> let s := ufrom cfg mk (ustart p) l in In c (u_open s) -> usable s c \/ kept_by_error s c.
Proof. exact at_once. Qed.
Print Assumptions C137_at_once_partial.
(** the same whatever it raised, each time the garbage collector has run. Missing: between its runs, by the theorem below *)
Theorem C137_collected_partial : forall cfg mk p l c, build cfg mk = Built p -> let s := ufrom cfg mk (ustart p) (l ++ [UCollect]) in In c (u_open s) -> usable s c \/ kept_by_error s c.
Proof. exact collected. Qed.
Print Assumptions C137_collected_partial.
(** A get_conn that takes the last free connection and may not make another loses the one it took: it stays open though
    nobody has it, not even by the exception. *)
Theorem C137_lost_refuted : exists cfg mk p l c, build cfg mk = Built p /\ let s := ufrom cfg mk (ustart p) l in In c (u_open s) /\ ~ usable s c /\ ~ kept_by_error s c.
Proof. exact lost_open. Qed.
Print Assumptions C137_lost_refuted.

(** *** cases *)
(** in the history of the last theorem: what the two calls gave, what is open, and what is after a collection *)
Example C137_lost_case : ugave cfg137 mk137 (ustart p137) l137 = [Ok 0; Raise EmptyPoolError] /\ u_open (ufrom cfg137 mk137 (ustart p137) l137) = [0; 1] /\ u_lent (ufrom cfg137 mk137 (ustart p137) l137) = [0] /\
  u_open (ufrom cfg137 mk137 (ustart p137) (l137 ++ [UCollect])) = [0].
Proof. vm_compute. repeat split. Qed.
(** a socket cannot be created: the connection taken is closed when the caller lets go of the OSError; a connection that a
    user drops is closed at once, and so is what is idle when the pool is dropped *)
Definition mk137' (n : nat) : bool := negb (Nat.eqb n 2).
Definition big137 : config := {| max_connections := 20; max_free := 5; min_free := 1; initial := 1; block := false |}.
Example C137_case : build big137 mk137' = Built p137 /\ no_pool_error (ugave big137 mk137' (ustart p137) [UGet dr137; UGet dr137; UForget 0; UGet dr137; UDrop 0; UForgetPool]) /\
  map (fun n => u_open (ufrom big137 mk137' (ustart p137) (firstn n [UGet dr137; UGet dr137; UForget 0; UGet dr137; UDrop 0; UForgetPool]))) [0; 1; 2; 3; 4; 5; 6] = [[0]; [0; 1]; [0; 1]; [0]; [0; 3]; [3]; [3]].
Proof. split; [reflexivity|]. split; [split; intros H; vm_compute in H; intuition discriminate|]. vm_compute. reflexivity. Qed.
Example C137_usable_case : usable (ufrom big137 mk137' (ustart p137) [UGet dr137]) 0 /\ usable (ufrom big137 mk137' (ustart p137) [UGet dr137]) 1 /\ kept_by_error (ufrom big137 mk137' (ustart p137) [UGet dr137; UGet dr137]) 1.
Proof.
  split; [left; vm_compute; auto|]. split; [right; split; [reflexivity|]; exists [1]; split; [reflexivity|left; reflexivity]|]. eexists. split; [vm_compute; left; reflexivity|]. split; [reflexivity|left; left; reflexivity].
Qed.
(** and not after close() *)
Example C137_shut_case : let s := ufrom big137 mk137' (ustart p137) [UGet dr137; UClose; UShut 0] in u_open s = [] /\ shut s 0 /\ shut s 1 /\ usable s 0.
Proof. repeat split; vm_compute; auto. Qed.

(** Property theorems C138: making a pool (M_ConnPool.build), and what it leaves behind when it fails (M_PoolMake). *)
From Coq Require Import Lia.
From Verif Require Import PyBase PyDict M_ConnPool M_PoolLife S_PoolLife M_PoolMake S_PoolMake L_PoolMake.
Open Scope nat_scope.

(** ** C138 *)
(** exactly when a pool is made, and which *)
Theorem C138_made : forall cfg mk, (exists p, build cfg mk = Built p) <-> forall i, i < initial cfg -> fine cfg mk i.
Proof. exact built_exactly. Qed.
Print Assumptions C138_made.
Theorem C138_what_is_made : forall cfg mk p, build cfg mk = Built p -> p_free p = Some (rev (seq 0 (initial cfg))) /\ p_num p = Z.of_nat (initial cfg) /\ p_closed p = [].
Proof. exact built_pool. Qed.
Print Assumptions C138_what_is_made.
(** exactly when it fails, with which error; there is no other *)
Theorem C138_over_the_limit : forall cfg mk, build cfg mk = Failed EmptyPoolError <-> exists i, first_not cfg mk i /\ ~ allowed cfg i.
Proof. exact empty_exactly. Qed.
Print Assumptions C138_over_the_limit.
Theorem C138_no_socket : forall cfg mk, build cfg mk = Failed OSError <-> exists i, first_not cfg mk i /\ allowed cfg i /\ mk i = false.
Proof. exact failed_exactly. Qed.
Print Assumptions C138_no_socket.
Theorem C138_no_other_error : forall cfg mk e, build cfg mk = Failed e -> e = EmptyPoolError \/ e = OSError.
Proof. exact outcomes. Qed.
Print Assumptions C138_no_other_error.
(** It is not true that the constructor always ends: it waits for ever exactly when the connections that were asked for
    can be made but the queue of free connections is too short for them. *)
Theorem C138_waits_for_ever_refuted : forall cfg mk, build cfg mk = Blocks <-> exists i, first_not cfg mk i /\ allowed cfg i /\ mk i = true /\ ~ takes cfg i.
Proof. exact blocks_exactly. Qed.
Print Assumptions C138_waits_for_ever_refuted.
(** A constructor that could not make a socket leaves nothing open once its caller lets go of the error. *)
Theorem C138_nothing_left_partial : forall cfg mk cfg' mk', build cfg mk = Failed OSError -> u_open (ufrom cfg' mk' (ufail cfg mk OSError) [UForget 0]) = [].
Proof. exact left_nothing. Qed.
Print Assumptions C138_nothing_left_partial.
(** After any error nothing is open once the garbage collector has run too. Missing: before that, by the theorem below. *)
Theorem C138_collected_partial : forall cfg mk e cfg' mk', build cfg mk = Failed e -> u_open (ufrom cfg' mk' (ufail cfg mk e) [UForget 0; UCollect]) = [].
Proof. exact left_collected. Qed.
Print Assumptions C138_collected_partial.
(** A constructor that was refused a connection by the limit leaves as many connections open as the limit allows, though
    nobody can use them. *)
Theorem C138_left_open_refuted : forall cfg mk cfg' mk', build cfg mk = Failed EmptyPoolError -> let s := ufrom cfg' mk' (ufail cfg mk EmptyPoolError) [UForget 0] in
  List.length (u_open s) = Z.to_nat (max_connections cfg) /\ NoDup (u_open s) /\ forall c, In c (u_open s) -> ~ usable s c /\ ~ kept_by_error s c.
Proof. exact left_open. Qed.
Print Assumptions C138_left_open_refuted.

(** *** cases: made; over the limit; no socket; waiting for ever *)
Definition c138 (m f : Z) (n : nat) : config := {| max_connections := m; max_free := f; min_free := 1; initial := n; block := false |}.
Example C138_cases : build (c138 20 5 3) (fun _ => true) = Built {| p_free := Some [2; 1; 0]; p_num := 3; p_attempts := 3; p_closed := [] |} /\ build (c138 2 5 3) (fun _ => true) = Failed EmptyPoolError /\
  build (c138 20 5 3) (fun n => Nat.ltb n 2) = Failed OSError /\ build (c138 20 2 3) (fun _ => true) = Blocks /\ exists p, build (c138 20 0 7) (fun _ => true) = Built p.
Proof. split; [vm_compute; reflexivity|]. split; [vm_compute; reflexivity|]. split; [vm_compute; reflexivity|]. split; [vm_compute; reflexivity|]. apply built_exactly. intros i H. cbn in H. unfold fine, allowed, takes. cbn. split; [lia|]. split; [reflexivity|lia]. Qed.
Example C138_open_cases : u_open (ufail (c138 2 5 3) (fun _ => true) EmptyPoolError) = [1; 0] /\ u_open (ufail (c138 20 5 3) (fun n => Nat.ltb n 2) OSError) = [1; 0] /\
  u_open (ufrom (c138 2 5 3) (fun _ => true) (ufail (c138 2 5 3) (fun _ => true) EmptyPoolError) [UForget 0]) = [1; 0].
Proof. vm_compute. repeat split. Qed.
Example C138_first_case : first_not (c138 20 2 3) (fun _ => true) 2 /\ allowed (c138 20 2 3) 2 /\ ~ takes (c138 20 2 3) 2.
Proof.
  unfold first_not, fine, allowed, takes. cbn [c138 max_connections max_free initial]. repeat split; lia.
Qed.

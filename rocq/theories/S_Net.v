(** What C95 says about a network of asyncio clients and listeners (M_Net); the rest is in the words of S_System and S_Server. *)
From Verif Require Import PyBase PyDict PyInt M_SofaHeader M_Package M_AioServer S_Server M_System M_Listener M_Net.
From Verif Require M_AioClient.
Open Scope nat_scope.

(** a method that was called on connection n of listener a, as the call [d] wants it, and has returned v *)
Definition method_returned (z : net) (a n : nat) (d : ycall) (v : pyobj) : Prop := exists x b,
  z_conn z a n = Some x /\ In b (v_jobs x) /\ j_service b = y_interface d /\ j_method b = y_method d /\ j_body b = y_content d /\ j_state b = JEnded (Ok v).

(** on connection c of the client, the j-th method call was started, and it is for the request with the id [rid] *)
Definition started_for (z : net) (k : zclient) (rid : Z) (c j : nat) : Prop := exists a n x b items rest q,
  nth_error (z_conns k) c = Some (a, n) /\ z_conn z a n = Some x /\ nth_error (v_jobs x) j = Some b /\
  (j_state b = JRunning \/ exists r, j_state b = JEnded r) /\
  cuts (v_in x) items rest /\ nth_error items (j_frame b) = Some (IRequest q) /\ q_id q = rid.

(** how many flushes failed for call i of the client *)
Definition failed_flushes (i : nat) (k : zclient) : nat :=
  List.length (filter (fun o => match o with M_AioClient.DrainFail j => Nat.eqb j i | _ => false end) (z_hist k)).

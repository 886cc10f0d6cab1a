(** Property theorems C142: making an asyncio client. [mk_run now l]: the constructor, begun at time [now], and the thread of the
    event loop after the events [l], in any order. Times are in milliseconds. *)
From Verif Require Import PyBase M_AioMake S_AioMake L_AioMake.

(** a client that the constructor has returned is complete, and has a heartbeat exactly if it has a mesh client *)
Theorem C142_complete : forall now l, returned (mk_run now l) -> complete (mk_run now l) /\ (a_beat (mk_run now l) = BNone <-> a_mesh (mk_run now l) = false).
Proof. exact complete_when_returned. Qed.
Print Assumptions C142_complete.

(** a heartbeat is sent to the mesh only, and not in the first 30 seconds *)
Theorem C142_not_before : forall now l, a_beat (mk_run now l) = BSent -> a_mesh (mk_run now l) = true /\ a_asked (mk_run now l) + 30000 <= a_now (mk_run now l).
Proof. exact not_before. Qed.
Print Assumptions C142_not_before.

(** if the constructor needs less than 30 seconds from asking for the heartbeat to its end, the heartbeat does not die early *)
Theorem C142_alive_partial : forall now l1 l2, returned (mk_run now l1) -> a_now (mk_run now l1) < a_asked (mk_run now l1) + 30000 -> a_beat (mk_run now (l1 ++ l2)) <> BDead.
Proof. exact quick. Qed.
Print Assumptions C142_alive_partial.

(** and is sent once the sleep is over and the event loop gets a turn *)
Theorem C142_sent_partial : forall now l w, returned (mk_run now l) -> a_mesh (mk_run now l) = true -> a_beat (mk_run now l) <> BDead ->
  (forall t, a_beat (mk_run now (l ++ [Turn])) = BAsleep t -> t <= a_now (mk_run now l) + Z.of_nat w) -> a_beat (mk_run now (l ++ [Turn; Wait w; Turn])) = BSent.
Proof. exact first_beat. Qed.
Print Assumptions C142_sent_partial.

(** missing from the claim: the heartbeat is started before the client is complete. If the constructor is held up for 30 seconds
    there (a stopped or suspended process), the client it returns has no heartbeat and never will. *)
Theorem C142_held_up_refuted : exists now l, returned (mk_run now l) /\ complete (mk_run now l) /\ a_mesh (mk_run now l) = true /\ forall l2, a_beat (mk_run now (l ++ l2)) = BDead.
Proof.
  exists 0, [Line true true; Line true true; Line true true; Line true true; Line true true; Turn; Wait (Z.to_nat 30000); Turn; Line true true].
  split; [vm_compute; reflexivity|]. split; [vm_compute; repeat split; reflexivity|]. split; [vm_compute; reflexivity|]. intros l2. apply dead_stays; vm_compute; reflexivity.
Qed.
Print Assumptions C142_held_up_refuted.

(** the usual way, with the event loop running beside the end of the constructor; and a mesh that does not answer *)
Definition usual_making : list mk_event := [Line true true; Wait 5; Line true true; Line true true; Line true true; Turn; Line true true; Turn; Wait 1; Line true true].
Example C142_case : returned (mk_run 0 usual_making) /\ a_mesh (mk_run 0 usual_making) = true /\ a_now (mk_run 0 usual_making) < a_asked (mk_run 0 usual_making) + 30000 /\ a_beat (mk_run 0 usual_making) = BAsleep 30005
  /\ a_beat (mk_run 0 (usual_making ++ [Turn; Wait 10; Turn])) = BAsleep 30005 /\ a_beat (mk_run 0 (usual_making ++ [Turn; Wait (Z.to_nat 30000); Turn])) = BSent.
Proof. vm_compute. repeat split; reflexivity. Qed.
Example C142_no_mesh_case : let s := mk_run 0 [Line false true; Line true true; Line true true; Line true true; Line true true; Turn; Line true true; Wait (Z.to_nat 40000); Turn] in returned s /\ a_mesh s = false /\ a_beat s = BNone.
Proof. vm_compute. repeat split; reflexivity. Qed.
Example C142_no_thread_case : a_pc (mk_run 0 [Line true true; Line true true; Line true true; Line true false; Line true true]) = MkFailed OtherError.
Proof. vm_compute. reflexivity. Qed.

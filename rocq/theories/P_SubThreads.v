(** Property theorems C141: subscriptions of the clients of a process. [ans n] is what the mesh agent answers to the n-th post;
    [calls] says what each thread calls, [l] which threads move; [d] is what the application has put into SERVICE_MAP. *)
From Coq Require Import Strings.String.
From Verif Require Import PyBase L_PyBase PyDict L_PyDict PyInt M_Mesh S_Mesh L_Mesh M_AioServer M_SubThreads S_SubThreads L_SubThreads.
Open Scope nat_scope.

(** for an interface that the application did not route itself, the map and the agent agree whenever no call is between
    them, as long as no two calls are halfway with this interface at the same time *)
Theorem C141_agree_partial : forall ans d calls x l, wf_dict d -> dget x d = None -> apart x ans d calls l -> (forall i, ~ halfway x (u_run ans d calls l) i) ->
  (dget x (u_map (u_run ans d calls l)) = Some mesh_service_address <-> subscribed ans (u_log (u_run ans d calls l)) x) /\
  (dget x (u_map (u_run ans d calls l)) = None <-> ~ subscribed ans (u_log (u_run ans d calls l)) x).
Proof. exact agree. Qed.
Print Assumptions C141_agree_partial.

(** a call whose posts are all accepted does what it says *)
Theorem C141_took_effect_partial : forall ans m st names x, (forall n, n < List.length names -> accepted (ans (List.length (c_log st) + n))) -> In x names ->
  subscribed ans (c_log (fst (subscribe ans (Some m) st names))) x /\ ~ subscribed ans (c_log (fst (unsubscribe ans (Some m) st names))) x.
Proof. exact took_effect. Qed.
Print Assumptions C141_took_effect_partial.

(** missing from the claim: subscribe() returns in the same way whether or not the agent accepted, or was asked at all *)
Theorem C141_refused_refuted : forall ans m st x, ~ accepted (ans (List.length (c_log st))) ->
  let '(st1, r) := subscribe ans m st [x] in r = Ok tt /\ c_map st1 = c_map st /\ (subscribed ans (c_log st1) x <-> subscribed ans (c_log st) x).
Proof. exact refused. Qed.
Print Assumptions C141_refused_refuted.

Definition yes (n : nat) : answer := Answer 200 (Some (JObj [(str "success", JBool true)])).
Definition no (n : nat) : answer := Answer 500 None.
Definition svc : pystr := str "svc".

(** and when a subscribe and an unsubscribe of two threads overlap, the map has the interface though the agent does not, or
    the other way round, after all calls have returned and though the agent accepted every post *)
Theorem C141_overlap_refuted :
  (exists calls l, all_returned (u_run yes [] calls l) /\ dget svc (u_map (u_run yes [] calls l)) = Some mesh_service_address /\ ~ subscribed yes (u_log (u_run yes [] calls l)) svc) /\
  (exists calls l, all_returned (u_run yes [] calls l) /\ dget svc (u_map (u_run yes [] calls l)) = None /\ subscribed yes (u_log (u_run yes [] calls l)) svc).
Proof.
  split.
  - exists [(true, [svc]); (false, [svc])], [0; 1; 1; 0; 0]. split; [apply returned_intro; vm_compute; reflexivity|]. split; [vm_compute; reflexivity|].
    change (~ subscribed yes ([sub_post svc] ++ [unsub_post svc]) svc). apply sub_no. apply post_result_accepted. eexists. reflexivity.
  - exists [(true, [svc]); (false, [svc]); (true, [svc])], [0; 0; 0; 1; 2; 2; 1]. split; [apply returned_intro; vm_compute; reflexivity|]. split; [vm_compute; reflexivity|].
    change (subscribed yes ([sub_post svc; unsub_post svc] ++ [sub_post svc]) svc). apply sub_yes. apply post_result_accepted. eexists. reflexivity.
Qed.
Print Assumptions C141_overlap_refuted.

(** a case for the hypotheses of the first theorem: two threads that move in turns, on different interfaces, and a third that
    unsubscribes one of them later *)
Definition turns : list nat := [0; 1; 0; 1; 0; 1; 2; 2].
Definition turn_calls : list (bool * list pystr) := [(true, [svc]); (true, [str "b"]); (false, [str "b"])].
Example C141_turns_case : apart svc yes [] turn_calls turns /\ all_returned (u_run yes [] turn_calls turns) /\
  dget svc (u_map (u_run yes [] turn_calls turns)) = Some mesh_service_address /\ dget (str "b") (u_map (u_run yes [] turn_calls turns)) = None.
Proof. split; [apply (apart_intro _ _ _ _ _ 0); vm_compute; reflexivity|]. split; [apply returned_intro; vm_compute; reflexivity|]. vm_compute. split; reflexivity. Qed.
Example C141_refused_case : ~ accepted (no 0) /\ accepted (yes 0).
Proof. split; [intros A; apply post_result_accepted in A as (r & A); discriminate|apply post_result_accepted; eexists; reflexivity]. Qed.

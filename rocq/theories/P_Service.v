(** Property theorems C131: which names in a request lead to a call (M_Service). [published k m]: the class of the service
    defines the method m. [incidental k m]: m is the name of a variable of the service object or of something that it
    inherits from BaseService or [object]. *)
From Coq Require Import Strings.String.
From Verif Require Import PyBase PyDict PyInt M_SofaHeader L_SofaHeader M_Package M_RpcId M_Trace L_Trace2 S_Wire M_AioServer S_Server L_AioServer L_AioServer3 L_AioServer9 M_SockServer S_SockServer M_Service S_Service L_Service.
From Verif Require P_AioServer.
Open Scope Z_scope.

(** ** C131 *)
(** Nothing else is ever called: every call made on a connection of the asyncio listener is of a name that one of the
    registered classes has. Missing: the names that every object has anyway (refuted below). *)
Theorem C131_called_names_partial : forall U ks reg tr l, only_classes ks reg l ->
  forall n sv m b, In (n, sv, m, b) (executions U (sinit reg tr) l) -> exists k, In k ks /\ (published k m \/ incidental k m).
Proof. exact executed_names. Qed.
Print Assumptions C131_called_names_partial.

(** a name that the object does not have is answered with status 6, NO_PROCESSOR *)
Theorem C131_other_names_are_refused_partial : forall U reg tr l1 l2 i n q fresh sv m k, let s1 := srun U reg tr l1 in answering s1 i n (Some q) TStart ->
  v_closed (srun U reg tr (l1 ++ Dispatch i fresh :: l2)) = false -> ~ In (Drain i false) l2 ->
  names_service (q_header q) sv -> names_method (q_header q) m -> traceable U s1 q fresh -> dget sv (v_reg s1) = Some (service_of k) -> k_raises k = None -> ~ published k m -> ~ incidental k m ->
  exists bs, response bs (q_id q) 2 6 [] /\ answered_by U reg tr (l1 ++ Dispatch i fresh :: l2) i n bs.
Proof. exact refused_name. Qed.
Print Assumptions C131_other_names_are_refused_partial.

Theorem C131_thread_other_names_partial : forall fuel U ks tr fresh w net q sv m k tr' c, (1 <= fuel)%nat -> begins (received net) (IRequest q) -> names_service (q_header q) sv -> names_method (q_header q) m ->
  extract U tr (q_header q) fresh = (tr', Ok c) -> dget sv ks = Some k -> k_raises k = None -> ~ published k m -> ~ incidental k m ->
  o_calls (handle fuel U (registry_of ks) tr fresh (methods_of ks) w net) = [].
Proof. exact unknown_thread. Qed.
Print Assumptions C131_thread_other_names_partial.

(** For every class and every name that its objects have anyway, and that the class does not define: the request is handed to
    a worker thread, and what is then answered is not NO_PROCESSOR but nothing at all or status 3, UNKNOWN. *)
Theorem C131_incidental_names_refuted : forall U reg tr l1 l2 i n q fresh sv m k, let l := l1 ++ Dispatch i fresh :: l2 in
  answering (srun U reg tr l1) i n (Some q) TStart -> traceable U (srun U reg tr l1) q fresh -> names_service (q_header q) sv -> names_method (q_header q) m ->
  dget sv (v_reg (srun U reg tr l1)) = Some (service_of k) -> k_raises k = None -> incidental k m -> v_closed (srun U reg tr l) = false ->
  (exists b, In b (v_jobs (srun U reg tr l)) /\ j_frame b = n /\ j_service b = sv /\ j_method b = m /\ j_body b = q_body q) /\
  (q_type q <> 2 -> ~ In (Expire i) l2 -> ~ In (Drain i false) l2 -> forall c r, called k m (q_body q) c = Some r -> ended_with (srun U reg tr l) n r ->
   (silent k m /\ answers n (srun U reg tr l) = []) \/
   (exists bs, response bs (q_id q) 2 3 [] /\ (answers n (srun U reg tr l) = [] \/ answers n (srun U reg tr l) = [bs]) /\ answers n (srun U reg tr (l ++ [Result i; Drain i true])) = [bs])).
Proof. exact incidental_runs. Qed.
Print Assumptions C131_incidental_names_refuted.

(** on the threaded listener they are called in the handler thread, and nothing is answered *)
Theorem C131_thread_incidental_names_refuted : forall fuel U ks tr fresh w net q sv m k tr' c, (1 <= fuel)%nat -> begins (received net) (IRequest q) -> names_service (q_header q) sv -> names_method (q_header q) m ->
  extract U tr (q_header q) fresh = (tr', Ok c) -> dget sv ks = Some k -> k_raises k = None -> incidental k m ->
  let o := handle fuel U (registry_of ks) tr fresh (methods_of ks) w net in o_calls o = [(sv, m, q_body q, c)] /\ o_sent o = [].
Proof. exact incidental_thread. Qed.
Print Assumptions C131_thread_incidental_names_refuted.

(** a class with one method and one variable besides ctx, registered after the start; four requests: for the method, for
    "__init__", for the variable and for a name that nothing has *)
Definition k131 : pyclass := {| k_methods := [str "echo"]; k_does := fun _ b _ => Some (Ok (PBytes (b ++ b))); k_variables := [str "db"]; k_raises := None |}.
Definition frames131 : list bytes := map (fun im => P_AioServer.req 1 (fst im) (P_AioServer.hdr "svc" (snd im)) "hi" 100) [(7, "echo"); (8, "__init__"); (9, "db"); (10, "nothing")]%string.
Definition end131 (j : nat) (m : string) : list sstep := match called k131 (str m) (bytes_lit "hi") 0 with Some r => [JobRun j; JobEnd j r] | None => [] end.
Definition l131a : list sstep := Register (str "svc") (service_of k131) :: Feed (List.concat frames131) :: P_AioServer.reads 4 ++ [Dispatch 0 (str "T")].
Definition l131b : list sstep :=
  [Dispatch 2 (str "V"); Dispatch 3 (str "W")] ++ end131 0 "echo" ++ end131 1 "__init__" ++ end131 2 "db" ++
  [Result 0; Result 1; Result 2; Drain 0 true; Drain 1 true; Drain 2 true; Drain 3 true].
Definition s131 (l : list sstep) : sst := srun ascii_tables [] t_init l.
Example C131_case : only_classes [k131] [] (l131a ++ Dispatch 1 (str "U") :: l131b) /\
  map (fun x => snd (fst x)) (executions ascii_tables (sinit [] t_init) (l131a ++ Dispatch 1 (str "U") :: l131b)) = [str "echo"; str "__init__"; str "db"] /\
  map (fun n => answers n (s131 (l131a ++ Dispatch 1 (str "U") :: l131b))) (seq 0 4) = [[P_AioServer.reply 7 2 0 (bytes_lit "hihi")]; []; [P_AioServer.reply 9 2 3 []]; [P_AioServer.reply 10 2 6 []]].
Proof.
  split; [|split; vm_compute; reflexivity]. split; [intros n x H; discriminate|]. intros n x H. exists k131. split; [left; reflexivity|]. unfold l131a in H. cbn [app] in H. destruct H as [H|H]; [injection H as <- <-; reflexivity|].
  exfalso. revert H. change (~ In (Register n x) (Feed (List.concat frames131) :: P_AioServer.reads 4 ++ [Dispatch 0 (str "T")] ++ Dispatch 1 (str "U") :: l131b)).
  intros [H|H]; [discriminate|]. apply in_app_or in H as [H|H]; [apply repeat_spec in H; discriminate|]. repeat (destruct H as [H|H]; [discriminate H|]). destruct H.
Qed.
(** the hypotheses of the refutation, for "__init__" *)
Example C131_init_case : let q := P_AioServer.q0 1 8 (P_AioServer.hdr "svc" "__init__") "hi" 100 in
  answering (s131 l131a) 1 1 (Some q) TStart /\ traceable ascii_tables (s131 l131a) q (str "U") /\ names_service (q_header q) (str "svc") /\ names_method (q_header q) (str "__init__") /\
  dget (str "svc") (v_reg (s131 l131a)) = Some (service_of k131) /\ incidental k131 (str "__init__") /\ silent k131 (str "__init__") /\ incidental k131 (str "db") /\ ~ incidental k131 (str "nothing") /\ published k131 (str "echo") /\
  v_closed (s131 (l131a ++ Dispatch 1 (str "U") :: l131b)) = false /\ ended_with (s131 (l131a ++ Dispatch 1 (str "U") :: l131b)) 1 (Ok PNone) /\ called k131 (str "__init__") (bytes_lit "hi") 0 = Some (Ok PNone) /\
  ~ In (Expire 1) l131b /\ ~ In (Drain 1 false) l131b.
Proof.
  cbv zeta. split; [vm_compute; reflexivity|]. split; [eexists; eexists; vm_compute; reflexivity|]. split; [apply service_name_iff; vm_compute; reflexivity|]. split; [apply method_name_iff; vm_compute; reflexivity|]. split; [reflexivity|].
  assert (N : forall m l, has m l = false -> ~ In m l) by (intros m l; apply has_not). assert (Y : forall m l, has m l = true -> In m l) by (intros m l; apply has_iff).
  split; [right; right; split; [apply N; reflexivity|left; reflexivity]|]. split; [split; [discriminate|]; split; [apply N; reflexivity|]; split; [apply N; reflexivity|left; reflexivity]|].
  split; [right; left; left; reflexivity|]. split; [intros [H|[H|(_ & [H|H])]]; [discriminate|revert H; apply N; reflexivity|discriminate|revert H; apply N; reflexivity]|].
  split; [split; [left; reflexivity|]; split; [discriminate|apply N; reflexivity]|]. split; [vm_compute; reflexivity|]. split; [|split; [reflexivity|split; intros H; repeat (destruct H as [H|H]; [discriminate H|]); destruct H]].
  exists {| j_frame := 1; j_service := str "svc"; j_method := str "__init__"; j_body := bytes_lit "hi"; j_ctx := 1; j_state := JEnded (Ok PNone) |}. split; [|split; reflexivity].
  apply nth_error_In with (n := 1%nat). vm_compute. reflexivity.
Qed.
(** the threaded listener with the same class: "__class__" makes another object, and nothing is answered *)
Example C131_thread_case : let o m := handle 2 ascii_tables (registry_of [(str "svc", k131)]) t_init (str "T") (methods_of [(str "svc", k131)]) None [Arrive (P_AioServer.req 1 7 (P_AioServer.hdr "svc" m) "hi" 100)] in
  map (fun m => (List.length (o_calls (o m)), o_sent (o m))) ["echo"; "__class__"; "nothing"]%string = [(1%nat, [P_AioServer.reply 7 2 0 (bytes_lit "hihi")]); (1%nat, []); (0%nat, [])].
Proof. vm_compute. reflexivity. Qed.

(** Property theorem about the contexts of processes that call each other. *)
From Coq Require Import Strings.String.
From Verif Require Import PyBase PyDict PyInt M_RpcId S_Rpc M_Package M_Trace L_Trace2 M_CallTree S_CallTree L_CallTree.

(** ** C100 *)
Theorem C100_one_origin :
  forall U, tables_ok U -> forall n ls, let w := wrun U n ls in
    (forall x, wtext w x <> None <-> exists m, In (x, m) (w_made w)) /\
    (forall x m m', In (x, m) (w_made w) -> In (x, m') (w_made w) -> m = m').
Proof. intros U HU n ls. exact (contexts_recorded U n ls HU). Qed.
Print Assumptions C100_one_origin.

Theorem C100_trace_kept :
  forall U, tables_ok U -> forall n ls x y b, let w := wrun U n ls in
    below w x y -> plain w x -> wtext w x = Some b ->
    exists b', wtext w y = Some b' /\ forall k v, k <> rpc_name -> dget k b = Some v -> dget k b' = Some v.
Proof. intros U HU n ls x y b. exact (trace_kept U n ls x y b HU). Qed.
Print Assumptions C100_trace_kept.

Theorem C100_id_extends :
  forall U, tables_ok U -> forall n ls x y b, let w := wrun U n ls in
    below w x y -> plain w x -> children_only w x -> wtext w x = Some b ->
    exists b' r r', wtext w y = Some b' /\ dget rpc_name b = Some r /\ dget rpc_name b' = Some r' /\ id_extends r r'.
Proof. intros U HU n ls x y b. exact (ids_extend U n ls x y b HU). Qed.
Print Assumptions C100_id_extends.

Theorem C100_call_keeps_id :
  forall U, tables_ok U -> forall n ls x y b, let w := wrun U n ls in
    In (y, MSent x) (w_made w) -> wtext w x = Some b -> dget (str "prefix") b = None ->
    exists b', wtext w y = Some b' /\ forall k v, dget k b = Some v -> dget k b' = Some v.
Proof. intros U HU n ls x y b. exact (call_keeps_id U n ls x y b HU). Qed.
Print Assumptions C100_call_keeps_id.

(** full statement: without [own_span] and [children_only]; the three refutations below show it false *)
Theorem C100_same_id_partial :
  forall U, tables_ok U -> forall n ls x y z by_ bz, let w := wrun U n ls in
    plain w x -> children_only w x -> own_span w x ->
    below w x y -> below w x z -> wtext w y = Some by_ -> wtext w z = Some bz ->
    (dget rpc_name by_ = dget rpc_name bz <-> relayed w y z \/ relayed w z y).
Proof. intros U HU n ls x y z by_ bz. exact (same_id_iff U n ls x y z by_ bz HU). Qed.
Print Assumptions C100_same_id_partial.

(** *** cases *)
Definition ask (m : string) : hop :=
  {| h_interface := str "svc"; h_method := str m; h_app := []; h_uid := []; h_extra := [];
     h_content := PBytes []; h_ptype := 1; h_timeout := PInt 500; h_rid := 7 |}.
Definition root0 : wlabel := WLocal 0 (TStart (str "root") None [] (str "T")).
Definition child (p c : nat) : wlabel := WLocal p (TStart (str "c") (Some (ChildOf, c)) [] []).
Definition follow (p c : nat) : wlabel := WLocal p (TStart (str "f") (Some (FollowsFrom, c)) [] []).
Definition call (p c q : nat) : wlabel := WCall p c q (ask "m") [].
Definition id_at (w : world) (x : ctx) : option pystr := match wtext w x with Some b => dget rpc_name b | None => None end.

Ltac edge y m := apply (below_next _ _ y); [exists m; split; [vm_compute; tauto|reflexivity]|].

(** process 0 asks process 1 with a child span of its own; process 1 asks process 2 with another; process 0 asks again *)
Definition tidy : list wlabel := [root0; child 0 0; call 0 1 1; child 1 0; call 1 1 2; child 0 0; call 0 2 1].
Example C100_tidy_ids : map (id_at (wrun ascii_tables 3 tidy)) [(0, 0); (0, 1); (1, 0); (1, 1); (2, 0); (0, 2); (1, 2)]%nat =
  map (fun s => Some (str s)) ["1"; "1.1"; "1.1"; "1.1.1"; "1.1.1"; "1.2"; "1.2"]%string.
Proof. vm_compute. reflexivity. Qed.
Example C100_tidy_made : w_made (wrun ascii_tables 3 tidy) =
  [((0, 0), MNew); ((0, 1), MFrom ChildOf (0, 0)); ((1, 0), MSent (0, 1)); ((1, 1), MFrom ChildOf (1, 0)); ((2, 0), MSent (1, 1));
   ((0, 2), MFrom ChildOf (0, 0)); ((1, 2), MSent (0, 2))]%nat.
Proof. vm_compute. reflexivity. Qed.

Ltac cases_of H := cbn [In] in H; repeat (destruct H as [H|H]; [try discriminate H; try (injection H as; subst)|]); try contradiction.

Example C100_tidy_meets : let w := wrun ascii_tables 3 tidy in
  plain w (0, 0)%nat /\ children_only w (0, 0)%nat /\ own_span w (0, 0)%nat /\ below w (0, 0)%nat (2, 0)%nat /\ below w (0, 0)%nat (1, 2)%nat /\
  relayed w (1, 1)%nat (2, 0)%nat /\ ~ relayed w (2, 0)%nat (1, 2)%nat.
Proof.
  cbv zeta. split; [|split; [|split; [|split; [|split; [|split]]]]].
  - intros a y b _ H T. rewrite C100_tidy_made in H. cases_of H; vm_compute in T; injection T as <-; reflexivity.
  - intros a y t _ H. rewrite C100_tidy_made in H. cases_of H; reflexivity.
  - intros a y z m _ H H2 S. rewrite C100_tidy_made in H, H2. cases_of H; cases_of H2; cbn in S; solve [discriminate S|reflexivity].
  - edge (0, 1)%nat (MFrom ChildOf (0, 0)%nat). edge (1, 0)%nat (MSent (0, 1)%nat). edge (1, 1)%nat (MFrom ChildOf (1, 0)%nat). edge (2, 0)%nat (MSent (1, 1)%nat). constructor.
  - edge (0, 2)%nat (MFrom ChildOf (0, 0)%nat). edge (1, 2)%nat (MSent (0, 2)%nat). constructor.
  - apply (relayed_next _ _ (2, 0)%nat); [vm_compute; tauto|constructor].
  - intros R. inversion R as [|y z H R' E]; subst. rewrite C100_tidy_made in H. cases_of H.
Qed.

(** the same context used for two calls (README.md:43 passes the received context on): two tasks, one id *)
Definition reuse : list wlabel := [root0; call 0 0 1; call 0 0 2].
Theorem C100_reused_context_refuted :
  exists ls x y z r, let w := wrun ascii_tables 3 ls in
    plain w x /\ children_only w x /\ below w x y /\ below w x z /\ id_at w y = Some r /\ id_at w z = Some r /\
    ~ relayed w y z /\ ~ relayed w z y.
Proof.
  exists reuse, (0, 0)%nat, (1, 0)%nat, (2, 0)%nat, (str "1"). cbv zeta.
  assert (M : w_made (wrun ascii_tables 3 reuse) = [((0, 0), MNew); ((1, 0), MSent (0, 0)); ((2, 0), MSent (0, 0))]%nat) by (vm_compute; reflexivity).
  split; [|split; [|split; [|split; [|split; [|split; [|split]]]]]].
  - intros a y b _ H T. rewrite M in H. cases_of H; vm_compute in T; injection T as <-; reflexivity.
  - intros a y t _ H. rewrite M in H. cases_of H.
  - edge (1, 0)%nat (MSent (0, 0)%nat). constructor.
  - edge (2, 0)%nat (MSent (0, 0)%nat). constructor.
  - vm_compute. reflexivity.
  - vm_compute. reflexivity.
  - intros R. inversion R as [|y z H R' E]; subst. rewrite M in H. cases_of H.
  - intros R. inversion R as [|y z H R' E]; subst. rewrite M in H. cases_of H.
Qed.
Print Assumptions C100_reused_context_refuted.

(** a context sent once, with a child at the caller and a child at the callee: both are its first child *)
Definition both_sides : list wlabel := [root0; call 0 0 1; child 1 0; child 0 0].
Theorem C100_both_sides_refuted :
  exists ls x y z r, let w := wrun ascii_tables 2 ls in
    plain w x /\ children_only w x /\ (forall a u v, In (u, MSent a) (w_made w) -> In (v, MSent a) (w_made w) -> u = v) /\
    below w x y /\ below w x z /\ id_at w y = Some r /\ id_at w z = Some r /\ ~ relayed w y z /\ ~ relayed w z y.
Proof.
  exists both_sides, (0, 0)%nat, (1, 1)%nat, (0, 1)%nat, (str "1.1"). cbv zeta.
  assert (M : w_made (wrun ascii_tables 2 both_sides) = [((0, 0), MNew); ((1, 0), MSent (0, 0)); ((1, 1), MFrom ChildOf (1, 0)); ((0, 1), MFrom ChildOf (0, 0))]%nat) by (vm_compute; reflexivity).
  split; [|split; [|split; [|split; [|split; [|split; [|split; [|split]]]]]]].
  - intros a y b _ H T. rewrite M in H. cases_of H; vm_compute in T; injection T as <-; reflexivity.
  - intros a y t _ H. rewrite M in H. cases_of H; reflexivity.
  - intros a u v H H2. rewrite M in H, H2. cases_of H; cases_of H2; reflexivity.
  - edge (1, 0)%nat (MSent (0, 0)%nat). edge (1, 1)%nat (MFrom ChildOf (1, 0)%nat). constructor.
  - edge (0, 1)%nat (MFrom ChildOf (0, 0)%nat). constructor.
  - vm_compute. reflexivity.
  - vm_compute. reflexivity.
  - intros R. inversion R as [|y z H R' E]; subst. rewrite M in H. cases_of H.
  - intros R. inversion R as [|y z H R' E]; subst. rewrite M in H. cases_of H.
Qed.
Print Assumptions C100_both_sides_refuted.

(** every call with a span of its own, but the callee continues with a span that follows from the one it
    received: that is the caller's next child *)
Definition following : list wlabel := [root0; child 0 0; call 0 1 1; follow 1 0; child 0 0].
Theorem C100_follows_at_callee_refuted :
  exists ls x y z r, let w := wrun ascii_tables 2 ls in
    plain w x /\ own_span w x /\ below w x y /\ below w x z /\ id_at w y = Some r /\ id_at w z = Some r /\ ~ relayed w y z /\ ~ relayed w z y.
Proof.
  exists following, (0, 0)%nat, (1, 1)%nat, (0, 2)%nat, (str "1.2"). cbv zeta.
  assert (M : w_made (wrun ascii_tables 2 following) = [((0, 0), MNew); ((0, 1), MFrom ChildOf (0, 0)); ((1, 0), MSent (0, 1)); ((1, 1), MFrom FollowsFrom (1, 0)); ((0, 2), MFrom ChildOf (0, 0))]%nat) by (vm_compute; reflexivity).
  split; [|split; [|split; [|split; [|split; [|split; [|split]]]]]].
  - intros a y b _ H T. rewrite M in H. cases_of H; vm_compute in T; injection T as <-; reflexivity.
  - intros a y z m _ H H2 S. rewrite M in H, H2. cases_of H; cases_of H2; cbn in S; solve [discriminate S|reflexivity].
  - edge (0, 1)%nat (MFrom ChildOf (0, 0)%nat). edge (1, 0)%nat (MSent (0, 1)%nat). edge (1, 1)%nat (MFrom FollowsFrom (1, 0)%nat). constructor.
  - edge (0, 2)%nat (MFrom ChildOf (0, 0)%nat). constructor.
  - vm_compute. reflexivity.
  - vm_compute. reflexivity.
  - intros R. inversion R as [|y z H R' E]; subst. rewrite M in H. cases_of H.
  - intros R. inversion R as [|y z H R' E]; subst. rewrite M in H. cases_of H.
Qed.
Print Assumptions C100_follows_at_callee_refuted.

(** Property theorems C111-C113: comparing ids, the arguments of start_span, the times of a span. *)
From Coq Require Import Strings.String Sorted.
From Verif Require Import PyBase PyDict PyInt L_PyInt M_RpcId S_Rpc L_RpcId M_Trace L_Trace L_Trace2 L_Trace3 M_Span S_Span L_Span.

(** ** C111. Full property: two rpc ids compare equal exactly when they are written alike. False of ids made directly
    from parts that contain dots: *)
Theorem C111_same_text_unequal_refuted : exists U args args' ids ids', tables_ok U /\ mk_rpcid U args = Ok ids /\ mk_rpcid U args' = Ok ids' /\
  rpcid_str ids = rpcid_str ids' /\ rpcid_eqb ids ids' = false.
Proof.
  exists ascii_tables, [SStr (str "a.b"); SInt 1], [SStr (str "a"); SStr (str "b"); SInt 1]. do 2 eexists. split; [exact ascii_tables_ok|].
  repeat (split; [vm_compute; reflexivity|]). vm_compute. reflexivity.
Qed.
Print Assumptions C111_same_text_unequal_refuted.

(** What holds. Ids made from parts without dots, in particular from a text split at its dots.
    Missing: parts with dots, for which the refutation shows the claim false. *)
Theorem C111_compare_by_text_partial : forall U args args' ids ids', tables_ok U -> mk_rpcid U args = Ok ids -> mk_rpcid U args' = Ok ids' ->
  (forall s, In (SStr s) (args ++ args') -> ~ In 46 s) -> (rpcid_eqb ids ids' = true <-> rpcid_str ids = rpcid_str ids').
Proof. exact texts_compare. Qed.
Print Assumptions C111_compare_by_text_partial.

(** the ids of all spans of all processes *)
Theorem C111_spans_compare_by_text_partial : forall U ops ops' c c' o o', tables_ok U ->
  nth_error (t_rpcs (trun U t_init ops)) c = Some o -> nth_error (t_rpcs (trun U t_init ops')) c' = Some o' ->
  (rpcid_eqb (r_ids o) (r_ids o') = true <-> rpcid_str (r_ids o) = rpcid_str (r_ids o')).
Proof. exact contexts_compare. Qed.
Print Assumptions C111_spans_compare_by_text_partial.

(** equal ids are written alike, whatever they were made from *)
Theorem C111_equal_is_same_text : forall ids ids', rpcid_eqb ids ids' = true -> rpcid_str ids = rpcid_str ids'.
Proof. intros ids ids' H. apply rpcid_eqb_eq in H as ->. reflexivity. Qed.
Print Assumptions C111_equal_is_same_text.

Example C111_case : let id s := match mk_rpcid ascii_tables (map SStr (split_dot (str s))) with Ok ids => ids | _ => [] end in
  rpcid_eqb (id "0.x.3"%string) (id "0.x.3"%string) = true /\ rpcid_eqb (id "1.7"%string) (id "1.007"%string) = true /\ rpcid_eqb (id "1.7"%string) (id "1.7.1"%string) = false /\
  rpcid_eqb (id "x.1"%string) (id "1.1"%string) = false /\ rpcid_str (id "1.007"%string) = str "1.7" /\ tables_ok ascii_tables.
Proof. repeat (split; [vm_compute; reflexivity|]). exact ascii_tables_ok. Qed.

(** ** C112. Full property: a new span belongs to the trace of every context named in the call. False: with two references
    the second is not used, and a parent of another kind is ignored without an error. *)
Theorem C112_reference_ignored_refuted :
  (exists U ops refs c sp b b' st' s, tables_ok U /\ let st := trun U t_init ops in named st NoParent refs c /\
     start_span_args U st (str "n") NoParent refs [] (str "fresh") = (st', Ok s) /\
     nth_error (t_spans st') s = Some sp /\ baggage_text st c = Some b /\ baggage_text st' (sp_ctx sp) = Some b' /\ dget K_trace b' <> dget K_trace b) /\
  (forall U ops name refs tags fresh st' s, tables_ok U -> refs = NoRefs \/ refs = RefList [] ->
     start_span_args U (trun U t_init ops) name OtherParent refs tags fresh = (st', Ok s) ->
     exists sp b', nth_error (t_spans st') s = Some sp /\ baggage_text st' (sp_ctx sp) = Some b' /\ dget K_trace b' = Some fresh).
Proof.
  split.
  - exists ascii_tables, [TStart (str "a") None [] (str "T"); TStart (str "b") None [] (str "V")], (RefList [(ChildOf, 0%nat); (FollowsFrom, 1%nat)]), 1%nat.
    do 5 eexists. split; [exact ascii_tables_ok|]. cbv zeta. split; [apply (named_list _ _ FollowsFrom); right; left; reflexivity|].
    repeat (split; [vm_compute; reflexivity|]). vm_compute. discriminate.
  - intros U ops name refs tags fresh st' s HU Hr H.
    destruct (args_none U _ name OtherParent refs tags fresh st' s HU (reachable_twf U ops) (or_intror eq_refl) Hr H) as (sp & b' & A & B & C & _). exists sp, b'. auto.
Qed.
Print Assumptions C112_reference_ignored_refuted.

(** What holds: the new span has the name given and everything in the baggage of the context used (its trace id too).
    Missing: the other contexts named, for which the refutation shows the claim false. *)
Theorem C112_derived_from_used_partial : forall U ops name parent refs tags fresh st' s c, let st := trun U t_init ops in
  used st parent refs c -> start_span_args U st name parent refs tags fresh = (st', Ok s) ->
  exists sp b b', nth_error (t_spans st') s = Some sp /\ sp_name sp = name /\ baggage_text st c = Some b /\ baggage_text st' (sp_ctx sp) = Some b' /\
    forall k, k <> str "sofaRpcId" -> dget k b' = dget k b.
Proof. intros U ops name parent refs tags fresh st' s c. exact (args_used U _ name parent refs tags fresh st' s c (reachable_twf U ops)). Qed.
Print Assumptions C112_derived_from_used_partial.

(** without parent and references a new trace begins *)
Theorem C112_new_trace : forall U ops name tags fresh st' s refs, tables_ok U -> refs = NoRefs \/ refs = RefList [] ->
  start_span_args U (trun U t_init ops) name NoParent refs tags fresh = (st', Ok s) ->
  exists sp b', nth_error (t_spans st') s = Some sp /\ baggage_text st' (sp_ctx sp) = Some b' /\
    dget (str "sofaTraceId") b' = Some fresh /\ dget (str "sofaRpcId") b' = Some (str "1") /\ forall k, k <> str "sofaTraceId" -> k <> str "sofaRpcId" -> dget k b' = None.
Proof. intros U ops name tags fresh st' s refs HU. exact (args_none U _ name NoParent refs tags fresh st' s HU (reachable_twf U ops) (or_introl eq_refl)). Qed.
Print Assumptions C112_new_trace.

Example C112_case :
  let st := trun ascii_tables t_init [TStart (str "a") None [] (str "T"); TStart (str "b") None [] (str "V")] in
  let text p r := let (st', x) := start_span_args ascii_tables st (str "n") p r [] (str "F") in
                  match x with Ok s => match nth_error (t_spans st') s with Some sp => baggage_text st' (sp_ctx sp) | None => None end | Raise _ => None end in
  text (ParentSpan 1) (OneRef FollowsFrom 0) = Some [(K_rpc, str "1.1"); (K_trace, str "V")] /\
  text OtherParent (RefList [(FollowsFrom, 0%nat); (ChildOf, 1%nat)]) = Some [(K_rpc, str "2"); (K_trace, str "T")] /\
  text NoParent (RefList []) = Some [(K_trace, str "F"); (K_rpc, str "1")] /\
  used st (ParentSpan 1) (OneRef FollowsFrom 0) 1 /\ used st OtherParent (RefList [(FollowsFrom, 0%nat); (ChildOf, 1%nat)]) 0.
Proof.
  split; [vm_compute; reflexivity|]. split; [vm_compute; reflexivity|]. split; [vm_compute; reflexivity|]. split.
  - apply (used_span _ 1 {| sp_ctx := 1; sp_name := str "b"; sp_tags := [] |}). vm_compute. reflexivity.
  - apply used_first. right. reflexivity.
Qed.

(** ** C113. Full property: a span starts at the time given, or else when it was made or entered, and finishes when it is
    finished, not before its start. False: a start time of zero is not taken, entering the span replaces a start time
    that was given, and a span entered again after it was finished starts after its end. *)
Theorem C113_start_time_lost_refuted :
  (forall now, x_start (born now (Some 0)) = now) /\
  (forall now t l n, x_start (srun (born now (Some t)) (l ++ [(n, Enter)])) = n) /\
  (exists l f, StronglySorted Z.le (0 :: map fst l) /\ x_finish (srun (born 0 None) l) = Some f /\ f < x_start (srun (born 0 None) l)).
Proof.
  split; [reflexivity|]. split; [intros now t l n; unfold srun; rewrite fold_left_app; reflexivity|].
  exists [(1, Enter); (2, Exit false); (3, Enter)], 2. split; [repeat constructor; discriminate|split; reflexivity].
Qed.
Print Assumptions C113_start_time_lost_refuted.

(** What holds, for a span made at [t0] without a start time, whose start time is never set:
    it starts when it was last entered, or else when it was made; it finishes when it was last finished or left, or else
    has no finish time; with a clock that does not go back it does not finish before it starts, unless it is entered
    after it was finished. Missing: start times given by the caller, and entering again. *)
Theorem C113_times_partial : forall t0 l, (forall now t, ~ In (now, SetStart t) l) ->
  let enters := filter (fun e => match snd e with Enter => true | _ => false end) l in
  let ends := filter (fun e => match snd e with Finish | Exit _ => true | _ => false end) l in
  x_start (srun (born t0 None) l) = last (map fst enters) t0 /\
  x_finish (srun (born t0 None) l) = last (map Some (map fst ends)) None /\
  (StronglySorted Z.le (t0 :: map fst l) ->
   (forall a n b, l = a ++ (n, Enter) :: b -> forall n' r, ~ In (n', Finish) a /\ ~ In (n', Exit r) a) ->
   forall f, x_finish (srun (born t0 None) l) = Some f -> x_start (srun (born t0 None) l) <= f).
Proof. exact times_all. Qed.
Print Assumptions C113_times_partial.

(** a start time that is given and is not zero is the start time of a span that is not entered *)
Theorem C113_given_start_partial : forall now t l, t <> 0 -> (forall n, ~ In (n, Enter) l) -> (forall n t', ~ In (n, SetStart t') l) ->
  x_start (srun (born now (Some t)) l) = t.
Proof. exact given_start. Qed.
Print Assumptions C113_given_start_partial.

(** with new_span(...): entered at 5, the block raises at 9; the start time given to a span that is only finished *)
Example C113_case : srun (born 4 None) [(5, Enter); (9, Exit true)] = {| x_start := 5; x_finish := Some 9 |} /\
  srun (born 4 (Some 3)) [(9, Finish)] = {| x_start := 3; x_finish := Some 9 |} /\
  StronglySorted Z.le (4 :: map fst [(5, Enter); (9, Exit true)]) /\
  (forall a n b, [(5, Enter); (9, Exit true)] = a ++ (n, Enter) :: b -> forall n' r, ~ In (n', Finish) a /\ ~ In (n', Exit r) a).
Proof.
  split; [reflexivity|]. split; [reflexivity|]. split; [repeat constructor; discriminate|].
  intros [|x [|y a]] n b E; cbn in E; try discriminate E.
  - intros n' r. split; intros [].
  - destruct a; discriminate E.
Qed.

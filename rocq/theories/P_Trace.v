(** Property theorems C13-C19: tracing. [U] is the Unicode character table used by int(str). *)
From Coq Require Import Strings.String.
From Verif Require Import PyBase PyDict PyInt L_PyInt M_RequestId L_RequestId M_RpcId S_Rpc L_RpcId M_SofaHeader M_Package M_Trace L_Trace L_Trace2 L_Trace3 L_Trace4.

(** ** C13. Full property: for every span context and all call parameters. It fails for baggage keys
    that are attribute names of RpcTraceContext, see the refutations below; proved for all others. *)
Theorem C13_trace_context_propagates_partial :
  forall U client_ops server_ops c b interface method_name target_app uid extra fresh,
  tables_ok U ->
  baggage_text (trun U t_init client_ops) c = Some b ->
  (forall k, In k (map str ["prefix"%string; "expand"%string; "__dict__"%string; "__class__"%string; "__weakref__"%string]) -> dget k b = None) ->
  wf_dict extra ->
  (forall k, In k (keys extra) -> ~ In k (build_params ++ call_params) /\ starts_with PREFIX k = false) ->
  exists h, build_header b interface method_name target_app uid extra = Ok h /\
    forall carrier,
      carrier = h \/
      (exists content ptype timeout_ms rid p bs p', new_request h content ptype timeout_ms rid = Ok p /\ to_stream p = Ok bs /\
         from_stream BoltRequest bs = Ok p' /\ carrier = p_header p') ->
      exists srv' c' b' o o', extract U (trun U t_init server_ops) carrier fresh = (srv', Ok c') /\ baggage_text srv' c' = Some b' /\
        (forall k, dget k b' = dget k b) /\
        nth_error (t_rpcs (trun U t_init client_ops)) c = Some o /\ nth_error (t_rpcs srv') c' = Some o' /\ r_ids o' = r_ids o.
Proof. exact propagates. Qed.
Print Assumptions C13_trace_context_propagates_partial.

(** a non-trivial client context and extra headers meet the hypotheses *)
Example C13_case :
  let ops := [TExtract [(str "rpc_trace_context.sofaTraceId", str "0a0b"); (str "rpc_trace_context.sofaRpcId", str "0.x.07");
                        (str "rpc_trace_context.user", str "u1"); (str "service", str "S")] [];
              TStart (str "op") (Some (ChildOf, 0%nat)) [] []] in
  let st := trun ascii_tables t_init ops in
  baggage_text st 1 = Some [(str "sofaRpcId", str "0.x.7.1"); (str "user", str "u1"); (str "sofaTraceId", str "0a0b")] /\
  (match baggage_text st 1 with
   | Some b => match build_header b (str "I") (str "m") [] [] [(str "extra", str "e")] with
               | Ok h => option_map snd (find (fun kv => pystr_eqb (fst kv) (str "rpc_trace_context.sofaRpcId")) h)
               | _ => None end
   | None => None end) = Some (str "0.x.7.1").
Proof. vm_compute. split; reflexivity. Qed.

(** a reachable context with a baggage item named "prefix": the header is built, and the server side
    gets a new trace id and loses the baggage *)
Theorem C13_trace_lost_refuted :
  exists U ops b h srv c b', tables_ok U /\ baggage_text (trun U t_init ops) 0 = Some b /\
    build_header b (str "I") (str "m") [] [] [] = Ok h /\
    extract U t_init h (str "fresh") = (srv, Ok c) /\ baggage_text srv c = Some b' /\
    dget K_trace b = Some (str "T") /\ dget K_trace b' = Some (str "fresh") /\ dget (str "prefix") b' = None.
Proof.
  exists ascii_tables, [TExtract [(str "rpc_trace_context.prefix", str "x"); (str "rpc_trace_context.sofaTraceId", str "T")] []].
  do 5 eexists. split; [exact ascii_tables_ok|]. repeat (split; [vm_compute; reflexivity|]). vm_compute. reflexivity.
Qed.
Print Assumptions C13_trace_lost_refuted.

(** with an item of one of these names the call fails before anything is sent; such contexts are reachable *)
Theorem C13_header_not_built_refuted :
  (forall b i m t u extra k,
     In k (map str ["self"%string; "expand"%string; "__dict__"%string; "__class__"%string; "__weakref__"%string]) ->
     dget k b <> None -> exists e, build_header b i m t u extra = Raise e) /\
  (exists U ops b, tables_ok U /\ baggage_text (trun U t_init ops) 0 = Some b /\ dget (str "expand") b <> None).
Proof.
  split; [exact hidden_raises|].
  exists ascii_tables, [TExtract [(str "rpc_trace_context.expand", str "x")] []]. eexists.
  split; [exact ascii_tables_ok|]. split; [vm_compute; reflexivity|]. vm_compute. discriminate.
Qed.
Print Assumptions C13_header_not_built_refuted.

(** exactly when the header is built: the caller's extra names are not parameters of the call, no baggage item has one
    of the five names, and no prefixed item is one of the five fixed headers; what is raised otherwise *)
Theorem C13_header_built_when_partial : forall b i m t u extra,
  ((exists h, build_header b i m t u extra = Ok h) <->
     (forall k, In k (keys extra) -> ~ In k (map str ["cls"%string; "spanctx"%string; "interface"%string; "method_name"%string; "target_app"%string; "uid"%string;
        "sofa_head_target_service"%string; "sofa_head_method_name"%string; "sofa_head_target_app"%string; "service"%string])) /\
     (forall k, In k (keys b) -> ~ In k (map str ["self"%string; "expand"%string; "__dict__"%string; "__class__"%string; "__weakref__"%string]) /\
        ~ In ((match dget (str "prefix") b with Some p => p | None => str "rpc_trace_context." end) ++ k)
             (map str ["sofa_head_target_service"%string; "sofa_head_method_name"%string; "sofa_head_target_app"%string; "service"%string; "uid"%string]))) /\
  (build_header b i m t u extra = Raise AttributeError <->
     (forall k, In k (keys extra) -> ~ In k (map str ["cls"%string; "spanctx"%string; "interface"%string; "method_name"%string; "target_app"%string; "uid"%string])) /\
     ~ In (str "self") (keys b) /\
     exists pre post, keys b = pre ++ str "__weakref__" :: post /\ ~ In (str "__dict__") pre /\ ~ In (str "__class__") pre) /\
  (forall e, build_header b i m t u extra = Raise e -> e = TypeError \/ e = AttributeError).
Proof. exact header_outcome. Qed.
Print Assumptions C13_header_built_when_partial.

(** each of the three outcomes *)
Example C13_outcomes :
  let h b x := match build_header b (str "I") (str "m") [] [] x with Ok _ => None | Raise e => Some e end in
  h [(str "user", str "u")] [(str "extra", str "e")] = None /\ h [] [(str "service", str "S")] = Some TypeError /\
  h [(str "prefix", str "ser"); (str "vice", str "x")] [] = Some TypeError /\
  h [(str "a", str "x"); (str "__weakref__", str "x"); (str "__dict__", str "x")] [] = Some AttributeError.
Proof. vm_compute. repeat split. Qed.

(** ** C14 *)
Theorem C14_derived_span_keeps_baggage : forall U ops t c name tags fresh st' s,
  start_span U (trun U t_init ops) name (Some (t, c)) tags fresh = (st', Ok s) ->
  exists sp b b', nth_error (t_spans st') s = Some sp /\ baggage_text (trun U t_init ops) c = Some b /\
    baggage_text st' (sp_ctx sp) = Some b' /\ forall k, k <> str "sofaRpcId" -> dget k b' = dget k b.
Proof. intros U ops t c name tags fresh st' s. exact (derived_text U _ t c name tags fresh st' s (reachable_twf U ops)). Qed.
Print Assumptions C14_derived_span_keeps_baggage.

(** the rpc id of the new span: parent id + "." + number, or the last number plus one *)
Theorem C14_derived_rpc_id : forall U ops t c name tags fresh st' s b,
  baggage_text (trun U t_init ops) c = Some b ->
  start_span U (trun U t_init ops) name (Some (t, c)) tags fresh = (st', Ok s) ->
  exists sp b' r r', nth_error (t_spans st') s = Some sp /\ baggage_text st' (sp_ctx sp) = Some b' /\
    dget (str "sofaRpcId") b = Some r /\ dget (str "sofaRpcId") b' = Some r' /\
    match t with
    | ChildOf => exists n, r' = r ++ str "." ++ str_int n
    | FollowsFrom => exists q z, r = q ++ str_int z /\ r' = q ++ str_int (z + 1) /\ (q = [] \/ exists q0, q = q0 ++ str ".")
    end.
Proof. exact derived_rpc_text. Qed.
Print Assumptions C14_derived_rpc_id.

Theorem C14_origin_undisturbed : forall U ops ref name tags fresh c b,
  baggage_text (trun U t_init ops) c = Some b ->
  baggage_text (fst (start_span U (trun U t_init ops) name ref tags fresh)) c = Some b.
Proof. intros U ops ref name tags fresh c b H. exact (baggage_fixed U ops [TStart name ref tags fresh] c b H). Qed.
Print Assumptions C14_origin_undisturbed.

Example C14_case :
  let st := trun ascii_tables t_init [TStart (str "a") None [] (str "T"); TStart (str "b") (Some (ChildOf, 0%nat)) [] []] in
  exists st' s, start_span ascii_tables st (str "c") (Some (FollowsFrom, 1%nat)) [] [] = (st', Ok s) /\
    map (baggage_text st') [0; 1; 2]%nat =
    [Some [(K_trace, str "T"); (K_rpc, str "1")]; Some [(K_rpc, str "1.1"); (K_trace, str "T")]; Some [(K_rpc, str "1.2"); (K_trace, str "T")]].
Proof. eexists _, _. split; vm_compute; reflexivity. Qed.

(** ** C15 *)
Theorem C15_text_roundtrip : forall U, tables_ok U -> forall args ids,
  mk_rpcid U args = Ok ids ->
  (forall s, In (SStr s) args -> ~ In 46 s) ->
  exists parts, dot_parts (rpcid_str ids) parts /\ mk_rpcid U (map SStr parts) = Ok ids.
Proof.
  intros U HU args ids H Hd. exists (split_dot (rpcid_str ids)). split; [apply split_dot_parts; reflexivity|].
  apply (rpcid_text_roundtrip U HU); [exact (mk_rpcid_normal _ _ _ H)|]. apply (mk_rpcid_no_dots _ _ _ H).
  apply Forall_forall. intros x Hx. destruct x as [z|s]; [exact I|exact (Hd s Hx)].
Qed.
Print Assumptions C15_text_roundtrip.

(** the rpc id of every span context of a process is of that kind *)
Theorem C15_contexts_roundtrip : forall U, tables_ok U -> forall ops c o,
  nth_error (t_rpcs (trun U t_init ops)) c = Some o ->
  exists parts, dot_parts (rpcid_str (r_ids o)) parts /\ mk_rpcid U (map SStr parts) = Ok (r_ids o).
Proof.
  intros U HU ops c o H. pose proof (reachable_twf U ops) as W. exists (split_dot (rpcid_str (r_ids o))). split; [apply split_dot_parts; reflexivity|].
  apply (rpcid_text_roundtrip U HU); [exact (w_norm _ _ W c o H)|exact (w_dots _ _ W c o H)].
Qed.
Print Assumptions C15_contexts_roundtrip.

(** a text is reproduced exactly iff each of its integer parts is written canonically *)
Theorem C15_canonical_text_reproduced : forall U, tables_ok U -> forall s parts ids, dot_parts s parts ->
  mk_rpcid U (map SStr parts) = Ok ids ->
  (rpcid_str ids = s <->
   forall x, In x parts -> (exists z, canonical_int x z) \/ ~ exists z, int_text (u_digit U) (u_space U (is_ascii x)) x z).
Proof. exact canonical_reproduced_iff. Qed.
Print Assumptions C15_canonical_text_reproduced.

Theorem C15_last_part_must_be_integer : forall U, tables_ok U -> forall s parts, dot_parts s parts ->
  ((~ exists z, int_text (u_digit U) (u_space U (is_ascii (last parts []))) (last parts []) z) ->
     mk_rpcid U (map SStr parts) = Raise TypeError) /\
  ((exists z, int_text (u_digit U) (u_space U (is_ascii (last parts []))) (last parts []) z) ->
     exists ids, mk_rpcid U (map SStr parts) = Ok ids).
Proof. exact rejected_iff. Qed.
Print Assumptions C15_last_part_must_be_integer.

Example C15_cases :
  map (fun s => match mk_rpcid ascii_tables (map SStr (split_dot (str s))) with Ok ids => Some (rpcid_str ids) | _ => None end)
    ["0.x.3"%string; "1.007"%string; " +1_0 .-2"%string; "1.x"%string; "1."%string; ""%string; "1__0"%string]
  = [Some (str "0.x.3"); Some (str "1.7"); Some (str "10.-2"); None; None; None; None] /\
  dot_parts (str "0.x.3") [str "0"; str "x"; str "3"] /\ tables_ok ascii_tables.
Proof. split; [vm_compute; reflexivity|]. split; [apply split_dot_parts; vm_compute; reflexivity|exact ascii_tables_ok]. Qed.

(** ** C16. Full property: all spans derived from a root have pairwise distinct rpc ids. False: *)
Theorem C16_duplicate_rpc_ids_refuted :
  exists U ops i j bi bj, tables_ok U /\ refers_to_existing ops /\ i <> j /\
    let st := trun U (tstep U t_init (TStart (str "root") None [] (str "T"))) (map derivation ops) in
    baggage_text st i = Some bi /\ baggage_text st j = Some bj /\ dget K_rpc bi = Some (str "1.2") /\ dget K_rpc bj = Some (str "1.2").
Proof.
  exists ascii_tables, [(true, 0%nat); (true, 0%nat); (false, 1%nat)], 2%nat, 3%nat. do 2 eexists.
  split; [exact ascii_tables_ok|]. split.
  - exact refers_case.
  - split; [discriminate|]. repeat (split; [vm_compute; reflexivity|]). vm_compute. reflexivity.
Qed.
Print Assumptions C16_duplicate_rpc_ids_refuted.

(** True when every follows-from refers to the latest span with its parent (in particular when only
    child-of is used). Missing: arbitrary follows-from, for which the refutation shows the claim false. *)
Theorem C16_distinct_rpc_ids_partial : forall U root ops, tables_ok U ->
  (exists name tags fresh, root = TStart name None tags fresh) \/ (exists carrier fresh, root = TExtract carrier fresh) ->
  length (t_ctxs (tstep U t_init root)) = 1%nat ->
  refers_to_existing ops -> follows_latest ops ->
  let st := trun U (tstep U t_init root) (map derivation ops) in
  length (t_ctxs st) = S (length ops) /\
  forall i j bi bj, baggage_text st i = Some bi -> baggage_text st j = Some bj -> dget K_rpc bi = dget K_rpc bj -> i = j.
Proof. exact spans_distinct. Qed.
Print Assumptions C16_distinct_rpc_ids_partial.

(** ... and then only: the ids are distinct exactly when no follows-from refers to an older span of its parent. *)
Theorem C16_distinct_exactly_partial : forall U root ops, tables_ok U ->
  (exists name tags fresh, root = TStart name None tags fresh) \/ (exists carrier fresh, root = TExtract carrier fresh) ->
  length (t_ctxs (tstep U t_init root)) = 1%nat -> refers_to_existing ops ->
  let st := trun U (tstep U t_init root) (map derivation ops) in
  (forall i j bi bj, baggage_text st i = Some bi -> baggage_text st j = Some bj -> dget K_rpc bi = dget K_rpc bj -> i = j) <-> follows_latest ops.
Proof. exact spans_distinct_iff. Qed.
Print Assumptions C16_distinct_exactly_partial.

Example C16_case :
  map (fun i => option_map (dget K_rpc) (baggage_text (trun ascii_tables (tstep ascii_tables t_init (TStart (str "root") None [] (str "T")))
    (map derivation [(true, 0%nat); (true, 0%nat); (false, 2%nat); (true, 3%nat); (true, 0%nat); (false, 0%nat)])) i)) (seq 0 7)
  = map (fun s => Some (Some (str s))) ["1"%string; "1.1"%string; "1.2"%string; "1.3"%string; "1.3.1"%string; "1.4"%string; "2"%string] /\
  refers_to_existing [(true, 0%nat); (true, 0%nat); (false, 2%nat); (true, 3%nat); (true, 0%nat); (false, 0%nat)] /\
  follows_latest [(true, 0%nat); (true, 0%nat); (false, 2%nat); (true, 3%nat); (true, 0%nat); (false, 0%nat)].
Proof. split; [vm_compute; reflexivity|exact case_ops_ok]. Qed.

(** ** C17. 10^12 <= ts < 10^13 milliseconds is September 2001 to November 2286. *)
Theorem C17_text_determines_parts : forall ip ip' ts ts' sq sq' pid pid',
  0 <= ip < 2 ^ 32 -> 0 <= ip' < 2 ^ 32 -> 10 ^ 12 <= ts < 10 ^ 13 -> 10 ^ 12 <= ts' < 10 ^ 13 ->
  1000 <= sq <= 9000 -> 1000 <= sq' <= 9000 -> 0 <= pid -> 0 <= pid' ->
  trace_text ip ts sq pid = trace_text ip' ts' sq' pid' -> ip = ip' /\ ts = ts' /\ sq = sq' /\ pid = pid'.
Proof. exact trace_text_inj. Qed.
Print Assumptions C17_text_determines_parts.

(** two generations of one process get the same id only in the same millisecond and a multiple of 8001 apart *)
Theorem C17_one_process : forall ip pid ts i j t, 0 <= ip < 2 ^ 32 -> 0 <= pid -> (forall n, 10 ^ 12 <= ts n < 10 ^ 13) ->
  process_trace ip pid ts i = Some t -> process_trace ip pid ts j = Some t ->
  ts i = ts j /\ Z.of_nat i mod 8001 = Z.of_nat j mod 8001.
Proof. exact process_trace_repeat. Qed.
Print Assumptions C17_one_process.

Theorem C17_always_generated : forall ip pid ts n, exists sq, process_trace ip pid ts n = Some (trace_text ip (ts n) sq pid) /\ 1000 <= sq <= 9000.
Proof.
  intros ip pid ts n. unfold process_trace. rewrite trace_sequence_draw. eexists. split; [reflexivity|].
  pose proof (Z.mod_pos_bound (Z.of_nat n) 8001). lia.
Qed.
Print Assumptions C17_always_generated.

Theorem C17_starts_with_ip : forall ip ts sq pid, 0 <= ip < 2 ^ 32 ->
  exists hex rest, trace_text ip ts sq pid = hex ++ rest /\ fixed_numeral 16 8 hex ip.
Proof. intros ip ts sq pid H. eexists _, _. split; [reflexivity|]. apply hex8_fixed. exact H. Qed.
Print Assumptions C17_starts_with_ip.

Example C17_case : process_trace 0x7f000001 4711 (fun _ => 1527490000000) 1 = Some (str "7f000001152749000000010014711") /\
  process_trace 0x0a000001 7 (fun _ => 1527490000000) 0 = Some (str "0a000001152749000000010007").
Proof. vm_compute. split; reflexivity. Qed.

(** ** C18 *)
Theorem C18_baggage_never_changes : forall U ops ops' c b,
  baggage_text (trun U t_init ops) c = Some b -> baggage_text (trun U (trun U t_init ops) ops') c = Some b.
Proof. exact baggage_fixed. Qed.
Print Assumptions C18_baggage_never_changes.

Theorem C18_set_baggage_item_raises : forall st s sp k v, nth_error (t_spans st) s = Some sp ->
  set_baggage_item st s k v = (st, Raise TypeError).
Proof. intros st s sp k v H. unfold set_baggage_item. rewrite H. reflexivity. Qed.
Print Assumptions C18_set_baggage_item_raises.

(** ** C19. Full property: start_span(name, tags=t) returns a span whose tags are exactly t.
    False for every non-empty t: *)
Theorem C19_tags_never_recorded_refuted : forall U st name ref tags fresh st' s sp, tags <> [] ->
  start_span U st name ref tags fresh = (st', Ok s) -> nth_error (t_spans st') s = Some sp -> sp_tags sp <> tags.
Proof.
  intros U st name ref tags fresh st' s sp Hne H Hsp. unfold start_span in H.
  destruct (match ref with Some (t, c) => context_from U st t c | None => context_root U st [] fresh end) as [st1 [c|e]]; [|discriminate].
  destruct (apply_tags (keys tags) []) as [tg|e] eqn:Et; [|discriminate]. injection H as <- <-. cbn [t_spans] in Hsp.
  rewrite nth_error_app2, Nat.sub_diag in Hsp by auto. injection Hsp as <-. cbn. exact (apply_tags_never tags tg Et Hne).
Qed.
Print Assumptions C19_tags_never_recorded_refuted.

(** What does hold: without tags the span has none; with tags it succeeds only if each key has
    exactly two characters, and then records the first character of each key with the second as value. *)
Theorem C19_tags_partial : forall U ops name tags fresh, tables_ok U ->
  let '(st', r) := start_span U (trun U t_init ops) name None tags fresh in
  ((forall k, In k (keys tags) -> length k = 2%nat) ->
     exists s sp, r = Ok s /\ nth_error (t_spans st') s = Some sp /\ sp_name sp = name /\
       sp_tags sp = dict_of (map (fun k => (firstn 1 k, PStr (skipn 1 k))) (keys tags))) /\
  ((exists k, In k (keys tags) /\ length k <> 2%nat) -> r = Raise ValueError).
Proof. exact start_span_tags. Qed.
Print Assumptions C19_tags_partial.

Example C19_case :
  snd (start_span ascii_tables t_init (str "n") None [(str "key", PInt 1)] []) = Raise ValueError /\
  option_map sp_tags (nth_error (t_spans (fst (start_span ascii_tables t_init (str "n") None [(str "ab", PInt 1)] []))) 0) = Some [(str "a", PStr (str "b"))].
Proof. vm_compute. split; reflexivity. Qed.

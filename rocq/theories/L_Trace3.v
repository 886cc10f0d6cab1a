(** Lemmas behind the statements of P_Trace. *)
From Coq Require Import ZifyBool Strings.String.
From Verif Require Import PyBase L_PyBase PyDict L_PyDict PyInt L_PyInt M_RequestId M_RpcId S_Rpc L_RpcId M_SofaHeader M_Package P_Codec M_Trace L_Trace L_Trace2.

Lemma propagates U client_ops server_ops c b interface method_name target_app uid extra fresh : tables_ok U ->
  baggage_text (trun U t_init client_ops) c = Some b ->
  (forall k, In k (map str ["prefix"%string; "expand"%string; "__dict__"%string; "__class__"%string; "__weakref__"%string]) -> dget k b = None) ->
  wf_dict extra ->
  (forall k, In k (keys extra) -> ~ In k (build_params ++ call_params) /\ starts_with PREFIX k = false) ->
  exists h, build_header b interface method_name target_app uid extra = Ok h /\
    forall carrier,
      carrier = h \/
      (exists content ptype timeout_ms rid p bs p', new_request h content ptype timeout_ms rid = Ok p /\ to_stream p = Ok bs /\
         from_stream BoltRequest bs = Ok p' /\ carrier = p_header p') ->
      exists srv' c' b' o o', extract U (trun U t_init server_ops) carrier fresh = (srv', Ok c') /\ baggage_text srv' c' = Some b' /\
        (forall k, dget k b' = dget k b) /\
        nth_error (t_rpcs (trun U t_init client_ops)) c = Some o /\ nth_error (t_rpcs srv') c' = Some o' /\ r_ids o' = r_ids o.
Proof.
  intros HU Hb Hh He Hx. pose proof (reachable_twf U client_ops) as W. pose proof (reachable_twf U server_ops) as W2.
  pose proof (text_wf U _ _ _ W Hb) as Hwb. pose proof (text_self U _ _ _ (str "self") W Hb (or_introl eq_refl)) as Hs.
  assert (Hr : forall k, In k (keys extra) -> ~ In k reserved_names) by (intros k Hk; apply (Hx k Hk)).
  destruct (build_header_spec b interface method_name target_app uid extra Hwb He Hs Hh Hr) as (h & E & _). exists h. split; [exact E|].
  destruct (build_header_prefixed b interface method_name target_app uid extra h Hwb He Hs Hh Hr (fun k Hk => proj2 (Hx k Hk)) E) as [Wh G].
  intros carrier Hc. assert (Hce : carrier = h).
  { destruct Hc as [->|(content & ptype & tmo & rid & p & bs & p' & Hp & Hbs & Hp' & ->)]; [reflexivity|]. unfold new_request in Hp.
    destruct (C01_request_roundtrip BoltRequest BoltRequest h _ _ _ _ _ _ _ _ _ p bs ltac:(left; reflexivity) ltac:(left; reflexivity) Wh Hp Hbs) as (q & Hq & _ & Hqh & _).
    congruence. }
  subst carrier. apply (extract_carrier U _ c b _ h fresh HU W W2 Hb Wh G).
Qed.

Lemma derived_rpc_text U ops t c name tags fresh st' s b : baggage_text (trun U t_init ops) c = Some b ->
  start_span U (trun U t_init ops) name (Some (t, c)) tags fresh = (st', Ok s) ->
  exists sp b' r r', nth_error (t_spans st') s = Some sp /\ baggage_text st' (sp_ctx sp) = Some b' /\
    dget K_rpc b = Some r /\ dget K_rpc b' = Some r' /\
    match t with
    | ChildOf => exists n, r' = r ++ str "." ++ str_int n
    | FollowsFrom => exists q z, r = q ++ str_int z /\ r' = q ++ str_int (z + 1) /\ (q = [] \/ exists q0, q = q0 ++ str ".")
    end.
Proof.
  intros Hb H. pose proof (reachable_twf U ops) as W. remember (trun U t_init ops) as st eqn:Est.
  pose proof (start_span_spec U st name (Some (t, c)) tags fresh W) as S. rewrite H in S. destruct S as (W' & G & S).
  destruct (S s eq_refl) as (_ & sp & Hsp & Hc & _ & _ & bag & Hbag & R1 & R2).
  destruct (derived_rpc U st t c name tags fresh st' s W H) as (o & o' & Ho & Ho' & Hids).
  assert (Hn : nth_error (t_ctxs st') (sp_ctx sp) = Some (derived_bag (length (t_ctxs st)) bag)) by (rewrite R2, Hc, nth_error_app2, Nat.sub_diag by lia; reflexivity).
  assert (Hb' : exists b', baggage_text st' (sp_ctx sp) = Some b') by (unfold baggage_text; rewrite Hn; eexists; reflexivity). destruct Hb' as [b' Hb'].
  destruct (text_rpc U st c b W Hb) as (o1 & Ho1 & T1). assert (o1 = o) by congruence. subst o1.
  destruct (text_rpc U st' _ b' W' Hb') as (o2 & Ho2 & T2). rewrite Hc in Ho2. assert (o2 = o') by congruence. subst o2.
  exists sp, b', (rpcid_str (r_ids o)), (rpcid_str (r_ids o')). repeat (split; [assumption|]). destruct t.
  - exists (r_count o + 1). rewrite Hids. unfold rpcid_str. rewrite map_app. cbn [map seg_str].
    rewrite join_snoc; [reflexivity|]. pose proof (normal_nonempty _ _ (w_norm _ _ W c o Ho)). destruct (r_ids o); [congruence|discriminate].
  - destruct Hids as (l & z & E1 & E2). rewrite E1, E2. unfold rpcid_str. rewrite !map_app. cbn [map seg_str].
    destruct l as [|x l]; [exists [], z; repeat split; auto|]. exists (join_dot (map seg_str (x :: l)) ++ str "."), z.
    rewrite !join_snoc by discriminate. rewrite <- !app_assoc. repeat split. right. eexists. reflexivity.
Qed.

Lemma int_text_dec U : tables_ok U -> forall x, parse_int U x = None <-> ~ exists z, int_text (u_digit U) (u_space U (is_ascii x)) x z.
Proof.
  intros HU x. split.
  - intros H [z Hz]. apply (parse_int_iff U HU) in Hz. congruence.
  - intros H. destruct (parse_int U x) as [z|] eqn:E; [|reflexivity]. exfalso. apply H. exists z. apply (parse_int_iff U HU). exact E.
Qed.

Lemma canonical_reproduced_iff U : tables_ok U -> forall s parts ids, dot_parts s parts -> mk_rpcid U (map SStr parts) = Ok ids ->
  (rpcid_str ids = s <-> forall x, In x parts -> (exists z, canonical_int x z) \/ ~ exists z, int_text (u_digit U) (u_space U (is_ascii x)) x z).
Proof.
  intros HU s parts ids Hp H. apply split_dot_parts in Hp. subst parts. split.
  - intros Hs x Hx. pose proof (reproduced_canonical U s ids H Hs) as F. rewrite Forall_forall in F.
    destruct (F x Hx) as [E|E]; [right; apply int_text_dec; assumption|left; exact E].
  - intros F. apply (canonical_text_reproduced U HU s ids); [|exact H]. apply Forall_forall. intros x Hx.
    destruct (F x Hx) as [E|E]; [right; exact E|left; apply int_text_dec; assumption].
Qed.

Lemma rejected_iff U : tables_ok U -> forall s parts, dot_parts s parts ->
  ((~ exists z, int_text (u_digit U) (u_space U (is_ascii (last parts []))) (last parts []) z) -> mk_rpcid U (map SStr parts) = Raise TypeError) /\
  ((exists z, int_text (u_digit U) (u_space U (is_ascii (last parts []))) (last parts []) z) -> exists ids, mk_rpcid U (map SStr parts) = Ok ids).
Proof.
  intros HU s parts Hp. apply split_dot_parts in Hp. subst parts. split.
  - intros H. destruct (mk_rpcid U (map SStr (split_dot s))) as [ids|e] eqn:E; [|apply mk_rpcid_text_err in E; congruence].
    apply (mk_rpcid_text_iff U) in E as [_ [z Hz]]. exfalso. apply H. exists z. apply (parse_int_iff U HU). exact Hz.
  - intros [z Hz]. apply (parse_int_iff U HU) in Hz. eexists. apply (mk_rpcid_text_iff U). split; [reflexivity|eauto].
Qed.

Lemma hidden_raises b i m t u extra k : In k (map str ["self"%string; "expand"%string; "__dict__"%string; "__class__"%string; "__weakref__"%string]) ->
  dget k b <> None -> exists e, build_header b i m t u extra = Raise e.
Proof.
  intros Hk Hg. assert (He : exists e, trace_expand b = Raise e).
  { unfold trace_expand. destruct (dmem (str "self") b) eqn:Es; [eexists; reflexivity|]. assert (Hm : dmem k b = true) by (unfold dmem; destruct (dget k b); [reflexivity|congruence]).
    destruct (set_attributes (keys b)) as [[]|e] eqn:Ea; [|eexists; reflexivity]. cbn [bind]. destruct (dmem (str "expand") b) eqn:Ex; [eexists; reflexivity|]. exfalso.
    pose proof (proj1 (dmem_In _ _) Hm) as Hi. destruct Hk as [Hk|[Hk|Hk]]; [rewrite Hk in *; congruence|rewrite Hk in *; congruence|].
    exact (proj1 (set_attributes_iff _) Ea k Hk Hi). }
  destruct He as [e He]. unfold build_header. destruct (existsb (fun k0 => mem_str k0 build_params) (keys extra)); [eexists; reflexivity|]. rewrite He. eexists; reflexivity.
Qed.

Lemma baggage_fixed U ops ops' c b : baggage_text (trun U t_init ops) c = Some b -> baggage_text (trun U (trun U t_init ops) ops') c = Some b.
Proof. intros H. pose proof (reachable_twf U ops) as W. apply (grows_text U _ _ c b W); [|exact H]. apply trun_spec. exact W. Qed.

Lemma apply_tags_err l : forall t0, (exists k, In k l /\ length k <> 2%nat) -> apply_tags l t0 = Raise ValueError.
Proof.
  induction l as [|k l IH]; intros t0 (q & Hq & Hl); [destruct Hq|]. cbn [apply_tags].
  destruct k as [|a [|b [|c k]]]; try reflexivity. apply IH. destruct Hq as [<-|Hq]; [exfalso; apply Hl; reflexivity|eauto].
Qed.

Lemma start_span_tags U ops name tags fresh : tables_ok U ->
  let '(st', r) := start_span U (trun U t_init ops) name None tags fresh in
  ((forall k, In k (keys tags) -> length k = 2%nat) ->
     exists s sp, r = Ok s /\ nth_error (t_spans st') s = Some sp /\ sp_name sp = name /\
       sp_tags sp = dict_of (map (fun k => (firstn 1 k, PStr (skipn 1 k))) (keys tags))) /\
  ((exists k, In k (keys tags) /\ length k <> 2%nat) -> r = Raise ValueError).
Proof.
  intros HU. pose proof (reachable_twf U ops) as W. unfold start_span.
  assert (Em : exists ids, mk_rpcid U (map SStr (split_dot (str "1"))) = Ok ids).
  { pose proof (parse_str_int U HU 1) as Hp. change (str_int 1) with (str "1") in Hp. eexists. apply (mk_rpcid_text_iff U).
    split; [reflexivity|]. exists 1. exact Hp. }
  destruct Em as [ids Em]. unfold context_root. change (dget K_rpc (@nil (pystr * pystr))) with (@None pystr). cbv beta iota zeta. rewrite Em.
  destruct (apply_tags (keys tags) []) as [tg|e] eqn:Et; cbn beta iota zeta delta [t_spans]; (split; [intros Hk|intros Hk]).
  - apply apply_tags_iff in Et as [_ ->]. eexists _, _. split; [reflexivity|]. rewrite nth_error_app2, Nat.sub_diag by lia. repeat split.
  - rewrite (apply_tags_err _ [] Hk) in Et. discriminate.
  - assert (E' : apply_tags (keys tags) [] = Ok (dupdate [] (map (fun k => (firstn 1 k, PStr (skipn 1 k))) (keys tags)))) by (apply apply_tags_iff; auto). congruence.
  - rewrite (apply_tags_err _ [] Hk) in Et. congruence.
Qed.

Ltac split_pre E := match type of E with
  | [] = _ ++ _ => apply (app_cons_not_nil _ _ _) in E; destruct E
  | _ :: _ = ?p ++ _ => destruct p as [|? p]; cbn [app] in E; [injection E; intros; subst; clear E|injection E as ? E; subst; split_pre E]
  end.

Lemma refers_case : refers_to_existing [(true, 0%nat); (true, 0%nat); (false, 1%nat)].
Proof. intros pre k c post E. split_pre E; cbn [length]; lia. Qed.

Definition case_ops : list (bool * nat) := [(true, 0%nat); (true, 0%nat); (false, 2%nat); (true, 3%nat); (true, 0%nat); (false, 0%nat)].
Lemma case_ops_ok : refers_to_existing case_ops /\ follows_latest case_ops.
Proof.
  unfold case_ops. split.
  - intros pre k c post E. split_pre E; cbn [length]; lia.
  - intros pre c post E i Hi. split_pre E; cbn [length] in Hi; try discriminate; try lia.
    assert (H : In i (seq 1 5)) by (apply in_seq; lia). cbn in H.
    repeat (destruct H as [<-|H]; [vm_compute; discriminate|]). destruct H.
Qed.

(** exactly when the header is built, and which exception is raised otherwise *)
Lemma set_attributes_err l e : set_attributes l = Raise e ->
  e = TypeError \/ e = AttributeError /\ exists pre post, l = pre ++ str "__weakref__" :: post /\ ~ In (str "__dict__") pre /\ ~ In (str "__class__") pre.
Proof.
  induction l as [|x l IH]; [discriminate|]. cbn [set_attributes].
  assert (K : forall y, pystr_eqb x y = false -> x <> y) by (intros y E ->; assert (pystr_eqb y y = true) by (apply pystr_eqb_iff; reflexivity); congruence).
  destruct (pystr_eqb x (str "__dict__")) eqn:E1; [intros [= <-]; auto|]. destruct (pystr_eqb x (str "__class__")) eqn:E2; [intros [= <-]; auto|].
  destruct (pystr_eqb x (str "__weakref__")) eqn:E3.
  - intros [= <-]. right. split; [reflexivity|]. apply pystr_eqb_iff in E3. subst x. exists [], l. repeat split; intros [].
  - intros H. destruct (IH H) as [->|(-> & pre & post & -> & A & B)]; [auto|]. right. split; [reflexivity|]. exists (x :: pre), post.
    split; [reflexivity|]. apply K in E1, E2. split; intros [Q|Q]; congruence.
Qed.
Lemma set_attributes_weak pre post : ~ In (str "__dict__") pre -> ~ In (str "__class__") pre -> set_attributes (pre ++ str "__weakref__" :: post) = Raise AttributeError.
Proof.
  induction pre as [|x pre IH]; intros A B; [reflexivity|]. cbn [app set_attributes].
  destruct (pystr_eqb x (str "__dict__")) eqn:E1; [apply pystr_eqb_iff in E1; subst x; destruct A; left; reflexivity|].
  destruct (pystr_eqb x (str "__class__")) eqn:E2; [apply pystr_eqb_iff in E2; subst x; destruct B; left; reflexivity|].
  destruct (pystr_eqb x (str "__weakref__")); [reflexivity|]. apply IH; intros Q; [apply A|apply B]; right; exact Q.
Qed.
Definition prefix_of (b : dict pystr pystr) : pystr := match dget (str "prefix") b with Some p => p | None => PREFIX end.
Lemma names_false l (names : list pystr) : existsb (fun k => mem_str k names) l = false <-> forall k, In k l -> ~ In k names.
Proof.
  rewrite <- not_true_iff_false, existsb_exists. split.
  - intros H k Hk Hn. apply H. exists k. split; [exact Hk|apply mem_str_iff; exact Hn].
  - intros H (k & Hk & Hn). apply mem_str_iff in Hn. exact (H k Hk Hn).
Qed.
Lemma expand_iff b : (exists e, trace_expand b = Ok e) <-> (forall k, In k (map str ["self"%string; "expand"%string; "__dict__"%string; "__class__"%string; "__weakref__"%string]) -> ~ In k (keys b)).
Proof.
  unfold trace_expand. split.
  - intros (e & H) k Hk Hb. destruct (dmem (str "self") b) eqn:Es; [discriminate|]. destruct (set_attributes (keys b)) as [[]|x] eqn:Ea; [|discriminate]. cbn [bind] in H.
    destruct (dmem (str "expand") b) eqn:Ex; [discriminate|]. apply dmem_In in Hb. destruct Hk as [<-|[<-|Hk]]; [congruence|congruence|].
    apply (proj1 (set_attributes_iff _) Ea k Hk). apply dmem_In. exact Hb.
  - intros H. assert (D : forall k, In k (map str ["self"%string; "expand"%string; "__dict__"%string; "__class__"%string; "__weakref__"%string]) -> dmem k b = false).
    { intros k Hk. apply not_true_is_false. intros E. apply dmem_In in E. exact (H k Hk E). }
    rewrite (D (str "self")) by (left; reflexivity). assert (Ea : set_attributes (keys b) = Ok tt).
    { apply set_attributes_iff. intros k Hk. apply H. right. right. exact Hk. }
    rewrite Ea. cbn [bind]. rewrite (D (str "expand")) by (right; left; reflexivity). eexists. reflexivity.
Qed.
Lemma header_iff b i m t u extra : (exists h, build_header b i m t u extra = Ok h) <->
  (forall k, In k (keys extra) -> ~ In k (build_params ++ call_params)) /\
  (forall k, In k (keys b) -> ~ In k (map str ["self"%string; "expand"%string; "__dict__"%string; "__class__"%string; "__weakref__"%string]) /\ ~ In (prefix_of b ++ k) call_params).
Proof.
  assert (Ke : forall e, trace_expand b = Ok e -> forall k, In k (keys (dupdate (dupdate [] extra) e)) <-> In k (keys extra) \/ exists k0, In k0 (keys b) /\ k = prefix_of b ++ k0).
  { intros e He k. unfold trace_expand in He. destruct (dmem (str "self") b); [discriminate|]. destruct (set_attributes (keys b)) as [[]|x]; [|discriminate]. cbn [bind] in He.
    destruct (dmem (str "expand") b); [discriminate|]. fold (prefix_of b) in He. injection He as <-. rewrite !keys_dupdate_In. unfold dict_of. rewrite keys_dupdate_In. cbn [keys map In].
    assert (Q : In k (keys (map (fun kv : pystr * pystr => (prefix_of b ++ fst kv, snd kv)) b)) <-> exists k0, In k0 (keys b) /\ k = prefix_of b ++ k0).
    { unfold keys. rewrite map_map. cbn [fst]. rewrite in_map_iff. split.
      - intros ((k1 & v) & <- & H). exists k1. split; [apply in_map_iff; exists (k1, v); auto|reflexivity].
      - intros (k0 & H & ->). apply in_map_iff in H as (kv & <- & H). exists kv. auto. }
    unfold keys in *. rewrite Q. tauto. }
  unfold build_header. split.
  - intros (h & H). destruct (existsb (fun k => mem_str k build_params) (keys extra)) eqn:E1; [discriminate|]. destruct (trace_expand b) as [e|x] eqn:He; [|discriminate]. cbn [bind] in H.
    destruct (existsb (fun k => mem_str k call_params) (keys (dupdate (dupdate [] extra) e))) eqn:E2; [discriminate|]. rewrite names_false in E1, E2. specialize (Ke e eq_refl). split.
    + intros k Hk Hn. apply in_app_iff in Hn as [Hn|Hn]; [exact (E1 k Hk Hn)|]. apply (E2 k); [apply Ke; auto|exact Hn].
    + intros k Hk. split; [intros Hn; exact (proj1 (expand_iff b) (ex_intro _ e He) k Hn Hk)|]. intros Hn. apply (E2 (prefix_of b ++ k)); [apply Ke; eauto|exact Hn].
  - intros [A B]. assert (E1 : existsb (fun k => mem_str k build_params) (keys extra) = false) by (apply names_false; intros k Hk Hn; apply (A k Hk); apply in_app_iff; auto). rewrite E1.
    destruct (proj2 (expand_iff b)) as (e & He); [intros k Hn Hk; exact (proj1 (B k Hk) Hn)|]. rewrite He. cbn [bind].
    assert (E2 : existsb (fun k => mem_str k call_params) (keys (dupdate (dupdate [] extra) e)) = false).
    { apply names_false. intros k Hk Hn. apply (Ke e He) in Hk as [Hk|(k0 & Hk & ->)]; [apply (A k Hk); apply in_app_iff; auto|exact (proj2 (B k0 Hk) Hn)]. }
    rewrite E2. eexists. reflexivity.
Qed.
Lemma header_error b i m t u extra e : build_header b i m t u extra = Raise e -> e = TypeError \/ e = AttributeError.
Proof.
  unfold build_header. destruct (existsb (fun k => mem_str k build_params) (keys extra)); [intros [= <-]; auto|]. unfold trace_expand. destruct (dmem (str "self") b); [intros [= <-]; auto|].
  destruct (set_attributes (keys b)) as [[]|x] eqn:Ea; cbn [bind]; [|intros [= <-]; destruct (set_attributes_err _ _ Ea) as [->|[-> _]]; auto].
  destruct (dmem (str "expand") b); [intros [= <-]; auto|]. cbn [bind]. destruct (existsb _ _); [intros [= <-]; auto|discriminate].
Qed.
Lemma header_attribute_error b i m t u extra : build_header b i m t u extra = Raise AttributeError <->
  (forall k, In k (keys extra) -> ~ In k build_params) /\ ~ In (str "self") (keys b) /\
  exists pre post, keys b = pre ++ str "__weakref__" :: post /\ ~ In (str "__dict__") pre /\ ~ In (str "__class__") pre.
Proof.
  rewrite <- (names_false (keys extra) build_params). assert (Sf : dmem (str "self") b = false <-> ~ In (str "self") (keys b)) by (rewrite <- (dmem_In (str "self") b); destruct (dmem (str "self") b); split; congruence).
  rewrite <- Sf. unfold build_header, trace_expand. split.
  - destruct (existsb (fun k => mem_str k build_params) (keys extra)); [discriminate|]. destruct (dmem (str "self") b); [discriminate|]. cbn [bind].
    destruct (set_attributes (keys b)) as [[]|x] eqn:Ea; cbn [bind].
    + destruct (dmem (str "expand") b); [discriminate|]. cbn [bind]. destruct (existsb _ _); discriminate.
    + intros [= ->]. destruct (set_attributes_err _ _ Ea) as [?|[_ Q]]; [discriminate|]. auto.
  - intros (-> & -> & pre & post & -> & A & B). rewrite (set_attributes_weak pre post A B). reflexivity.
Qed.
Lemma header_outcome b i m t u extra :
  ((exists h, build_header b i m t u extra = Ok h) <->
     (forall k, In k (keys extra) -> ~ In k (map str ["cls"%string; "spanctx"%string; "interface"%string; "method_name"%string; "target_app"%string; "uid"%string;
        "sofa_head_target_service"%string; "sofa_head_method_name"%string; "sofa_head_target_app"%string; "service"%string])) /\
     (forall k, In k (keys b) -> ~ In k (map str ["self"%string; "expand"%string; "__dict__"%string; "__class__"%string; "__weakref__"%string]) /\
        ~ In ((match dget (str "prefix") b with Some p => p | None => str "rpc_trace_context." end) ++ k)
             (map str ["sofa_head_target_service"%string; "sofa_head_method_name"%string; "sofa_head_target_app"%string; "service"%string; "uid"%string]))) /\
  (build_header b i m t u extra = Raise AttributeError <->
     (forall k, In k (keys extra) -> ~ In k (map str ["cls"%string; "spanctx"%string; "interface"%string; "method_name"%string; "target_app"%string; "uid"%string])) /\
     ~ In (str "self") (keys b) /\
     exists pre post, keys b = pre ++ str "__weakref__" :: post /\ ~ In (str "__dict__") pre /\ ~ In (str "__class__") pre) /\
  (forall e, build_header b i m t u extra = Raise e -> e = TypeError \/ e = AttributeError).
Proof.
  split; [|split; [exact (header_attribute_error b i m t u extra)|exact (header_error b i m t u extra)]].
  rewrite header_iff. assert (Q : forall k, In k (build_params ++ call_params) <-> In k (map str ["cls"%string; "spanctx"%string; "interface"%string; "method_name"%string; "target_app"%string; "uid"%string;
        "sofa_head_target_service"%string; "sofa_head_method_name"%string; "sofa_head_target_app"%string; "service"%string])).
  { intros k. rewrite in_app_iff. unfold build_params, call_params. cbn [map In]. tauto. }
  split; (intros [A B]; split; [|exact B]); intros k Hk Hn; apply Q in Hn; exact (A k Hk Hn).
Qed.

(** Trace context over the wire, and distinct rpc ids of spans. *)
From Coq Require Import ZifyBool Strings.String Logic.FinFun.
From Verif Require Import PyBase L_PyBase PyDict L_PyDict PyInt L_PyInt M_RpcId S_Rpc L_RpcId M_SofaHeader M_Trace L_Trace.

Lemma ascii_tables_ok : tables_ok ascii_tables.
Proof.
  unfold tables_ok, ascii_tables. cbn [u_digit u_space].
  split; [intros c Hc; replace ((48 <=? c) && (c <=? 57)) with true by lia; reflexivity|].
  split; [intros c d; destruct ((48 <=? c) && (c <=? 57)) eqn:E; [|discriminate]; intros H; injection H as <-; lia|].
  repeat (split; [reflexivity|]).
  split; [intros a c; destruct ((48 <=? c) && (c <=? 57)) eqn:E; [|congruence]; intros _; destruct a; cbn [negb andb]; lia|].
  intros []; repeat split.
Qed.

Lemma pystr_eqb_iff a b : pystr_eqb a b = true <-> a = b.
Proof. unfold pystr_eqb. destruct (pystr_eq_dec a b); split; congruence. Qed.

Lemma mem_str_iff k l : mem_str k l = true <-> In k l.
Proof.
  unfold mem_str. rewrite existsb_exists. split.
  - intros (x & Hx & E). apply pystr_eqb_iff in E. subst x. exact Hx.
  - intros H. exists k. split; [exact H|]. apply pystr_eqb_iff. reflexivity.
Qed.

(** the baggage keys that RpcTraceContext treats specially *)
Definition attribute_keys : list pystr := map str ["__dict__"%string; "__class__"%string; "__weakref__"%string].

Lemma set_attributes_iff l : set_attributes l = Ok tt <-> (forall k, In k attribute_keys -> ~ In k l).
Proof.
  induction l as [|x l IH]; [split; auto|]. cbn [set_attributes].
  assert (K : forall y, pystr_eqb x y = false -> x <> y) by (intros y E ->; assert (pystr_eqb y y = true) by (apply pystr_eqb_iff; reflexivity); congruence).
  destruct (pystr_eqb x (str "__dict__")) eqn:E1.
  { apply pystr_eqb_iff in E1. split; [discriminate|]. intros H. exfalso. apply (H x); [subst x; left; reflexivity|left; reflexivity]. }
  destruct (pystr_eqb x (str "__class__")) eqn:E2.
  { apply pystr_eqb_iff in E2. split; [discriminate|]. intros H. exfalso. apply (H x); [subst x; right; left; reflexivity|left; reflexivity]. }
  destruct (pystr_eqb x (str "__weakref__")) eqn:E3.
  { apply pystr_eqb_iff in E3. split; [discriminate|]. intros H. exfalso. apply (H x); [subst x; right; right; left; reflexivity|left; reflexivity]. }
  apply K in E1, E2, E3. rewrite IH. split.
  - intros H k Hk [<-|Hi]; [|exact (H k Hk Hi)]. destruct Hk as [Hk|[Hk|[Hk|[]]]]; congruence.
  - intros H k Hk Hi. apply (H k Hk). right. exact Hi.
Qed.

Lemma set_attributes_err l : (exists k, In k attribute_keys /\ In k l) -> exists e, set_attributes l = Raise e.
Proof.
  intros (k & Hk & Hl). destruct (set_attributes l) as [[]|e] eqn:E; [|eauto]. exfalso. apply (proj1 (set_attributes_iff l) E k Hk Hl).
Qed.

Definition hidden_keys : list pystr := map str ["prefix"%string; "expand"%string; "__dict__"%string; "__class__"%string; "__weakref__"%string].

Lemma dmem_false {V} k (d : dict pystr V) : dget k d = None -> dmem k d = false.
Proof. unfold dmem. intros ->. reflexivity. Qed.

Lemma trace_expand_ok b : wf_dict b -> dget (str "self") b = None -> (forall k, In k hidden_keys -> dget k b = None) ->
  trace_expand b = Ok (map (fun kv => (PREFIX ++ fst kv, snd kv)) b).
Proof.
  intros Hw Hs Hh. unfold trace_expand. rewrite (dmem_false _ _ Hs).
  assert (Ha : set_attributes (keys b) = Ok tt).
  { apply set_attributes_iff. intros k Hk Hi. assert (Hn : dget k b = None).
    { apply Hh. destruct Hk as [<-|[<-|[<-|[]]]]; unfold hidden_keys; cbn [map In]; auto 6. }
    apply dget_None in Hn. exact (Hn Hi). }
  rewrite Ha. cbn [bind]. rewrite dmem_false by (apply Hh; right; left; reflexivity). rewrite (Hh (str "prefix")) by (left; reflexivity).
  rewrite dict_of_id; [reflexivity|]. unfold wf_dict, keys in *. rewrite map_map. cbn [fst].
  rewrite <- (map_map fst (fun k => PREFIX ++ k)). apply Injective_map_NoDup; [|exact Hw].
  intros x y H. apply app_inv_head in H. exact H.
Qed.

Lemma dget_prefix_map (b : dict pystr pystr) k : dget (PREFIX ++ k) (map (fun kv => (PREFIX ++ fst kv, snd kv)) b) = dget k b.
Proof.
  induction b as [|[k' v'] b IH]; [reflexivity|]. cbn [map fst snd dget].
  destruct (eq_dec k k') as [->|Hn]; [destruct (eq_dec (PREFIX ++ k') (PREFIX ++ k')); [reflexivity|congruence]|].
  destruct (eq_dec (PREFIX ++ k) (PREFIX ++ k')) as [H|_]; [apply app_inv_head in H; congruence|exact IH].
Qed.

Definition reserved_names : list pystr := build_params ++ call_params.

Lemma reserved_not_prefixed k x : In k reserved_names -> k <> PREFIX ++ x.
Proof.
  intros H E. assert (S : starts_with PREFIX k = true) by (apply starts_with_iff; eauto). revert S. clear E.
  assert (A : forallb (fun k => negb (starts_with PREFIX k)) reserved_names = true) by (vm_compute; reflexivity).
  rewrite forallb_forall in A. specialize (A k H). destruct (starts_with PREFIX k); [discriminate|]. discriminate.
Qed.

Definition fixed_part (interface method_name target_app uid : pystr) : dict pystr pystr :=
  [(str "sofa_head_target_service", interface); (str "sofa_head_method_name", method_name);
   (str "sofa_head_target_app", target_app); (str "service", interface); (str "uid", uid)].

Lemma fixed_wf i m t u : wf_dict (fixed_part i m t u).
Proof. unfold wf_dict. apply nodupb_str_ok. vm_compute. reflexivity. Qed.

Lemma keys_fixed i m t u : keys (fixed_part i m t u) = call_params. Proof. reflexivity. Qed.

(** the header that is built *)
Lemma build_header_spec b i m t u extra : wf_dict b -> wf_dict extra -> dget (str "self") b = None ->
  (forall k, In k hidden_keys -> dget k b = None) -> (forall k, In k (keys extra) -> ~ In k reserved_names) ->
  exists h, build_header b i m t u extra = Ok h /\ wf_dict h /\
    (forall k, dget k h = match dget k (fixed_part i m t u) with Some v => Some v | None =>
                          match dget k (map (fun kv => (PREFIX ++ fst kv, snd kv)) b) with Some v => Some v | None => dget k extra end end).
Proof.
  intros Hb He Hs Hh Hr. unfold build_header.
  assert (E1 : existsb (fun k => mem_str k build_params) (keys extra) = false).
  { apply not_true_is_false. intros E. apply existsb_exists in E as (k & Hk & E). apply mem_str_iff in E. apply (Hr k Hk). unfold reserved_names. apply in_app_iff. auto. }
  rewrite E1, (trace_expand_ok b Hb Hs Hh). cbn [bind].
  remember (map (fun kv => (PREFIX ++ fst kv, snd kv)) b) as e eqn:Ee.
  assert (Hwe : wf_dict e).
  { subst e. unfold wf_dict, keys in *. rewrite map_map. cbn [fst]. rewrite <- (map_map fst (fun k => PREFIX ++ k)). apply Injective_map_NoDup; [|exact Hb].
    intros x y H. apply app_inv_head in H. exact H. }
  change (dupdate [] extra) with (dict_of extra). rewrite (dict_of_id extra He).
  assert (E2 : forall k, In k (keys (dupdate extra e)) -> ~ In k call_params).
  { intros k Hk Hc. apply keys_dupdate_In in Hk as [Hk|Hk].
    - apply (Hr k Hk). unfold reserved_names. apply in_app_iff. auto.
    - subst e. unfold keys in Hk. rewrite map_map in Hk. cbn [fst] in Hk. apply in_map_iff in Hk as ([q v] & <- & _).
      apply (reserved_not_prefixed (PREFIX ++ fst (q, v)) (fst (q, v))); [unfold reserved_names; apply in_app_iff; auto|reflexivity]. }
  assert (E3 : existsb (fun k => mem_str k call_params) (keys (dupdate extra e)) = false).
  { apply not_true_is_false. intros E. apply existsb_exists in E as (k & Hk & E). apply mem_str_iff in E. exact (E2 k Hk E). }
  rewrite E3. fold (fixed_part i m t u). rewrite (dict_of_id _ (fixed_wf i m t u)).
  eexists. split; [reflexivity|]. split.
  - unfold wf_dict, keys. rewrite map_app. fold (keys (fixed_part i m t u)). fold (keys (dupdate extra e)).
    assert (N1 : NoDup (keys (fixed_part i m t u))) by apply fixed_wf. assert (N2 : NoDup (keys (dupdate extra e))) by (apply wf_dupdate; exact He).
    rewrite keys_fixed in *. clear - N1 N2 E2. revert N1 E2. generalize call_params. intros cp N1 E2. induction cp as [|x l IH]; [exact N2|]. cbn [app]. inversion N1; subst. constructor.
    + rewrite in_app_iff. intros [Hi|Hi]; [tauto|]. apply (E2 x Hi). left. reflexivity.
    + apply IH; [assumption|]. intros k Hk Hi. apply (E2 k Hk). right. exact Hi.
  - intros k. rewrite dget_app, dget_dupdate_wf by exact Hwe. reflexivity.
Qed.

Lemma build_header_prefixed b i m t u extra h : wf_dict b -> wf_dict extra -> dget (str "self") b = None ->
  (forall k, In k hidden_keys -> dget k b = None) -> (forall k, In k (keys extra) -> ~ In k reserved_names) ->
  (forall k, In k (keys extra) -> starts_with PREFIX k = false) ->
  build_header b i m t u extra = Ok h -> wf_dict h /\ forall k, dget (PREFIX ++ k) h = dget k b.
Proof.
  intros Hb He Hs Hh Hr Hp H. destruct (build_header_spec b i m t u extra Hb He Hs Hh Hr) as (h' & E & W & G).
  assert (h' = h) by congruence. subst h'. split; [exact W|]. intros k. rewrite G.
  destruct (dget (PREFIX ++ k) (fixed_part i m t u)) as [v|] eqn:E1.
  { exfalso. apply dget_keys in E1. rewrite keys_fixed in E1. apply (reserved_not_prefixed (PREFIX ++ k) k); [unfold reserved_names; apply in_app_iff; auto|reflexivity]. }
  rewrite dget_prefix_map. destruct (dget k b); [reflexivity|]. apply dget_None. intros Hi. apply Hp in Hi.
  assert (starts_with PREFIX (PREFIX ++ k) = true) by (apply starts_with_iff; eauto). congruence.
Qed.

(** extraction from a carrier that holds the baggage text of a context *)
Lemma extract_carrier U st c b st2 h fresh : tables_ok U -> twf U st -> twf U st2 -> baggage_text st c = Some b ->
  wf_dict h -> (forall k, dget (PREFIX ++ k) h = dget k b) ->
  exists st3 c' b' o o', extract U st2 h fresh = (st3, Ok c') /\ baggage_text st3 c' = Some b' /\ (forall k, dget k b' = dget k b) /\
    nth_error (t_rpcs st) c = Some o /\ nth_error (t_rpcs st3) c' = Some o' /\ r_ids o' = r_ids o.
Proof.
  intros HU W W2 Hb Hw Hg. destruct (text_rpc U st c b W Hb) as (o & Ho & Hrpc).
  destruct (nth_error (t_ctxs st) c) as [bag|] eqn:Ec; [|unfold baggage_text in Hb; rewrite Ec in Hb; discriminate].
  pose proof (w_ctx _ _ W c bag Ec) as B.
  assert (Hx : forall k, dget k (extract_args h) = dget k b) by (intros k; rewrite extract_args_get by exact Hw; apply Hg).
  assert (Hids : mk_rpcid U (map SStr (split_dot (root_ids (extract_args h)))) = Ok (r_ids o)).
  { unfold root_ids. rewrite Hx, Hrpc. apply rpcid_text_roundtrip; [exact HU|apply (w_norm _ _ W c o Ho)|apply (w_dots _ _ W c o Ho)]. }
  assert (Hself : forall q, dget q bag = None -> dmem q (extract_args h) = false).
  { intros q Hq. apply dmem_false. rewrite Hx, (text_get st c bag b q Ec Hb), Hq. reflexivity. }
  pose proof (extract_spec U st2 h fresh W2) as S. unfold extract in *. rewrite (Hself _ (b_self _ _ B)), (Hself _ (b_reference _ _ B)) in *. cbn [orb] in *.
  assert (Ess : forall q, dget q bag = None -> dget q (extract_args h) = None).
  { intros q Hq. rewrite Hx, (text_get st c bag b q Ec Hb), Hq. reflexivity. }
  pose proof (context_root_spec U st2 (extract_args h) fresh W2 (wf_dict_of _) (Ess _ (b_self _ _ B)) (Ess _ (b_reference _ _ B))) as R.
  rewrite Hids in R. destruct R as (st3 & E & R1 & R2 & R3 & W3 & G3). rewrite E in *. clear S.
  assert (Hn : nth_error (t_ctxs st3) (length (t_ctxs st2)) = Some (root_bag (length (t_ctxs st2)) (extract_args h) fresh)) by (rewrite R2, nth_error_app2, Nat.sub_diag by lia; reflexivity).
  assert (Hr : nth_error (t_rpcs st3) (length (t_ctxs st2)) = Some {| r_ids := r_ids o; r_count := 0; r_parent := None |}).
  { rewrite R1, <- (w_len _ _ W2), nth_error_app2, Nat.sub_diag by lia. reflexivity. }
  assert (Hb' : exists b', baggage_text st3 (length (t_ctxs st2)) = Some b') by (unfold baggage_text; rewrite Hn; eexists; reflexivity). destruct Hb' as [b' Hb'].
  exists st3, (length (t_ctxs st2)), b', o. eexists. split; [reflexivity|]. split; [exact Hb'|]. split; [|split; [exact Ho|split; [exact Hr|reflexivity]]].
  intros k. rewrite (text_get _ _ _ b' k Hn Hb'), root_get by apply wf_dict_of. destruct (eq_dec k K_rpc) as [->|Hn1].
  { cbn. rewrite Hr. cbn. symmetry. exact Hrpc. }
  destruct (eq_dec k K_trace) as [->|Hn2].
  { destruct (b_trace _ _ B) as [t Ht]. assert (Hbt : dget K_trace b = Some t) by (rewrite (text_get st c bag b K_trace Ec Hb), Ht; reflexivity).
    cbn [option_map bval_str]. rewrite Hx, Hbt. reflexivity. }
  rewrite Hx. destruct (dget k b); reflexivity.
Qed.

Lemma text_self U st c b q : twf U st -> baggage_text st c = Some b -> q = str "self" \/ q = str "reference" -> dget q b = None.
Proof.
  intros W Hb Hq. destruct (nth_error (t_ctxs st) c) as [bag|] eqn:Ec; [|unfold baggage_text in Hb; rewrite Ec in Hb; discriminate].
  rewrite (text_get st c bag b q Ec Hb). destruct Hq as [-> | ->]; [rewrite (b_self _ _ (w_ctx _ _ W c bag Ec))|rewrite (b_reference _ _ (w_ctx _ _ W c bag Ec))]; reflexivity.
Qed.

(** ** C16 *)
Definition derivation (op : bool * nat) : top := TStart [] (Some (if fst op then ChildOf else FollowsFrom, snd op)) [] [].

Lemma trun_derive U ops : forall st, twf U st -> (forall pre k c post, ops = pre ++ (k, c) :: post -> (c < length (t_ctxs st) + length pre)%nat) ->
  t_rpcs (trun U st (map derivation ops)) = derive U (t_rpcs st) ops.
Proof.
  induction ops as [|[k c] ops IH]; intros st W Hc; [reflexivity|]. cbn [map trun fold_left derive].
  assert (Hlt : (c < length (t_ctxs st))%nat) by (pose proof (Hc [] k c ops eq_refl); cbn in *; lia).
  apply nth_error_Some in Hlt. destruct (nth_error (t_ctxs st) c) as [bag|] eqn:Ec; [|congruence].
  destruct (context_from_spec U st (opkind k) c bag W Ec) as (st1 & E & R1 & R2 & R3 & W1 & G1).
  assert (Hst : tstep U st (derivation (k, c)) = {| t_rpcs := t_rpcs st1; t_ctxs := t_ctxs st1; t_spans := t_spans st1 ++ [{| sp_ctx := length (t_ctxs st); sp_name := []; sp_tags := [] |}] |}).
  { unfold derivation. cbn [tstep fst snd]. unfold start_span. change (if k then ChildOf else FollowsFrom) with (opkind k). rewrite E. reflexivity. }
  destruct (tstep_spec U st (derivation (k, c)) W) as [W2 _]. unfold trun in IH. rewrite IH.
  - rewrite Hst. cbn [t_rpcs]. rewrite R1. reflexivity.
  - exact W2.
  - intros pre k' c' post E'. specialize (Hc ((k, c) :: pre) k' c' post ltac:(cbn; f_equal; exact E')). cbn [length] in Hc.
    rewrite Hst. cbn [t_ctxs]. rewrite R2, app_length. cbn [length]. lia.
Qed.

Lemma spans_distinct U root ops : tables_ok U ->
  (exists name tags fresh, root = TStart name None tags fresh) \/ (exists carrier fresh, root = TExtract carrier fresh) ->
  length (t_ctxs (tstep U t_init root)) = 1%nat -> refers_to_existing ops -> follows_latest ops ->
  let st := trun U (tstep U t_init root) (map derivation ops) in
  length (t_ctxs st) = S (length ops) /\
  forall i j bi bj, baggage_text st i = Some bi -> baggage_text st j = Some bj -> dget K_rpc bi = dget K_rpc bj -> i = j.
Proof.
  intros HU Hroot Hl He Hf. destruct (tstep_spec U t_init root (t_init_twf U)) as [W0 _]. remember (tstep U t_init root) as st0 eqn:E0.
  assert (Hr : exists base k0, t_rpcs st0 = [{| r_ids := base ++ [SInt k0]; r_count := 0; r_parent := None |}] /\ normal U (base ++ [SInt k0])).
  { assert (K : forall ids, t_rpcs st0 = t_rpcs t_init ++ [{| r_ids := ids; r_count := 0; r_parent := None |}] -> exists base k0, t_rpcs st0 = [{| r_ids := base ++ [SInt k0]; r_count := 0; r_parent := None |}] /\ normal U (base ++ [SInt k0])).
    { intros ids Hids. pose proof (w_norm _ _ W0 0%nat {| r_ids := ids; r_count := 0; r_parent := None |} ltac:(rewrite Hids; reflexivity)) as N. cbn in N.
      pose proof N as N'. apply normal_snoc in N' as (l & z & -> & _). exists l, z. auto. }
    destruct Hroot as [(name & tags & fresh & ->)|(carrier & fresh & ->)].
    - cbn [tstep] in E0. unfold start_span in E0.
      pose proof (context_root_spec U t_init [] fresh (t_init_twf U) (NoDup_nil _) eq_refl eq_refl) as S. change (root_ids []) with (str "1") in S.
      destruct (mk_rpcid U (map SStr (split_dot (str "1")))) as [ids|e] eqn:Em.
      + destruct S as (st1 & S & R1 & _). rewrite S in E0. apply (K ids). destruct (apply_tags (keys tags) []); cbn in E0; subst st0; exact R1.
      + rewrite S in E0. cbn in E0. subst st0. discriminate.
    - cbn [tstep] in E0. pose proof (extract_spec U t_init carrier fresh (t_init_twf U)) as S. destruct (extract U t_init carrier fresh) as [st1 r].
      cbn in E0. subst st1. destruct S as [[_ ->]|(ids & _ & _ & R1 & _)]; [discriminate|]. apply (K ids R1). }
  destruct Hr as (base & k0 & Hr & Hn). cbv zeta.
  assert (Hd : t_rpcs (trun U st0 (map derivation ops)) = derive U (t_rpcs st0) ops).
  { apply trun_derive; [exact W0|]. intros pre k c post E. rewrite Hl. specialize (He pre k c post E). lia. }
  destruct (trun_spec U (map derivation ops) st0 W0) as [W _].
  pose proof (dinv_derive U base k0 ops Hn He Hf) as D. cbv zeta in D. rewrite <- Hr, <- Hd in D.
  split; [rewrite <- (w_len _ _ W), (d_len _ _ _ _ D); apply length_parents|].
  intros i j bi bj Hi Hj Heq. destruct (text_rpc _ _ _ _ W Hi) as (oi & Hoi & Ei). destruct (text_rpc _ _ _ _ W Hj) as (oj & Hoj & Ej).
  apply (dinv_distinct _ _ _ _ D i j oi oj Hoi Hoj). rewrite Ei, Ej in Heq.
  pose proof (rpcid_text_roundtrip U HU _ (w_norm _ _ W i oi Hoi) (w_dots _ _ W i oi Hoi)) as Ri.
  pose proof (rpcid_text_roundtrip U HU _ (w_norm _ _ W j oj Hoj) (w_dots _ _ W j oj Hoj)) as Rj.
  assert (rpcid_str (r_ids oi) = rpcid_str (r_ids oj)) by congruence. congruence.
Qed.

(** ** C19 *)
Lemma apply_tags_iff l : forall t0 t, apply_tags l t0 = Ok t <->
  (forall k, In k l -> length k = 2%nat) /\ t = dupdate t0 (map (fun k => (firstn 1 k, PStr (skipn 1 k))) l).
Proof.
  induction l as [|k l IH]; intros t0 t; cbn [apply_tags].
  - split; [intros H; injection H as <-; split; [intros k []|reflexivity]|]. intros [_ ->]. reflexivity.
  - destruct k as [|a [|b [|c k]]].
    + split; [discriminate|]. intros [H _]. specialize (H [] (or_introl eq_refl)). discriminate.
    + split; [discriminate|]. intros [H _]. specialize (H [a] (or_introl eq_refl)). discriminate.
    + rewrite IH. cbn [map firstn skipn]. split.
      * intros [H ->]. split; [|reflexivity]. intros k [<-|Hk]; [reflexivity|apply H; exact Hk].
      * intros [H ->]. split; [|reflexivity]. intros k Hk. apply H. right. exact Hk.
    + split; [discriminate|]. intros [H _]. specialize (H (a :: b :: c :: k) (or_introl eq_refl)). discriminate.
Qed.

Lemma apply_tags_never l t : apply_tags (keys l) [] = Ok t -> l <> [] -> t <> l.
Proof.
  intros H Hne ->. apply apply_tags_iff in H as [H E]. destruct l as [|[k v] l]; [congruence|].
  pose proof (H k ltac:(left; reflexivity)) as Hk. assert (Hi : In k (keys ((k, v) :: l))) by (left; reflexivity).
  rewrite E in Hi. apply keys_dupdate_In in Hi as [[]|Hi]. unfold keys in Hi. rewrite map_map in Hi. cbn [fst] in Hi.
  apply in_map_iff in Hi as (q & E' & Hq). specialize (H q Hq). destruct q as [|a q]; [discriminate|]. cbn in E'. subst k. discriminate.
Qed.

(** Lemmas about the tracer model. *)
From Coq Require Import ZifyBool Strings.String.
From Verif Require Import PyBase L_PyBase PyDict L_PyDict PyInt L_PyInt M_RpcId S_Rpc L_RpcId M_SofaHeader M_Trace.

Lemma dget_rev {K V} `{EqDec K} (l : dict K V) k : wf_dict l -> dget k (rev l) = dget k l.
Proof.
  intros Hw. destruct (dget k l) as [v|] eqn:E.
  - apply In_dget; [|apply in_rev; rewrite rev_involutive; apply dget_In; exact E].
    unfold wf_dict, keys in *. rewrite map_rev. apply NoDup_rev. exact Hw.
  - apply dget_None in E. apply dget_None. unfold keys in *. rewrite map_rev. intros Hi. apply E. apply in_rev. exact Hi.
Qed.

Lemma dget_dupdate_wf {K V} `{EqDec K} (d l : dict K V) k : wf_dict l ->
  dget k (dupdate d l) = match dget k l with Some v => Some v | None => dget k d end.
Proof. intros Hw. rewrite dget_dupdate, dget_rev by exact Hw. reflexivity. Qed.

Lemma dget_map_val {K V W} `{EqDec K} (f : V -> W) (d : dict K V) k :
  dget k (map (fun kv => (fst kv, f (snd kv))) d) = option_map f (dget k d).
Proof. induction d as [|[k' v'] d IH]; [reflexivity|]. cbn [map dget fst snd]. destruct (eq_dec k k'); [reflexivity|exact IH]. Qed.

Lemma keys_map_val {K V W} (f : V -> W) (d : dict K V) : keys (map (fun kv => (fst kv, f (snd kv))) d) = keys d.
Proof. unfold keys. rewrite map_map. reflexivity. Qed.

Lemma wf_map_val {K V W} `{EqDec K} (f : V -> W) (d : dict K V) : wf_dict d -> wf_dict (map (fun kv => (fst kv, f (snd kv))) d).
Proof. unfold wf_dict. rewrite keys_map_val. auto. Qed.

Lemma dget_ddel {K V} `{EqDec K} (d : dict K V) k k' : wf_dict d -> dget k (ddel k' d) = if eq_dec k k' then None else dget k d.
Proof. intros Hw. destruct (eq_dec k k') as [->|Hn]; [apply dget_ddel_same; exact Hw|apply dget_ddel_other; exact Hn]. Qed.

Lemma K_trace_rpc : K_trace <> K_rpc. Proof. vm_compute. discriminate. Qed.

(** ** the invariant of the tracer *)
Record bag_ok (c : nat) (bag : baggage) : Prop := {
  b_wf : wf_dict bag;
  b_rpc : dget K_rpc bag = Some (BRpc c);
  b_trace : exists t, dget K_trace bag = Some (BTrace t);
  b_other : forall k v, dget k bag = Some v -> k <> K_rpc -> k <> K_trace -> exists s, v = BStr s;
  b_self : dget (str "self") bag = None;
  b_reference : dget (str "reference") bag = None }.

Record twf (U : tables) (st : tstate) : Prop := {
  w_len : length (t_rpcs st) = length (t_ctxs st);
  w_norm : heap_normal U (t_rpcs st);
  w_dots : forall i o, nth_error (t_rpcs st) i = Some o -> no_dots (r_ids o);
  w_ctx : forall c bag, nth_error (t_ctxs st) c = Some bag -> bag_ok c bag;
  w_span : forall s sp, nth_error (t_spans st) s = Some sp -> (sp_ctx sp < length (t_ctxs st))%nat }.

(** what no operation changes *)
Definition grows (st st' : tstate) : Prop :=
  same_ids (t_rpcs st) (t_rpcs st') /\ (forall c bag, nth_error (t_ctxs st) c = Some bag -> nth_error (t_ctxs st') c = Some bag).

Lemma grows_refl st : grows st st. Proof. split; [apply same_ids_refl|auto]. Qed.
Lemma grows_trans a b c : grows a b -> grows b c -> grows a c.
Proof. intros [A B] [A' B']. split; [eapply same_ids_trans; eassumption|auto]. Qed.

Lemma map_ext_In_dict {V W} (f g : pystr * V -> W) (d : list (pystr * V)) : (forall kv, In kv d -> f kv = g kv) -> map f d = map g d.
Proof. apply map_ext_in. Qed.

Lemma grows_text U st st' c b : twf U st -> grows st st' -> baggage_text st c = Some b -> baggage_text st' c = Some b.
Proof.
  intros W [G1 G2] H. unfold baggage_text in *. destruct (nth_error (t_ctxs st) c) as [bag|] eqn:E; [|discriminate].
  rewrite (G2 c bag E). cbn [option_map] in *. injection H as <-. apply (f_equal Some). apply map_ext_in. intros [k v] Hi. cbn [fst snd]. f_equal.
  destruct (w_ctx _ _ W c bag E) as [Bw Br [t Bt] Bo _ _]. apply (In_dget k v bag Bw) in Hi.
  destruct v as [s|s|r]; try reflexivity. cbn [bval_str].
  assert (r = c). { destruct (pystr_eq_dec k K_rpc) as [->|Hn]; [congruence|]. destruct (pystr_eq_dec k K_trace) as [->|Hn']; [congruence|].
    destruct (Bo k _ Hi Hn Hn') as [s Hs]. discriminate. }
  subst r. assert (Hlt : (c < length (t_rpcs st))%nat) by (rewrite (w_len _ _ W); apply nth_error_Some; congruence).
  apply nth_error_Some in Hlt. destruct (nth_error (t_rpcs st) c) as [o|] eqn:Eo; [|congruence].
  destruct (G1 c o Eo) as (o' & A & B & _). rewrite A, B. reflexivity.
Qed.

(** ** context construction *)
Lemma no_dots_snoc l z : no_dots l -> no_dots (l ++ [SInt z]).
Proof. intros H. apply Forall_app. split; [exact H|constructor; auto]. Qed.

Lemma new_ref_dots U h i t : heap_normal U h -> (i < length h)%nat -> (forall j o, nth_error h j = Some o -> no_dots (r_ids o)) ->
  forall j o, nth_error (fst (new_by_reference_type U h i t)) j = Some o -> no_dots (r_ids o).
Proof.
  intros Hh Hi Hd. destruct (nth_error h i) as [oi|] eqn:Ei; [|apply nth_error_None in Ei; lia].
  pose proof (Hh i oi Ei) as Hn.
  assert (B : forall p j o, nth_error (bump p h) j = Some o -> no_dots (r_ids o)).
  { intros p j o Hj. rewrite nth_bump in Hj. destruct (nth_error h j) as [q|] eqn:Eq; [|discriminate]. injection Hj as <-.
    destruct (Nat.eqb p j); cbn; apply (Hd j q Eq). }
  destruct t; cbn [new_by_reference_type].
  - rewrite (new_child_spec U h i oi Ei Hn). cbn [fst]. intros j o Hj. apply nth_error_snoc in Hj as [Hj|[_ ->]]; [apply (B _ _ _ Hj)|].
    cbn. apply no_dots_snoc. apply (Hd i oi Ei).
  - pose proof Hn as Hn'. apply normal_snoc in Hn' as (l & z & Hz & Hf). rewrite (new_follows_spec U h i oi l z Ei Hn Hz). cbn [fst].
    intros j o Hj. apply nth_error_snoc in Hj as [Hj|[_ ->]].
    + destruct (r_parent oi); [apply (B _ _ _ Hj)|apply (Hd j o Hj)].
    + cbn. apply no_dots_snoc. pose proof (Hd i oi Ei) as Hx. rewrite Hz in Hx. apply Forall_app in Hx. apply Hx.
Qed.

Definition derived_bag (n : nat) (bag : baggage) : baggage := dupdate [(K_rpc, BRpc n)] (ddel K_rpc bag).

Lemma derived_get n bag k : wf_dict bag -> dget k (derived_bag n bag) = if eq_dec k K_rpc then Some (BRpc n) else dget k bag.
Proof.
  intros Hw. unfold derived_bag. rewrite dget_dupdate_wf by (apply wf_ddel; exact Hw). rewrite dget_ddel by exact Hw. cbn [dget].
  destruct (eq_dec k K_rpc); [reflexivity|]. destruct (dget k bag); reflexivity.
Qed.

Lemma derived_ok c n bag : bag_ok c bag -> bag_ok n (derived_bag n bag).
Proof.
  intros [Bw Br [t Bt] Bo Bs Bf]. split.
  - apply wf_dupdate. constructor; [intros []|constructor].
  - rewrite derived_get by exact Bw. destruct (eq_dec K_rpc K_rpc); [reflexivity|congruence].
  - exists t. rewrite derived_get by exact Bw. destruct (eq_dec K_trace K_rpc) as [E|]; [exfalso; exact (K_trace_rpc E)|exact Bt].
  - intros k v. rewrite derived_get by exact Bw. destruct (eq_dec k K_rpc); [congruence|]. apply Bo.
  - rewrite derived_get by exact Bw. destruct (eq_dec _ K_rpc) as [E|]; [vm_compute in E; discriminate|exact Bs].
  - rewrite derived_get by exact Bw. destruct (eq_dec _ K_rpc) as [E|]; [vm_compute in E; discriminate|exact Bf].
Qed.

Lemma context_from_spec U st t c bag : twf U st -> nth_error (t_ctxs st) c = Some bag ->
  exists st', context_from U st t c = (st', Ok (length (t_ctxs st))) /\
    t_rpcs st' = fst (new_by_reference_type U (t_rpcs st) c t) /\
    t_ctxs st' = t_ctxs st ++ [derived_bag (length (t_ctxs st)) bag] /\ t_spans st' = t_spans st /\
    twf U st' /\ grows st st'.
Proof.
  intros W Hc. pose proof (w_ctx _ _ W c bag Hc) as B. unfold context_from. rewrite Hc, (b_rpc _ _ B).
  assert (Hlt : (c < length (t_rpcs st))%nat) by (rewrite (w_len _ _ W); apply nth_error_Some; congruence).
  destruct (new_ref_spec U (t_rpcs st) c t (w_norm _ _ W) Hlt) as (h' & o & E & L & S & No & Hn).
  pose proof (new_ref_dots U (t_rpcs st) c t (w_norm _ _ W) Hlt (w_dots _ _ W)) as Hd. rewrite E in *. cbn [fst] in *.
  eexists. split; [reflexivity|]. split; [reflexivity|]. rewrite (w_len _ _ W).
  split; [reflexivity|]. split; [reflexivity|]. split; [|split].
  - split; cbn [t_rpcs t_ctxs t_spans].
    + rewrite !app_length, L, (w_len _ _ W). reflexivity.
    + exact Hn.
    + exact Hd.
    + intros c' bag' Hc'. apply nth_error_snoc in Hc' as [Hc'|[-> ->]]; [apply (w_ctx _ _ W c' bag' Hc')|]. apply (derived_ok c). exact B.
    + intros s sp Hs. rewrite app_length. pose proof (w_span _ _ W s sp Hs). lia.
  - cbn. eapply same_ids_trans; [exact S|apply same_ids_app].
  - cbn. intros c' bag' Hc'. rewrite nth_error_app1; [exact Hc'|]. apply nth_error_Some. congruence.
Qed.

Lemma context_from_bad U st t c : nth_error (t_ctxs st) c = None -> context_from U st t c = (st, Raise AttributeError).
Proof. intros H. unfold context_from. rewrite H. reflexivity. Qed.

(** baggage of a root context *)
Definition root_bag (n : nat) (kwargs : dict pystr pystr) (fresh : pystr) : baggage :=
  dset K_rpc (BRpc n) (ddel K_rpc (dset K_trace (BTrace (match dget K_trace kwargs with Some s => s | None => fresh end))
    (ddel K_trace (map (fun kv => (fst kv, BStr (snd kv))) kwargs)))).

Lemma root_get n kwargs fresh k : wf_dict kwargs -> dget k (root_bag n kwargs fresh) =
  if eq_dec k K_rpc then Some (BRpc n) else if eq_dec k K_trace then Some (BTrace (match dget K_trace kwargs with Some s => s | None => fresh end))
  else option_map BStr (dget k kwargs).
Proof.
  intros Hw. unfold root_bag. rewrite dget_dset. destruct (eq_dec k K_rpc) as [->|Hn]; [reflexivity|].
  rewrite dget_ddel_other by exact Hn. rewrite dget_dset. destruct (eq_dec k K_trace) as [->|Hn']; [reflexivity|].
  rewrite dget_ddel_other by exact Hn'. apply dget_map_val.
Qed.

Lemma root_ok n kwargs fresh : wf_dict kwargs -> dget (str "self") kwargs = None -> dget (str "reference") kwargs = None ->
  bag_ok n (root_bag n kwargs fresh).
Proof.
  intros Hw Hs Hr. split.
  - unfold root_bag. apply wf_dset, wf_ddel, wf_dset, wf_ddel, wf_map_val. exact Hw.
  - rewrite root_get by exact Hw. destruct (eq_dec K_rpc K_rpc); [reflexivity|congruence].
  - eexists. rewrite root_get by exact Hw. destruct (eq_dec K_trace K_rpc) as [E|]; [exfalso; exact (K_trace_rpc E)|].
    destruct (eq_dec K_trace K_trace); [reflexivity|congruence].
  - intros k v. rewrite root_get by exact Hw. destruct (eq_dec k K_rpc); [congruence|]. destruct (eq_dec k K_trace); [congruence|].
    destruct (dget k kwargs) as [s|]; cbn; [|discriminate]. intros E _ _. injection E as <-. eauto.
  - rewrite root_get by exact Hw. destruct (eq_dec _ K_rpc) as [E|]; [vm_compute in E; discriminate|].
    destruct (eq_dec _ K_trace) as [E|]; [vm_compute in E; discriminate|]. rewrite Hs. reflexivity.
  - rewrite root_get by exact Hw. destruct (eq_dec _ K_rpc) as [E|]; [vm_compute in E; discriminate|].
    destruct (eq_dec _ K_trace) as [E|]; [vm_compute in E; discriminate|]. rewrite Hr. reflexivity.
Qed.

Definition root_ids (kwargs : dict pystr pystr) : pystr := match dget K_rpc kwargs with Some s => s | None => str "1" end.

Lemma text_no_dots U s ids : mk_rpcid U (map SStr (split_dot s)) = Ok ids -> no_dots ids.
Proof.
  intros H. apply (mk_rpcid_no_dots _ _ _ H). apply Forall_forall. intros x Hx. apply in_map_iff in Hx as (w & <- & Hw).
  pose proof (split_parts_no_dot s) as Hp. rewrite Forall_forall in Hp. auto.
Qed.

Lemma context_root_spec U st kwargs fresh : twf U st -> wf_dict kwargs -> dget (str "self") kwargs = None -> dget (str "reference") kwargs = None ->
  match mk_rpcid U (map SStr (split_dot (root_ids kwargs))) with
  | Raise e => context_root U st kwargs fresh = (st, Raise e)
  | Ok ids => exists st', context_root U st kwargs fresh = (st', Ok (length (t_ctxs st))) /\
      t_rpcs st' = t_rpcs st ++ [{| r_ids := ids; r_count := 0; r_parent := None |}] /\
      t_ctxs st' = t_ctxs st ++ [root_bag (length (t_ctxs st)) kwargs fresh] /\ t_spans st' = t_spans st /\
      twf U st' /\ grows st st'
  end.
Proof.
  intros W Hw Hs Hr. unfold context_root. fold (root_ids kwargs).
  destruct (mk_rpcid U (map SStr (split_dot (root_ids kwargs)))) as [ids|e] eqn:E; [|reflexivity].
  eexists. split; [reflexivity|]. split; [reflexivity|]. rewrite <- (w_len _ _ W). split; [reflexivity|]. split; [reflexivity|]. split; [|split].
  - split; cbn [t_rpcs t_ctxs t_spans].
    + rewrite !app_length, (w_len _ _ W). reflexivity.
    + intros i o Hi. apply nth_error_snoc in Hi as [Hi|[_ ->]]; [apply (w_norm _ _ W i o Hi)|]. apply (mk_rpcid_normal _ _ _ E).
    + intros i o Hi. apply nth_error_snoc in Hi as [Hi|[_ ->]]; [apply (w_dots _ _ W i o Hi)|]. apply (text_no_dots _ _ _ E).
    + intros c bag Hc. apply nth_error_snoc in Hc as [Hc|[-> ->]]; [apply (w_ctx _ _ W c bag Hc)|]. rewrite <- (w_len _ _ W).
      apply root_ok; assumption.
    + intros s sp Hsp. rewrite app_length. pose proof (w_span _ _ W s sp Hsp). lia.
  - cbn. apply same_ids_app.
  - cbn. intros c bag Hc. rewrite nth_error_app1; [exact Hc|]. apply nth_error_Some. congruence.
Qed.

Lemma mk_rpcid_text_errors U s e : mk_rpcid U (map SStr (split_dot s)) = Raise e -> e = TypeError.
Proof.
  unfold mk_rpcid. destruct (map SStr (split_dot s)); [discriminate|]. destruct (last _ _); [discriminate|].
  intros H. injection H as <-. reflexivity.
Qed.

(** ** operations *)
Definition add_span (st : tstate) (sp : span) : tstate := {| t_rpcs := t_rpcs st; t_ctxs := t_ctxs st; t_spans := t_spans st ++ [sp] |}.

Lemma add_span_twf U st sp : twf U st -> (sp_ctx sp < length (t_ctxs st))%nat -> twf U (add_span st sp).
Proof.
  intros [A B C D E] H. split; cbn; try assumption. intros s sp' Hs. apply nth_error_snoc in Hs as [Hs|[_ ->]]; [apply (E s sp' Hs)|exact H].
Qed.

Lemma start_span_spec U st name ref tags fresh : twf U st ->
  let '(st', r) := start_span U st name ref tags fresh in
  twf U st' /\ grows st st' /\
  (forall s, r = Ok s -> s = length (t_spans st) /\ exists sp, nth_error (t_spans st') s = Some sp /\ sp_ctx sp = length (t_ctxs st) /\
     sp_name sp = name /\ apply_tags (keys tags) [] = Ok (sp_tags sp) /\
     match ref with
     | Some (t, c) => exists bag, nth_error (t_ctxs st) c = Some bag /\
         t_rpcs st' = fst (new_by_reference_type U (t_rpcs st) c t) /\
         t_ctxs st' = t_ctxs st ++ [derived_bag (length (t_ctxs st)) bag]
     | None => exists ids, mk_rpcid U (map SStr (split_dot (str "1"))) = Ok ids /\
         t_rpcs st' = t_rpcs st ++ [{| r_ids := ids; r_count := 0; r_parent := None |}] /\
         t_ctxs st' = t_ctxs st ++ [root_bag (length (t_ctxs st)) [] fresh]
     end).
Proof.
  intros W. unfold start_span. destruct ref as [[t c]|].
  - destruct (nth_error (t_ctxs st) c) as [bag|] eqn:Ec.
    + destruct (context_from_spec U st t c bag W Ec) as (st1 & E & R1 & R2 & R3 & W1 & G1). rewrite E.
      destruct (apply_tags (keys tags) []) as [tg|e] eqn:Et; [|split; [exact W1|split; [exact G1|discriminate]]].
      split; [apply (add_span_twf U st1 {| sp_ctx := _; sp_name := _; sp_tags := _ |}); [exact W1|]; cbn; rewrite R2, app_length; cbn; lia|].
      split; [exact G1|]. intros s Hs. injection Hs as <-. rewrite R3. split; [reflexivity|]. eexists. cbn [t_spans]. rewrite nth_error_app2, Nat.sub_diag by lia.
      split; [reflexivity|]. cbn [sp_ctx sp_name sp_tags t_rpcs t_ctxs]. repeat (split; [reflexivity|]). exists bag. auto.
    + rewrite (context_from_bad U st t c Ec). split; [exact W|]. split; [apply grows_refl|discriminate].
  - pose proof (context_root_spec U st [] fresh W (NoDup_nil _) eq_refl eq_refl) as H. change (root_ids []) with (str "1") in H.
    destruct (mk_rpcid U (map SStr (split_dot (str "1")))) as [ids|e] eqn:Em.
    + destruct H as (st1 & E & R1 & R2 & R3 & W1 & G1). rewrite E.
      destruct (apply_tags (keys tags) []) as [tg|e] eqn:Et; [|split; [exact W1|split; [exact G1|discriminate]]].
      split; [apply (add_span_twf U st1 {| sp_ctx := _; sp_name := _; sp_tags := _ |}); [exact W1|]; cbn; rewrite R2, app_length; cbn; lia|].
      split; [exact G1|]. intros s Hs. injection Hs as <-. rewrite R3. split; [reflexivity|]. eexists. cbn [t_spans]. rewrite nth_error_app2, Nat.sub_diag by lia.
      split; [reflexivity|]. cbn [sp_ctx sp_name sp_tags t_rpcs t_ctxs]. repeat (split; [reflexivity|]). exists ids. auto.
    + rewrite H. split; [exact W|]. split; [apply grows_refl|discriminate].
Qed.

(** extraction *)
Lemma starts_with_iff p s : starts_with p s = true <-> exists k, s = p ++ k.
Proof.
  revert s. induction p as [|a p IH]; intros s; [split; [exists s; reflexivity|reflexivity]|]. destruct s as [|b s]; cbn [starts_with].
  - split; [discriminate|]. intros [k H]. discriminate.
  - rewrite andb_true_iff, IH. split.
    + intros [H [k ->]]. assert (a = b) by lia. subst b. exists k. reflexivity.
    + intros [k H]. cbn in H. injection H as -> ->. split; [lia|eauto].
Qed.

Lemma after_dot_prefix k : after_dot (PREFIX ++ k) = k.
Proof. reflexivity. Qed.

Definition prefixed (carrier : dict pystr pystr) : dict pystr pystr :=
  map (fun kv => (after_dot (fst kv), snd kv)) (filter (fun kv => starts_with PREFIX (fst kv)) carrier).

Lemma prefixed_get carrier k : dget k (prefixed carrier) = dget (PREFIX ++ k) carrier.
Proof.
  unfold prefixed. induction carrier as [|[k' v'] d IH]; [reflexivity|]. cbn [filter fst]. destruct (starts_with PREFIX k') eqn:E.
  - apply starts_with_iff in E as [q ->]. cbn [map fst snd dget]. rewrite after_dot_prefix.
    destruct (eq_dec k q) as [->|Hn]; [destruct (eq_dec (PREFIX ++ q) (PREFIX ++ q)); [reflexivity|congruence]|].
    destruct (eq_dec (PREFIX ++ k) (PREFIX ++ q)) as [H|_]; [apply app_inv_head in H; congruence|exact IH].
  - cbn [dget]. destruct (eq_dec (PREFIX ++ k) k') as [H|_]; [|exact IH]. exfalso.
    assert (starts_with PREFIX k' = true) by (apply starts_with_iff; eauto). congruence.
Qed.

Lemma prefixed_wf carrier : wf_dict carrier -> wf_dict (prefixed carrier).
Proof.
  unfold wf_dict, keys, prefixed. induction carrier as [|[k' v'] d IH]; intros H; [constructor|]. inversion H as [|x l Hn Hd]; subst. cbn [filter fst].
  destruct (starts_with PREFIX k') eqn:E; [|apply IH; exact Hd]. cbn [map fst]. constructor; [|apply IH; exact Hd].
  intros Hi. apply Hn. apply in_map_iff in Hi as ([k v] & E1 & Hi). apply in_map_iff in Hi as ([k2 v2] & E2 & Hi). apply filter_In in Hi as [Hi Hs].
  cbn [fst snd] in *. injection E2 as E2 ->. apply starts_with_iff in E as [q ->]. apply starts_with_iff in Hs as [q2 ->]. rewrite after_dot_prefix in *. subst.
  apply in_map_iff. eexists. split; [|exact Hi]. cbn [fst]. congruence.
Qed.

Lemma extract_args_get carrier k : wf_dict carrier -> dget k (extract_args carrier) = dget (PREFIX ++ k) carrier.
Proof. intros Hw. unfold extract_args. fold (prefixed carrier). rewrite dict_of_id by (apply prefixed_wf; exact Hw). apply prefixed_get. Qed.

Lemma extract_spec U st carrier fresh : twf U st ->
  let '(st', r) := extract U st carrier fresh in
  (r = Raise InvalidCarrierException /\ st' = st) \/
  (exists ids, r = Ok (length (t_ctxs st)) /\
    mk_rpcid U (map SStr (split_dot (root_ids (extract_args carrier)))) = Ok ids /\
    t_rpcs st' = t_rpcs st ++ [{| r_ids := ids; r_count := 0; r_parent := None |}] /\
    t_ctxs st' = t_ctxs st ++ [root_bag (length (t_ctxs st)) (extract_args carrier) fresh] /\ t_spans st' = t_spans st /\
    twf U st' /\ grows st st').
Proof.
  intros W. unfold extract. destruct (dmem (str "self") (extract_args carrier) || dmem (str "reference") (extract_args carrier)) eqn:E.
  { left. auto. }
  apply orb_false_iff in E as [E1 E2].
  assert (Es : dget (str "self") (extract_args carrier) = None) by (unfold dmem in E1; destruct (dget _ _); [discriminate|reflexivity]).
  assert (Er : dget (str "reference") (extract_args carrier) = None) by (unfold dmem in E2; destruct (dget _ _); [discriminate|reflexivity]).
  pose proof (context_root_spec U st (extract_args carrier) fresh W (wf_dict_of _) Es Er) as H.
  destruct (mk_rpcid U (map SStr (split_dot (root_ids (extract_args carrier))))) as [ids|e].
  - destruct H as (st1 & H & R). rewrite H. right. exists ids. auto.
  - rewrite H. left. auto.
Qed.

Lemma set_tag_twf U st s k v : twf U st -> twf U (set_tag st s k v).
Proof.
  intros [A B C D E]. split; cbn; try assumption. intros j sp Hj. rewrite nth_error_map in Hj.
  destruct (nth_error (combine (seq 0 (length (t_spans st))) (t_spans st)) j) as [[i sp0]|] eqn:Ej; [|discriminate].
  apply nth_error_In, in_combine_r in Ej. apply In_nth_error in Ej as [j0 Hj0]. cbn in Hj. injection Hj as <-.
  destruct (Nat.eqb i s); cbn; apply (E j0 sp0 Hj0).
Qed.

Lemma tstep_spec U st o : twf U st -> twf U (tstep U st o) /\ grows st (tstep U st o).
Proof.
  intros W. destruct o as [n r t f|ca f|s k v|s k v]; cbn [tstep].
  - pose proof (start_span_spec U st n r t f W) as H. destruct (start_span U st n r t f) as [st' x]. cbn. tauto.
  - pose proof (extract_spec U st ca f W) as H. destruct (extract U st ca f) as [st' x]. cbn. destruct H as [[_ ->]|(ids & H)]; [split; [exact W|apply grows_refl]|tauto].
  - unfold set_baggage_item. destruct (nth_error (t_spans st) s); cbn; split; try exact W; apply grows_refl.
  - split; [apply set_tag_twf; exact W|]. split; cbn; [apply same_ids_refl|auto].
Qed.

Lemma trun_spec U ops : forall st, twf U st -> twf U (trun U st ops) /\ grows st (trun U st ops).
Proof.
  induction ops as [|o ops IH]; intros st W; [split; [exact W|apply grows_refl]|]. cbn [trun fold_left].
  destruct (tstep_spec U st o W) as [W1 G1]. destruct (IH _ W1) as [W2 G2]. split; [exact W2|]. eapply grows_trans; eassumption.
Qed.

Lemma t_init_twf U : twf U t_init.
Proof.
  split; cbn; try reflexivity.
  - intros i o H. destruct i; discriminate.
  - intros i o H. destruct i; discriminate.
  - intros i o H. destruct i; discriminate.
  - intros i o H. destruct i; discriminate.
Qed.

Lemma reachable_twf U ops : twf U (trun U t_init ops).
Proof. apply trun_spec, t_init_twf. Qed.

(** ** baggage as text *)
Lemma text_get st c bag b k : nth_error (t_ctxs st) c = Some bag -> baggage_text st c = Some b ->
  dget k b = option_map (bval_str (t_rpcs st)) (dget k bag).
Proof. intros Hc Hb. unfold baggage_text in Hb. rewrite Hc in Hb. cbn in Hb. injection Hb as <-. apply dget_map_val. Qed.

Lemma text_wf U st c b : twf U st -> baggage_text st c = Some b -> wf_dict b.
Proof.
  intros W Hb. unfold baggage_text in Hb. destruct (nth_error (t_ctxs st) c) as [bag|] eqn:E; [|discriminate]. cbn in Hb. injection Hb as <-.
  apply wf_map_val. apply (w_ctx _ _ W c bag E).
Qed.

Lemma text_exists st c : baggage_text st c = None <-> (length (t_ctxs st) <= c)%nat.
Proof.
  unfold baggage_text. rewrite <- nth_error_None. destruct (nth_error (t_ctxs st) c); cbn; split; intros H; solve [discriminate H|reflexivity].
Qed.

Lemma text_rpc U st c b : twf U st -> baggage_text st c = Some b -> exists o, nth_error (t_rpcs st) c = Some o /\ dget K_rpc b = Some (rpcid_str (r_ids o)).
Proof.
  intros W Hb. destruct (nth_error (t_ctxs st) c) as [bag|] eqn:E; [|unfold baggage_text in Hb; rewrite E in Hb; discriminate].
  assert (Hlt : (c < length (t_rpcs st))%nat) by (rewrite (w_len _ _ W); apply nth_error_Some; congruence).
  apply nth_error_Some in Hlt. destruct (nth_error (t_rpcs st) c) as [o|] eqn:Eo; [|congruence]. exists o. split; [reflexivity|].
  rewrite (text_get st c bag b K_rpc E Hb), (b_rpc _ _ (w_ctx _ _ W c bag E)). cbn. rewrite Eo. reflexivity.
Qed.

(** ** C14 *)
Lemma derived_text U st t c name tags fresh st' s : twf U st -> start_span U st name (Some (t, c)) tags fresh = (st', Ok s) ->
  exists sp b b', nth_error (t_spans st') s = Some sp /\ baggage_text st c = Some b /\ baggage_text st' (sp_ctx sp) = Some b' /\
    forall k, k <> K_rpc -> dget k b' = dget k b.
Proof.
  intros W H. pose proof (start_span_spec U st name (Some (t, c)) tags fresh W) as S. rewrite H in S. destruct S as (W' & G & S).
  destruct (S s eq_refl) as (_ & sp & Hsp & Hc & _ & _ & bag & Hbag & R1 & R2). exists sp.
  assert (Hb : exists b, baggage_text st c = Some b) by (unfold baggage_text; rewrite Hbag; eexists; reflexivity). destruct Hb as [b Hb].
  assert (Hn : nth_error (t_ctxs st') (sp_ctx sp) = Some (derived_bag (length (t_ctxs st)) bag)) by (rewrite R2, Hc, nth_error_app2, Nat.sub_diag by lia; reflexivity).
  assert (Hb' : exists b', baggage_text st' (sp_ctx sp) = Some b') by (unfold baggage_text; rewrite Hn; eexists; reflexivity). destruct Hb' as [b' Hb'].
  exists b, b'. split; [exact Hsp|]. split; [exact Hb|]. split; [exact Hb'|]. intros k Hk.
  pose proof (w_ctx _ _ W c bag Hbag) as B.
  rewrite (text_get st' _ _ b' k Hn Hb'), (text_get st c bag b k Hbag Hb), derived_get by apply B.
  destruct (eq_dec k K_rpc) as [E|_]; [congruence|]. destruct (dget k bag) as [v|] eqn:Ev; [|reflexivity]. cbn. f_equal.
  destruct v as [x|x|r]; try reflexivity. exfalso. destruct (pystr_eq_dec k K_trace) as [->|Hn'].
  - destruct (b_trace _ _ B) as [q Hq]. congruence.
  - destruct (b_other _ _ B k _ Ev Hk Hn') as [q Hq]. discriminate.
Qed.

Lemma join_snoc l x : l <> [] -> join_dot (l ++ [x]) = join_dot l ++ 46 :: x.
Proof.
  induction l as [|y l IH]; intros H; [congruence|]. destruct l as [|z l]; [reflexivity|].
  change ((y :: z :: l) ++ [x]) with (y :: (z :: l) ++ [x]). change (join_dot (y :: (z :: l) ++ [x])) with (y ++ 46 :: join_dot ((z :: l) ++ [x])).
  rewrite IH by discriminate. change (join_dot (y :: z :: l)) with (y ++ 46 :: join_dot (z :: l)). rewrite <- app_assoc. reflexivity.
Qed.

(** the rpc id of a child is the parent's followed by a positive count; of a follow-up, the origin's with the last number plus one *)
Lemma derived_rpc U st t c name tags fresh st' s : twf U st -> start_span U st name (Some (t, c)) tags fresh = (st', Ok s) ->
  exists o o', nth_error (t_rpcs st) c = Some o /\ nth_error (t_rpcs st') (length (t_ctxs st)) = Some o' /\
   match t with
   | ChildOf => r_ids o' = r_ids o ++ [SInt (r_count o + 1)]
   | FollowsFrom => exists l z, r_ids o = l ++ [SInt z] /\ r_ids o' = l ++ [SInt (z + 1)]
   end.
Proof.
  intros W H. pose proof (start_span_spec U st name (Some (t, c)) tags fresh W) as S. rewrite H in S. destruct S as (W' & G & S).
  destruct (S s eq_refl) as (_ & sp & Hsp & Hc & _ & _ & bag & Hbag & R1 & R2).
  assert (Hlt : (c < length (t_rpcs st))%nat) by (rewrite (w_len _ _ W); apply nth_error_Some; congruence).
  apply nth_error_Some in Hlt. destruct (nth_error (t_rpcs st) c) as [o|] eqn:Eo; [|congruence]. exists o.
  pose proof (w_norm _ _ W c o Eo) as No. rewrite R1, <- (w_len _ _ W). destruct t; cbn [new_by_reference_type].
  - rewrite (new_child_spec U _ c o Eo No). cbn [fst]. eexists. rewrite nth_error_app2, length_bump, Nat.sub_diag by (rewrite length_bump; lia). repeat split.
  - pose proof No as No'. apply normal_snoc in No' as (l & z & Hz & _). rewrite (new_follows_spec U _ c o l z Eo No Hz). cbn [fst].
    assert (L : length (match r_parent o with Some p => bump p (t_rpcs st) | None => t_rpcs st end) = length (t_rpcs st)) by (destruct (r_parent o); [apply length_bump|reflexivity]).
    eexists. rewrite nth_error_app2, L, Nat.sub_diag by lia. split; [reflexivity|]. split; [reflexivity|]. exists l, z. auto.
Qed.

(** Lemmas behind the statements of P_Span. *)
From Coq Require Import ZifyBool Strings.String Sorted.
From Verif Require Import PyBase L_PyBase PyDict L_PyDict PyInt L_PyInt M_RpcId S_Rpc L_RpcId M_Trace L_Trace L_Trace2 M_Span S_Span.

Lemma seg_eqb_eq x y : seg_eqb x y = true <-> x = y.
Proof.
  destruct x as [a|a], y as [b|b]; cbn [seg_eqb]; try (split; intros; discriminate).
  - rewrite Z.eqb_eq. split; congruence.
  - rewrite pystr_eqb_eq. split; congruence.
Qed.

Lemma rpcid_eqb_eq a b : rpcid_eqb a b = true <-> a = b.
Proof.
  unfold rpcid_eqb. destruct (Nat.eqb_spec (List.length a) (List.length b)) as [E|E].
  - revert b E. induction a as [|x a IH]; intros [|y b] E; try discriminate E; [split; reflexivity|].
    cbn [combine forallb fst snd]. rewrite andb_true_iff, seg_eqb_eq, IH by (injection E as E; exact E). split; [intros [-> ->]; reflexivity|]. intros H. injection H. auto.
  - split; [discriminate|]. intros ->. congruence.
Qed.

Lemma text_inj U a b : tables_ok U -> normal U a -> no_dots a -> normal U b -> no_dots b -> rpcid_str a = rpcid_str b -> a = b.
Proof.
  intros HU Na Da Nb Db E. pose proof (rpcid_text_roundtrip U HU _ Na Da) as A. pose proof (rpcid_text_roundtrip U HU _ Nb Db) as B. congruence.
Qed.

Lemma contexts_compare U ops ops' c c' o o' : tables_ok U -> nth_error (t_rpcs (trun U t_init ops)) c = Some o ->
  nth_error (t_rpcs (trun U t_init ops')) c' = Some o' -> (rpcid_eqb (r_ids o) (r_ids o') = true <-> rpcid_str (r_ids o) = rpcid_str (r_ids o')).
Proof.
  intros HU H H'. rewrite rpcid_eqb_eq. split; [intros ->; reflexivity|]. pose proof (reachable_twf U ops) as W. pose proof (reachable_twf U ops') as W'.
  apply (text_inj U _ _ HU (w_norm _ _ W c o H) (w_dots _ _ W c o H) (w_norm _ _ W' c' o' H') (w_dots _ _ W' c' o' H')).
Qed.

Lemma texts_compare U args args' ids ids' : tables_ok U -> mk_rpcid U args = Ok ids -> mk_rpcid U args' = Ok ids' ->
  (forall s, In (SStr s) (args ++ args') -> ~ In 46 s) -> (rpcid_eqb ids ids' = true <-> rpcid_str ids = rpcid_str ids').
Proof.
  intros HU H H' Hd. rewrite rpcid_eqb_eq. split; [intros ->; reflexivity|].
  assert (D : forall l, (forall s, In (SStr s) l -> ~ In 46 s) -> no_dots l).
  { intros l Hl. apply Forall_forall. intros x Hx. destruct x as [z|s]; [exact I|exact (Hl s Hx)]. }
  apply (text_inj U); [exact HU|exact (mk_rpcid_normal _ _ _ H)| |exact (mk_rpcid_normal _ _ _ H')| ].
  - apply (mk_rpcid_no_dots _ _ _ H), D. intros s Hs. apply Hd, in_or_app. auto.
  - apply (mk_rpcid_no_dots _ _ _ H'), D. intros s Hs. apply Hd, in_or_app. auto.
Qed.

Lemma times_of t0 l : (forall now t, ~ In (now, SetStart t) l) ->
  x_start (srun (born t0 None) l) = last (map fst (filter (fun e => match snd e with Enter => true | _ => false end) l)) t0 /\
  x_finish (srun (born t0 None) l) = last (map Some (map fst (filter (fun e => match snd e with Finish | Exit _ => true | _ => false end) l))) None.
Proof.
  intros Hs. induction l as [|[now o] l IH] using rev_ind; [split; reflexivity|].
  destruct IH as [A B]; [intros n t Hn; apply (Hs n t), in_or_app; auto|].
  unfold srun in *. rewrite fold_left_app, !filter_app, !map_app. cbn [fold_left filter snd].
  destruct o; cbn [sstep x_start x_finish map fst app]; rewrite ?app_nil_r, ?last_last; try (split; [assumption || reflexivity|assumption || reflexivity]).
  exfalso. apply (Hs now t), in_or_app. right. left. reflexivity.
Qed.

Lemma times_ordered t0 l : (forall now t, ~ In (now, SetStart t) l) ->
  (forall a n o b, l = a ++ (n, o) :: b -> t0 <= n /\ forall n' o', In (n', o') a -> n' <= n) ->
  (forall a n b, l = a ++ (n, Enter) :: b -> forall n' r, ~ In (n', Finish) a /\ ~ In (n', Exit r) a) ->
  forall f, x_finish (srun (born t0 None) l) = Some f -> x_start (srun (born t0 None) l) <= f.
Proof.
  intros Hs Hc He.
  assert (Inv : (x_start (srun (born t0 None) l) = t0 \/ exists o, In (x_start (srun (born t0 None) l), o) l) /\
     (forall f, x_finish (srun (born t0 None) l) = Some f -> x_start (srun (born t0 None) l) <= f /\ exists n r, In (n, Finish) l \/ In (n, Exit r) l)).
  { induction l as [|[now o] l IH] using rev_ind; [split; [left; reflexivity|discriminate]|].
    destruct IH as [A B].
    - intros n t Hn. apply (Hs n t), in_or_app. auto.
    - intros a n o' b E. apply (Hc a n o' (b ++ [(now, o)])). rewrite E, <- app_assoc. reflexivity.
    - intros a n b E. apply (He a n (b ++ [(now, o)])). rewrite E, <- app_assoc. reflexivity.
    - unfold srun in *. rewrite fold_left_app. cbn [fold_left]. destruct (Hc l now o [] eq_refl) as [C1 C2].
      assert (Hst : x_start (fold_left sstep l (born t0 None)) <= now). { destruct A as [->|[o' A]]; [exact C1|exact (C2 _ o' A)]. }
      assert (K : forall n o', In (n, o') l -> In (n, o') (l ++ [(now, o)])) by (intros; apply in_or_app; auto).
      assert (K' : In (now, o) (l ++ [(now, o)])) by (apply in_or_app; right; left; reflexivity).
      destruct o; cbn [sstep x_start x_finish].
      + exfalso. apply (Hs now t K').
      + split; [destruct A as [A|[o' A]]; [left; exact A|right; eauto]|]. intros f E. injection E as <-. split; [exact Hst|]. exists now, false. auto.
      + split; [right; eauto|]. intros f E. exfalso. destruct (B f E) as (_ & n & r & [H|H]); destruct (He l now [] eq_refl n r) as [H1 H2]; auto.
      + split; [destruct A as [A|[o' A]]; [left; exact A|right; eauto]|]. intros f E. injection E as <-. split; [exact Hst|]. exists now, raised. auto. }
  intros f E. exact (proj1 (proj2 Inv f E)).
Qed.

Lemma used_ref st parent refs c : used st parent refs c -> exists t, choose_ref st parent refs = Ok (Some (t, c)).
Proof.
  intros H. destruct H as [c refs|s sp refs Hs|parent t c H|parent t c l H]; cbn [choose_ref].
  - exists ChildOf. reflexivity.
  - rewrite Hs. exists ChildOf. reflexivity.
  - exists t. destruct H as [-> | ->]; reflexivity.
  - exists t. destruct H as [-> | ->]; reflexivity.
Qed.

Lemma args_used U st name parent refs tags fresh st' s c : twf U st -> used st parent refs c ->
  start_span_args U st name parent refs tags fresh = (st', Ok s) ->
  exists sp b b', nth_error (t_spans st') s = Some sp /\ sp_name sp = name /\ baggage_text st c = Some b /\ baggage_text st' (sp_ctx sp) = Some b' /\
    forall k, k <> K_rpc -> dget k b' = dget k b.
Proof.
  intros W Hu H. destruct (used_ref _ _ _ _ Hu) as [t Ht]. unfold start_span_args in H. rewrite Ht in H.
  destruct (derived_text U st t c name tags fresh st' s W H) as (sp & b & b' & A & B & C & D). exists sp, b, b'. split; [exact A|]. split; [|auto].
  pose proof (start_span_spec U st name (Some (t, c)) tags fresh W) as R. rewrite H in R. destruct R as (_ & _ & R).
  destruct (R s eq_refl) as (_ & sp' & Hsp & _ & Hn & _). congruence.
Qed.

Lemma args_none U st name parent refs tags fresh st' s : tables_ok U -> twf U st ->
  parent = NoParent \/ parent = OtherParent -> refs = NoRefs \/ refs = RefList [] ->
  start_span_args U st name parent refs tags fresh = (st', Ok s) ->
  exists sp b', nth_error (t_spans st') s = Some sp /\ baggage_text st' (sp_ctx sp) = Some b' /\
    dget K_trace b' = Some fresh /\ dget K_rpc b' = Some (str "1") /\ forall k, k <> K_trace -> k <> K_rpc -> dget k b' = None.
Proof.
  intros HU W Hp Hr H.
  assert (Hc : choose_ref st parent refs = Ok None) by (destruct Hp as [-> | ->], Hr as [-> | ->]; reflexivity).
  unfold start_span_args in H. rewrite Hc in H.
  pose proof (start_span_spec U st name None tags fresh W) as R. rewrite H in R. destruct R as (W' & _ & R).
  destruct (R s eq_refl) as (_ & sp & Hsp & Hcx & _ & _ & ids & Hids & R1 & R2). exists sp.
  assert (Hn : nth_error (t_ctxs st') (sp_ctx sp) = Some (root_bag (List.length (t_ctxs st)) [] fresh)) by (rewrite R2, Hcx, nth_error_app2, Nat.sub_diag by lia; reflexivity).
  assert (Hb' : exists b', baggage_text st' (sp_ctx sp) = Some b') by (unfold baggage_text; rewrite Hn; eexists; reflexivity). destruct Hb' as [b' Hb'].
  exists b'. split; [exact Hsp|]. split; [exact Hb'|].
  assert (G : forall k, dget k b' = option_map (bval_str (t_rpcs st')) (dget k (root_bag (List.length (t_ctxs st)) [] fresh))) by (intros k; apply (text_get _ _ _ b' k Hn Hb')).
  split; [|split].
  - rewrite G, root_get by constructor. destruct (eq_dec K_trace K_rpc) as [E|_]; [exfalso; exact (K_trace_rpc E)|]. destruct (eq_dec K_trace K_trace); [reflexivity|congruence].
  - rewrite G, root_get by constructor. destruct (eq_dec K_rpc K_rpc) as [_|]; [|congruence]. cbn [option_map bval_str]. rewrite R1, <- (w_len _ _ W), nth_error_app2, Nat.sub_diag by lia.
    cbn [nth_error r_ids]. f_equal.
    change (map SStr (split_dot (str "1"))) with [SStr (str_int 1)] in Hids. unfold mk_rpcid in Hids. cbn [map innertrans] in Hids. rewrite (parse_str_int U HU) in Hids. cbn in Hids. injection Hids as <-. reflexivity.
  - intros k N1 N2. rewrite G, root_get by constructor. destruct (eq_dec k K_rpc); [congruence|]. destruct (eq_dec k K_trace); [congruence|]. reflexivity.
Qed.

Lemma sorted_clock t0 (l : list (Z * sop)) : StronglySorted Z.le (t0 :: map fst l) ->
  forall a n o b, l = a ++ (n, o) :: b -> t0 <= n /\ forall n' o', In (n', o') a -> n' <= n.
Proof.
  intros H a n o b ->. inversion H as [|x y Hs Hf]; subst. rewrite Forall_forall in Hf. split.
  - apply Hf, in_map_iff. exists (n, o). split; [reflexivity|]. apply in_or_app. right. left. reflexivity.
  - clear H Hf. induction a as [|e a IH]; intros n' o' Hi; [destruct Hi|]. cbn [app map] in Hs. inversion Hs as [|x y Hs' Hf]; subst.
    destruct Hi as [-> |Hi]; [|exact (IH Hs' n' o' Hi)]. rewrite Forall_forall in Hf. apply Hf, in_map_iff. exists (n, o). split; [reflexivity|].
    apply in_or_app. right. left. reflexivity.
Qed.

Lemma times_all t0 l : (forall now t, ~ In (now, SetStart t) l) ->
  let enters := filter (fun e => match snd e with Enter => true | _ => false end) l in
  let ends := filter (fun e => match snd e with Finish | Exit _ => true | _ => false end) l in
  x_start (srun (born t0 None) l) = last (map fst enters) t0 /\
  x_finish (srun (born t0 None) l) = last (map Some (map fst ends)) None /\
  (StronglySorted Z.le (t0 :: map fst l) ->
   (forall a n b, l = a ++ (n, Enter) :: b -> forall n' r, ~ In (n', Finish) a /\ ~ In (n', Exit r) a) ->
   forall f, x_finish (srun (born t0 None) l) = Some f -> x_start (srun (born t0 None) l) <= f).
Proof.
  intros Hs. cbv zeta. destruct (times_of t0 l Hs) as [A B]. split; [exact A|]. split; [exact B|]. intros Hc.
  exact (times_ordered t0 l Hs (sorted_clock t0 l Hc)).
Qed.

Lemma given_start now t l : t <> 0 -> (forall n, ~ In (n, Enter) l) -> (forall n t', ~ In (n, SetStart t') l) ->
  x_start (srun (born now (Some t)) l) = t.
Proof.
  intros Ht He Hs. induction l as [|[n o] l IH] using rev_ind.
  - cbn. destruct (Z.eqb_spec t 0); [congruence|reflexivity].
  - unfold srun in *. rewrite fold_left_app. cbn [fold_left].
    assert (K : x_start (fold_left sstep l (born now (Some t))) = t).
    { apply IH; [intros m Hm; apply (He m), in_or_app; auto|intros m t' Hm; apply (Hs m t'), in_or_app; auto]. }
    assert (K' : In (n, o) (l ++ [(n, o)])) by (apply in_or_app; right; left; reflexivity).
    destruct o; cbn [sstep x_start]; try exact K; exfalso; [exact (Hs n t0 K')|exact (He n K')].
Qed.

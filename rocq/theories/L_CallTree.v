(** Lemmas for P_CallTree. *)
From Coq Require Import ZifyBool FinFun Strings.String.
From Verif Require Import PyBase L_PyBase PyDict L_PyDict PyInt L_PyInt M_RequestId M_RpcId S_Rpc L_RpcId M_SofaHeader M_Package P_Codec M_Trace L_Trace L_Trace2 L_Trace3 L_System M_CallTree S_CallTree.

(** ** the processes *)
Lemma nth_set_proc p st l q : nth_error (set_proc p st l) q = option_map (fun s => if Nat.eqb q p then st else s) (nth_error l q).
Proof.
  unfold set_proc. rewrite nth_error_map.
  assert (G : forall k, nth_error (combine (seq k (List.length l)) l) q = option_map (fun s => ((k + q)%nat, s)) (nth_error l q)).
  { revert q. induction l as [|s l IH]; intros [|q] k; cbn [List.length seq combine nth_error option_map]; try reflexivity.
    - rewrite Nat.add_0_r. reflexivity.
    - rewrite IH. replace (S k + q)%nat with (k + S q)%nat by lia. reflexivity. }
  rewrite (G 0%nat). destruct (nth_error l q); reflexivity.
Qed.

(** ** the objects behind the ids: what only grows *)
Definition hmon (h h' : list rpcobj) : Prop :=
  forall i o, nth_error h i = Some o -> exists o', nth_error h' i = Some o' /\ r_ids o' = r_ids o /\ r_count o <= r_count o'.
Lemma hmon_refl h : hmon h h. Proof. intros i o H. exists o. repeat split; [exact H|lia]. Qed.
Lemma hmon_trans a b c : hmon a b -> hmon b c -> hmon a c.
Proof. intros H1 H2 i o H. destruct (H1 i o H) as (o1 & A & B & C). destruct (H2 i o1 A) as (o2 & A' & B' & C'). exists o2. split; [exact A'|]. split; [congruence|lia]. Qed.
Lemma hmon_bump i h : hmon h (bump i h).
Proof. intros j o H. rewrite nth_bump, H. destruct (Nat.eqb i j); eexists; (split; [reflexivity|]); cbn; split; solve [reflexivity|lia]. Qed.
Lemma hmon_app h l : hmon h (h ++ l).
Proof. intros i o H. exists o. rewrite nth_error_app1; [repeat split; [exact H|lia]|]. apply nth_error_Some. congruence. Qed.

Lemma new_ref_mon U h i t : heap_normal U h -> (i < List.length h)%nat -> hmon h (fst (new_by_reference_type U h i t)).
Proof.
  intros Hh Hi. destruct (nth_error h i) as [oi|] eqn:Ei; [|apply nth_error_None in Ei; lia]. pose proof (Hh i oi Ei) as Hn.
  destruct t; cbn [new_by_reference_type].
  - rewrite (new_child_spec U h i oi Ei Hn). cbn [fst]. eapply hmon_trans; [apply hmon_bump|apply hmon_app].
  - pose proof Hn as Hn'. apply normal_snoc in Hn' as (l & z & Hz & Hf). rewrite (new_follows_spec U h i oi l z Ei Hn Hz). cbn [fst].
    eapply hmon_trans; [|apply hmon_app]. destruct (r_parent oi); [apply hmon_bump|apply hmon_refl].
Qed.

(** what a derived context holds *)
Definition keeps (b b' : dict pystr pystr) : Prop := forall k, k <> K_rpc -> dget k b' = dget k b.
Lemma derived_bag_text st st' c bag n b b' : bag_ok c bag -> nth_error (t_ctxs st) c = Some bag -> nth_error (t_ctxs st') n = Some (derived_bag n bag) ->
  baggage_text st c = Some b -> baggage_text st' n = Some b' -> keeps b b'.
Proof.
  intros B Hc Hn Hb Hb' k Hk.
  rewrite (text_get st' _ _ b' k Hn Hb'), (text_get st c bag b k Hc Hb), derived_get by apply B.
  destruct (eq_dec k K_rpc) as [E|_]; [congruence|]. destruct (dget k bag) as [v|] eqn:Ev; [|reflexivity]. cbn. f_equal.
  destruct v as [x|x|r]; try reflexivity. exfalso. destruct (pystr_eq_dec k K_trace) as [->|Hn'].
  - destruct (b_trace _ _ B) as [q Hq]. congruence.
  - destruct (b_other _ _ B k _ Ev Hk Hn') as [q Hq]. discriminate.
Qed.

Definition stepped (o1 o1' o2 : rpcobj) (t : reftype) : Prop :=
  match t with
  | ChildOf => r_ids o2 = r_ids o1 ++ [SInt (r_count o1 + 1)] /\ r_count o1' = r_count o1 + 1
  | FollowsFrom => exists l z, r_ids o1 = l ++ [SInt z] /\ r_ids o2 = l ++ [SInt (z + 1)]
  end.

(** one operation of one process *)
Lemma tstep_effect U st o : twf U st -> let st' := tstep U st o in
  twf U st' /\ grows st st' /\ hmon (t_rpcs st) (t_rpcs st') /\ (List.length (t_ctxs st) <= List.length (t_ctxs st') <= S (List.length (t_ctxs st)))%nat /\
  ((List.length (t_ctxs st) < List.length (t_ctxs st'))%nat ->
   match o with
   | TStart _ (Some (t, c)) _ _ => exists b b' o1 o1' o2,
       baggage_text st c = Some b /\ baggage_text st' (List.length (t_ctxs st)) = Some b' /\ keeps b b' /\
       nth_error (t_rpcs st) c = Some o1 /\ nth_error (t_rpcs st') c = Some o1' /\ nth_error (t_rpcs st') (List.length (t_ctxs st)) = Some o2 /\ stepped o1 o1' o2 t
   | _ => True
   end).
Proof.
  intros W st'. destruct (tstep_spec U st o W) as [W' G]. fold st' in W', G. split; [exact W'|]. split; [exact G|].
  destruct o as [n r tg f|ca f|s k v|s k v]; unfold st' in *; cbn [tstep] in *.
  - destruct r as [[t c]|].
    + unfold start_span in *. destruct (nth_error (t_ctxs st) c) as [bag|] eqn:Ec.
      * destruct (context_from_spec U st t c bag W Ec) as (st1 & E & R1 & R2 & R3 & W1 & G1). rewrite E in *.
        set (s2 := fst (match apply_tags (keys tg) [] with Ok _ => _ | Raise e => _ end)) in *.
        assert (Q1 : t_rpcs s2 = t_rpcs st1) by (unfold s2; destruct (apply_tags (keys tg) []); reflexivity).
        assert (Q2 : t_ctxs s2 = t_ctxs st1) by (unfold s2; destruct (apply_tags (keys tg) []); reflexivity).
        clearbody s2. assert (Hlt : (c < List.length (t_rpcs st))%nat) by (rewrite (w_len _ _ W); apply nth_error_Some; congruence).
        rewrite Q1, Q2. split; [rewrite R1; apply new_ref_mon; [apply (w_norm _ _ W)|exact Hlt]|].
        split; [rewrite R2, app_length; cbn [List.length]; lia|]. intros _.
        assert (Hn : nth_error (t_ctxs s2) (List.length (t_ctxs st)) = Some (derived_bag (List.length (t_ctxs st)) bag)) by (rewrite Q2, R2, nth_error_app2, Nat.sub_diag by lia; reflexivity).
        assert (Hb : exists b, baggage_text st c = Some b) by (unfold baggage_text; rewrite Ec; eexists; reflexivity). destruct Hb as [b Hb].
        assert (Hb' : exists b', baggage_text s2 (List.length (t_ctxs st)) = Some b') by (unfold baggage_text; rewrite Hn; eexists; reflexivity). destruct Hb' as [b' Hb'].
        destruct (nth_error (t_rpcs st) c) as [o1|] eqn:Eo; [|apply nth_error_None in Eo; lia]. pose proof (w_norm _ _ W c o1 Eo) as No.
        destruct t; cbn [new_by_reference_type] in R1.
        -- rewrite (new_child_spec U _ c o1 Eo No) in R1. cbn [fst] in R1.
           exists b, b', o1. eexists. eexists. split; [exact Hb|]. split; [exact Hb'|]. split; [apply (derived_bag_text st s2 c bag (List.length (t_ctxs st)) b b' (w_ctx _ _ W c bag Ec) Ec Hn Hb Hb')|].
           split; [reflexivity|]. rewrite R1, nth_error_app1, nth_bump, Eo, Nat.eqb_refl by (rewrite length_bump; exact Hlt). split; [reflexivity|].
           rewrite <- (w_len _ _ W), nth_error_app2, length_bump, Nat.sub_diag by (rewrite length_bump; lia). split; [reflexivity|]. split; reflexivity.
        -- pose proof No as No'. apply normal_snoc in No' as (l & z & Hz & _). rewrite (new_follows_spec U _ c o1 l z Eo No Hz) in R1. cbn [fst] in R1.
           assert (L : List.length (match r_parent o1 with Some p => bump p (t_rpcs st) | None => t_rpcs st end) = List.length (t_rpcs st)) by (destruct (r_parent o1); [apply length_bump|reflexivity]).
           assert (Ho1 : exists o1', nth_error (t_rpcs st1) c = Some o1').
           { destruct (nth_error (t_rpcs st1) c) eqn:E1; [eauto|]. apply nth_error_None in E1. rewrite R1, app_length, L in E1. lia. }
           destruct Ho1 as [o1' Ho1]. exists b, b', o1, o1'. eexists. split; [exact Hb|]. split; [exact Hb'|].
           split; [apply (derived_bag_text st s2 c bag (List.length (t_ctxs st)) b b' (w_ctx _ _ W c bag Ec) Ec Hn Hb Hb')|].
           split; [reflexivity|]. split; [exact Ho1|]. rewrite R1, <- (w_len _ _ W), nth_error_app2, L, Nat.sub_diag by lia. split; [reflexivity|].
           exists l, z. auto.
      * rewrite (context_from_bad U st t c Ec) in *. cbn [fst] in *. split; [apply hmon_refl|]. split; [lia|]. intros H. lia.
    + unfold start_span in *. pose proof (context_root_spec U st [] f W (NoDup_nil _) eq_refl eq_refl) as H.
      destruct (mk_rpcid U (map SStr (split_dot (root_ids [])))) as [ids|e] eqn:Em.
      * destruct H as (st1 & E & R1 & R2 & R3 & W1 & G1). rewrite E in *.
        set (s2 := fst (match apply_tags (keys tg) [] with Ok _ => _ | Raise e => _ end)) in *.
        assert (Q1 : t_rpcs s2 = t_rpcs st1) by (unfold s2; destruct (apply_tags (keys tg) []); reflexivity).
        assert (Q2 : t_ctxs s2 = t_ctxs st1) by (unfold s2; destruct (apply_tags (keys tg) []); reflexivity).
        rewrite Q1, Q2, R1, R2, app_length. cbn [List.length]. split; [apply hmon_app|]. split; [lia|auto].
      * rewrite H in *. cbn [fst]. split; [apply hmon_refl|]. split; [lia|auto].
  - pose proof (extract_spec U st ca f W) as H. destruct (extract U st ca f) as [s2 x]. cbn [fst] in *.
    destruct H as [[_ ->]|(ids & _ & _ & R1 & R2 & _)]; [split; [apply hmon_refl|]; split; [lia|auto]|].
    rewrite R1, R2, app_length. cbn [List.length]. split; [apply hmon_app|]. split; [lia|auto].
  - unfold set_baggage_item. destruct (nth_error (t_spans st) s); cbn [fst]; (split; [apply hmon_refl|]; split; [lia|auto]).
  - cbn [t_rpcs t_ctxs set_tag]. split; [apply hmon_refl|]. split; [lia|auto].
Qed.

(** ** a call *)
Lemma trace_expand_plain b e : wf_dict b -> dget (str "prefix") b = None -> trace_expand b = Ok e -> e = map (fun kv => (PREFIX ++ fst kv, snd kv)) b.
Proof.
  intros Hw Hp H. unfold trace_expand in H. destruct (dmem (str "self") b); [discriminate|]. apply bind_Ok in H as (u & _ & H).
  destruct (dmem (str "expand") b); [discriminate|]. rewrite Hp in H. rewrite dict_of_id in H; [congruence|]. unfold wf_dict, keys in *. rewrite map_map. cbn [fst].
  rewrite <- (map_map fst (fun k => PREFIX ++ k)). apply Injective_map_NoDup; [|exact Hw]. intros x y E. apply app_inv_head in E. exact E.
Qed.

Lemma build_header_plain b i m t u extra h : wf_dict b -> dget (str "prefix") b = None -> build_header b i m t u extra = Ok h ->
  wf_dict h /\ forall k v, dget k b = Some v -> dget (PREFIX ++ k) h = Some v.
Proof.
  intros Hw Hp H. split; [exact (proj1 (build_names _ _ _ _ _ _ _ H))|]. intros k v Hk. unfold build_header in H.
  destruct (existsb (fun k => mem_str k build_params) (keys extra)); [discriminate|]. apply bind_Ok in H as (e & He & H). cbv zeta in H.
  pose proof (trace_expand_plain b e Hw Hp He) as Ee.
  destruct (existsb (fun k => mem_str k call_params) (keys (dupdate (dupdate [] extra) e))); [discriminate|].
  match type of H with Ok ?x = _ => assert (Eh : x = h) by congruence end. rewrite <- Eh. clear H Eh. fold (fixed_part i m t u). rewrite (dict_of_id _ (fixed_wf i m t u)), dget_app.
  destruct (dget (PREFIX ++ k) (fixed_part i m t u)) as [x|] eqn:E1.
  { exfalso. apply dget_keys in E1. rewrite keys_fixed in E1. apply (reserved_not_prefixed (PREFIX ++ k) k); [unfold reserved_names; apply in_app_iff; auto|reflexivity]. }
  assert (We : wf_dict e).
  { subst e. unfold wf_dict, keys in *. rewrite map_map. cbn [fst]. rewrite <- (map_map fst (fun k => PREFIX ++ k)). apply Injective_map_NoDup; [|exact Hw].
    intros x y E. apply app_inv_head in E. exact E. }
  rewrite dget_dupdate_wf by exact We. assert (Q : dget (PREFIX ++ k) e = Some v) by (rewrite Ee; etransitivity; [apply dget_prefix_map|exact Hk]).
  destruct (dget (PREFIX ++ k) e) as [x|]; [exact Q|discriminate Q].
Qed.

Lemma carried_plain st c a b h : baggage_text st c = Some b -> wf_dict b -> dget (str "prefix") b = None -> carried st c a = Ok h ->
  wf_dict h /\ forall k v, dget k b = Some v -> dget (PREFIX ++ k) h = Some v.
Proof.
  intros Hb Hw Hp H. unfold carried in H. rewrite Hb in H. apply bind_Ok in H as (h0 & Bh & H). apply bind_Ok in H as (p & N & H). apply bind_Ok in H as (bs & T & H). apply bind_Ok in H as (p' & F & H).
  destruct (build_header_plain _ _ _ _ _ _ _ Hw Hp Bh) as [W0 G]. unfold new_request in N.
  destruct (C01_request_roundtrip BoltRequest BoltRequest h0 _ _ _ _ _ _ _ _ _ p bs ltac:(left; reflexivity) ltac:(left; reflexivity) W0 N T) as (q & Hq & _ & Hqh & _).
  assert (h = h0) by congruence. subst h. split; assumption.
Qed.

Lemma extract_kept U st c b st2 h fresh st3 c' : tables_ok U -> twf U st -> twf U st2 -> baggage_text st c = Some b -> wf_dict h ->
  (forall k v, dget k b = Some v -> dget (PREFIX ++ k) h = Some v) -> extract U st2 h fresh = (st3, Ok c') ->
  exists b' o o', baggage_text st3 c' = Some b' /\ (forall k v, dget k b = Some v -> dget k b' = Some v) /\
    nth_error (t_rpcs st) c = Some o /\ nth_error (t_rpcs st3) c' = Some o' /\ r_ids o' = r_ids o.
Proof.
  intros HU W W2 Hb Hw Hg E. destruct (text_rpc U st c b W Hb) as (o & Ho & Hrpc).
  assert (Hx : forall k v, dget k b = Some v -> dget k (extract_args h) = Some v) by (intros k v Hk; rewrite extract_args_get by exact Hw; apply Hg; exact Hk).
  pose proof (extract_spec U st2 h fresh W2) as S. rewrite E in S. destruct S as [[S _]|(ids & Ec & Hids & R1 & R2 & _)]; [discriminate|].
  injection Ec as ->. unfold root_ids in Hids. rewrite (Hx _ _ Hrpc) in Hids.
  rewrite (rpcid_text_roundtrip U HU _ (w_norm _ _ W c o Ho) (w_dots _ _ W c o Ho)) in Hids. injection Hids as <-.
  assert (Hn : nth_error (t_ctxs st3) (List.length (t_ctxs st2)) = Some (root_bag (List.length (t_ctxs st2)) (extract_args h) fresh)) by (rewrite R2, nth_error_app2, Nat.sub_diag by lia; reflexivity).
  assert (Hr : nth_error (t_rpcs st3) (List.length (t_ctxs st2)) = Some {| r_ids := r_ids o; r_count := 0; r_parent := None |}).
  { rewrite R1, <- (w_len _ _ W2), nth_error_app2, Nat.sub_diag by lia. reflexivity. }
  assert (Hb' : exists b', baggage_text st3 (List.length (t_ctxs st2)) = Some b') by (unfold baggage_text; rewrite Hn; eexists; reflexivity). destruct Hb' as [b' Hb'].
  exists b', o. eexists. split; [exact Hb'|]. split; [|split; [exact Ho|split; [exact Hr|reflexivity]]].
  intros k v Hk. rewrite (text_get _ _ _ b' k Hn Hb'), root_get by apply wf_dict_of. destruct (eq_dec k K_rpc) as [->|Hn1].
  { cbn. rewrite Hr. cbn. etransitivity; [symmetry; exact Hrpc|exact Hk]. }
  destruct (eq_dec k K_trace) as [->|Hn2]; [cbn [option_map bval_str]; rewrite (Hx _ _ Hk); reflexivity|].
  rewrite (Hx _ _ Hk). reflexivity.
Qed.

(** ** the world *)
Definition wobj (w : world) (x : ctx) : option rpcobj :=
  match nth_error (w_procs w) (fst x) with Some st => nth_error (t_rpcs st) (snd x) | None => None end.

Record wgrow (w w' : world) : Prop := {
  wg_obj : forall x o, wobj w x = Some o -> exists o', wobj w' x = Some o' /\ r_ids o' = r_ids o /\ r_count o <= r_count o';
  wg_text : forall x b, wtext w x = Some b -> wtext w' x = Some b }.

Lemma wgrow_set U w q sq sq' md : nth_error (w_procs w) q = Some sq -> twf U sq -> grows sq sq' -> hmon (t_rpcs sq) (t_rpcs sq') ->
  wgrow w {| w_procs := set_proc q sq' (w_procs w); w_made := md |}.
Proof.
  intros Hq W G M. split; intros [p c] o H; unfold wobj, wtext in *; cbn [fst snd w_procs] in *; rewrite nth_set_proc.
  - destruct (nth_error (w_procs w) p) as [st|] eqn:Ep; [|discriminate]. cbn [option_map]. destruct (Nat.eqb_spec p q) as [->|_].
    + assert (st = sq) by congruence. subst st. apply (M c o H).
    + exists o. split; [exact H|]. split; [reflexivity|lia].
  - destruct (nth_error (w_procs w) p) as [st|] eqn:Ep; [|discriminate]. cbn [option_map]. destruct (Nat.eqb_spec p q) as [->|_]; [|exact H].
    assert (st = sq) by congruence. subst st. apply (grows_text U sq sq' c o W G H).
Qed.

Definition derives (w : world) (t : reftype) (x y : ctx) : Prop :=
  exists bx by_ ox oy, wtext w x = Some bx /\ wtext w y = Some by_ /\ keeps bx by_ /\ wobj w x = Some ox /\ wobj w y = Some oy /\
    match t with
    | ChildOf => exists k, 1 <= k <= r_count ox /\ r_ids oy = r_ids ox ++ [SInt k]
    | FollowsFrom => exists l z, r_ids ox = l ++ [SInt z] /\ r_ids oy = l ++ [SInt (z + 1)]
    end.
Definition sends (w : world) (x y : ctx) : Prop :=
  exists bx by_ ox oy, wtext w x = Some bx /\ wtext w y = Some by_ /\ wobj w x = Some ox /\ wobj w y = Some oy /\
    (dget (str "prefix") bx = None -> (forall k v, dget k bx = Some v -> dget k by_ = Some v) /\ r_ids oy = r_ids ox).

Record winv (U : tables) (w : world) : Prop := {
  i_wf : forall p st, nth_error (w_procs w) p = Some st -> twf U st;
  i_count : forall p st, nth_error (w_procs w) p = Some st -> forall c o, nth_error (t_rpcs st) c = Some o -> 0 <= r_count o;
  i_from : forall t x y, In (y, MFrom t x) (w_made w) -> derives w t x y;
  i_sent : forall x y, In (y, MSent x) (w_made w) -> sends w x y;
  i_num : forall x y z oy oz, In (y, MFrom ChildOf x) (w_made w) -> In (z, MFrom ChildOf x) (w_made w) ->
     wobj w y = Some oy -> wobj w z = Some oz -> r_ids oy = r_ids oz -> y = z;
  i_all : forall x, wtext w x <> None <-> exists m, In (x, m) (w_made w);
  i_once : forall x m m', In (x, m) (w_made w) -> In (x, m') (w_made w) -> m = m' }.

Lemma derives_grow w w' t x y : wgrow w w' -> derives w t x y -> derives w' t x y.
Proof.
  intros G (bx & by_ & ox & oy & Tx & Ty & K & Ox & Oy & H). destruct (wg_obj _ _ G x ox Ox) as (ox' & Ox' & Ix & Cx). destruct (wg_obj _ _ G y oy Oy) as (oy' & Oy' & Iy & Cy).
  exists bx, by_, ox', oy'. split; [apply (wg_text _ _ G); exact Tx|]. split; [apply (wg_text _ _ G); exact Ty|]. split; [exact K|]. split; [exact Ox'|]. split; [exact Oy'|].
  rewrite Ix, Iy. destruct t; [|exact H]. destruct H as (k & Hk & E). exists k. split; [lia|exact E].
Qed.
Lemma sends_grow w w' x y : wgrow w w' -> sends w x y -> sends w' x y.
Proof.
  intros G (bx & by_ & ox & oy & Tx & Ty & Ox & Oy & H). destruct (wg_obj _ _ G x ox Ox) as (ox' & Ox' & Ix & Cx). destruct (wg_obj _ _ G y oy Oy) as (oy' & Oy' & Iy & Cy).
  exists bx, by_, ox', oy'. split; [apply (wg_text _ _ G); exact Tx|]. split; [apply (wg_text _ _ G); exact Ty|]. split; [exact Ox'|]. split; [exact Oy'|]. rewrite Ix, Iy. exact H.
Qed.

Lemma wtext_wobj U w x b : (forall p st, nth_error (w_procs w) p = Some st -> twf U st) -> wtext w x = Some b ->
  exists o, wobj w x = Some o /\ dget K_rpc b = Some (rpcid_str (r_ids o)).
Proof.
  intros W H. unfold wtext, wobj in *. destruct (nth_error (w_procs w) (fst x)) as [st|] eqn:E; [|discriminate]. apply (text_rpc U st _ b (W _ _ E) H).
Qed.

Lemma wobj_wtext U w x o : (forall p st, nth_error (w_procs w) p = Some st -> twf U st) -> wobj w x = Some o -> exists b, wtext w x = Some b.
Proof.
  intros W H. unfold wtext, wobj in *. destruct (nth_error (w_procs w) (fst x)) as [st|] eqn:E; [|discriminate].
  destruct (baggage_text st (snd x)) as [b|] eqn:B; [eauto|]. apply text_exists in B. rewrite <- (w_len _ _ (W _ _ E)) in B. apply nth_error_None in B. congruence.
Qed.

(** a context whose process has it *)
Lemma wtext_some w p c : wtext w (p, c) <> None <-> exists st, nth_error (w_procs w) p = Some st /\ (c < List.length (t_ctxs st))%nat.
Proof.
  unfold wtext. cbn [fst snd]. destruct (nth_error (w_procs w) p) as [st|].
  - split.
    + intros H. exists st. split; [reflexivity|]. destruct (Nat.lt_ge_cases c (List.length (t_ctxs st))) as [L|L]; [exact L|]. apply text_exists in L. congruence.
    + intros (s & E & L). injection E as <-. intros E. apply text_exists in E. lia.
  - split; [congruence|]. intros (s & E & _). discriminate.
Qed.

(** changing process q, where the new contexts of q are those that are noted *)
Lemma winv_all_set w q sq sq' md : nth_error (w_procs w) q = Some sq ->
  (forall x, wtext w x <> None <-> exists m, In (x, m) (w_made w)) ->
  (List.length (t_ctxs sq) <= List.length (t_ctxs sq'))%nat ->
  (forall c, (List.length (t_ctxs sq) <= c < List.length (t_ctxs sq'))%nat -> exists m, In ((q, c), m) md) ->
  (forall x m, In (x, m) md -> fst x = q /\ (snd x < List.length (t_ctxs sq'))%nat) ->
  forall x, wtext {| w_procs := set_proc q sq' (w_procs w); w_made := w_made w ++ md |} x <> None <-> exists m, In (x, m) (w_made w ++ md).
Proof.
  intros Hq A L1 L2 L3 [p c]. rewrite wtext_some. cbn [w_procs]. rewrite nth_set_proc. split.
  - intros (st & E & Hc). destruct (nth_error (w_procs w) p) as [s0|] eqn:Ep; [|discriminate]. cbn [option_map] in E.
    destruct (Nat.eqb_spec p q) as [->|Hn]; injection E as <-.
    + destruct (Nat.lt_ge_cases c (List.length (t_ctxs sq))) as [L|L].
      * destruct (proj1 (A (q, c))) as [m Hm]; [apply wtext_some; eauto|]. exists m. apply in_app_iff. auto.
      * destruct (L2 c (conj L Hc)) as [m Hm]. exists m. apply in_app_iff. auto.
    + destruct (proj1 (A (p, c))) as [m Hm]; [apply wtext_some; eauto|]. exists m. apply in_app_iff. auto.
  - intros [m Hm]. apply in_app_iff in Hm as [Hm|Hm].
    + destruct (proj1 (wtext_some w p c) (proj2 (A (p, c)) (ex_intro _ m Hm))) as (st & E & Hc). rewrite E. cbn [option_map].
      destruct (Nat.eqb_spec p q) as [->|Hn]; [|eauto]. assert (st = sq) by congruence. subst st. exists sq'. split; [reflexivity|lia].
    + destruct (L3 _ _ Hm) as [E Hc]. cbn [fst snd] in *. subst p. rewrite Hq. cbn [option_map]. rewrite Nat.eqb_refl. eauto.
Qed.

Lemma wobj_set_same w q sq sq' md c : nth_error (w_procs w) q = Some sq -> wobj {| w_procs := set_proc q sq' (w_procs w); w_made := md |} (q, c) = nth_error (t_rpcs sq') c.
Proof. intros H. unfold wobj. cbn [fst snd w_procs]. rewrite nth_set_proc, H. cbn [option_map]. rewrite Nat.eqb_refl. reflexivity. Qed.
Lemma wtext_set_same w q sq sq' md c : nth_error (w_procs w) q = Some sq -> wtext {| w_procs := set_proc q sq' (w_procs w); w_made := md |} (q, c) = baggage_text sq' c.
Proof. intros H. unfold wtext. cbn [fst snd w_procs]. rewrite nth_set_proc, H. cbn [option_map]. rewrite Nat.eqb_refl. reflexivity. Qed.

Lemma wf_set U w q sq' : (forall p st, nth_error (w_procs w) p = Some st -> twf U st) -> twf U sq' ->
  forall p st, nth_error (set_proc q sq' (w_procs w)) p = Some st -> twf U st.
Proof.
  intros W H p st. rewrite nth_set_proc. destruct (nth_error (w_procs w) p) as [s|] eqn:E; [|discriminate]. cbn [option_map]. intros Q. injection Q as <-.
  destruct (Nat.eqb p q); [exact H|exact (W p s E)].
Qed.

Lemma count_new U st o : twf U st -> (forall c o, nth_error (t_rpcs st) c = Some o -> 0 <= r_count o) -> forall c x, nth_error (t_rpcs (tstep U st o)) c = Some x -> 0 <= r_count x.
Proof.
  intros W H.
  assert (Hb : forall i c x, nth_error (bump i (t_rpcs st)) c = Some x -> 0 <= r_count x).
  { intros i c x Hx. rewrite nth_bump in Hx. destruct (nth_error (t_rpcs st) c) as [y|] eqn:E; [|discriminate]. injection Hx as <-. pose proof (H c y E). destruct (Nat.eqb i c); cbn; lia. }
  assert (Hs : forall h ids par c x, (forall c x, nth_error h c = Some x -> 0 <= r_count x) -> nth_error (h ++ [{| r_ids := ids; r_count := 0; r_parent := par |}]) c = Some x -> 0 <= r_count x).
  { intros h ids par c x Hh Hx. apply nth_error_snoc in Hx as [Hx|[_ ->]]; [exact (Hh c x Hx)|cbn; lia]. }
  destruct o as [n r tg f|ca f|s k v|s k v]; cbn [tstep].
  - unfold start_span. destruct r as [[t c0]|].
    + destruct (nth_error (t_ctxs st) c0) as [bag|] eqn:Ec.
      * destruct (context_from_spec U st t c0 bag W Ec) as (st1 & E & R1 & _). rewrite E.
        assert (Q : t_rpcs (fst (match apply_tags (keys tg) [] with Ok tg0 => ({| t_rpcs := t_rpcs st1; t_ctxs := t_ctxs st1; t_spans := t_spans st1 ++ [{| sp_ctx := List.length (t_ctxs st); sp_name := n; sp_tags := tg0 |}] |}, Ok (List.length (t_spans st1))) | Raise e => (st1, Raise e) end)) = t_rpcs st1) by (destruct (apply_tags (keys tg) []); reflexivity).
        rewrite Q, R1. assert (Hlt : (c0 < List.length (t_rpcs st))%nat) by (rewrite (w_len _ _ W); apply nth_error_Some; congruence).
        destruct (nth_error (t_rpcs st) c0) as [o1|] eqn:Eo; [|apply nth_error_None in Eo; lia]. pose proof (w_norm _ _ W c0 o1 Eo) as No.
        destruct t; cbn [new_by_reference_type].
        -- rewrite (new_child_spec U _ c0 o1 Eo No). cbn [fst]. intros c x. apply Hs. apply Hb.
        -- pose proof No as No'. apply normal_snoc in No' as (l & z & Hz & _). rewrite (new_follows_spec U _ c0 o1 l z Eo No Hz). cbn [fst].
           intros c x. apply Hs. destruct (r_parent o1); [apply Hb|exact H].
      * rewrite (context_from_bad U st t c0 Ec). exact H.
    + pose proof (context_root_spec U st [] f W (NoDup_nil _) eq_refl eq_refl) as R.
      destruct (mk_rpcid U (map SStr (split_dot (root_ids [])))) as [ids|e] eqn:Em.
      * destruct R as (st1 & E & R1 & _). rewrite E.
        assert (Q : t_rpcs (fst (match apply_tags (keys tg) [] with Ok tg0 => ({| t_rpcs := t_rpcs st1; t_ctxs := t_ctxs st1; t_spans := t_spans st1 ++ [{| sp_ctx := List.length (t_ctxs st); sp_name := n; sp_tags := tg0 |}] |}, Ok (List.length (t_spans st1))) | Raise e => (st1, Raise e) end)) = t_rpcs st1) by (destruct (apply_tags (keys tg) []); reflexivity).
        rewrite Q, R1. intros c x. apply Hs. exact H.
      * rewrite R. exact H.
  - pose proof (extract_spec U st ca f W) as E. destruct (extract U st ca f) as [s2 x]. cbn [fst].
    destruct E as [[_ ->]|(ids & _ & _ & R1 & _)]; [exact H|]. rewrite R1. intros c y. apply Hs. exact H.
  - unfold set_baggage_item. destruct (nth_error (t_spans st) s); exact H.
  - exact H.
Qed.

Lemma count_set w q sq' : (forall p st, nth_error (w_procs w) p = Some st -> forall c o, nth_error (t_rpcs st) c = Some o -> 0 <= r_count o) ->
  (forall c o, nth_error (t_rpcs sq') c = Some o -> 0 <= r_count o) ->
  forall p st, nth_error (set_proc q sq' (w_procs w)) p = Some st -> forall c o, nth_error (t_rpcs st) c = Some o -> 0 <= r_count o.
Proof.
  intros W H p st. rewrite nth_set_proc. destruct (nth_error (w_procs w) p) as [s|] eqn:E; [|discriminate]. cbn [option_map]. intros Q. injection Q as <-.
  destruct (Nat.eqb p q); [exact H|exact (W p s E)].
Qed.

(** numbering survives growth when no child is added *)
Lemma num_grow U w w' : winv U w -> wgrow w w' -> forall x y z oy oz, In (y, MFrom ChildOf x) (w_made w) -> In (z, MFrom ChildOf x) (w_made w) ->
  wobj w' y = Some oy -> wobj w' z = Some oz -> r_ids oy = r_ids oz -> y = z.
Proof.
  intros I G x y z oy oz Hy Hz Oy Oz E.
  destruct (i_from _ _ I ChildOf x y Hy) as (? & ? & ? & oy0 & _ & _ & _ & _ & Oy0 & _). destruct (i_from _ _ I ChildOf x z Hz) as (? & ? & ? & oz0 & _ & _ & _ & _ & Oz0 & _).
  destruct (wg_obj _ _ G y oy0 Oy0) as (a & A1 & A2 & _). destruct (wg_obj _ _ G z oz0 Oz0) as (b & B1 & B2 & _).
  apply (i_num _ _ I x y z oy0 oz0 Hy Hz Oy0 Oz0). congruence.
Qed.

Lemma winv_local U w p o : winv U w -> winv U (wstep U w (WLocal p o)).
Proof.
  intros I. cbn [wstep]. destruct (nth_error (w_procs w) p) as [st|] eqn:Ep; [|exact I]. cbv zeta.
  pose proof (i_wf _ _ I p st Ep) as W. destruct (tstep_effect U st o W) as (W' & G & M & L & N). cbv zeta in *. pose proof (count_new U st o W (i_count _ _ I p st Ep)) as C'.
  set (st' := tstep U st o) in *. clearbody st'. set (md := if Nat.ltb _ _ then _ else []).
  assert (Hmd : forall x m, In (x, m) md -> (List.length (t_ctxs st) < List.length (t_ctxs st'))%nat /\ x = (p, List.length (t_ctxs st)) /\ m = origin p o).
  { unfold md. intros x m Hx. destruct (Nat.ltb_spec (List.length (t_ctxs st)) (List.length (t_ctxs st'))) as [Hl|]; [|destruct Hx]. destruct Hx as [Hx|[]]. injection Hx as <- <-. auto. }
  assert (Hmd' : (List.length (t_ctxs st) < List.length (t_ctxs st'))%nat -> In ((p, List.length (t_ctxs st)), origin p o) md).
  { unfold md. intros H. apply Nat.ltb_lt in H. rewrite H. left. reflexivity. }
  clearbody md. pose proof (wgrow_set U w p st st' (w_made w ++ md) Ep W G M) as Gr.
  set (w' := {| w_procs := set_proc p st' (w_procs w); w_made := w_made w ++ md |}) in *.
  assert (Old : forall t x y, In (y, MFrom t x) md -> exists n tg f c, o = TStart n (Some (t, c)) tg f /\ x = (p, c) /\ y = (p, List.length (t_ctxs st)) /\ (List.length (t_ctxs st) < List.length (t_ctxs st'))%nat).
  { intros t x y Hi. destruct (Hmd _ _ Hi) as (Hl & -> & E). destruct o as [n [[t0 c]|] tg f|? ?|? ? ?|? ? ?]; try discriminate E. cbn [origin] in E. injection E as E1 E2. subst t x. eauto 9. }
  split.
  - apply wf_set; [apply (i_wf _ _ I)|exact W'].
  - apply count_set; [apply (i_count _ _ I)|exact C'].
  - intros t x y Hi. cbn [w' w_made] in Hi. apply in_app_iff in Hi as [Hi|Hi]; [apply (derives_grow w w' t x y Gr), (i_from _ _ I); exact Hi|].
    destruct (Old t x y Hi) as (n & tg & f & c & -> & -> & -> & Hl). destruct (N Hl) as (b & b' & o1 & o1' & o2 & B & B' & K & O1 & O1' & O2 & S).
    exists b, b', o1', o2. split; [unfold w'; rewrite (wtext_set_same w p st st' _ c Ep); apply (grows_text U st st' c b W G B)|].
    split; [unfold w'; rewrite (wtext_set_same w p st st' _ _ Ep); exact B'|]. split; [exact K|]. split; [unfold w'; rewrite (wobj_set_same w p st st' _ _ Ep); exact O1'|].
    split; [unfold w'; rewrite (wobj_set_same w p st st' _ _ Ep); exact O2|]. destruct (M c o1 O1) as (q & Q1 & Q2 & Q3). assert (q = o1') by congruence. subst q.
    destruct t; cbn [stepped] in S.
    + destruct S as [S1 S2]. exists (r_count o1 + 1). pose proof (i_count _ _ I p st Ep c o1 O1). rewrite Q2. split; [lia|exact S1].
    + destruct S as (l & z & S1 & S2). exists l, z. rewrite Q2. auto.
  - intros x y Hi. cbn [w' w_made] in Hi. apply in_app_iff in Hi as [Hi|Hi]; [apply (sends_grow w w' x y Gr), (i_sent _ _ I); exact Hi|].
    destruct (Hmd _ _ Hi) as (_ & _ & E). destruct o as [n [[t0 c]|] tg f|? ?|? ? ?|? ? ?]; discriminate E.
  - intros x y z oy oz Hy Hz Oy Oz E. cbn [w' w_made] in Hy, Hz. apply in_app_iff in Hy as [Hy|Hy]; apply in_app_iff in Hz as [Hz|Hz].
    + apply (num_grow U w w' I Gr x y z oy oz Hy Hz Oy Oz E).
    + exfalso. destruct (Old _ _ _ Hz) as (n & tg & f & c & -> & -> & -> & Hl). destruct (N Hl) as (b & b' & o1 & o1' & o2 & B & B' & K & O1 & O1' & O2 & S1 & S2).
      unfold w' in Oz. rewrite (wobj_set_same w p st st' _ _ Ep) in Oz. assert (oz = o2) by congruence. subst oz.
      destruct (i_from _ _ I ChildOf _ y Hy) as (? & ? & ox & oy0 & _ & _ & _ & Ox & Oy0 & k & Hk & Ek). destruct (wg_obj _ _ Gr y oy0 Oy0) as (a & A1 & A2 & _).
      unfold wobj in Ox. cbn [fst snd] in Ox. rewrite Ep in Ox. assert (ox = o1) by congruence. subst ox.
      assert (Q : r_ids o1 ++ [SInt k] = r_ids o1 ++ [SInt (r_count o1 + 1)]) by congruence. apply app_inv_head in Q. injection Q as Q. lia.
    + exfalso. destruct (Old _ _ _ Hy) as (n & tg & f & c & -> & -> & -> & Hl). destruct (N Hl) as (b & b' & o1 & o1' & o2 & B & B' & K & O1 & O1' & O2 & S1 & S2).
      unfold w' in Oy. rewrite (wobj_set_same w p st st' _ _ Ep) in Oy. assert (oy = o2) by congruence. subst oy.
      destruct (i_from _ _ I ChildOf _ z Hz) as (? & ? & ox & oz0 & _ & _ & _ & Ox & Oz0 & k & Hk & Ek). destruct (wg_obj _ _ Gr z oz0 Oz0) as (a & A1 & A2 & _).
      unfold wobj in Ox. cbn [fst snd] in Ox. rewrite Ep in Ox. assert (ox = o1) by congruence. subst ox.
      assert (Q : r_ids o1 ++ [SInt k] = r_ids o1 ++ [SInt (r_count o1 + 1)]) by congruence. apply app_inv_head in Q. injection Q as Q. lia.
    + destruct (Hmd _ _ Hy) as (_ & -> & _). destruct (Hmd _ _ Hz) as (_ & -> & _). reflexivity.
  - apply (winv_all_set w p st st' md Ep (i_all _ _ I)).
    + lia.
    + intros c Hc. exists (origin p o). replace c with (List.length (t_ctxs st)) by lia. apply Hmd'. lia.
    + intros x m Hx. destruct (Hmd _ _ Hx) as (Hl & -> & _). split; [reflexivity|exact Hl].
  - assert (New : forall m m', In ((p, List.length (t_ctxs st)), m) (w_made w) -> m = m').
    { intros m m' Hm. exfalso. destruct (proj1 (wtext_some w _ _) (proj2 (i_all _ _ I _) (ex_intro _ m Hm))) as (s & Es & Hc). assert (s = st) by congruence. subst s. lia. }
    cbn [w' w_made]. intros x m m' Hm Hm'. apply in_app_iff in Hm as [Hm|Hm]; apply in_app_iff in Hm' as [Hm'|Hm'].
    + apply (i_once _ _ I x); assumption.
    + destruct (Hmd _ _ Hm') as (_ & -> & _). apply New. exact Hm.
    + destruct (Hmd _ _ Hm) as (_ & -> & _). symmetry. apply New. exact Hm'.
    + destruct (Hmd _ _ Hm) as (_ & _ & ->). destruct (Hmd _ _ Hm') as (_ & _ & ->). reflexivity.
Qed.

Lemma winv_call U w p c q a fresh : tables_ok U -> winv U w -> winv U (wstep U w (WCall p c q a fresh)).
Proof.
  intros HU I. cbn [wstep]. destruct (nth_error (w_procs w) p) as [st|] eqn:Ep; [|exact I]. destruct (nth_error (w_procs w) q) as [sq|] eqn:Eq; [|exact I].
  destruct (carried st c a) as [h|e] eqn:Eh; [|exact I]. pose proof (i_wf _ _ I p st Ep) as W. pose proof (i_wf _ _ I q sq Eq) as Wq.
  destruct (tstep_effect U sq (TExtract h fresh) Wq) as (W' & G & M & L & _). cbv zeta in *. pose proof (count_new U sq (TExtract h fresh) Wq (i_count _ _ I q sq Eq)) as C'.
  cbn [tstep] in *. pose proof (extract_spec U sq h fresh Wq) as SP. destruct (extract U sq h fresh) as [sq' r] eqn:Ee. cbn [fst] in *.
  set (md := match r with Ok _ => _ | Raise _ => [] end).
  assert (Hmd : forall x m, In (x, m) md -> r = Ok (List.length (t_ctxs sq)) /\ x = (q, List.length (t_ctxs sq)) /\ m = MSent (p, c) /\ List.length (t_ctxs sq') = S (List.length (t_ctxs sq))).
  { unfold md. intros x m Hx. destruct SP as [[-> _]|(ids & -> & _ & _ & R2 & _)]; [destruct Hx|]. destruct Hx as [Hx|[]]. injection Hx as <- <-. rewrite R2, app_length. cbn [List.length]. repeat split. lia. }
  assert (Hmd' : (List.length (t_ctxs sq) < List.length (t_ctxs sq'))%nat -> In ((q, List.length (t_ctxs sq)), MSent (p, c)) md).
  { unfold md. destruct SP as [[-> ->]|(ids & -> & _)]; [lia|]. intros _. left. reflexivity. }
  clearbody md. pose proof (wgrow_set U w q sq sq' (w_made w ++ md) Eq Wq G M) as Gr.
  set (w' := {| w_procs := set_proc q sq' (w_procs w); w_made := w_made w ++ md |}) in *.
  split.
  - apply wf_set; [apply (i_wf _ _ I)|exact W'].
  - apply count_set; [apply (i_count _ _ I)|exact C'].
  - intros t x y Hi. cbn [w' w_made] in Hi. apply in_app_iff in Hi as [Hi|Hi]; [apply (derives_grow w w' t x y Gr), (i_from _ _ I); exact Hi|].
    destruct (Hmd _ _ Hi) as (_ & _ & E & _). discriminate.
  - intros x y Hi. cbn [w' w_made] in Hi. apply in_app_iff in Hi as [Hi|Hi]; [apply (sends_grow w w' x y Gr), (i_sent _ _ I); exact Hi|].
    destruct (Hmd _ _ Hi) as (-> & -> & E & Hl). injection E as ->.
    assert (Hb : exists b, baggage_text st c = Some b) by (unfold carried in Eh; destruct (baggage_text st c); [eauto|discriminate]). destruct Hb as [b Hb].
    assert (Tb : wtext w (p, c) = Some b) by (unfold wtext; cbn [fst snd]; rewrite Ep; exact Hb).
    destruct (wtext_wobj U w (p, c) b (i_wf _ _ I) Tb) as (o & Oo & _). destruct (wg_obj _ _ Gr _ o Oo) as (o' & Oo' & Io & _).
    destruct (baggage_text sq' (List.length (t_ctxs sq))) as [b'|] eqn:Hb'; [|apply text_exists in Hb'; lia].
    destruct (text_rpc U sq' _ b' W' Hb') as (o2 & Ho2 & _).
    exists b, b', o', o2. split; [apply (wg_text _ _ Gr); exact Tb|]. split; [unfold w'; rewrite (wtext_set_same w q sq sq' _ _ Eq); exact Hb'|]. split; [exact Oo'|].
    split; [unfold w'; rewrite (wobj_set_same w q sq sq' _ _ Eq); exact Ho2|]. intros Hp.
    destruct (carried_plain st c a b h Hb (text_wf U st c b W Hb) Hp Eh) as [Wh Gh].
    destruct (extract_kept U st c b sq h fresh sq' _ HU W Wq Hb Wh Gh Ee) as (b2 & u & u' & T2 & K2 & U1 & U2 & U3).
    assert (b2 = b') by congruence. subst b2. assert (u' = o2) by congruence. subst u'. unfold wobj in Oo. cbn [fst snd] in Oo. rewrite Ep in Oo. assert (u = o) by congruence. subst u.
    split; [exact K2|congruence].
  - intros x y z oy oz Hy Hz Oy Oz E. cbn [w' w_made] in Hy, Hz. apply in_app_iff in Hy as [Hy|Hy]; [|destruct (Hmd _ _ Hy) as (_ & _ & Q & _); discriminate].
    apply in_app_iff in Hz as [Hz|Hz]; [|destruct (Hmd _ _ Hz) as (_ & _ & Q & _); discriminate]. apply (num_grow U w w' I Gr x y z oy oz Hy Hz Oy Oz E).
  - apply (winv_all_set w q sq sq' md Eq (i_all _ _ I)).
    + lia.
    + intros c' Hc. exists (MSent (p, c)). replace c' with (List.length (t_ctxs sq)) by lia. apply Hmd'. lia.
    + intros x m Hx. destruct (Hmd _ _ Hx) as (_ & -> & _ & Hl). cbn [fst snd]. split; [reflexivity|lia].
  - assert (New : forall m m', In ((q, List.length (t_ctxs sq)), m) (w_made w) -> m = m').
    { intros m m' Hm. exfalso. destruct (proj1 (wtext_some w _ _) (proj2 (i_all _ _ I _) (ex_intro _ m Hm))) as (s & Es & Hc). assert (s = sq) by congruence. subst s. lia. }
    cbn [w' w_made]. intros x m m' Hm Hm'. apply in_app_iff in Hm as [Hm|Hm]; apply in_app_iff in Hm' as [Hm'|Hm'].
    + apply (i_once _ _ I x); assumption.
    + destruct (Hmd _ _ Hm') as (_ & -> & _). apply New. exact Hm.
    + destruct (Hmd _ _ Hm) as (_ & -> & _). symmetry. apply New. exact Hm'.
    + destruct (Hmd _ _ Hm) as (_ & _ & -> & _). destruct (Hmd _ _ Hm') as (_ & _ & -> & _). reflexivity.
Qed.

Lemma winv_start U n : winv U (w_start n).
Proof.
  assert (H : forall p st, nth_error (repeat t_init n) p = Some st -> st = t_init).
  { intros p st E. apply nth_error_In in E. apply repeat_spec in E. exact E. }
  split; cbn [w_start w_procs w_made].
  - intros p st E. rewrite (H p st E). apply t_init_twf.
  - intros p st E c o Ho. rewrite (H p st E) in Ho. destruct c; discriminate.
  - intros t x y [].
  - intros x y [].
  - intros x y z oy oz [].
  - intros [p c]. rewrite wtext_some. split; [|intros [m []]]. intros (st & E & Hc). cbn [w_start w_procs] in E. rewrite (H p st E) in Hc. cbn in Hc. lia.
  - intros x m m' [].
Qed.

Lemma winv_run U n ls : tables_ok U -> winv U (wrun U n ls).
Proof.
  intros HU. unfold wrun. assert (G : forall w, winv U w -> winv U (fold_left (wstep U) ls w)).
  { induction ls as [|l ls IH]; intros w I; [exact I|]. cbn [fold_left]. apply IH. destruct l; [apply winv_local|apply winv_call]; assumption. }
  apply G, winv_start.
Qed.

(** ** along the tree *)
Lemma below_trans w x y z : below w x y -> below w y z -> below w x z.
Proof. induction 1 as [|x a y N _ IH]; intros H; [exact H|]. apply (below_next w x a z N). apply IH. exact H. Qed.
Lemma next_below w x y : next w x y -> below w x y.
Proof. intros H. apply (below_next w x y y H). constructor. Qed.
Lemma plain_below w x y : next w x y -> plain w x -> plain w y.
Proof. intros N P a z b B. apply (P a z b). apply (below_next w x y a N B). Qed.
Lemma children_below w x y : next w x y -> children_only w x -> children_only w y.
Proof. intros N P a z t B. apply (P a z t). apply (below_next w x y a N B). Qed.
Lemma own_below w x y : next w x y -> own_span w x -> own_span w y.
Proof. intros N P a z u m B. apply (P a z u m). apply (below_next w x y a N B). Qed.

(** one edge *)
Lemma next_keeps U w x y b : winv U w -> next w x y -> plain w x -> wtext w x = Some b ->
  exists b', wtext w y = Some b' /\ forall k v, k <> K_rpc -> dget k b = Some v -> dget k b' = Some v.
Proof.
  intros I (m & Hm & S) P T. destruct m as [|t x0|x0]; cbn [source] in S; try discriminate S; injection S as ->.
  - destruct (i_from _ _ I t x y Hm) as (bx & by_ & ox & oy & Tx & Ty & K & _). assert (bx = b) by congruence. subst bx. exists by_. split; [exact Ty|].
    intros k v Hk Hv. rewrite (K k Hk). exact Hv.
  - destruct (i_sent _ _ I x y Hm) as (bx & by_ & ox & oy & Tx & Ty & _ & _ & H). assert (bx = b) by congruence. subst bx. exists by_. split; [exact Ty|].
    destruct (H (P x y b (below_here w x) Hm T)) as [K _]. intros k v _ Hv. apply K. exact Hv.
Qed.

Lemma tree_keeps U w x y b : winv U w -> below w x y -> plain w x -> wtext w x = Some b ->
  exists b', wtext w y = Some b' /\ forall k v, k <> K_rpc -> dget k b = Some v -> dget k b' = Some v.
Proof.
  intros I B. revert b. induction B as [x|x a y N _ IH]; intros b P T; [exists b; auto|].
  destruct (next_keeps U w x a b I N P T) as (b1 & T1 & K1). destruct (IH b1 (plain_below w x a N P) T1) as (b2 & T2 & K2). exists b2. split; [exact T2|].
  intros k v Hk Hv. apply (K2 k v Hk), (K1 k v Hk), Hv.
Qed.

Lemma next_obj U w x y : winv U w -> next w x y -> plain w x -> children_only w x -> exists ox oy, wobj w x = Some ox /\ wobj w y = Some oy /\
  ((In (y, MSent x) (w_made w) /\ r_ids oy = r_ids ox) \/ (In (y, MFrom ChildOf x) (w_made w) /\ exists k, r_ids oy = r_ids ox ++ [SInt k])).
Proof.
  intros I (m & Hm & S) P C. destruct m as [|t x0|x0]; cbn [source] in S; try discriminate S; injection S as ->.
  - pose proof (C x y t (below_here w x) Hm) as ->. destruct (i_from _ _ I ChildOf x y Hm) as (bx & by_ & ox & oy & Tx & Ty & K & Ox & Oy & k & _ & Hk). eauto 9.
  - destruct (i_sent _ _ I x y Hm) as (bx & by_ & ox & oy & Tx & Ty & Ox & Oy & H). exists ox, oy. split; [exact Ox|]. split; [exact Oy|]. left. split; [exact Hm|].
    apply H. apply (P x y bx (below_here w x) Hm Tx).
Qed.

Lemma below_obj U w x y ox : winv U w -> below w x y -> plain w x -> children_only w x -> wobj w x = Some ox ->
  exists oy l, wobj w y = Some oy /\ r_ids oy = r_ids ox ++ l /\ (l = [] -> relayed w x y).
Proof.
  intros I B. revert ox. induction B as [x|x a y N _ IH]; intros ox P C Ox.
  - exists ox, []. rewrite app_nil_r. repeat split; [exact Ox|]. intros _. constructor.
  - destruct (next_obj U w x a I N P C) as (ox' & oa & Ox' & Oa & H). assert (ox' = ox) by congruence. subst ox'.
    destruct (IH oa (plain_below w x a N P) (children_below w x a N C) Oa) as (oy & l & Oy & E & R). exists oy. destruct H as [[Hm Hi]|(Hm & k & Hk)].
    + exists l. split; [exact Oy|]. split; [congruence|]. intros Hl. apply (relayed_next w x a y Hm). apply R. exact Hl.
    + exists (SInt k :: l). split; [exact Oy|]. split; [rewrite E, Hk, <- app_assoc; reflexivity|]. discriminate.
Qed.

Lemma rpcid_str_app ids l : ids <> [] -> id_extends (rpcid_str ids) (rpcid_str (ids ++ l)).
Proof.
  intros Hne. induction l as [|x l IH] using rev_ind.
  - rewrite app_nil_r. exists []. rewrite app_nil_r. auto.
  - destruct IH as (s & E & H). rewrite app_assoc. unfold rpcid_str in *. rewrite map_app. cbn [map]. rewrite join_snoc by (destruct ids; [congruence|discriminate]).
    rewrite E, <- app_assoc. eexists. split; [reflexivity|]. right. destruct H as [->|[q ->]]; eexists; reflexivity.
Qed.

Lemma tree_ids U w x y b : winv U w -> below w x y -> plain w x -> children_only w x -> wtext w x = Some b ->
  exists b' r r', wtext w y = Some b' /\ dget K_rpc b = Some r /\ dget K_rpc b' = Some r' /\ id_extends r r'.
Proof.
  intros I B P C T. destruct (tree_keeps U w x y b I B P T) as (b' & T' & _). destruct (wtext_wobj U w x b (i_wf _ _ I) T) as (ox & Ox & Rx). destruct (wtext_wobj U w y b' (i_wf _ _ I) T') as (oy & Oy & Ry).
  exists b', (rpcid_str (r_ids ox)), (rpcid_str (r_ids oy)). split; [exact T'|]. split; [exact Rx|]. split; [exact Ry|].
  destruct (below_obj U w x y ox I B P C Ox) as (oy' & l & Oy' & E & _). assert (oy' = oy) by congruence. subst oy'. rewrite E. apply rpcid_str_app.
  unfold wobj in Ox. destruct (nth_error (w_procs w) (fst x)) as [st|] eqn:Es; [|discriminate]. apply (normal_nonempty U). apply (w_norm _ _ (i_wf _ _ I _ _ Es) _ _ Ox).
Qed.

Lemma wobj_normal U w x o : winv U w -> wobj w x = Some o -> normal U (r_ids o) /\ no_dots (r_ids o).
Proof.
  intros I H. unfold wobj in H. destruct (nth_error (w_procs w) (fst x)) as [st|] eqn:Es; [|discriminate]. pose proof (i_wf _ _ I _ _ Es) as W.
  split; [apply (w_norm _ _ W _ _ H)|apply (w_dots _ _ W _ _ H)].
Qed.

Lemma text_ids U w x y bx by_ : tables_ok U -> winv U w -> wtext w x = Some bx -> wtext w y = Some by_ -> dget K_rpc bx = dget K_rpc by_ ->
  exists ox oy, wobj w x = Some ox /\ wobj w y = Some oy /\ r_ids ox = r_ids oy.
Proof.
  intros HU I Tx Ty E. destruct (wtext_wobj U w x bx (i_wf _ _ I) Tx) as (ox & Ox & Rx). destruct (wtext_wobj U w y by_ (i_wf _ _ I) Ty) as (oy & Oy & Ry).
  exists ox, oy. split; [exact Ox|]. split; [exact Oy|]. destruct (wobj_normal U w x ox I Ox) as [A1 A2]. destruct (wobj_normal U w y oy I Oy) as [B1 B2].
  pose proof (rpcid_text_roundtrip U HU _ A1 A2) as Rx'. pose proof (rpcid_text_roundtrip U HU _ B1 B2) as Ry'.
  assert (rpcid_str (r_ids ox) = rpcid_str (r_ids oy)) by congruence. congruence.
Qed.

Lemma same_ids_relayed U w x : winv U w -> forall y, below w x y -> plain w x -> children_only w x -> own_span w x ->
  forall z oy oz, below w x z -> wobj w y = Some oy -> wobj w z = Some oz -> r_ids oy = r_ids oz -> relayed w y z \/ relayed w z y.
Proof.
  intros I y B. induction B as [x|x a y N By IH]; intros P C O z oy oz Bz Oy Oz E.
  - left. destruct (below_obj U w x z oy I Bz P C Oy) as (oz' & l & Oz' & E' & R). apply R. assert (oz' = oz) by congruence. subst oz'.
    rewrite E' in E. rewrite <- app_nil_r in E at 1. apply app_inv_head in E. congruence.
  - destruct (next_obj U w x a I N P C) as (ox & oa & Ox & Oa & Ha). destruct Bz as [|b z Nb Bz].
    + right. destruct (below_obj U w x y oz I (below_next w x a y N By) P C Oz) as (oy' & l & Oy' & E' & R). apply R. assert (oy' = oy) by congruence. subst oy'.
      rewrite E' in E. rewrite <- app_nil_r in E. apply app_inv_head in E. exact E.
    + assert (a = b) as <-.
      { pose proof N as (ma & Hma & Sa). pose proof Nb as (mb & Hmb & Sb).
        destruct (next_obj U w x b I Nb P C) as (ox' & ob & Ox' & Ob & Hb). assert (ox' = ox) by congruence. subst ox'.
        destruct Ha as [[Ha _]|(Ha & k & Hk)]; [symmetry; apply (O x a b mb (below_here w x) Ha Hmb Sb)|].
        destruct Hb as [[Hb _]|(Hb & k' & Hk')]; [apply (O x b a ma (below_here w x) Hb Hma Sa)|].
        destruct (below_obj U w a y oa I By (plain_below w x a N P) (children_below w x a N C) Oa) as (oy' & l & Oy' & E1 & _). assert (oy' = oy) by congruence. subst oy'.
        destruct (below_obj U w b z ob I Bz (plain_below w x b Nb P) (children_below w x b Nb C) Ob) as (oz' & l' & Oz' & E2 & _). assert (oz' = oz) by congruence. subst oz'.
        apply (i_num _ _ I x a b oa ob Ha Hb Oa Ob). rewrite Hk, Hk'. rewrite E1, E2, Hk, Hk', <- !app_assoc in E. apply app_inv_head in E. cbn [app] in E. injection E as -> _. reflexivity. }
      apply (IH (plain_below w x a N P) (children_below w x a N C) (own_below w x a N O) z oy oz Bz Oy Oz E).
Qed.

Lemma relayed_below w x y : relayed w x y -> below w x y.
Proof. induction 1 as [|x y z H _ IH]; [constructor|]. apply (below_next w x y z); [exists (MSent x); auto|exact IH]. Qed.

Lemma relayed_text U w x y b : winv U w -> relayed w x y -> plain w x -> wtext w x = Some b ->
  exists b', wtext w y = Some b' /\ forall k v, dget k b = Some v -> dget k b' = Some v.
Proof.
  intros I R. revert b. induction R as [x|x a y H R IH]; intros b P T; [exists b; auto|].
  destruct (i_sent _ _ I x a H) as (bx & by_ & ox & oy & Tx & Ty & _ & _ & K). assert (bx = b) by congruence. subst bx.
  destruct (K (P x a b (below_here w x) H T)) as [K1 _].
  destruct (IH by_ (plain_below w x a (ex_intro _ (MSent x) (conj H eq_refl)) P) Ty) as (b2 & T2 & K2). exists b2. split; [exact T2|]. intros k v Hv. apply K2, K1, Hv.
Qed.

(** ** C100 *)
Lemma contexts_recorded U n ls : tables_ok U -> let w := wrun U n ls in
  (forall x, wtext w x <> None <-> exists m, In (x, m) (w_made w)) /\
  (forall x m m', In (x, m) (w_made w) -> In (x, m') (w_made w) -> m = m').
Proof. intros HU w. pose proof (winv_run U n ls HU) as I. split; [apply (i_all _ _ I)|apply (i_once _ _ I)]. Qed.

Lemma trace_kept U n ls x y b : tables_ok U -> let w := wrun U n ls in below w x y -> plain w x -> wtext w x = Some b ->
  exists b', wtext w y = Some b' /\ forall k v, k <> rpc_name -> dget k b = Some v -> dget k b' = Some v.
Proof. intros HU w. apply (tree_keeps U w x y b (winv_run U n ls HU)). Qed.

Lemma ids_extend U n ls x y b : tables_ok U -> let w := wrun U n ls in below w x y -> plain w x -> children_only w x -> wtext w x = Some b ->
  exists b' r r', wtext w y = Some b' /\ dget rpc_name b = Some r /\ dget rpc_name b' = Some r' /\ id_extends r r'.
Proof. intros HU w. apply (tree_ids U w x y b (winv_run U n ls HU)). Qed.

Lemma same_id_iff U n ls x y z by_ bz : tables_ok U -> let w := wrun U n ls in
  plain w x -> children_only w x -> own_span w x -> below w x y -> below w x z -> wtext w y = Some by_ -> wtext w z = Some bz ->
  (dget rpc_name by_ = dget rpc_name bz <-> relayed w y z \/ relayed w z y).
Proof.
  intros HU w P C O By Bz Ty Tz. pose proof (winv_run U n ls HU) as I. fold w in I. split.
  - intros E. destruct (text_ids U w y z by_ bz HU I Ty Tz E) as (oy & oz & Oy & Oz & Ei). apply (same_ids_relayed U w x I y By P C O z oy oz Bz Oy Oz Ei).
  - assert (Py : plain w y) by (intros a u b Ba; apply P; apply (below_trans w x y a By Ba)). assert (Pz : plain w z) by (intros a u b Ba; apply P; apply (below_trans w x z a Bz Ba)).
    destruct (wtext_wobj U w y by_ (i_wf _ _ I) Ty) as (oy & _ & Ry). destruct (wtext_wobj U w z bz (i_wf _ _ I) Tz) as (oz & _ & Rz).
    intros [R|R].
    + destruct (relayed_text U w y z by_ I R Py Ty) as (b' & T' & K). assert (b' = bz) by congruence. subst b'. change rpc_name with K_rpc. rewrite Ry. symmetry. apply K. exact Ry.
    + destruct (relayed_text U w z y bz I R Pz Tz) as (b' & T' & K). assert (b' = by_) by congruence. subst b'. change rpc_name with K_rpc. rewrite Rz. apply K. exact Rz.
Qed.

Lemma call_keeps_id U n ls x y b : tables_ok U -> let w := wrun U n ls in In (y, MSent x) (w_made w) -> wtext w x = Some b -> dget (str "prefix") b = None ->
  exists b', wtext w y = Some b' /\ forall k v, dget k b = Some v -> dget k b' = Some v.
Proof.
  intros HU w H T P. pose proof (winv_run U n ls HU) as I. destruct (i_sent _ _ I x y H) as (bx & by_ & ox & oy & Tx & Ty & _ & _ & K). assert (bx = b) by (unfold w in T; congruence). subst bx.
  exists by_. split; [exact Ty|]. apply K. exact P.
Qed.

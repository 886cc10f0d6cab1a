(** Lemmas about the recently-used container. *)
From Coq Require Import Sorting.Sorted Sorting.Permutation.
From Verif Require Import PyBase L_PyBase PyDict L_PyDict M_Lru S_Lru.

Section L.
  Context {K V : Type} `{EqDec K}.
  Implicit Types (c : dict K V) (ops : list (lop K V)).

  Lemma ddel_filter k c : wf_dict c -> ddel k c = filter (fun kv => if eq_dec (fst kv) k then false else true) c.
  Proof.
    unfold wf_dict. induction c as [|[k' v'] c IH]; intros W; [reflexivity|]. cbn [keys map fst] in W. inversion W as [|x l Hn W' E]; subst. cbn [ddel filter fst].
    destruct (eq_dec k k') as [<-|Hne].
    - destruct (eq_dec k k); [|congruence]. symmetry. clear IH. cbn [filter]. assert (F : forall l : dict K V, ~ In k (keys l) -> filter (fun kv => if eq_dec (fst kv) k then false else true) l = l).
      { induction l as [|[a b] l IHl]; intros Hl; [reflexivity|]. cbn [filter fst]. destruct (eq_dec a k) as [->|]; [exfalso; apply Hl; left; reflexivity|].
        rewrite IHl; [reflexivity|]. intros Hi. apply Hl. right. exact Hi. }
      apply F. exact Hn.
    - destruct (eq_dec k' k); [congruence|]. rewrite IH by exact W'. reflexivity.
  Qed.

  Lemma dset_map k v c : wf_dict c -> In k (keys c) -> dset k v c = map (fun kv => if eq_dec (fst kv) k then (fst kv, v) else kv) c.
  Proof.
    unfold wf_dict. induction c as [|[k' v'] c IH]; intros W Hi; [destruct Hi|]. cbn [keys map fst] in W. inversion W as [|x l Hn W' E]; subst. cbn [dset map fst].
    destruct (eq_dec k k') as [<-|Hne].
    - destruct (eq_dec k k); [|congruence]. apply (f_equal (cons (k, v))). assert (F : forall l : dict K V, ~ In k (keys l) -> map (fun kv => if eq_dec (fst kv) k then (fst kv, v) else kv) l = l).
      { induction l as [|[a b] l IHl]; intros Hl; [reflexivity|]. cbn [map fst]. destruct (eq_dec a k) as [->|]; [exfalso; apply Hl; left; reflexivity|].
        rewrite IHl; [reflexivity|]. intros Hj. apply Hl. right. exact Hj. }
      symmetry. apply F. exact Hn.
    - destruct (eq_dec k' k); [congruence|]. rewrite IH; [reflexivity|exact W'|]. destruct Hi as [Hi|Hi]; [cbn in Hi; congruence|exact Hi].
  Qed.

  Definition lheld maxsize ops i := keys (fst (lrun maxsize (firstn i ops))).

  Lemma lrun_snoc maxsize ops o : lrun maxsize (ops ++ [o]) = lstep maxsize (lrun maxsize ops) o.
  Proof. unfold lrun. rewrite fold_left_app. reflexivity. Qed.

  Lemma held_snoc maxsize ops o i : (i <= length ops)%nat -> lheld maxsize (ops ++ [o]) i = lheld maxsize ops i.
  Proof.
    intros Hi. unfold lheld. rewrite firstn_app. replace (i - length ops)%nat with 0%nat by lia. cbn [firstn]. rewrite app_nil_r. reflexivity.
  Qed.
  Lemma held_end maxsize ops o : lheld maxsize (ops ++ [o]) (length ops) = keys (fst (lrun maxsize ops)).
  Proof. rewrite held_snoc by lia. unfold lheld. rewrite firstn_all. reflexivity. Qed.

  Lemma used_lt ops held k i : used_at ops held k i -> (i < length ops)%nat.
  Proof. unfold used_at. destruct (nth_error ops i) eqn:E; [|intros []]. intros _. apply nth_error_Some. congruence. Qed.

  Lemma used_old maxsize ops o k i : (i < length ops)%nat -> (used_at (ops ++ [o]) (lheld maxsize (ops ++ [o])) k i <-> used_at ops (lheld maxsize ops) k i).
  Proof. intros Hi. unfold used_at. rewrite nth_error_app1 by exact Hi. rewrite held_snoc by lia. reflexivity. Qed.

  Definition uses_now (held : list K) (o : lop K V) k : Prop :=
    match o with LGet k' => k' = k /\ In k held | LSet k' _ => k' = k /\ ~ In k held | _ => False end.
  Lemma used_new maxsize ops o k : used_at (ops ++ [o]) (lheld maxsize (ops ++ [o])) k (length ops) <-> uses_now (keys (fst (lrun maxsize ops))) o k.
  Proof. unfold used_at. rewrite nth_error_app2, Nat.sub_diag by lia. cbn [nth_error]. rewrite held_end. destruct o; reflexivity. Qed.

  Lemma last_use_keep maxsize ops o k t : ~ uses_now (keys (fst (lrun maxsize ops))) o k ->
    last_use ops (lheld maxsize ops) k t -> last_use (ops ++ [o]) (lheld maxsize (ops ++ [o])) k t.
  Proof.
    intros Hn [Hu Hm]. pose proof (used_lt _ _ _ _ Hu) as Hl. split; [apply used_old; assumption|].
    intros j Hj. pose proof (used_lt _ _ _ _ Hj) as Hjl. rewrite app_length in Hjl. cbn in Hjl.
    destruct (Nat.eq_dec j (length ops)) as [->|Hne]; [apply used_new in Hj; contradiction|]. apply Hm. apply (used_old maxsize ops o); [lia|exact Hj].
  Qed.
  Lemma last_use_now maxsize ops o k : uses_now (keys (fst (lrun maxsize ops))) o k ->
    last_use (ops ++ [o]) (lheld maxsize (ops ++ [o])) k (length ops).
  Proof.
    intros Hu. split; [apply used_new; exact Hu|]. intros j Hj. apply used_lt in Hj. rewrite app_length in Hj. cbn in Hj. lia.
  Qed.
  Lemma latest_keep ops o k v : (forall v', o <> LSet k v') -> latest_value ops k v -> latest_value (ops ++ [o]) k v.
  Proof.
    intros Ho (i & Hi & Hm). exists i. assert (i < length ops)%nat by (apply nth_error_Some; congruence).
    split; [rewrite nth_error_app1 by lia; exact Hi|]. intros j v' Hj. destruct (Nat.lt_ge_cases j (length ops)) as [Hl|Hl].
    - rewrite nth_error_app1 in Hj by exact Hl. exact (Hm j v' Hj).
    - rewrite nth_error_app2 in Hj by exact Hl. destruct (j - length ops)%nat as [|n]; cbn in Hj; [injection Hj as Hj; exfalso; exact (Ho v' Hj)|destruct n; discriminate].
  Qed.
  Lemma latest_now ops k v : latest_value (ops ++ [LSet k v]) k v.
  Proof.
    exists (length ops). split; [rewrite nth_error_app2, Nat.sub_diag by lia; reflexivity|]. intros j v' Hj.
    assert (Hl : (j < length (ops ++ [LSet k v]))%nat) by (apply nth_error_Some; congruence). rewrite app_length in Hl. cbn in Hl. lia.
  Qed.

  (** the invariant: entries annotated with the index of their last use *)
  Definition annotated maxsize ops (l : list (K * V * nat)) : Prop :=
    map fst l = fst (lrun maxsize ops) /\ StronglySorted (fun x y => (snd x < snd y)%nat) l /\
    Forall (fun x => last_use ops (lheld maxsize ops) (fst (fst x)) (snd x) /\ latest_value ops (fst (fst x)) (snd (fst x)) /\ (snd x < length ops)%nat) l.

  Lemma sorted_filter {A} (R : A -> A -> Prop) f (l : list A) : StronglySorted R l -> StronglySorted R (filter f l).
  Proof.
    induction 1 as [|a l Hs IH Hf]; cbn [filter]; [constructor|]. destruct (f a); [|exact IH]. constructor; [exact IH|].
    rewrite Forall_forall in *. intros x Hx. apply filter_In in Hx as [Hx _]. auto.
  Qed.
  Lemma sorted_snoc {A} (R : A -> A -> Prop) l x : StronglySorted R l -> Forall (fun a => R a x) l -> StronglySorted R (l ++ [x]).
  Proof.
    induction 1 as [|a l Hs IH Hf]; intros Hx; cbn [app]; [repeat constructor|]. inversion Hx; subst. constructor; [auto|].
    apply Forall_app. split; [exact Hf|repeat constructor; assumption].
  Qed.
  Lemma sorted_map {A} (R : A -> A -> Prop) f (l : list A) : (forall x y, R x y -> R (f x) (f y)) -> StronglySorted R l -> StronglySorted R (map f l).
  Proof.
    intros Hf. induction 1 as [|a l Hs IH Hl]; cbn [map]; constructor; [exact IH|]. rewrite Forall_forall in *. intros y Hy.
    apply in_map_iff in Hy as (x & <- & Hx). auto.
  Qed.
  Lemma sorted_tail {A} (R : A -> A -> Prop) a (l : list A) : StronglySorted R (a :: l) -> StronglySorted R l.
  Proof. intros S. inversion S. assumption. Qed.
  Lemma filter_map {A B} (f : A -> B) (g : B -> bool) l : filter g (map f l) = map f (filter (fun x => g (f x)) l).
  Proof. induction l as [|a l IH]; [reflexivity|]. cbn [map filter]. destruct (g (f a)); cbn [map]; rewrite IH; reflexivity. Qed.

  Lemma lru_wf maxsize ops : wf_dict (fst (lrun maxsize ops)).
  Proof.
    induction ops as [|o ops IH] using rev_ind; [constructor|]. rewrite lrun_snoc. destruct (lrun maxsize ops) as [c log]. cbn [fst] in IH. destruct o; cbn [lstep].
    - unfold lru_get. destruct (dget k c); cbn [fst]; [|exact IH]. apply wf_dset, wf_ddel, IH.
    - unfold lru_set. pose proof (wf_dset k v c IH) as W. destruct (maxsize <? len (dset k v c)); cbn [fst]; [|exact W].
      destruct (dset k v c) as [|[k0 v0] c2]; [constructor|]. cbn [fst]. unfold wf_dict, keys in *. cbn [map] in W. inversion W. assumption.
    - unfold lru_del. destruct (dget k c); cbn [fst]; [apply wf_ddel|]; exact IH.
    - constructor.
  Qed.

  Lemma annotate maxsize ops : exists l, annotated maxsize ops l.
  Proof.
    induction ops as [|o ops IH] using rev_ind; [exists []; repeat constructor|]. destruct IH as (l & Hl & Hs & Hf).
    pose proof (lru_wf maxsize ops) as W. rewrite Forall_forall in Hf.
    assert (Hlen : forall t : nat, (t < length ops)%nat -> (t < length (ops ++ [o]))%nat) by (intros t Ht; rewrite app_length; cbn; lia).
    assert (Keep : forall x, In x l -> ~ uses_now (keys (fst (lrun maxsize ops))) o (fst (fst x)) -> (forall v', o <> LSet (fst (fst x)) v') ->
      last_use (ops ++ [o]) (lheld maxsize (ops ++ [o])) (fst (fst x)) (snd x) /\ latest_value (ops ++ [o]) (fst (fst x)) (snd (fst x)) /\ (snd x < length (ops ++ [o]))%nat).
    { intros x Hx Hn Ho. destruct (Hf x Hx) as (H1 & H2 & H3). split; [apply last_use_keep; assumption|]. split; [apply latest_keep; assumption|auto]. }
    unfold annotated. rewrite lrun_snoc. destruct (lrun maxsize ops) as [c log] eqn:Er. cbn [fst] in *.
    destruct o as [k|k v|k|]; cbn [lstep].
    - (* read *)
      unfold lru_get. destruct (dget k c) as [v|] eqn:G; cbn [fst].
      + exists (filter (fun x => if eq_dec (fst (fst x)) k then false else true) l ++ [((k, v), length ops)]). split; [|split].
        * rewrite dset_fresh by (intros Hi; apply In_keys_ddel_iff in Hi; [destruct Hi; congruence|exact W]). rewrite map_app. cbn [map fst]. f_equal.
          rewrite ddel_filter by exact W. rewrite <- Hl, filter_map. reflexivity.
        * apply sorted_snoc; [apply sorted_filter; exact Hs|]. apply Forall_forall. intros x Hx. apply filter_In in Hx as [Hx _]. destruct (Hf x Hx) as (_ & _ & H3). exact H3.
        * apply Forall_app. split.
          -- apply Forall_forall. intros x Hx. apply filter_In in Hx as [Hx Hk]. destruct (eq_dec (fst (fst x)) k) as [|Hne]; [discriminate|].
             apply Keep; [exact Hx| |discriminate]. intros [E _]. congruence.
          -- repeat constructor; cbn [fst snd].
             ++ apply used_new. rewrite Er. cbn. split; [reflexivity|]. apply dget_keys in G. exact G.
             ++ intros j Hj. apply used_lt in Hj. rewrite app_length in Hj. cbn in Hj. lia.
             ++ apply latest_keep; [discriminate|]. apply dget_In in G. rewrite <- Hl in G. apply in_map_iff in G as (x & E & Hx). destruct (Hf x Hx) as (_ & H2 & _). rewrite E in H2. exact H2.
             ++ rewrite app_length. cbn. lia.
      + exists l. split; [exact Hl|]. split; [exact Hs|]. apply Forall_forall. intros x Hx. apply Keep; [exact Hx| |discriminate].
        intros [E Hi]. apply dget_None in G. apply G. rewrite E. exact Hi.
    - (* store *)
      assert (Hc1 : exists l1, map fst l1 = dset k v c /\ StronglySorted (fun x y => (snd x < snd y)%nat) l1 /\
        Forall (fun x => last_use (ops ++ [LSet k v]) (lheld maxsize (ops ++ [LSet k v])) (fst (fst x)) (snd x) /\
                         latest_value (ops ++ [LSet k v]) (fst (fst x)) (snd (fst x)) /\ (snd x < length (ops ++ [LSet k v]))%nat) l1).
      { destruct (in_dec eq_dec k (keys c)) as [Hi|Hi].
        - exists (map (fun x => if eq_dec (fst (fst x)) k then ((fst (fst x), v), snd x) else x) l). split; [|split].
          + rewrite dset_map by assumption. rewrite <- Hl, !map_map. apply map_ext. intros [[a b] t]. cbn. destruct (eq_dec a k); reflexivity.
          + apply sorted_map; [|exact Hs]. intros x y Hxy. destruct (eq_dec (fst (fst x)) k), (eq_dec (fst (fst y)) k); exact Hxy.
          + apply Forall_forall. intros y Hy. apply in_map_iff in Hy as (x & <- & Hx). destruct (eq_dec (fst (fst x)) k) as [Ek|Hne]; cbn [fst snd].
            * destruct (Hf x Hx) as (H1 & H2 & H3). split; [apply last_use_keep; [|exact H1]|split; [rewrite Ek; apply latest_now|auto]].
              intros [_ Hn]. apply Hn. rewrite Er, Ek. exact Hi.
            * apply Keep; [exact Hx| |congruence]. intros [E _]. congruence.
        - exists (l ++ [((k, v), length ops)]). split; [|split].
          + rewrite dset_fresh by exact Hi. rewrite map_app, Hl. reflexivity.
          + apply sorted_snoc; [exact Hs|]. apply Forall_forall. intros x Hx. destruct (Hf x Hx) as (_ & _ & H3). exact H3.
          + apply Forall_app. split.
            * apply Forall_forall. intros x Hx. assert (Hne : fst (fst x) <> k).
              { intros E. apply Hi. rewrite <- Hl. unfold keys. rewrite map_map, <- E. apply (in_map (fun x => fst (fst x))). exact Hx. }
              apply Keep; [exact Hx| |congruence]. intros [E _]. congruence.
            * repeat constructor; cbn [fst snd]; [| |apply latest_now|rewrite app_length; cbn; lia].
              -- apply used_new. rewrite Er. split; [reflexivity|exact Hi].
              -- intros j Hj. apply used_lt in Hj. rewrite app_length in Hj. cbn in Hj. lia. }
      destruct Hc1 as (l1 & E1 & S1 & F1). unfold lru_set. destruct (maxsize <? len (dset k v c)); [|exists l1; auto].
      rewrite <- E1. destruct l1 as [|[[k0 v0] t0] l2]; [exists []; cbn; auto|]. exists l2. cbn [map fst]. split; [reflexivity|]. split; [exact (sorted_tail _ _ _ S1)|]. inversion F1. assumption.
    - (* delete *)
      unfold lru_del. destruct (dget k c) as [v|] eqn:G; cbn [fst].
      + exists (filter (fun x => if eq_dec (fst (fst x)) k then false else true) l). split; [|split].
        * rewrite ddel_filter by exact W. rewrite <- Hl, filter_map. reflexivity.
        * apply sorted_filter. exact Hs.
        * apply Forall_forall. intros x Hx. apply filter_In in Hx as [Hx Hk]. apply Keep; [exact Hx|intros []|discriminate].
      + exists l. split; [exact Hl|]. split; [exact Hs|]. apply Forall_forall. intros x Hx. apply Keep; [exact Hx|intros []|discriminate].
    - exists []. repeat constructor.
  Qed.

  Lemma lru_bound maxsize ops : len (fst (lrun maxsize ops)) <= Z.max 0 maxsize.
  Proof.
    unfold len. induction ops as [|o ops IH] using rev_ind; [cbn; lia|]. rewrite lrun_snoc. pose proof (lru_wf maxsize ops) as W. destruct (lrun maxsize ops) as [c log]. cbn [fst] in *.
    destruct o; cbn [lstep].
    - unfold lru_get. destruct (dget k c) eqn:G; cbn [fst]; [|exact IH]. rewrite length_dset, length_ddel. unfold dmem. rewrite G, dget_ddel_same by exact W.
      apply dget_keys in G. destruct c; [destruct G|]. cbn in *. lia.
    - unfold lru_set. destruct (maxsize <? len (dset k v c)) eqn:E; cbn [fst].
      + pose proof (length_dset k v c) as L. destruct (dset k v c) as [|[k0 v0] c2] eqn:Ed; [cbn; lia|]. cbn [fst]. cbn in L. destruct (dmem k c); lia.
      + apply Z.ltb_ge in E. unfold len in E. lia.
    - unfold lru_del. destruct (dget k c) eqn:G; cbn [fst]; [|exact IH]. rewrite length_ddel. destruct (dmem k c); lia.
    - cbn. lia.
  Qed.

  Lemma lru_latest maxsize ops k v : dget k (fst (lrun maxsize ops)) = Some v -> latest_value ops k v.
  Proof.
    intros G. destruct (annotate maxsize ops) as (l & Hl & _ & Hf). apply dget_In in G. rewrite <- Hl in G. apply in_map_iff in G as (x & E & Hx).
    rewrite Forall_forall in Hf. destruct (Hf x Hx) as (_ & H2 & _). rewrite E in H2. exact H2.
  Qed.

  Lemma last_use_fun ops held k t t' : last_use ops held k t -> last_use ops held k t' -> t = t'.
  Proof. intros [A B] [C D]. specialize (B _ C). specialize (D _ A). lia. Qed.

  Lemma lru_order maxsize ops pre k mid k' post : keys (fst (lrun maxsize ops)) = pre ++ k :: mid ++ k' :: post ->
    exists t t', last_use ops (lheld maxsize ops) k t /\ last_use ops (lheld maxsize ops) k' t' /\ (t < t')%nat.
  Proof.
    intros E. destruct (annotate maxsize ops) as (l & Hl & Hs & Hf). rewrite <- Hl in E. unfold keys in E. rewrite map_map in E.
    apply map_eq_app in E as (l1 & l2 & -> & _ & E). destruct l2 as [|x l2]; [discriminate|]. injection E as Ex E.
    apply map_eq_app in E as (l3 & l4 & -> & _ & E). destruct l4 as [|y l4]; [discriminate|]. injection E as Ey _.
    rewrite Forall_forall in Hf. destruct (Hf x) as (Hx & _); [apply in_or_app; right; left; reflexivity|].
    destruct (Hf y) as (Hy & _); [apply in_or_app; right; right; apply in_or_app; right; left; reflexivity|].
    rewrite Ex in Hx. rewrite Ey in Hy. exists (snd x), (snd y). split; [exact Hx|]. split; [exact Hy|].
    assert (S2 : StronglySorted (fun a b : K * V * nat => (snd a < snd b)%nat) (x :: l3 ++ y :: l4)).
    { clear -Hs. induction l1 as [|a l1 IH]; [exact Hs|]. apply IH. exact (sorted_tail _ _ _ Hs). }
    inversion S2 as [|a b _ Ff]; subst. rewrite Forall_forall in Ff. apply Ff. apply in_or_app. right. left. reflexivity.
  Qed.

  (** storing a key: which keys are held afterwards *)
  Lemma lru_store maxsize ops k v : let c := fst (lrun maxsize ops) in let c' := fst (lrun maxsize (ops ++ [LSet k v])) in
    (In k (keys c) -> keys c' = keys c) /\
    (~ In k (keys c) -> len c < maxsize -> keys c' = keys c ++ [k]) /\
    (~ In k (keys c) -> maxsize <= len c -> keys c' = tl (keys c ++ [k])).
  Proof.
    cbn zeta. rewrite lrun_snoc. pose proof (lru_bound maxsize ops) as B. destruct (lrun maxsize ops) as [c log]. cbn [fst lstep] in *. unfold lru_set.
    assert (L : len (dset k v c) = if dmem k c then len c else len c + 1) by (unfold len; rewrite length_dset; destruct (dmem k c); lia).
    unfold len in *. split; [|split].
    - intros Hi. assert (dmem k c = true) as E by (apply dmem_In; exact Hi). rewrite E in L.
      assert (Hpos : (0 < length c)%nat) by (destruct c; [destruct Hi|cbn; lia]).
      replace (maxsize <? Z.of_nat (length (dset k v c))) with false by (symmetry; apply Z.ltb_ge; lia). cbn [fst]. apply keys_dset_mem. exact Hi.
    - intros Hi Hlt. assert (dmem k c = false) as E by (destruct (dmem k c) eqn:E; [apply dmem_In in E; contradiction|reflexivity]). rewrite E in L.
      replace (maxsize <? Z.of_nat (length (dset k v c))) with false by (symmetry; apply Z.ltb_ge; lia). cbn [fst]. apply keys_dset_fresh. exact Hi.
    - intros Hi Hge. assert (dmem k c = false) as E by (destruct (dmem k c) eqn:E; [apply dmem_In in E; contradiction|reflexivity]). rewrite E in L.
      replace (maxsize <? Z.of_nat (length (dset k v c))) with true by (symmetry; apply Z.ltb_lt; lia). rewrite <- (keys_dset_fresh k v) by exact Hi.
      destruct (dset k v c) as [|[k0 v0] c2]; reflexivity.
  Qed.

  Lemma vals_ddel k v c : wf_dict c -> dget k c = Some v -> Permutation (vals c) (v :: vals (ddel k c)).
  Proof.
    intros W. induction c as [|[k' v'] c IH]; [discriminate|]. cbn [dget ddel]. destruct (eq_dec k k') as [<-|Hne]; intros G.
    - injection G as <-. reflexivity.
    - unfold wf_dict in W. inversion W; subst. cbn [vals map snd]. rewrite perm_swap. apply perm_skip. apply IH; assumption.
  Qed.
  Lemma vals_dset_mem k v v' c : wf_dict c -> dget k c = Some v' -> Permutation (v :: vals c) (v' :: vals (dset k v c)).
  Proof.
    intros W. induction c as [|[k0 v0] c IH]; [discriminate|]. cbn [dget dset]. destruct (eq_dec k k0) as [<-|Hne]; intros G.
    - injection G as <-. cbn [vals map snd]. apply perm_swap.
    - unfold wf_dict in W. inversion W; subst. cbn [vals map snd]. rewrite (perm_swap v0 v). rewrite (perm_swap v0 v'). apply perm_skip. apply IH; assumption.
  Qed.

  Lemma stored_snoc ops o : stored (ops ++ [o]) = stored ops ++ stored [o].
  Proof. induction ops as [|a ops IH]; [reflexivity|]. cbn [app]. destruct a; cbn [stored]; rewrite IH; reflexivity. Qed.

  Lemma lru_disposed maxsize ops : Permutation (stored ops) (vals (fst (lrun maxsize ops)) ++ snd (lrun maxsize ops)).
  Proof.
    induction ops as [|o ops IH] using rev_ind; [constructor|]. rewrite stored_snoc, lrun_snoc. pose proof (lru_wf maxsize ops) as W. pose proof (lru_bound maxsize ops) as B.
    destruct (lrun maxsize ops) as [c log]. cbn [fst snd] in *. rewrite IH. clear IH. destruct o; cbn [stored lstep]; rewrite ?app_nil_r.
    - unfold lru_get. destruct (dget k c) as [v|] eqn:G; cbn [fst snd]; [|reflexivity]. apply Permutation_app_tail.
      rewrite dset_fresh by (intros Hi; apply In_keys_ddel_iff in Hi; [destruct Hi; congruence|exact W]). unfold vals at 2. rewrite map_app. cbn [map snd].
      rewrite (vals_ddel k v c W G). change (map snd (ddel k c)) with (vals (ddel k c)). apply Permutation_cons_append.
    - unfold lru_set. assert (P : Permutation (v :: vals c) (vals (dset k v c) ++ match dget k c with Some v' => [v'] | None => [] end)).
      { destruct (dget k c) as [v'|] eqn:G.
        - rewrite (vals_dset_mem k v v' c W G). apply Permutation_cons_append.
        - rewrite app_nil_r. rewrite dset_fresh by (apply dget_None; exact G). unfold vals. rewrite map_app. cbn. apply Permutation_cons_append. }
      destruct (maxsize <? len (dset k v c)) eqn:E.
      + destruct (dset k v c) as [|[k0 v0] c2] eqn:Ed; cbn [fst snd].
        * exfalso. cbn in P. pose proof (length_dset k v c) as L. rewrite Ed in L. cbn in L. destruct (dmem k c) eqn:Em; [|lia]. apply dmem_In in Em. destruct c; [destruct Em|discriminate].
        * assert (G : dget k c = None).
          { destruct (dget k c) as [v'|] eqn:G; [|reflexivity]. exfalso. apply Z.ltb_lt in E. unfold len in *.
            pose proof (length_dset k v c) as L. rewrite Ed in L. unfold dmem in L. rewrite G in L. apply dget_keys in G. destruct c; [destruct G|]. cbn in *. lia. }
          rewrite G, app_nil_r in P. cbn [vals map snd] in P. change (map snd c2) with (vals c2) in P.
          rewrite Permutation_app_comm. cbn [app]. rewrite <- (Permutation_cons_append log v0).
          rewrite <- Permutation_middle. rewrite (app_comm_cons (vals c2) log v0), <- P. reflexivity.
      + cbn [fst snd]. rewrite (Permutation_app_comm log). rewrite app_assoc. rewrite <- P. rewrite Permutation_app_comm. cbn. reflexivity.
    - unfold lru_del. destruct (dget k c) as [v|] eqn:G; cbn [fst snd]; rewrite ?app_nil_r; [|reflexivity]. rewrite (vals_ddel k v c W G).
      cbn [app]. rewrite app_assoc. apply Permutation_cons_append.
    - cbn [lru_clear fst snd app vals map]. apply Permutation_app_comm.
  Qed.
End L.

Lemma lru_read : forall (K V : Type) (E : EqDec K) maxsize (ops : list (lop K V)) k,
  let c := fst (lrun maxsize ops) in
  (In k (keys c) -> exists v, snd (lru_get c k) = Ok v /\ latest_value ops k v) /\
  (~ In k (keys c) -> snd (lru_get c k) = Raise KeyError).
Proof.
  intros K V E maxsize ops k. cbn zeta. unfold lru_get. split; intros Hi.
  - destruct (dget k (fst (lrun maxsize ops))) as [v|] eqn:D; [|apply dget_None in D; contradiction]. exists v. split; [reflexivity|].
    exact (lru_latest maxsize ops k v D).
  - apply dget_None in Hi. rewrite Hi. reflexivity.
Qed.

Lemma lru_stored : forall (K V : Type) (E : EqDec K) maxsize (ops : list (lop K V)) k v, 1 <= maxsize ->
  dget k (fst (lrun maxsize (ops ++ [LSet k v]))) = Some v.
Proof.
  intros K V E maxsize ops k v Hm. rewrite lrun_snoc. pose proof (lru_bound maxsize ops) as B. destruct (lrun maxsize ops) as [c log] eqn:R. cbn [fst] in B.
  unfold lstep, lru_set. destruct (Z.ltb_spec maxsize (len (dset k v c))) as [Hlt|Hge]; [|cbn [fst]; apply dget_dset_same].
  destruct (dget k c) as [v'|] eqn:D.
  - exfalso. unfold len in *. rewrite length_dset in Hlt. unfold dmem in Hlt. rewrite D in Hlt. lia.
  - apply dget_None in D. rewrite (dset_fresh _ _ _ D) in *. destruct c as [|[k0 v0] c2].
    + exfalso. unfold len in Hlt. cbn in Hlt. lia.
    + cbn [app fst]. change (dget k (c2 ++ [(k, v)]) = Some v). rewrite <- (dset_fresh k v c2); [apply dget_dset_same|]. intros Hi. apply D. right. exact Hi.
Qed.

Lemma keys_get {K V : Type} {E : EqDec K} (c : dict K V) k x : wf_dict c -> In x (keys c) -> In x (keys (fst (lru_get c k))).
Proof.
  intros W Hi. unfold lru_get. destruct (dget k c) as [v|] eqn:D; cbn [fst]; [|exact Hi].
  destruct (eq_dec x k) as [->|Hne].
  - destruct (dget k (dset k v (ddel k c))) as [y|] eqn:D2; [|rewrite dget_dset_same in D2; discriminate].
    apply dget_In in D2. apply in_map_iff. exists (k, y). auto.
  - destruct (dget x c) as [y|] eqn:Dx; [|apply dget_None in Dx; contradiction].
    assert (D2 : dget x (dset k v (ddel k c)) = Some y) by (rewrite dget_dset_other by exact Hne; rewrite dget_ddel_other by exact Hne; exact Dx).
    apply dget_In in D2. apply in_map_iff. exists (x, y). auto.
Qed.

Lemma lru_leaves : forall (K V : Type) (E : EqDec K) maxsize (ops : list (lop K V)) o k,
  let c := fst (lrun maxsize ops) in
  In k (keys c) -> ~ In k (keys (fst (lrun maxsize (ops ++ [o])))) ->
  o = LDel k \/ o = LClear \/
  exists k0 v0, o = LSet k0 v0 /\ ~ In k0 (keys c) /\ len c = maxsize /\
    forall k', In k' (keys c) -> k' <> k ->
      exists t t', last_use ops (lheld maxsize ops) k t /\ last_use ops (lheld maxsize ops) k' t' /\ (t < t')%nat.
Proof.
  intros K V E maxsize ops o k. cbn zeta. intros Hi Hn. pose proof (lru_wf maxsize ops) as W. pose proof (lru_bound maxsize ops) as B.
  destruct o as [k1|k1 v1|k1|].
  - exfalso. apply Hn. rewrite lrun_snoc. destruct (lrun maxsize ops) as [c log]. apply keys_get; assumption.
  - right. right. exists k1, v1. split; [reflexivity|]. destruct (lru_store maxsize ops k1 v1) as (S1 & S2 & S3).
    destruct (In_dec eq_dec k1 (keys (fst (lrun maxsize ops)))) as [H1|H1]; [exfalso; apply Hn; rewrite S1 by exact H1; exact Hi|].
    split; [exact H1|]. destruct (Z_lt_le_dec (len (fst (lrun maxsize ops))) maxsize) as [Hlt|Hge].
    { exfalso. apply Hn. rewrite S2 by assumption. apply in_or_app. left. exact Hi. }
    rewrite S3 in Hn by assumption. destruct (keys (fst (lrun maxsize ops))) as [|k0 ks] eqn:Ek; [destruct Hi|].
    assert (Hl : 1 <= len (fst (lrun maxsize ops))).
    { unfold len. apply (f_equal (@length _)) in Ek. unfold keys in Ek. rewrite map_length in Ek. cbn [length] in Ek. lia. }
    split; [lia|]. cbn [app tl] in Hn. destruct Hi as [->|Hi]; [|exfalso; apply Hn; apply in_or_app; left; exact Hi].
    intros k' [Hk'|Hk'] Hne; [congruence|]. apply in_split in Hk'. destruct Hk' as (mid & post & ->). exact (lru_order maxsize ops [] k mid k' post Ek).
  - left. rewrite lrun_snoc in Hn. destruct (lrun maxsize ops) as [c log]. cbn [fst] in *. unfold lstep, lru_del in Hn. destruct (dget k1 c) eqn:D; [|contradiction].
    cbn [fst] in Hn. destruct (eq_dec k1 k) as [->|Hne]; [reflexivity|]. exfalso. apply Hn. apply In_keys_ddel_iff; auto.
  - right. left. reflexivity.
Qed.

Lemma lru_held_not_disposed : forall (K V : Type) (E : EqDec K) maxsize (ops : list (lop K V)) v,
  NoDup (stored ops) -> In v (vals (fst (lrun maxsize ops))) -> ~ In v (snd (lrun maxsize ops)).
Proof.
  intros K V E maxsize ops v N Hv Hd. apply (Permutation_NoDup (lru_disposed maxsize ops)) in N.
  apply in_split in Hv. destruct Hv as (a & b & Ev). rewrite Ev in N. rewrite <- app_assoc in N. cbn [app] in N. apply NoDup_remove_2 in N.
  apply N. apply in_or_app. right. apply in_or_app. right. exact Hd.
Qed.

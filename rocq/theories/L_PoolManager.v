(** Lemmas about the pool manager. *)
From Coq Require Import ZifyBool Sorting.Permutation.
From Verif Require Import PyBase L_PyBase PyDict L_PyDict M_Lru L_Lru M_ConnPool S_Pool L_ConnPool L_ConnPool2 M_PoolManager.

Definition pool_open (p : pool) : Prop := p_free p <> None.

Lemma set_pool_length i p l : length (set_pool i p l) = length l.
Proof. revert i. induction l as [|a l IH]; intros [|i]; cbn; auto. Qed.
Lemma nth_set_same i p l : (i < length l)%nat -> nth_error (set_pool i p l) i = Some p.
Proof. revert i. induction l as [|a l IH]; intros [|i] Hi; cbn in *; try lia; auto. apply IH. lia. Qed.
Lemma nth_set_other i j p l : i <> j -> nth_error (set_pool i p l) j = nth_error l j.
Proof. revert i j. induction l as [|a l IH]; intros [|i] [|j] Hi; cbn; try congruence; auto. Qed.

Lemma get_open cfg mk dr p : p_free (fst (get_conn cfg mk dr p)) = None <-> p_free p = None.
Proof.
  unfold get_conn. destruct (p_free p) as [[|c q]|] eqn:F.
  - destruct (block cfg); [cbn; rewrite F; tauto|]. unfold new_conn. destruct (max_connections cfg <=? p_num p); [cbn; rewrite F; tauto|].
    destruct (mk (p_attempts p)); cbn; rewrite F; tauto.
  - destruct (len q <? min_free cfg).
    + unfold new_conn. cbn [p_num set_free p_attempts]. destruct (max_connections cfg <=? p_num p); [cbn; split; discriminate|].
      destruct (mk (p_attempts p)); [|cbn; split; discriminate]. unfold put_conn. cbn [p_free set_free].
      destruct (q_full cfg q); (match goal with |- p_free (fst (if ?b then _ else _)) = _ <-> _ => destruct b end; cbn; split; discriminate).
    + match goal with |- p_free (fst (if ?b then _ else _)) = _ <-> _ => destruct b end; cbn; split; discriminate.
  - cbn. rewrite F. tauto.
Qed.
Lemma put_open cfg p c : p_free (put_conn cfg p c) = None <-> p_free p = None.
Proof. unfold put_conn. destruct (p_free p) as [q|] eqn:F; [destruct (q_full cfg q)|]; cbn; rewrite ?F; split; congruence. Qed.
Lemma close_open p p' r : pool_close p = (p', r) -> p_free p' = None /\ (pool_open p -> r = Ok tt).
Proof. unfold pool_close, pool_open. destruct (p_free p) eqn:F; intros [= <- <-]; split; auto; congruence. Qed.
Lemma build_open cfg mk p : build cfg mk = Built p -> pool_open p.
Proof. intros E. apply build_ok in E. unfold pool_open. tauto. Qed.

Section M.
  Context {K : Type} `{EqDec K}.
  Implicit Types (w : world K).

  Record mgood (max_pools : Z) (w : world K) : Prop := {
    mg_wf : wf_dict (w_lru w);
    mg_perm : Permutation (seq 0 (length (w_pools w))) (vals (w_lru w) ++ w_closes w);
    mg_open : forall i p, In i (vals (w_lru w)) -> nth_error (w_pools w) i = Some p -> pool_open p;
    mg_closed : forall i p, In i (w_closes w) -> nth_error (w_pools w) i = Some p -> p_free p = None;
    mg_len : len (w_lru w) <= Z.max 0 max_pools
  }.

  Lemma mgood_nodup mp w : mgood mp w -> NoDup (vals (w_lru w) ++ w_closes w).
  Proof. intros G. exact (Permutation_NoDup (mg_perm _ _ G) (seq_NoDup _ _)). Qed.
  Lemma mgood_lt mp w i : mgood mp w -> In i (vals (w_lru w) ++ w_closes w) -> (i < length (w_pools w))%nat.
  Proof. intros G Hi. apply (Permutation_in _ (Permutation_sym (mg_perm _ _ G))) in Hi. apply in_seq in Hi. lia. Qed.

  (** closing a list of distinct open pools *)
  Lemma close_pools_spec l : forall w w' r, NoDup l -> (forall i, In i l -> exists p, nth_error (w_pools w) i = Some p /\ pool_open p) ->
    close_pools w l = (w', r) ->
    r = Ok tt /\ w_lru w' = w_lru w /\ w_closes w' = w_closes w ++ l /\ w_puts w' = w_puts w /\ length (w_pools w') = length (w_pools w) /\
    (forall i, ~ In i l -> nth_error (w_pools w') i = nth_error (w_pools w) i) /\
    (forall i p, In i l -> nth_error (w_pools w') i = Some p -> p_free p = None).
  Proof.
    induction l as [|i l IH]; intros w w' r ND Ho E; cbn [close_pools] in E.
    - assert (w' = w) by congruence. assert (r = Ok tt) by congruence. subst. rewrite app_nil_r. do 5 (split; [reflexivity|]). split; [intros; reflexivity|intros ? ? []].
    - inversion ND as [|x l' Hn ND' E0]; subst. destruct (Ho i (or_introl eq_refl)) as (p & Hp & Op). unfold close_pool in E. rewrite Hp in E.
      destruct (pool_close p) as [p' r'] eqn:Ec. destruct (close_open _ _ _ Ec) as [Fp Ok']. rewrite (Ok' Op) in E.
      apply IH in E; [|exact ND'|].
      + destruct E as (E1 & E2 & E3 & E4 & E5 & E6 & E7). cbn [w_lru w_closes w_puts w_pools] in *. split; [exact E1|]. split; [exact E2|].
        split; [rewrite E3, <- app_assoc; reflexivity|]. split; [exact E4|]. split; [rewrite E5; apply set_pool_length|]. split.
        * intros j Hj. rewrite E6 by (intros Hx; apply Hj; right; exact Hx). apply nth_set_other. intros ->. apply Hj. left. reflexivity.
        * intros j q [<-|Hj] Hq; [|exact (E7 j q Hj Hq)]. rewrite E6 in Hq by exact Hn. rewrite nth_set_same in Hq; [congruence|].
          apply nth_error_Some. congruence.
      + intros j Hj. destruct (Ho j (or_intror Hj)) as (q & Hq & Oq). exists q. split; [|exact Oq]. cbn [w_pools].
        rewrite nth_set_other; [exact Hq|]. intros ->. exact (Hn Hj).
  Qed.

  Lemma get_lru_same (c : dict K nat) k i : wf_dict c -> dget k c = Some i ->
    Permutation (vals (fst (lru_get c k))) (vals c) /\ wf_dict (fst (lru_get c k)) /\ len (fst (lru_get c k)) = len c /\
    forall k', dget k' (fst (lru_get (V:=nat) c k)) = dget k' c.
  Proof.
    intros W E. unfold lru_get. rewrite E. cbn [fst]. assert (W' : wf_dict (ddel k c)) by (apply wf_ddel; exact W).
    assert (N : dget k (ddel k c) = None) by (apply dget_ddel_same; exact W). split; [|split; [apply wf_dset; exact W'|split]].
    - rewrite (dset_fresh _ _ _ (proj1 (dget_None _ _) N)). unfold vals. rewrite map_app. cbn [map snd]. rewrite (Permutation_app_comm _ [i]). symmetry. exact (vals_ddel k i c W E).
    - rewrite (dset_fresh _ _ _ (proj1 (dget_None _ _) N)). unfold len. rewrite app_length. cbn [length].
      pose proof (Permutation_length (vals_ddel k i c W E)) as L2.
      unfold vals in L2. cbn [length] in L2. rewrite !map_length in L2. lia.
    - intros k'. destruct (eq_dec k' k) as [->|Hne]; [rewrite dget_dset_same; auto|]. rewrite dget_dset_other by exact Hne. apply dget_ddel_other. exact Hne.
  Qed.

  (** storing a new pool *)
  Lemma set_lru_new mp (c : dict K nat) k i : wf_dict c -> dget k c = None -> ~ In i (vals c) -> len c <= Z.max 0 mp ->
    let '(c', d) := lru_set mp c k i in
    wf_dict c' /\ len c' <= Z.max 0 mp /\ Permutation (i :: vals c) (vals c' ++ d) /\
    (forall k' j, dget k' c = Some j -> dget k' c' = Some j \/ In j d) /\ (In i d -> mp <= 0) /\ (dget k c' = Some i \/ In i d).
  Proof.
    intros W N Ni L. unfold lru_set. rewrite N. rewrite (dset_fresh _ _ _ (proj1 (dget_None _ _) N)). assert (W1 : wf_dict (c ++ [(k, i)])).
    { rewrite <- (dset_fresh _ _ _ (proj1 (dget_None _ _) N)). apply wf_dset. exact W. }
    assert (D : forall k' j, dget k' c = Some j -> dget k' (c ++ [(k, i)]) = Some j).
    { intros k' j Hj. rewrite <- (dset_fresh _ _ _ (proj1 (dget_None _ _) N)). rewrite dget_dset_other; [exact Hj|]. congruence. }
    assert (Dk : dget k (c ++ [(k, i)]) = Some i) by (rewrite <- (dset_fresh _ _ _ (proj1 (dget_None _ _) N)); apply dget_dset_same).
    destruct (Z.ltb_spec mp (len (c ++ [(k, i)]))) as [Hlt|Hge].
    - destruct (c ++ [(k, i)]) as [|[k0 v0] c2] eqn:Ec; [destruct c; discriminate|]. assert (W2 : wf_dict c2) by (unfold wf_dict in *; inversion W1; assumption).
      assert (N0 : ~ In k0 (keys c2)) by (unfold wf_dict in W1; inversion W1; assumption).
      split; [exact W2|]. split.
      + apply (f_equal (@length _)) in Ec. rewrite app_length in Ec. cbn [length] in Ec. unfold len in *. lia.
      + split.
        * change (i :: vals c) with ([i] ++ vals c). rewrite Permutation_app_comm. replace (vals c ++ [i]) with (vals (c ++ [(k, i)])) by (unfold vals; rewrite map_app; reflexivity).
          rewrite Ec. rewrite Permutation_app_comm. reflexivity.
        * assert (Q : forall k' j, dget k' ((k0, v0) :: c2) = Some j -> dget k' c2 = Some j \/ In j [v0]).
          { intros k' j. cbn [dget]. destruct (eq_dec k' k0); [intros [= <-]; right; left; reflexivity|left; assumption]. }
          split; [intros k' j Hj; apply Q; apply D; exact Hj|]. split; [|apply Q; exact Dk].
          intros [Hi|[]]. subst v0. destruct c as [|[a b] c]; [cbn in Ec; unfold len in *; cbn in Hlt; injection Ec as <- <-; cbn in Hlt; lia|].
          exfalso. apply Ni. cbn [app] in Ec. injection Ec as -> -> Ec. left. reflexivity.
    - split; [exact W1|]. split; [lia|]. split; [|split; [intros k' j Hj; left; apply D; exact Hj|split; [intros []|left; exact Dk]]].
      unfold vals. rewrite map_app, app_nil_r. cbn. apply Permutation_cons_append.
  Qed.

  Lemma vals_dget c k (i : nat) : dget k c = Some i -> In i (vals c).
  Proof. intros E. apply dget_In in E. apply in_map_iff. exists (k, i). auto. Qed.

  Lemma lookup_good mp cfg mk w k w' r : mgood mp w -> lookup mp cfg mk w k = (w', r) ->
    mgood mp w' /\ w_puts w' = w_puts w /\ (forall i, In i (w_closes w) -> In i (w_closes w')) /\
    (forall k' i, dget k' (w_lru w) = Some i -> dget k' (w_lru w') = Some i \/ In i (w_closes w')) /\
    (forall i, r = Ok i -> dget k (w_lru w') = Some i \/ In i (w_closes w')) /\
    (forall i, dget k (w_lru w) = Some i -> r = Ok i /\ w_pools w' = w_pools w /\ w_closes w' = w_closes w) /\
    (dget k (w_lru w) = None -> forall i, r = Ok i -> i = length (w_pools w) /\ length (w_pools w') = S i) /\
    (forall i, r = Ok i -> 1 <= mp -> dget k (w_lru w') = Some i).
  Proof.
    intros G E. unfold lookup in E. destruct (dget k (w_lru w)) as [i0|] eqn:Ed.
    - destruct (get_lru_same _ _ _ (mg_wf _ _ G) Ed) as (P & W & L & D). unfold lru_get in *. rewrite Ed in *. cbn [fst] in *.
      assert (w' = {| w_lru := dset k i0 (ddel k (w_lru w)); w_pools := w_pools w; w_closes := w_closes w; w_puts := w_puts w |}) by congruence.
      assert (r = Ok i0) by congruence. subst w' r. split.
      { constructor; cbn [w_lru w_pools w_closes].
        - exact W.
        - rewrite P. exact (mg_perm _ _ G).
        - intros i p Hi. apply (mg_open _ _ G). exact (Permutation_in _ P Hi).
        - exact (mg_closed _ _ G).
        - rewrite L. exact (mg_len _ _ G). }
      cbn [w_lru w_pools w_closes w_puts]. split; [reflexivity|]. split; [auto|]. split; [intros k' i Hi; left; rewrite D; exact Hi|].
      split; [intros i [= <-]; left; rewrite D; exact Ed|]. split; [intros i [= <-]; auto|]. split; [discriminate|]. intros i [= <-] _. rewrite D. exact Ed.
    - unfold lru_get in E. rewrite Ed in E.
      destruct (build cfg (mk (length (w_pools w)))) as [p|e|] eqn:B;
        [|assert (w' = w) by congruence; assert (r = Raise e) by congruence; subst; do 2 (split; [assumption||reflexivity|]); split; [auto|]; split; [auto|];
          split; [discriminate|]; split; [intros i Hi; discriminate|]; split; [intros _ i; discriminate|]; intros i; discriminate
         |assert (w' = w) by congruence; assert (r = Raise TimeoutError) by congruence; subst; do 2 (split; [assumption||reflexivity|]); split; [auto|]; split; [auto|];
          split; [discriminate|]; split; [intros i Hi; discriminate|]; split; [intros _ i; discriminate|]; intros i; discriminate].
      assert (Ni : ~ In (length (w_pools w)) (vals (w_lru w))).
      { intros Hi. pose proof (mgood_lt _ _ _ G (in_or_app _ _ _ (or_introl Hi))). lia. }
      pose proof (set_lru_new mp _ k (length (w_pools w)) (mg_wf _ _ G) Ed Ni (mg_len _ _ G)) as S.
      destruct (lru_set mp (w_lru w) k (length (w_pools w))) as [c' d] eqn:Es. destruct S as (W & L & P & D & Dn & Dk).
      destruct (close_pools {| w_lru := c'; w_pools := w_pools w ++ [p]; w_closes := w_closes w; w_puts := w_puts w |} d) as [w1 r1] eqn:Ec.
      assert (NDall : NoDup ((vals c' ++ d) ++ w_closes w)).
      { apply (Permutation_NoDup (l := seq 0 (S (length (w_pools w))))); [|apply seq_NoDup]. rewrite seq_S. cbn [Nat.add].
        rewrite <- Permutation_cons_append. rewrite (mg_perm _ _ G). change (length (w_pools w) :: vals (w_lru w) ++ w_closes w) with ((length (w_pools w) :: vals (w_lru w)) ++ w_closes w).
        rewrite P. reflexivity. }
      assert (Hopen : forall i, In i (vals c' ++ d) -> exists q, nth_error (w_pools w ++ [p]) i = Some q /\ pool_open q).
      { intros i Hi. apply (Permutation_in _ (Permutation_sym P)) in Hi. destruct Hi as [<-|Hi].
        - exists p. split; [rewrite nth_error_app2, Nat.sub_diag by lia; reflexivity|exact (build_open _ _ _ B)].
        - pose proof (mgood_lt _ _ _ G (in_or_app _ _ _ (or_introl Hi))) as Hlt. destruct (nth_error (w_pools w) i) as [q|] eqn:Eq; [|apply nth_error_None in Eq; lia].
          exists q. split; [rewrite nth_error_app1 by exact Hlt; exact Eq|exact (mg_open _ _ G i q Hi Eq)]. }
      assert (NDd : NoDup d) by (apply (NoDup_app_r (vals c')); apply (NoDup_app_l _ (w_closes w)); exact NDall).
      pose proof (fun Hx => close_pools_spec d _ _ _ NDd Hx Ec) as CS. cbn [w_pools] in CS. destruct (CS (fun i Hi => Hopen i (in_or_app _ _ _ (or_intror Hi)))) as (E1 & E2 & E3 & E4 & E5 & E6 & E7).
      cbn [w_lru w_pools w_closes w_puts] in *. subst r1. assert (w' = w1) by congruence. assert (r = Ok (length (w_pools w))) by congruence. subst w' r.
      split.
      { constructor.
        - rewrite E2. exact W.
        - rewrite E5, E2, E3. rewrite app_length. cbn [length]. rewrite Nat.add_1_r, seq_S. cbn [Nat.add]. rewrite <- Permutation_cons_append.
          rewrite (mg_perm _ _ G). change (length (w_pools w) :: vals (w_lru w) ++ w_closes w) with ((length (w_pools w) :: vals (w_lru w)) ++ w_closes w).
          rewrite P. rewrite <- app_assoc. apply Permutation_app_head. apply Permutation_app_comm.
        - intros i q Hi Hq. rewrite E2 in Hi. rewrite E6 in Hq.
          + destruct (Hopen i (in_or_app _ _ _ (or_introl Hi))) as (q' & Hq' & O). congruence.
          + intros Hd. apply (NoDup_app_disj (vals c') d i); [|exact Hi|exact Hd]. apply (NoDup_app_l _ (w_closes w)). exact NDall.
        - intros i q Hi Hq. rewrite E3 in Hi. apply in_app_iff in Hi. destruct Hi as [Hi|Hi]; [|exact (E7 i q Hi Hq)].
          rewrite E6 in Hq.
          + pose proof (mgood_lt _ _ _ G (in_or_app _ _ _ (or_intror Hi))) as Hlt. rewrite nth_error_app1 in Hq by exact Hlt. exact (mg_closed _ _ G i q Hi Hq).
          + intros Hd. apply (NoDup_app_disj (vals c' ++ d) (w_closes w) i); [exact NDall|apply in_or_app; right; exact Hd|exact Hi].
        - rewrite E2. exact L. }
      split; [exact E4|]. split; [intros i Hi; rewrite E3; apply in_or_app; left; exact Hi|].
      split; [intros k' i Hi; rewrite E2, E3; destruct (D k' i Hi); [left; assumption|right; apply in_or_app; right; assumption]|].
      split; [intros i [= <-]; rewrite E2, E3; destruct Dk; [left; assumption|right; apply in_or_app; right; assumption]|].
      split; [discriminate|]. split; [intros _ i [= <-]; split; [reflexivity|rewrite E5, app_length; cbn [length]; lia]|].
      intros i [= <-] Hmp. rewrite E2. destruct Dk as [Dk|Dk]; [exact Dk|]. apply Dn in Dk. lia.
  Qed.

  Lemma clear_good mp w w' r : mgood mp w -> manager_clear w = (w', r) ->
    mgood mp w' /\ r = Ok tt /\ w_lru w' = [] /\ w_puts w' = w_puts w /\ w_closes w' = w_closes w ++ vals (w_lru w).
  Proof.
    intros G E. unfold manager_clear, lru_clear in E. assert (ND := mgood_nodup _ _ G).
    apply close_pools_spec in E; [|exact (NoDup_app_l _ _ ND)|].
    - destruct E as (E1 & E2 & E3 & E4 & E5 & E6 & E7). cbn [w_lru w_pools w_closes w_puts] in *. split; [|auto]. constructor.
      + rewrite E2. constructor.
      + rewrite E2, E3, E5. cbn. rewrite Permutation_app_comm. exact (mg_perm _ _ G).
      + rewrite E2. intros i p [].
      + intros i p Hi Hp. rewrite E3 in Hi. apply in_app_iff in Hi. destruct Hi as [Hi|Hi]; [|exact (E7 i p Hi Hp)].
        rewrite E6 in Hp; [exact (mg_closed _ _ G i p Hi Hp)|]. intros Hv. exact (NoDup_app_disj _ _ i ND Hv Hi).
      + rewrite E2. unfold len. cbn. lia.
    - intros i Hi. cbn [w_pools]. pose proof (mgood_lt _ _ _ G (in_or_app _ _ _ (or_introl Hi))) as Hlt.
      destruct (nth_error (w_pools w) i) as [p|] eqn:Ep; [|apply nth_error_None in Ep; lia]. exists p. split; [reflexivity|exact (mg_open _ _ G i p Hi Ep)].
  Qed.

  Lemma use_good mp w i f : (forall p, p_free (f p) = None <-> p_free p = None) -> mgood mp w -> mgood mp (use_pool w i f).
  Proof.
    intros F G. unfold use_pool. destruct (nth_error (w_pools w) i) as [p|] eqn:Ep; [|exact G].
    assert (Q : forall j q, nth_error (set_pool i (f p) (w_pools w)) j = Some q -> exists q', nth_error (w_pools w) j = Some q' /\ (p_free q = None <-> p_free q' = None)).
    { intros j q Hq. destruct (Nat.eq_dec i j) as [<-|Hne].
      - rewrite nth_set_same in Hq by (apply nth_error_Some; congruence). exists p. split; [exact Ep|]. assert (q = f p) by congruence. subst q. apply F.
      - rewrite nth_set_other in Hq by exact Hne. exists q. tauto. }
    constructor; cbn [w_lru w_pools w_closes].
    - exact (mg_wf _ _ G).
    - rewrite set_pool_length. exact (mg_perm _ _ G).
    - intros j q Hj Hq. destruct (Q j q Hq) as (q' & Hq' & Hf). pose proof (mg_open _ _ G j q' Hj Hq') as O. unfold pool_open in *. tauto.
    - intros j q Hj Hq. destruct (Q j q Hq) as (q' & Hq' & Hf). apply Hf. exact (mg_closed _ _ G j q' Hj Hq').
    - exact (mg_len _ _ G).
  Qed.

  (** lookups, clears and uses of the pools other than closing them *)
  Definition ordinary (o : mop K) : Prop := match o with MUserClose _ => False | _ => True end.

  Lemma step_good mp cfg mk w o : ordinary o -> mgood mp w -> let w' := mstep mp cfg mk w o in
    mgood mp w' /\ (forall i, In i (w_closes w) -> In i (w_closes w')) /\
    (forall k i, dget k (w_lru w) = Some i -> dget k (w_lru w') = Some i \/ In i (w_closes w')) /\
    (length (w_pools w) <= length (w_pools w'))%nat.
  Proof.
    intros O G. destruct o as [k| |i dr|i c|i]; cbn [mstep]; cbn zeta.
    - destruct (lookup mp cfg mk w k) as [w' r] eqn:E. destruct (lookup_good _ _ _ _ _ _ _ G E) as (G' & _ & A1 & A2 & _ & A3 & A4 & _). cbn [fst].
      split; [exact G'|]. split; [exact A1|]. split; [exact A2|]. pose proof (Permutation_length (mg_perm _ _ G)) as L1. pose proof (Permutation_length (mg_perm _ _ G')) as L2.
      rewrite seq_length in L1, L2. destruct (Nat.le_gt_cases (length (w_pools w)) (length (w_pools w'))) as [Hle|Hgt]; [exact Hle|].
      exfalso. destruct (dget k (w_lru w)) as [i|] eqn:Ed.
      + destruct (A3 i eq_refl) as (_ & Ep & _). rewrite Ep in Hgt. lia.
      + destruct r as [i|e]; [destruct (A4 eq_refl i eq_refl) as [-> Hl]; lia|].
        unfold lookup, lru_get in E. rewrite Ed in E. destruct (build cfg (mk (length (w_pools w)))) as [p|e'|]; [|assert (w' = w) by congruence; subst; lia|assert (w' = w) by congruence; subst; lia].
        destruct (lru_set mp (w_lru w) k (length (w_pools w))) as [c' d]. 
        assert (CL : forall l w0, length (w_pools (fst (close_pools w0 l))) = length (w_pools w0)).
        { clear. induction l as [|j l IH]; intros w0; [reflexivity|]. cbn [close_pools]. unfold close_pool. destruct (nth_error (w_pools w0) j) as [p|]; [|reflexivity].
          destruct (pool_close p) as [p' [u|e]]; [rewrite IH; cbn [w_pools]; apply set_pool_length|cbn; apply set_pool_length]. }
        specialize (CL d {| w_lru := c'; w_pools := w_pools w ++ [p]; w_closes := w_closes w; w_puts := w_puts w |}). destruct (close_pools _ d) as [w1 [u|e1]]; [discriminate|].
        assert (w1 = w') by congruence. subst w1. cbn [fst w_pools] in CL. rewrite app_length in CL. cbn in CL. lia.
    - destruct (manager_clear w) as [w' r] eqn:E. destruct (clear_good _ _ _ _ G E) as (G' & _ & A1 & A2 & A3). cbn [fst]. split; [exact G'|].
      split; [intros i Hi; rewrite A3; apply in_or_app; left; exact Hi|]. split; [intros k i Hi; right; rewrite A3; apply in_or_app; right; exact (vals_dget _ _ _ Hi)|].
      pose proof (Permutation_length (mg_perm _ _ G)) as L1. pose proof (Permutation_length (mg_perm _ _ G')) as L2.
      rewrite seq_length, app_length in L1, L2. rewrite A1, A3, app_length in L2. cbn in L2. lia.
    - split; [apply use_good; [intros p; apply get_open|exact G]|]. unfold use_pool. destruct (nth_error (w_pools w) i); cbn [w_lru w_closes w_pools]; rewrite ?set_pool_length; auto.
    - split; [apply use_good; [intros p; apply put_open|exact G]|]. unfold use_pool. destruct (nth_error (w_pools w) i); cbn [w_lru w_closes w_pools]; rewrite ?set_pool_length; auto.
    - destruct O.
  Qed.

  Lemma init_good mp : mgood mp (w_init (K:=K)).
  Proof. constructor; cbn; try constructor; try (intros ? ? []). unfold len. cbn. lia. Qed.

  Lemma run_good mp cfg mk ops : forall w, Forall ordinary ops -> mgood mp w ->
    let w' := fold_left (mstep mp cfg mk) ops w in
    mgood mp w' /\ (forall i, In i (w_closes w) -> In i (w_closes w')) /\
    (forall k i, dget k (w_lru w) = Some i -> dget k (w_lru w') = Some i \/ In i (w_closes w')).
  Proof.
    induction ops as [|o ops IH]; intros w F G; cbn zeta; cbn [fold_left]; [auto|]. inversion F as [|x l O F' E]; subst.
    destruct (step_good mp cfg mk w o O G) as (G1 & A1 & A2 & _). destruct (IH _ F' G1) as (G2 & B1 & B2). split; [exact G2|].
    split; [intros i Hi; apply B1, A1, Hi|]. intros k i Hi. destruct (A2 k i Hi) as [Hi'|Hi']; [apply B2; exact Hi'|right; apply B1; exact Hi'].
  Qed.
End M.

Lemma manager_bounded (K : Type) (E : EqDec K) max_pools cfg mk (ops : list (mop K)) : Forall ordinary ops ->
  let w := mrun max_pools cfg mk ops in len (w_lru w) <= Z.max 0 max_pools /\ NoDup (keys (w_lru w)).
Proof.
  intros F. destruct (run_good max_pools cfg mk ops w_init F (init_good _)) as (G & _). split; [exact (mg_len _ _ G)|exact (mg_wf _ _ G)].
Qed.

Lemma manager_closes (K : Type) (E : EqDec K) max_pools cfg mk (ops : list (mop K)) : Forall ordinary ops ->
  let w := mrun max_pools cfg mk ops in
  Permutation (seq 0 (length (w_pools w))) (vals (w_lru w) ++ w_closes w) /\
  (forall i p, In i (vals (w_lru w)) -> nth_error (w_pools w) i = Some p -> p_free p <> None) /\
  (forall i p, In i (w_closes w) -> nth_error (w_pools w) i = Some p -> p_free p = None).
Proof.
  intros F. destruct (run_good max_pools cfg mk ops w_init F (init_good _)) as (G & _). split; [exact (mg_perm _ _ G)|].
  split; [exact (mg_open _ _ G)|exact (mg_closed _ _ G)].
Qed.

Lemma mrun_app {K : Type} {E : EqDec K} mp cfg mk (a b : list (mop K)) : mrun mp cfg mk (a ++ b) = fold_left (mstep mp cfg mk) b (mrun mp cfg mk a).
Proof. apply fold_left_app. Qed.

Lemma manager_same_pool (K : Type) (E : EqDec K) max_pools cfg mk (pre post : list (mop K)) k i :
  Forall ordinary pre -> Forall ordinary post ->
  snd (lookup max_pools cfg mk (mrun max_pools cfg mk pre) k) = Ok i ->
  let w := mrun max_pools cfg mk (pre ++ MLookup k :: post) in
  ~ In i (w_closes w) -> snd (lookup max_pools cfg mk w k) = Ok i.
Proof.
  intros F1 F2 L w Hn. destruct (run_good max_pools cfg mk pre w_init F1 (init_good _)) as (G & _). fold (mrun max_pools cfg mk pre) in G.
  destruct (lookup max_pools cfg mk (mrun max_pools cfg mk pre) k) as [w1 r] eqn:El. cbn [snd] in L. subst r.
  destruct (lookup_good _ _ _ _ _ _ _ G El) as (G1 & _ & _ & _ & A & _).
  assert (Ew : w = fold_left (mstep max_pools cfg mk) post w1).
  { unfold w. rewrite mrun_app. cbn [fold_left mstep]. rewrite El. reflexivity. }
  destruct (run_good max_pools cfg mk post w1 F2 G1) as (G2 & B1 & B2). rewrite <- Ew in *.
  assert (D : dget k (w_lru w) = Some i).
  { destruct (A i eq_refl) as [D|D]; [destruct (B2 k i D) as [D2|D2]; [exact D2|contradiction]|exfalso; exact (Hn (B1 i D))]. }
  destruct (lookup max_pools cfg mk w k) as [w3 r] eqn:El2. destruct (lookup_good _ _ _ _ _ _ _ G2 El2) as (_ & _ & _ & _ & _ & A3 & _).
  destruct (A3 i D) as (-> & _). reflexivity.
Qed.

Lemma manager_retains (K : Type) (E : EqDec K) max_pools cfg mk (ops : list (mop K)) k i : Forall ordinary ops -> 1 <= max_pools ->
  snd (lookup max_pools cfg mk (mrun max_pools cfg mk ops) k) = Ok i ->
  dget k (w_lru (mrun max_pools cfg mk (ops ++ [MLookup k]))) = Some i.
Proof.
  intros F Hm L. destruct (run_good max_pools cfg mk ops w_init F (init_good _)) as (G & _). fold (mrun max_pools cfg mk ops) in G.
  rewrite mrun_app. cbn [fold_left mstep]. destruct (lookup max_pools cfg mk (mrun max_pools cfg mk ops) k) as [w1 r] eqn:El. cbn [snd fst] in *. subst r.
  destruct (lookup_good _ _ _ _ _ _ _ G El) as (_ & _ & _ & _ & _ & _ & _ & A). exact (A i eq_refl Hm).
Qed.

Lemma manager_clear_all (K : Type) (E : EqDec K) max_pools cfg mk (ops : list (mop K)) : Forall ordinary ops ->
  let w := mrun max_pools cfg mk (ops ++ [MClear]) in
  w_lru w = [] /\ forall i p, nth_error (w_pools w) i = Some p -> p_free p = None.
Proof.
  intros F w. destruct (run_good max_pools cfg mk ops w_init F (init_good _)) as (G & _). fold (mrun max_pools cfg mk ops) in G.
  unfold w. rewrite mrun_app. cbn [fold_left mstep]. destruct (manager_clear (mrun max_pools cfg mk ops)) as [w1 r] eqn:Ec. cbn [fst].
  destruct (clear_good _ _ _ _ G Ec) as (G1 & _ & E1 & _ & _). split; [exact E1|]. intros i p Hp. apply (mg_closed _ _ G1 i p); [|exact Hp].
  pose proof (mg_perm _ _ G1) as P. rewrite E1 in P. apply (Permutation_in _ P). apply in_seq. assert (i < length (w_pools w1))%nat by (apply nth_error_Some; congruence). lia.
Qed.

Lemma lookup_exists (K : Type) (E : EqDec K) max_pools cfg mk (ops : list (mop K)) k w1 i : Forall ordinary ops ->
  lookup max_pools cfg mk (mrun max_pools cfg mk ops) k = (w1, Ok i) -> nth_error (w_pools w1) i <> None.
Proof.
  intros F El. destruct (run_good max_pools cfg mk ops w_init F (init_good _)) as (G & _). fold (mrun max_pools cfg mk ops) in G.
  destruct (lookup_good _ _ _ _ _ _ _ G El) as (G1 & _ & _ & _ & A & _). apply nth_error_Some. apply (mgood_lt max_pools); [exact G1|].
  apply in_or_app. destruct (A i eq_refl) as [D|D]; [left; exact (vals_dget _ _ _ D)|right; exact D].
Qed.

Lemma use_nth {K : Type} (w : world K) i f j : nth_error (w_pools (use_pool w i f)) j = if Nat.eq_dec j i then option_map f (nth_error (w_pools w) i) else nth_error (w_pools w) j.
Proof.
  unfold use_pool. destruct (nth_error (w_pools w) i) as [p|] eqn:Ep; cbn [w_pools].
  - destruct (Nat.eq_dec j i) as [->|Hne]; [apply nth_set_same; apply nth_error_Some; congruence|apply nth_set_other; congruence].
  - destruct (Nat.eq_dec j i) as [->|Hne]; [exact Ep|reflexivity].
Qed.
Lemma use_rest {K : Type} (w : world K) i f : w_lru (use_pool w i f) = w_lru w /\ w_closes (use_pool w i f) = w_closes w /\ w_puts (use_pool w i f) = w_puts w.
Proof. unfold use_pool. destruct (nth_error (w_pools w) i); auto. Qed.

Lemma close_pools_puts {K : Type} l : forall (w : world K), w_puts (fst (close_pools w l)) = w_puts w.
Proof.
  induction l as [|j l IH]; intros w; [reflexivity|]. cbn [close_pools]. unfold close_pool. destruct (nth_error (w_pools w) j) as [p|]; [|reflexivity].
  destruct (pool_close p) as [p' [u|e]]; [rewrite IH; reflexivity|reflexivity].
Qed.
Lemma lookup_puts {K : Type} {E : EqDec K} mp cfg mk (w : world K) k w' r : lookup mp cfg mk w k = (w', r) -> w_puts w' = w_puts w.
Proof.
  unfold lookup. destruct (lru_get (w_lru w) k) as [c [i|e]]; [intros [= <- _]; reflexivity|].
  destruct (build cfg (mk (length (w_pools w)))) as [p|e'|]; [|intros [= <- _]; reflexivity|intros [= <- _]; reflexivity].
  destruct (lru_set mp c k (length (w_pools w))) as [c' d].
  pose proof (close_pools_puts d {| w_lru := c'; w_pools := w_pools w ++ [p]; w_closes := w_closes w; w_puts := w_puts w |}) as P.
  destruct (close_pools _ d) as [w1 [u|e1]]; cbn [fst w_puts] in P; intros [= <- _]; exact P.
Qed.

Lemma scope_spec (K A : Type) (E : EqDec K) max_pools cfg mk dr (w : world K) k (body : world K -> nat -> nat -> world K * res A) w' r :
  scope max_pools cfg mk dr w k body = (w', r) ->
  (exists e, r = Raise e /\ w_puts w' = w_puts w /\ (snd (lookup max_pools cfg mk w k) = Raise e \/
     exists w1 i p p', lookup max_pools cfg mk w k = (w1, Ok i) /\ nth_error (w_pools w1) i = Some p /\ get_conn cfg (mk i) dr p = (p', Raise e))) \/
  (exists w1 i p p' c w2, lookup max_pools cfg mk w k = (w1, Ok i) /\ nth_error (w_pools w1) i = Some p /\ get_conn cfg (mk i) dr p = (p', Ok c) /\
     body (use_pool w1 i (fun _ => p')) i c = (w2, r) /\
     w_puts w' = w_puts w2 ++ [(i, c)] /\
     nth_error (w_pools w') i = option_map (fun p2 => put_conn cfg p2 c) (nth_error (w_pools w2) i) /\
     (forall j, j <> i -> nth_error (w_pools w') j = nth_error (w_pools w2) j) /\ w_lru w' = w_lru w2 /\ w_closes w' = w_closes w2) \/
  (exists w1 i, lookup max_pools cfg mk w k = (w1, Ok i) /\ nth_error (w_pools w1) i = None).
Proof.
  intros S. unfold scope in S. destruct (lookup max_pools cfg mk w k) as [w1 [i|e]] eqn:El; pose proof (lookup_puts _ _ _ _ _ _ _ El) as P1.
  - destruct (nth_error (w_pools w1) i) as [p|] eqn:Ep; [|right; right; exists w1, i; auto].
    destruct (get_conn cfg (mk i) dr p) as [p' [c|e]] eqn:Eg.
    + destruct (body (use_pool w1 i (fun _ => p')) i c) as [w2 r2] eqn:Eb. right. left. exists w1, i, p, p', c, w2.
      assert (r2 = r) by congruence. assert (w' = do_put cfg w2 i c) by congruence. subst r2 w'. do 3 (split; [auto|]). split; [exact Eb|].
      destruct (use_rest w2 i (fun p0 => put_conn cfg p0 c)) as (R1 & R2 & R3). unfold do_put. cbn [w_puts w_pools w_lru w_closes]. rewrite R1, R2, R3.
      split; [reflexivity|]. split; [rewrite use_nth; destruct (Nat.eq_dec i i); [reflexivity|contradiction]|].
      split; [intros j Hj; rewrite use_nth; destruct (Nat.eq_dec j i); [contradiction|reflexivity]|]. split; reflexivity.
    + left. exists e. assert (w' = use_pool w1 i (fun _ => p')) by congruence. split; [congruence|]. subst w'. destruct (use_rest w1 i (fun _ => p')) as (_ & _ & R3).
      split; [congruence|]. right. exists w1, i, p, p'. auto.
  - left. exists e. assert (w' = w1) by congruence. split; [congruence|]. subst w'. split; [exact P1|]. left. reflexivity.
Qed.

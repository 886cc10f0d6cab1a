(** Lemmas about the dict model. *)
From Verif Require Import PyBase PyDict.

Section Lemmas.
  Context {K V : Type} `{EqDec K}.
  Implicit Types (d : dict K V) (k : K) (v : V).

  Lemma dget_In k v d : dget k d = Some v -> In (k, v) d.
  Proof.
    induction d as [|[k' v'] d IH]; cbn; [discriminate|].
    destruct (eq_dec k k') as [->|Hn]; [intros [= ->]; auto|auto].
  Qed.

  Lemma dget_None k d : dget k d = None <-> ~ In k (keys d).
  Proof.
    induction d as [|[k' v'] d IH]; cbn; [tauto|].
    destruct (eq_dec k k') as [->|Hn]; [split; [discriminate|intros Hc; exfalso; auto]|].
    rewrite IH. split; [intros Hd [->|Hi]; auto|auto].
  Qed.

  Lemma dget_keys k v d : dget k d = Some v -> In k (keys d).
  Proof. intros Hg. apply dget_In in Hg. apply in_map_iff. exists (k, v). auto. Qed.

  Lemma In_dget k v d : wf_dict d -> In (k, v) d -> dget k d = Some v.
  Proof.
    unfold wf_dict. induction d as [|[k' v'] d IH]; cbn; [tauto|].
    intros Hnd Hin. inversion Hnd as [|x l Hni Hnd']; subst.
    destruct Hin as [[= -> ->]|Hin].
    - destruct (eq_dec k k); congruence.
    - destruct (eq_dec k k') as [->|Hn]; [|auto].
      exfalso. apply Hni. apply in_map_iff. exists (k', v). auto.
  Qed.

  Lemma dmem_In k d : dmem k d = true <-> In k (keys d).
  Proof.
    unfold dmem. destruct (dget k d) as [v|] eqn:E.
    - apply dget_keys in E. tauto.
    - apply dget_None in E. split; [discriminate|tauto].
  Qed.

  Lemma dget_dset_same k v d : dget k (dset k v d) = Some v.
  Proof.
    induction d as [|[k' v'] d IH]; cbn.
    - destruct (eq_dec k k); congruence.
    - destruct (eq_dec k k') as [->|Hn]; cbn.
      + destruct (eq_dec k' k'); congruence.
      + destruct (eq_dec k k'); congruence.
  Qed.

  Lemma dget_dset_other k k' v d : k <> k' -> dget k (dset k' v d) = dget k d.
  Proof.
    intros Hne. induction d as [|[k2 v2] d IH]; cbn.
    - destruct (eq_dec k k'); congruence.
    - destruct (eq_dec k' k2) as [->|Hn]; cbn.
      + destruct (eq_dec k k2); congruence.
      + destruct (eq_dec k k2); [reflexivity|exact IH].
  Qed.

  Lemma dget_dset k k' v d : dget k (dset k' v d) = if eq_dec k k' then Some v else dget k d.
  Proof. destruct (eq_dec k k') as [->|Hn]; [apply dget_dset_same|apply dget_dset_other; exact Hn]. Qed.

  Lemma keys_dset_mem k v d : In k (keys d) -> keys (dset k v d) = keys d.
  Proof.
    induction d as [|[k' v'] d IH]; cbn; [tauto|].
    intros Hin. destruct (eq_dec k k') as [->|Hn]; cbn; [reflexivity|].
    f_equal. apply IH. destruct Hin as [He|Hi]; [congruence|exact Hi].
  Qed.

  Lemma dset_fresh k v d : ~ In k (keys d) -> dset k v d = d ++ [(k, v)].
  Proof.
    induction d as [|[k' v'] d IH]; cbn; [reflexivity|].
    intros Hni. destruct (eq_dec k k') as [->|Hn]; [tauto|].
    cbn. f_equal. apply IH. tauto.
  Qed.

  Lemma keys_dset_fresh k v d : ~ In k (keys d) -> keys (dset k v d) = keys d ++ [k].
  Proof. intros Hni. rewrite dset_fresh by exact Hni. unfold keys. rewrite map_app. reflexivity. Qed.

  Lemma In_keys_dset k k' v d : In k (keys (dset k' v d)) <-> k = k' \/ In k (keys d).
  Proof.
    destruct (in_dec eq_dec k' (keys d)) as [Hi|Hn].
    - rewrite keys_dset_mem by exact Hi. split; [auto|intros [->|?]; auto].
    - rewrite keys_dset_fresh by exact Hn. rewrite in_app_iff. cbn. intuition.
  Qed.

  Lemma wf_dset k v d : wf_dict d -> wf_dict (dset k v d).
  Proof.
    unfold wf_dict. intros Hw. destruct (in_dec eq_dec k (keys d)) as [Hi|Hn].
    - rewrite keys_dset_mem by exact Hi. exact Hw.
    - rewrite keys_dset_fresh by exact Hn.
      apply NoDup_rev in Hw. rewrite <- (rev_involutive (keys d ++ [k])). apply NoDup_rev.
      rewrite rev_app_distr. cbn. constructor; [rewrite <- in_rev; exact Hn|exact Hw].
  Qed.

  Lemma ddel_absent k d : ~ In k (keys d) -> ddel k d = d.
  Proof.
    induction d as [|[k' v'] d IH]; cbn; [reflexivity|].
    intros Hni. destruct (eq_dec k k') as [->|Hn]; [tauto|]. f_equal. apply IH. tauto.
  Qed.

  Lemma dget_ddel_other k k' d : k <> k' -> dget k (ddel k' d) = dget k d.
  Proof.
    intros Hne. induction d as [|[k2 v2] d IH]; cbn; [reflexivity|].
    destruct (eq_dec k' k2) as [->|Hn]; cbn.
    - destruct (eq_dec k k2); congruence.
    - destruct (eq_dec k k2); [reflexivity|exact IH].
  Qed.

  Lemma In_keys_ddel k k' d : In k (keys (ddel k' d)) -> In k (keys d).
  Proof.
    induction d as [|[k2 v2] d IH]; cbn; [tauto|].
    destruct (eq_dec k' k2) as [->|Hn]; cbn; [auto|]. intros [->|Hi]; auto.
  Qed.

  Lemma wf_ddel k d : wf_dict d -> wf_dict (ddel k d).
  Proof.
    unfold wf_dict. induction d as [|[k2 v2] d IH]; cbn; [auto|].
    intros Hnd. inversion Hnd as [|x l Hni Hnd']; subst.
    destruct (eq_dec k k2); cbn; [exact Hnd'|].
    constructor; [|apply IH; exact Hnd'].
    intros Hc. apply In_keys_ddel in Hc. auto.
  Qed.

  Lemma dget_ddel_same k d : wf_dict d -> dget k (ddel k d) = None.
  Proof.
    unfold wf_dict. induction d as [|[k2 v2] d IH]; cbn; [auto|].
    intros Hnd. inversion Hnd as [|x l Hni Hnd']; subst.
    destruct (eq_dec k k2) as [->|Hn]; cbn.
    - apply dget_None. exact Hni.
    - destruct (eq_dec k k2); [congruence|]. apply IH. exact Hnd'.
  Qed.

  Lemma In_keys_ddel_iff k k' d : wf_dict d -> (In k (keys (ddel k' d)) <-> k <> k' /\ In k (keys d)).
  Proof.
    intros Hw. split.
    - intros Hi. split; [|eapply In_keys_ddel; exact Hi].
      intros ->. pose proof (dget_ddel_same k' d Hw) as Hn. apply dget_None in Hn. auto.
    - intros [Hne Hi]. destruct (dget k d) as [v|] eqn:E.
      + rewrite <- (dget_ddel_other k k' d Hne) in E. apply dget_keys in E. exact E.
      + apply dget_None in E. tauto.
  Qed.

  Lemma wf_dupdate (l : list (K * V)) : forall d, wf_dict d -> wf_dict (dupdate d l).
  Proof.
    induction l as [|[k v] l IH]; intros d Hw; [exact Hw|].
    apply (IH (dset k v d)). apply wf_dset. exact Hw.
  Qed.

  Lemma wf_dict_of (l : list (K * V)) : wf_dict (dict_of l).
  Proof. apply wf_dupdate. constructor. Qed.

  Lemma dupdate_fresh (l : list (K * V)) : forall d, NoDup (keys (d ++ l)) -> dupdate d l = d ++ l.
  Proof.
    induction l as [|[k v] l IH]; intros d Hnd; [symmetry; apply app_nil_r|].
    change (dupdate d ((k, v) :: l)) with (dupdate (dset k v d) l).
    rewrite dset_fresh.
    - replace (d ++ (k, v) :: l) with ((d ++ [(k, v)]) ++ l) in * by (rewrite <- app_assoc; reflexivity).
      apply IH. exact Hnd.
    - unfold keys in Hnd. rewrite map_app in Hnd. cbn in Hnd. apply NoDup_remove_2 in Hnd.
      rewrite in_app_iff in Hnd. tauto.
  Qed.

  Lemma dict_of_id d : wf_dict d -> dict_of d = d.
  Proof. intros Hw. unfold dict_of. rewrite dupdate_fresh; [reflexivity|exact Hw]. Qed.

  Lemma dupdate_app d l1 l2 : dupdate d (l1 ++ l2) = dupdate (dupdate d l1) l2.
  Proof. unfold dupdate. apply fold_left_app. Qed.

  (** the value of a key after an update: the last pair for it wins *)
  Lemma dget_dupdate (l : list (K * V)) : forall d k,
    dget k (dupdate d l) =
    match dget k (rev l) with Some v => Some v | None => dget k d end.
  Proof.
    induction l as [|[k' v'] l IH] using rev_ind; intros d k; [reflexivity|].
    rewrite dupdate_app, rev_app_distr. cbn. rewrite dget_dset.
    destruct (eq_dec k k'); [reflexivity|apply IH].
  Qed.

  Lemma keys_dupdate_In (l : list (K * V)) : forall d k, In k (keys (dupdate d l)) <-> In k (keys d) \/ In k (keys l).
  Proof.
    induction l as [|[k' v'] l IH]; intros d k; [cbn; tauto|].
    change (dupdate d ((k', v') :: l)) with (dupdate (dset k' v' d) l).
    rewrite IH, In_keys_dset. cbn. intuition.
  Qed.

  Lemma In_dset_inv k v k' v' d : In (k', v') (dset k v d) -> (k' = k /\ v' = v) \/ In (k', v') d.
  Proof.
    induction d as [|[k2 v2] d IH]; cbn.
    - intros [[= -> ->]|[]]; auto.
    - destruct (eq_dec k k2) as [->|Hn]; cbn.
      + intros [[= -> ->]|Hi]; auto.
      + intros [[= -> ->]|Hi]; auto. destruct (IH Hi); auto.
  Qed.

  Lemma In_ddel k kv d : In kv (ddel k d) -> In kv d.
  Proof.
    induction d as [|[k2 v2] d IH]; cbn; [tauto|].
    destruct (eq_dec k k2); cbn; [auto|]. intros [->|Hi]; auto.
  Qed.

  Lemma dget_app k d d' : dget k (d ++ d') = match dget k d with Some v => Some v | None => dget k d' end.
  Proof.
    induction d as [|[k2 v2] d IH]; cbn; [reflexivity|]. destruct (eq_dec k k2); [reflexivity|exact IH].
  Qed.

  Lemma dset_same_id k v d : dget k d = Some v -> dset k v d = d.
  Proof.
    induction d as [|[k2 v2] d IH]; cbn; [discriminate|].
    destruct (eq_dec k k2) as [->|Hn]; [intros [= ->]; reflexivity|].
    intros Hg. f_equal. apply IH. exact Hg.
  Qed.

  Lemma length_dset k v d : (length (dset k v d) = if dmem k d then length d else S (length d))%nat.
  Proof.
    induction d as [|[k2 v2] d IH]; cbn; [reflexivity|].
    unfold dmem in *. cbn. destruct (eq_dec k k2); cbn; [reflexivity|].
    rewrite IH. destruct (dget k d); reflexivity.
  Qed.

  Lemma length_ddel k d : (length (ddel k d) = if dmem k d then length d - 1 else length d)%nat.
  Proof.
    induction d as [|[k2 v2] d IH]; cbn; [reflexivity|].
    unfold dmem in *. cbn. destruct (eq_dec k k2); cbn; [lia|].
    rewrite IH. destruct (dget k d) eqn:E; [|reflexivity].
    apply dget_In in E. destruct d; cbn in *; [tauto|lia].
  Qed.
End Lemmas.

(** decision procedure for concrete key lists *)
Fixpoint nodupb_str (l : list pystr) : bool :=
  match l with [] => true | k :: r => negb (existsb (pystr_eqb k) r) && nodupb_str r end.
Lemma nodupb_str_ok l : nodupb_str l = true -> NoDup l.
Proof.
  induction l as [|k l IH]; intros H; [constructor|]. cbn in H. apply andb_prop in H as [H1 H2]. constructor; [|apply IH; exact H2].
  intros Hin. apply negb_true_iff in H1. assert (existsb (pystr_eqb k) l = true); [|congruence].
  apply existsb_exists. exists k. split; [exact Hin|]. unfold pystr_eqb. destruct (pystr_eq_dec k k); congruence.
Qed.

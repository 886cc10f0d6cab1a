(** Lemmas for C106. *)
From Verif Require Import PyBase PyDict L_PyDict M_DictOps S_DictOps.

Lemma dget_dupdate_other : forall {K V} `{EqDec K} (l : list (K * V)) d k,
  ~ In k (map fst l) -> dget k (dupdate d l) = dget k d.
Proof.
  intros K V E l. induction l as [|[k' v'] l IH]; intros d k Hn; [reflexivity|].
  unfold dupdate in *. cbn [fold_left fst snd]. cbn [map fst] in Hn.
  rewrite IH by (intro X; apply Hn; now right).
  apply dget_dset_other. intros ->. apply Hn. now left.
Qed.

Lemma dget_ddel_gone : forall {K V} `{EqDec K} (d : dict K V) k,
  wf_dict d -> dget k (ddel k d) = None.
Proof.
  intros K V E d k. induction d as [|[k' v'] d IH]; intros W; [reflexivity|].
  unfold wf_dict in W. cbn [keys map fst] in W. inversion W as [|? ? Hn Hd]; subst.
  cbn [ddel]. destruct (eq_dec k k') as [->|Hk].
  - apply dget_None. exact Hn.
  - cbn [dget]. destruct (eq_dec k k') as [|_]; [contradiction|]. exact (IH Hd).
Qed.

Lemma dget_removelast : forall {K V} `{EqDec K} (d : dict K V) k,
  dget k (removelast d) = dget k d \/ dget k (removelast d) = None.
Proof.
  intros K V E d k. induction d as [|[k' v'] d IH]; [now left|].
  destruct d as [|p d]; [cbn; now right|].
  change (removelast ((k', v') :: p :: d)) with ((k', v') :: removelast (p :: d)).
  cbn [dget]. destruct (eq_dec k k'); [now left|exact IH].
Qed.

Lemma wf_removelast : forall {K V} `{EqDec K} (d : dict K V), wf_dict d -> wf_dict (removelast d).
Proof.
  intros K V E d. destruct d as [|p d] using rev_ind; [intros W; exact W|].
  rewrite removelast_last. unfold wf_dict, keys. rewrite map_app. intros W.
  apply NoDup_remove_1 in W. rewrite app_nil_r in W. exact W.
Qed.

Lemma wf_dupdate : forall {K V} `{EqDec K} (l : list (K * V)) d, wf_dict d -> wf_dict (dupdate d l).
Proof.
  intros K V E l. unfold dupdate. induction l as [|p l IH]; intros d W; [exact W|].
  cbn [fold_left]. apply IH. apply wf_dset. exact W.
Qed.

Lemma wf_dict_op : forall {K V} `{EqDec K} c (o : dictop K V) d,
  wf_dict d -> wf_dict (fst (dict_op c o d)).
Proof.
  intros K V E c [k v|k|l|k v|k| |] d W; cbn [dict_op].
  - unfold set_item. destruct c; [destruct (dmem k d)| |]; cbn [fst]; auto using wf_dset.
  - destruct (dmem k d); cbn [fst]; auto using wf_ddel.
  - cbn [fst]. apply wf_dupdate. exact W.
  - cbn [fst]. unfold dsetdefault. destruct (dget k d); cbn [fst]; auto using wf_dset.
  - destruct (dmem k d); cbn [fst]; auto using wf_ddel.
  - destruct d; [exact W|]. cbn [fst]. apply wf_removelast. exact W.
  - cbn [fst]. constructor.
Qed.

Lemma dict_op_keeps : forall {K V} `{EqDec K} c (o : dictop K V) d k v,
  dget k d = Some v -> ~ overwrites k o -> dget k (fst (dict_op c o d)) = Some v.
Proof.
  intros K V E c [k' v'|k'|l|k' v'|k'| |] d k v Hg Hn; cbn [dict_op overwrites] in *.
  - unfold set_item. destruct c; [destruct (dmem k' d) eqn:M| |]; cbn [fst]; try exact Hg.
    rewrite dget_dset_other; [exact Hg|]. intros ->. unfold dmem in M. rewrite Hg in M. discriminate.
  - destruct (dmem k' d); cbn [fst]; [|exact Hg].
    rewrite dget_ddel_other; [exact Hg|]. intros ->. now apply Hn.
  - cbn [fst]. rewrite dget_dupdate_other; [exact Hg|exact Hn].
  - cbn [fst]. unfold dsetdefault. destruct (dget k' d) eqn:M; cbn [fst]; [exact Hg|].
    rewrite dget_dset_other; [exact Hg|]. intros ->. rewrite Hg in M. discriminate.
  - destruct (dmem k' d); cbn [fst]; [|exact Hg].
    rewrite dget_ddel_other; [exact Hg|]. intros ->. now apply Hn.
  - exfalso. now apply Hn.
  - exfalso. now apply Hn.
Qed.

Lemma dict_op_absent : forall {K V} `{EqDec K} c (o : dictop K V) d k,
  dget k d = None -> ~ brings c k o -> dget k (fst (dict_op c o d)) = None.
Proof.
  intros K V E c [k' v'|k'|l|k' v'|k'| |] d k Hg Hn; cbn [dict_op brings] in *.
  - unfold set_item. destruct c; [destruct (dmem k' d) eqn:M| |]; cbn [fst]; try exact Hg.
    rewrite dget_dset_other; [exact Hg|]. intros ->. apply Hn. split; reflexivity.
  - destruct (dmem k' d) eqn:M; cbn [fst]; [|exact Hg].
    rewrite dget_ddel_other; [exact Hg|]. intros ->. unfold dmem in M. rewrite Hg in M. discriminate.
  - cbn [fst]. rewrite dget_dupdate_other; [exact Hg|exact Hn].
  - cbn [fst]. unfold dsetdefault. destruct (dget k' d) eqn:M; cbn [fst]; [exact Hg|].
    rewrite dget_dset_other; [exact Hg|]. intros ->. now apply Hn.
  - destruct (dmem k' d) eqn:M; cbn [fst]; [|exact Hg].
    rewrite dget_ddel_other; [exact Hg|]. intros ->. unfold dmem in M. rewrite Hg in M. discriminate.
  - destruct d as [|p d]; [exact Hg|]. cbn [fst].
    destruct (dget_removelast (p :: d) k) as [->|H]; assumption.
  - reflexivity.
Qed.

Lemma ops_keep : forall {K V} `{EqDec K} c (os : list (dictop K V)) d k v,
  dget k d = Some v -> (forall o, In o os -> ~ overwrites k o) ->
  dget k (dict_ops c os d) = Some v.
Proof.
  intros K V E c os. unfold dict_ops. induction os as [|o os IH]; intros d k v Hg Hn; [exact Hg|].
  cbn [fold_left]. apply IH; [|intros o' I; apply Hn; now right].
  apply dict_op_keeps; [exact Hg|]. apply Hn. now left.
Qed.

Lemma ops_absent : forall {K V} `{EqDec K} c (os : list (dictop K V)) d k,
  dget k d = None -> (forall o, In o os -> ~ brings c k o) ->
  dget k (dict_ops c os d) = None.
Proof.
  intros K V E c os. unfold dict_ops. induction os as [|o os IH]; intros d k Hg Hn; [exact Hg|].
  cbn [fold_left]. apply IH; [|intros o' I; apply Hn; now right].
  apply dict_op_absent; [exact Hg|]. apply Hn. now left.
Qed.

(** The ways to change a present key. *)
Lemma update_changes : forall {K V} `{EqDec K} c (d : dict K V) k v,
  dget k (fst (dict_op c (Update [(k, v)]) d)) = Some v /\
  snd (dict_op c (Update [(k, v)]) d) = Ok tt.
Proof.
  intros. cbn [dict_op fst snd]. split; [|reflexivity].
  unfold dupdate. cbn [fold_left fst snd]. apply dget_dset_same.
Qed.

Lemma pop_removes : forall {K V} `{EqDec K} c (d : dict K V) k, wf_dict d ->
  dget k (fst (dict_op c (Pop k) d)) = None /\
  dget k (fst (dict_op c (DelItem k) d)) = None /\
  dget k (fst (dict_op c Clear d)) = None.
Proof.
  intros K V E c d k W. cbn [dict_op].
  assert (G : dget k (fst (if dmem k d then (ddel k d, Ok tt) else (d, Raise KeyError))) = None).
  { destruct (dmem k d) eqn:M; cbn [fst]; [apply dget_ddel_gone; exact W|].
    unfold dmem in M. destruct (dget k d); [discriminate|reflexivity]. }
  split; [exact G|split; [exact G|reflexivity]].
Qed.

Lemma popitem_removes : forall {K V} `{EqDec K} c (d : dict K V) k v, wf_dict (d ++ [(k, v)]) ->
  fst (dict_op c Popitem (d ++ [(k, v)])) = d /\ dget k d = None.
Proof.
  intros K V E c d k v W. split.
  - cbn [dict_op]. destruct (d ++ [(k, v)]) eqn:Ed; [destruct d; discriminate|].
    cbn [fst]. rewrite <- Ed. apply removelast_last.
  - apply dget_None. unfold wf_dict, keys in W. rewrite map_app in W. cbn [map fst] in W.
    apply NoDup_remove_2 in W. rewrite app_nil_r in W. exact W.
Qed.

Lemma not_read_only : forall (K V : Type) (E : EqDec K) (c : kind) (k : K) (v : V),
  ~ read_only K V E c.
Proof.
  intros K V E c k v R.
  assert (W : wf_dict [(k, v)]) by (repeat constructor; intros []).
  assert (G : dget k [(k, v)] = Some v) by (cbn [dget]; destruct (eq_dec k k); congruence).
  pose proof (R [Clear] [(k, v)] k v W G) as X. discriminate X.
Qed.

Lemma assignment : forall {K V} `{EqDec K} (d : dict K V) (k : K) (v : V),
  dict_op Frozen (SetItem k v) d = (d, Raise TypeError) /\
  dict_op Header (SetItem k v) d = (d, Ok tt) /\
  (forall v', dget k d = Some v' -> dict_op WriteOnce (SetItem k v) d = (d, Raise KeyError)) /\
  (dget k d = None ->
     snd (dict_op WriteOnce (SetItem k v) d) = Ok tt /\
     dget k (fst (dict_op WriteOnce (SetItem k v) d)) = Some v).
Proof.
  intros K V E d k v. cbn [dict_op set_item]. split; [reflexivity|]. split; [reflexivity|]. split.
  - intros v' Hg. unfold dmem. rewrite Hg. reflexivity.
  - intros Hg. unfold dmem. rewrite Hg. cbn [fst snd]. split; [reflexivity|]. apply dget_dset_same.
Qed.

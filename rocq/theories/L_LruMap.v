(** Lemmas behind C147. *)
From Coq Require Import Lia.
From Verif Require Import PyBase L_PyBase PyDict L_PyDict M_Lru M_LruMap S_LruMap.

Lemma get_entries {K V} {E : EqDec K} (c : dict K V) k : wf_dict c -> same_entries c (fst (lru_get c k)) /\ wf_dict (fst (lru_get c k)) /\ length (fst (lru_get c k)) = length c.
Proof.
  intros W. unfold lru_get. destruct (dget k c) as [v|] eqn:D; cbn [fst]; [|split; [intros x; reflexivity|auto]]. split; [|split; [apply wf_dset, wf_ddel, W|]].
  - intros x. rewrite dget_dset. destruct (eq_dec x k) as [->|N]; [congruence|apply dget_ddel_other, N].
  - rewrite length_dset, length_ddel. unfold dmem. rewrite (dget_ddel_same k c W), D. destruct c; [discriminate D|cbn; lia].
Qed.
Lemma get_gives {K V} {E : EqDec K} (c : dict K V) k : snd (lru_get c k) = match dget k c with Some v => Ok v | None => Raise KeyError end.
Proof. unfold lru_get. destruct (dget k c); reflexivity. Qed.
Lemma reading (K V : Type) (E : EqDec K) mx (c : dict K V) o : wf_dict c -> reads o -> same_entries c (after_call (mm_do mx c o)) /\ disposed (mm_do mx c o) = [] /\
  match o with
  | CGet k => gives (mm_do mx c o) = Ok (match dget k c with Some v => OVal v | None => ODefault end)
  | CIn k => gives (mm_do mx c o) = Ok (OBool (match dget k c with Some _ => true | None => false end))
  | CLen => gives (mm_do mx c o) = Ok (OLen (length (keys c)))
  | CKeys => gives (mm_do mx c o) = Ok (OKeys (keys c))
  | _ => True
  end.
Proof.
  intros W R. unfold after_call, disposed, gives. assert (Rf : same_entries c c) by (intros x; reflexivity). destruct o as [k|k| | |k|k|k v|l| | | | |]; try destruct R; cbn [mm_do]; try (cbn [fst snd]; split; [exact Rf|split; [reflexivity|exact Logic.I]]).
  - destruct (get_entries c k W) as (S & _). pose proof (get_gives c k) as G. destruct (lru_get c k) as [c1 [v|e]]; cbn [fst snd] in *; (split; [exact S|split; [reflexivity|]]); destruct (dget k c); congruence.
  - destruct (get_entries c k W) as (S & _). pose proof (get_gives c k) as G. destruct (lru_get c k) as [c1 [v|e]]; cbn [fst snd] in *; (split; [exact S|split; [reflexivity|]]); destruct (dget k c); congruence.
  - cbn [fst snd]. split; [exact Rf|split; [reflexivity|]]. unfold keys. now rewrite map_length.
  - cbn [fst snd]. split; [exact Rf|split; reflexivity].
Qed.
Lemma walking (K V : Type) (E : EqDec K) mx (c : dict K V) o : walks o -> gives (mm_do mx c o) = Raise NotImplementedError.
Proof. destruct o; intros []; reflexivity. Qed.
Lemma set_room {K V} {E : EqDec K} mx (c : dict K V) k v : dget k c = None -> len c < mx -> lru_set mx c k v = (dset k v c, []).
Proof. intros D L. unfold lru_set. rewrite D. destruct (Z.ltb_spec mx (len (dset k v c))) as [X|X]; [|reflexivity]. exfalso. unfold len in *. rewrite length_dset in X. unfold dmem in X. rewrite D in X. lia. Qed.
Lemma defaulting (K V : Type) (E : EqDec K) mx (c : dict K V) k v : wf_dict c ->
  (forall v0, dget k c = Some v0 -> same_entries c (after_call (mm_do mx c (CSetdefault k v))) /\ disposed (mm_do mx c (CSetdefault k v)) = [] /\ gives (mm_do mx c (CSetdefault k v)) = Ok (OVal v0)) /\
  (dget k c = None -> len c < mx -> (forall x, dget x (after_call (mm_do mx c (CSetdefault k v))) = if eq_dec x k then Some v else dget x c) /\ disposed (mm_do mx c (CSetdefault k v)) = [] /\ gives (mm_do mx c (CSetdefault k v)) = Ok (OVal v)).
Proof.
  intros W. unfold after_call, disposed, gives. cbn [mm_do]. split.
  - intros v0 D. destruct (get_entries c k W) as (S & _). pose proof (get_gives c k) as G. rewrite D in G. destruct (lru_get c k) as [c1 r]; cbn [fst snd] in *. rewrite G. auto.
  - intros D L. unfold lru_get. rewrite D. rewrite (set_room mx c k v D L). cbn [fst snd]. split; [intros x; apply dget_dset|auto].
Qed.
Lemma updating (K V : Type) (E : EqDec K) mx : forall l (c : dict K V), wf_dict c -> NoDup (map fst l) -> (forall k, In k (map fst l) -> dget k c = None) -> len c + len l <= mx ->
  disposed (mm_do mx c (CUpdate l)) = [] /\ gives (mm_do mx c (CUpdate l)) = Ok ODone /\
  (forall k v, In (k, v) l -> dget k (after_call (mm_do mx c (CUpdate l))) = Some v) /\ (forall k, ~ In k (map fst l) -> dget k (after_call (mm_do mx c (CUpdate l))) = dget k c).
Proof.
  unfold after_call, disposed, gives. cbn [mm_do]. induction l as [|(k, v) l IH]; intros c W N F L; cbn [set_all]; [cbn; repeat split; intros; try reflexivity; contradiction|].
  cbn [map fst] in *. inversion N as [|? ? N1 N2]; subst. assert (D : dget k c = None) by (apply F; left; reflexivity). unfold len in L. cbn [length] in L. rewrite (set_room mx c k v D ltac:(unfold len; lia)).
  assert (Q : len (dset k v c) + len l <= mx) by (unfold len; rewrite length_dset; unfold dmem; rewrite D; lia).
  assert (F' : forall k0, In k0 (map fst l) -> dget k0 (dset k v c) = None) by (intros k0 I; rewrite dget_dset_other by (intros ->; contradiction); apply F; right; exact I).
  specialize (IH (dset k v c) (wf_dset k v c W) N2 F' Q). destruct (set_all mx (dset k v c) l) as [c2 d2]. cbn [fst snd app] in *. destruct IH as (I1 & I2 & I3 & I4). split; [exact I1|]. split; [reflexivity|]. split.
  - intros k0 v0 [[= -> ->]|I]; [rewrite (I4 k0 N1); apply dget_dset_same|exact (I3 k0 v0 I)].
  - intros k0 I. rewrite (I4 k0 (fun Q0 => I (or_intror Q0))). apply dget_dset_other. intros ->. apply I. left. reflexivity.
Qed.
Lemma popping (K V : Type) (E : EqDec K) mx (c : dict K V) k o : wf_dict c -> o = CPop k \/ o = CPopOr k ->
  (forall v, dget k c = Some v -> gives (mm_do mx c o) = Ok (OVal v) /\ forall x, dget x (after_call (mm_do mx c o)) = if eq_dec x k then None else dget x c) /\
  (dget k c = None -> gives (mm_do mx c o) = (match o with CPop _ => Raise KeyError | _ => Ok ODefault end) /\ after_call (mm_do mx c o) = c /\ disposed (mm_do mx c o) = []).
Proof.
  intros W O. unfold after_call, disposed, gives. destruct (get_entries c k W) as (S & W1 & _). split.
  - intros v D. pose proof (S k) as Sk. assert (X : mm_do mx c o = let '(c2, _, d) := lru_del (fst (lru_get c k)) k in (c2, d, Ok (OVal v))) by (destruct O as [->| ->]; cbn [mm_do]; pose proof (get_gives c k) as G; rewrite D in G; destruct (lru_get c k) as [c1 r]; cbn [fst snd] in *; rewrite G; reflexivity).
    rewrite X. unfold lru_del. rewrite Sk, D. cbn [fst snd]. split; [reflexivity|]. intros x. destruct (eq_dec x k) as [->|N]; [apply dget_ddel_same, W1|]. rewrite dget_ddel_other by exact N. apply S.
  - intros D. destruct O as [->| ->]; cbn [mm_do]; unfold lru_get; rewrite D; auto.
Qed.
Lemma pop_disposes (K V : Type) (E : EqDec K) mx (c : dict K V) k o v : wf_dict c -> o = CPop k \/ o = CPopOr k -> dget k c = Some v -> gives (mm_do mx c o) = Ok (OVal v) /\ disposed (mm_do mx c o) = [v].
Proof.
  intros W O D. split; [exact (proj1 (proj1 (popping K V E mx c k o W O) v D))|]. unfold disposed. destruct (get_entries c k W) as (S & _). pose proof (S k) as Sk. pose proof (get_gives c k) as G. rewrite D in G.
  destruct O as [->| ->]; cbn [mm_do]; destruct (lru_get c k) as [c1 r]; cbn [fst snd] in *; rewrite G; unfold lru_del; rewrite Sk, D; reflexivity.
Qed.
Lemma same_value (K V : Type) (E : EqDec K) mx (c : dict K V) k v : dget k c = Some v -> len c <= mx -> same_entries c (after_call (mm_do mx c (CUpdate [(k, v)]))) /\ disposed (mm_do mx c (CUpdate [(k, v)])) = [v].
Proof.
  intros D L. unfold after_call, disposed. cbn [mm_do set_all]. unfold lru_set. rewrite D. assert (X : (mx <? len (dset k v c)) = false) by (apply Z.ltb_ge; unfold len in *; rewrite length_dset; unfold dmem; rewrite D; exact L). rewrite X. cbn [fst snd app]. split; [|reflexivity].
  intros x. rewrite dget_dset. destruct (eq_dec x k) as [->|]; congruence.
Qed.
(** ** The size *)
Lemma set_size {K V} {E : EqDec K} mx (c : dict K V) k v : wf_dict c -> 0 <= mx -> len c <= mx -> len (fst (lru_set mx c k v)) <= mx /\ wf_dict (fst (lru_set mx c k v)).
Proof.
  intros W M L. unfold lru_set. pose proof (wf_dset k v c W) as W'. assert (B : len (dset k v c) <= mx + 1) by (unfold len in *; rewrite length_dset; destruct (dmem k c); lia).
  destruct (Z.ltb_spec mx (len (dset k v c))) as [X|X]; [|split; [exact X|exact W']]. destruct (dset k v c) as [|(k0, v0) c2]; cbn [fst]; [split; [unfold len; cbn; lia|exact W']|]. unfold len in *. cbn [length] in *. split; [lia|]. unfold wf_dict in *. cbn in W'. now inversion W'.
Qed.
Lemma all_size {K V} {E : EqDec K} mx l : 0 <= mx -> forall c : dict K V, wf_dict c -> len c <= mx -> len (fst (set_all mx c l)) <= mx /\ wf_dict (fst (set_all mx c l)).
Proof.
  intros M. induction l as [|(k, v) l IH]; intros c W L; cbn [set_all]; [auto|]. destruct (set_size mx c k v W M L) as (L1 & W1). destruct (lru_set mx c k v) as [c1 d1]. cbn [fst] in *. specialize (IH c1 W1 L1). destruct (set_all mx c1 l) as [c2 d2]. exact IH.
Qed.
Lemma call_size {K V} {E : EqDec K} mx (c : dict K V) o : 0 <= mx -> wf_dict c -> len c <= mx -> len (after_call (mm_do mx c o)) <= mx /\ wf_dict (after_call (mm_do mx c o)).
Proof.
  intros M W L. unfold after_call.
  assert (G : forall k, len (fst (lru_get c k)) <= mx /\ wf_dict (fst (lru_get c k))) by (intros k; destruct (get_entries c k W) as (_ & W1 & L1); unfold len in *; rewrite L1; auto).
  assert (Dl : forall k (c1 : dict K V), len c1 <= mx /\ wf_dict c1 -> len (fst (fst (lru_del c1 k))) <= mx /\ wf_dict (fst (fst (lru_del c1 k)))) by (intros k c1 (L1 & W1); unfold lru_del; destruct (dget k c1); cbn [fst]; [split; [unfold len in *; rewrite length_ddel; destruct (dmem k c1); lia|apply wf_ddel, W1]|auto]).
  destruct o as [k|k| | |k|k|k v|l| | | | |]; cbn [mm_do]; try (split; assumption).
  1-5: specialize (G k); destruct (lru_get c k) as [c1 [v0|e]]; cbn [fst snd] in *; try exact G.
  - specialize (Dl k c1 G). destruct (lru_del c1 k) as [[c2 r] d]. exact Dl.
  - specialize (Dl k c1 G). destruct (lru_del c1 k) as [[c2 r] d]. exact Dl.
  - destruct G as (G1 & G2). pose proof (set_size mx c1 k v G2 M G1) as Q. destruct (lru_set mx c1 k v) as [c2 d]. exact Q.
  - pose proof (all_size mx l M c W L) as Q. destruct (set_all mx c l) as [c2 d]. exact Q.
Qed.
Lemma run_size (K V : Type) (E : EqDec K) mx (l : list (mcall K V)) : 0 <= mx -> len (fst (mm_run mx [] l)) <= mx /\ wf_dict (fst (mm_run mx [] l)).
Proof.
  intros M. unfold mm_run. induction l as [|o l IH] using rev_ind; [cbn; split; [unfold len; cbn; lia|constructor]|]. rewrite fold_left_app. cbn [fold_left]. set (s := fold_left _ l _) in *. destruct IH as (L & W). pose proof (call_size mx (fst s) o M W L) as Q. unfold after_call in Q. destruct (mm_do mx (fst s) o) as [[c1 d] r]. exact Q.
Qed.

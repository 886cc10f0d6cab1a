(** Lemmas behind C144. *)
From Coq Require Import Lia.
From Verif Require Import PyBase L_PyBase PyDict PyInt M_RpcId M_Span L_Span M_IdCompare S_IdCompare.
Open Scope nat_scope.

Lemma id_eq_ids sub c v d w : sane sub -> proper sub (OId c v) -> proper sub (OId d w) -> sub d c = true ->
  exists b, id_eq sub c v (OId d w) = Ok b /\ (b = true <-> v = w).
Proof.
  intros S P Q H. unfold id_eq. cbn [class_of]. rewrite H. cbn [negb]. destruct v as [t|l], w as [t'|l']; cbn in P, Q.
  - eexists. split; [reflexivity|]. rewrite pystr_eqb_eq. split; congruence.
  - destruct (s_apart sub S d (s_trans sub S _ _ _ H P) Q).
  - destruct (s_apart sub S d Q (s_trans sub S _ _ _ H P)).
  - eexists. split; [reflexivity|]. rewrite rpcid_eqb_eq. split; congruence.
Qed.
Lemma ids_eq sub c v d w : sane sub -> proper sub (OId c v) -> proper sub (OId d w) ->
  exists b, py_eq sub (OId c v) (OId d w) = Ok b /\ (b = true <-> OId c v = OId d w).
Proof.
  intros S P Q. unfold py_eq. cbn [class_of]. destruct (Nat.eqb_spec c d) as [->|N]; cbn [negb andb].
  - destruct (id_eq_ids sub d v d w S P Q (s_refl sub S d)) as (b & E & B). cbn [ask_eq]. rewrite E. exists b. split; [reflexivity|]. rewrite B. split; congruence.
  - exists false. split; [|split; [discriminate|congruence]]. destruct (sub d c) eqn:H.
    + cbn [ask_eq]. unfold id_eq. cbn [class_of]. destruct (sub c d) eqn:H'; [destruct (N (s_anti sub S _ _ H' H))|]. reflexivity.
    + cbn [ask_eq]. unfold id_eq. cbn [class_of]. rewrite H. reflexivity.
Qed.
Lemma compare_ids sub x y : sane sub -> proper sub x -> proper sub y -> is_id x -> is_id y ->
  (x = y /\ py_eq sub x y = Ok true /\ py_ne sub x y = Ok false) \/ (x <> y /\ py_eq sub x y = Ok false /\ py_ne sub x y = Ok true).
Proof.
  intros S P Q Ix Iy. destruct x as [c v|]; [|destruct Ix]. destruct y as [d w|]; [|destruct Iy]. destruct (ids_eq sub c v d w S P Q) as ([|] & E & B); [left|right]; unfold py_ne; rewrite E; repeat split; try tauto. intros X. apply B in X. discriminate.
Qed.
Lemma foreign_not_id sub c v d f : sane sub -> proper sub (OId c v) -> proper sub (OForeign d f) -> sub d c = false.
Proof.
  intros S P [Q1 Q2]. destruct (sub d c) eqn:H; [|reflexivity]. destruct v; cbn in P; pose proof (s_trans sub S _ _ _ H P); congruence.
Qed.
Lemma compare_foreign sub c v d f : sane sub -> proper sub (OId c v) -> proper sub (OForeign d f) ->
  py_eq sub (OId c v) (OForeign d f) = Ok false /\
  py_eq sub (OForeign d f) (OId c v) = Ok (if sub c d then false else match f v with Some b => b | None => false end).
Proof.
  intros S P Q. pose proof (foreign_not_id sub c v d f S P Q) as N. assert (D : c <> d) by (intros ->; rewrite (s_refl sub S) in N; discriminate).
  unfold py_eq. cbn [class_of]. rewrite N, andb_false_r. destruct (Nat.eqb_spec d c) as [E|_]; [congruence|]. cbn [negb andb ask_eq]. unfold id_eq. cbn [class_of]. rewrite N. cbn. split; [reflexivity|].
  destruct (sub c d); cbn; [reflexivity|]. destruct (f v); reflexivity.
Qed.
Lemma in_list sub x l : sane sub -> proper sub x -> is_id x -> Forall (fun y => proper sub y /\ is_id y) l ->
  exists b, py_in sub x l = Ok b /\ (b = true <-> In x l).
Proof.
  intros S P I F. induction F as [|y l [Py Iy] F IH]; cbn; [exists false; split; [reflexivity|]; split; [discriminate|tauto]|].
  destruct (compare_ids sub y x S Py P Iy I) as [(-> & -> & _)|(N & -> & _)]; cbn; [exists true; tauto|]. destruct IH as (b & E & B). exists b. split; [exact E|]. rewrite B. tauto.
Qed.
Lemma no_hash own b rest : Forall defines_neither own -> b_eq b = true -> b_hash b = false -> py_hash (own ++ b :: rest) = Raise TypeError.
Proof. intros F E H. induction F as [|x own [X1 X2] F IH]; cbn; [rewrite H, E; reflexivity|]. rewrite X1, X2. exact IH. Qed.
Lemma no_key A own b rest (k : res A) : Forall defines_neither own -> b = trace_body \/ b = rpc_body -> as_key (own ++ b :: rest) k = Raise TypeError.
Proof. intros F [->| ->]; unfold as_key; rewrite no_hash; auto. Qed.

(** struct.pack / struct.unpack round trips. *)
From Coq Require Import ZifyBool.
From Verif Require Import PyBase L_PyBase Struct.
Ltac Zify.zify_post_hook ::= Z.div_mod_to_equations.

Lemma len_be_bytes k z : len (be_bytes k z) = Z.of_nat k.
Proof. induction k as [|k IH]; cbn [be_bytes]; [reflexivity|]. rewrite len_cons, IH. lia. Qed.

Lemma be_uint_fold b acc : fold_left (fun acc x => acc * 256 + Z_of_byte x) b acc = acc * 256 ^ len b + be_uint b.
Proof.
  unfold be_uint. revert acc. induction b as [|x b IH]; intros acc; [cbn; lia|].
  cbn [fold_left]. rewrite IH, (IH (0 * 256 + Z_of_byte x)). rewrite len_cons.
  rewrite Z.pow_add_r by (pose proof (len_nonneg b); lia). lia.
Qed.

Lemma be_uint_cons x b : be_uint (x :: b) = Z_of_byte x * 256 ^ len b + be_uint b.
Proof. unfold be_uint at 1. cbn [fold_left]. rewrite be_uint_fold. f_equal. Qed.

Lemma be_uint_range b : 0 <= be_uint b < 256 ^ len b.
Proof.
  induction b as [|x b IH]; [cbn; lia|].
  rewrite be_uint_cons, len_cons. rewrite Z.pow_add_r by (pose proof (len_nonneg b); lia).
  pose proof (Z_of_byte_range x). nia.
Qed.

Lemma be_uint_be_bytes k z : be_uint (be_bytes k z) = z mod 256 ^ Z.of_nat k.
Proof.
  induction k as [|k IH]; cbn [be_bytes]; [cbn; lia|].
  rewrite be_uint_cons, IH, len_be_bytes, Z_of_byte_of_Z.
  rewrite Nat2Z.inj_succ, Z.pow_succ_r by lia.
  rewrite (Z.mul_comm 256). rewrite Z.rem_mul_r by lia. lia.
Qed.

Lemma be_bytes_mod k z m : (Z.of_nat k <= m) -> be_bytes k (z mod 256 ^ m) = be_bytes k z.
Proof.
  intros Hm. induction k as [|k IH]; cbn [be_bytes]; [reflexivity|].
  rewrite IH by lia. f_equal.
  rewrite <- byte_of_Z_mod, <- (byte_of_Z_mod (z / _)). f_equal.
  replace (256 ^ m) with (256 ^ Z.of_nat k * 256 ^ (m - Z.of_nat k)) by (rewrite <- Z.pow_add_r by lia; f_equal; lia).
  rewrite Z.rem_mul_r by lia.
  rewrite Z.mul_comm, Z_div_plus_full by lia.
  rewrite (Z.div_small (z mod _)) by (apply Z.mod_pos_bound; lia).
  cbn [Z.add].
  replace (256 ^ (m - Z.of_nat k)) with (256 * 256 ^ (m - Z.of_nat k - 1)).
  2:{ rewrite <- Z.pow_succ_r by lia. f_equal. lia. }
  rewrite Z.rem_mul_r by lia.
  rewrite Z.mul_comm, Z_mod_plus_full. apply Z.mod_mod. lia.
Qed.

Lemma be_bytes_be_uint b : be_bytes (length b) (be_uint b) = b.
Proof.
  induction b as [|x b IH]; [reflexivity|].
  cbn [length be_bytes]. pose proof (be_uint_range b) as Hr. pose proof (Z_of_byte_range x) as Hx.
  f_equal.
  - rewrite be_uint_cons. change (Z.of_nat (length b)) with (len b).
    rewrite Z.add_comm, Z_div_plus_full by lia. rewrite Z.div_small by exact Hr.
    apply byte_of_Z_of_byte.
  - etransitivity; [|exact IH]. rewrite <- (be_bytes_mod _ (be_uint (x :: b)) (len b)) by (unfold len; lia).
    rewrite be_uint_cons, Z.add_comm, Z_mod_plus_full. rewrite Z.mod_small by exact Hr. reflexivity.
Qed.

Lemma be_sint_range b : 1 <= len b -> - (256 ^ len b / 2) <= be_sint b < 256 ^ len b / 2.
Proof.
  intros Hl. pose proof (be_uint_range b) as Hr. unfold be_sint.
  assert (Heven : 256 ^ len b = 2 * (128 * 256 ^ (len b - 1))).
  { replace (len b) with (Z.succ (len b - 1)) at 1 by lia. rewrite Z.pow_succ_r by lia. lia. }
  destruct (be_uint b <? _) eqn:E; lia.
Qed.

Lemma be_sint_mod b : (be_sint b) mod 256 ^ len b = be_uint b.
Proof.
  pose proof (be_uint_range b) as Hr. unfold be_sint. destruct (_ <? _).
  - apply Z.mod_small. exact Hr.
  - replace (be_uint b - 256 ^ len b) with (be_uint b + (-1) * 256 ^ len b) by lia.
    rewrite Z_mod_plus_full. apply Z.mod_small. exact Hr.
Qed.

Lemma be_bytes_be_sint b : be_bytes (length b) (be_sint b) = b.
Proof.
  rewrite <- (be_bytes_mod _ _ (len b)) by (unfold len; lia).
  rewrite be_sint_mod. apply be_bytes_be_uint.
Qed.

Lemma be_sint_be_bytes k z : (1 <= k)%nat ->
  - (256 ^ Z.of_nat k / 2) <= z < 256 ^ Z.of_nat k / 2 -> be_sint (be_bytes k z) = z.
Proof.
  intros Hk Hz. unfold be_sint. rewrite be_uint_be_bytes, len_be_bytes.
  set (m := 256 ^ Z.of_nat k) in *.
  assert (Heven : m = 2 * (128 * 256 ^ (Z.of_nat k - 1))).
  { unfold m. replace (Z.of_nat k) with (Z.succ (Z.of_nat k - 1)) at 1 by lia. rewrite Z.pow_succ_r by lia. lia. }
  set (h := 128 * 256 ^ (Z.of_nat k - 1)) in *. assert (Hh : 0 < h) by (unfold h; lia).
  clearbody m h. clear Hk. subst m.
  replace (2 * h / 2) with h in * by (symmetry; rewrite Z.mul_comm; apply Z.div_mul; lia).
  destruct (Z.ltb_spec z 0).
  - replace (z mod (2 * h)) with (z + 2 * h).
    + destruct (z + 2 * h <? h) eqn:E; lia.
    + symmetry. rewrite <- (Z_mod_plus_full z 1 (2 * h)). rewrite Z.mul_1_l. apply Z.mod_small. lia.
  - rewrite Z.mod_small by lia. destruct (z <? h) eqn:E; lia.
Qed.

(** ** pack and unpack *)

Definition size_ok (f : fmtc) : Prop := 0 <= fsize f.

Definition norm (v : pyobj) : pyobj := match int_value v with Some z => PInt z | None => v end.

(** for 's' items: the value has exactly the declared size *)
Definition fits (f : fmtc) (v : pyobj) : Prop :=
  match f with F_s n => exists b, v = PBytes b /\ len b = n | _ => True end.

Lemma pack_int_Some lo hi k v b : pack_int lo hi k v = Some b ->
  exists z, int_value v = Some z /\ lo <= z <= hi /\ b = be_bytes k z.
Proof.
  unfold pack_int. destruct (int_value v) as [z|]; [|discriminate].
  destruct (_ && _) eqn:E; [|discriminate]. intros [= <-]. exists z. split; [reflexivity|]. split; [lia|reflexivity].
Qed.

Lemma pack_int_ok lo hi k v z : int_value v = Some z -> lo <= z <= hi -> pack_int lo hi k v = Some (be_bytes k z).
Proof. intros Hv Hz. unfold pack_int. rewrite Hv. destruct (_ && _) eqn:E; [reflexivity|lia]. Qed.

Lemma len_repeat {A} (x : A) n : len (repeat x n) = Z.of_nat n.
Proof. unfold len. rewrite repeat_length. reflexivity. Qed.

Lemma pack1_len f v b : size_ok f -> pack1 f v = Some b -> len b = fsize f.
Proof.
  unfold size_ok. destruct f; cbn [pack1 fsize]; intros Hs Hp;
    try (apply pack_int_Some in Hp as (z & _ & _ & ->); rewrite len_be_bytes; reflexivity).
  destruct v; try discriminate. destruct (n <=? len b0) eqn:E; injection Hp as <-.
  - apply len_py_take; lia.
  - rewrite len_app, len_repeat. lia.
Qed.

Lemma unpack1_pack1 f v b : fits f v -> pack1 f v = Some b -> unpack1 f b = norm v.
Proof.
  unfold norm. destruct f; cbn [pack1 fits unpack1]; intros Hf Hp;
    try (apply pack_int_Some in Hp as (z & -> & Hz & ->)).
  1-4: rewrite be_sint_be_bytes; [reflexivity|lia|cbn; lia].
  1-2: rewrite be_uint_be_bytes; f_equal; apply Z.mod_small; cbn; lia.
  destruct Hf as (b' & -> & Hl). cbn. rewrite Hl in Hp.
  destruct (n <=? n) eqn:E; [|lia]. injection Hp as <-.
  rewrite py_take_all by lia. reflexivity.
Qed.

Lemma pack_len fmt : forall vals b, Forall size_ok fmt -> pack fmt vals = Some b -> len b = calcsize fmt.
Proof.
  induction fmt as [|f fmt IH]; intros [|v vals] b Hs Hp; cbn in Hp; try discriminate.
  - injection Hp as <-. reflexivity.
  - destruct (pack1 f v) as [b1|] eqn:E1; [|discriminate].
    destruct (pack fmt vals) as [b2|] eqn:E2; [|discriminate].
    injection Hp as <-. inversion Hs; subst. rewrite len_app. cbn [calcsize fold_right].
    rewrite (pack1_len _ _ _ H1 E1), (IH _ _ H2 E2). reflexivity.
Qed.

Lemma unpack_items_pack fmt : forall vals b r,
  Forall size_ok fmt -> Forall2 fits fmt vals -> pack fmt vals = Some b ->
  unpack_items fmt (b ++ r) = map norm vals.
Proof.
  induction fmt as [|f fmt IH]; intros [|v vals] b r Hs Hf Hp; cbn in Hp; try discriminate; [reflexivity|].
  destruct (pack1 f v) as [b1|] eqn:E1; [|discriminate].
  destruct (pack fmt vals) as [b2|] eqn:E2; [|discriminate].
  injection Hp as <-. inversion Hs; subst. inversion Hf; subst.
  cbn [unpack_items map]. rewrite <- (pack1_len _ _ _ H1 E1). rewrite <- app_assoc.
  rewrite py_take_app, py_drop_app. rewrite (IH _ _ _ H2 H6 E2). f_equal.
  eapply unpack1_pack1; eassumption.
Qed.

Lemma unpack_pack fmt vals b :
  Forall size_ok fmt -> Forall2 fits fmt vals -> pack fmt vals = Some b ->
  unpack fmt b = Some (map norm vals).
Proof.
  intros Hs Hf Hp. unfold unpack. rewrite (pack_len _ _ _ Hs Hp), Z.eqb_refl.
  rewrite <- (app_nil_r b). rewrite (unpack_items_pack _ _ _ _ Hs Hf Hp). reflexivity.
Qed.

Lemma pack_app f1 : forall f2 v1 v2 b, length f1 = length v1 ->
  (pack (f1 ++ f2) (v1 ++ v2) = Some b <->
   exists b1 b2, pack f1 v1 = Some b1 /\ pack f2 v2 = Some b2 /\ b = b1 ++ b2).
Proof.
  induction f1 as [|f f1 IH]; intros f2 [|v v1] v2 b Hl; cbn in Hl; try discriminate; cbn [app pack].
  - split; [intros Hp; exists [], b; auto|intros (b1 & b2 & [= <-] & Hp & ->); exact Hp].
  - injection Hl as Hl. destruct (pack1 f v) as [bf|]; [|split; [discriminate|intros (? & ? & ? & _); discriminate]].
    destruct (pack (f1 ++ f2) (v1 ++ v2)) as [bs|] eqn:E.
    + apply (IH f2 v1 v2 bs Hl) in E as (b1 & b2 & H1 & H2 & ->). rewrite H1. split.
      * intros [= <-]. exists (bf ++ b1), b2. rewrite H2. rewrite app_assoc. auto.
      * intros (b1' & b2' & [= <-] & Hp2 & ->). rewrite H2 in Hp2. injection Hp2 as <-. rewrite app_assoc. reflexivity.
    + split; [discriminate|]. intros (b1 & b2 & H1 & H2 & ->).
      destruct (pack f1 v1) as [b1'|] eqn:E1; [|discriminate].
      assert (Hc : pack (f1 ++ f2) (v1 ++ v2) = Some (b1' ++ b2)) by (apply (IH f2 v1 v2 _ Hl); eauto).
      congruence.
Qed.

Lemma calcsize_app a b : calcsize (a ++ b) = calcsize a + calcsize b.
Proof. unfold calcsize. induction a as [|f a IH]; cbn [app fold_right] in *; [reflexivity|]. rewrite IH. lia. Qed.

(** every value produced by unpack packs back to the same bytes *)
Lemma pack1_unpack1 f b : size_ok f -> len b = fsize f -> pack1 f (unpack1 f b) = Some b.
Proof.
  unfold size_ok. intros Hs Hl.
  destruct f; cbn [fsize] in *; cbn [unpack1 pack1]; cbn in Hl.
  1-4: erewrite pack_int_ok; [|reflexivity|
    pose proof (be_sint_range b ltac:(lia)) as Hr; rewrite Hl in Hr; cbn in Hr; lia];
    f_equal; rewrite <- (be_bytes_be_sint b) at 2; f_equal; unfold len in Hl; lia.
  1-2: erewrite pack_int_ok; [|reflexivity|
    pose proof (be_uint_range b) as Hr; rewrite Hl in Hr; cbn in Hr; lia];
    f_equal; rewrite <- (be_bytes_be_uint b) at 2; f_equal; unfold len in Hl; lia.
  rewrite <- Hl. destruct (len b <=? len b) eqn:E; [|lia]. rewrite py_take_all by lia. reflexivity.
Qed.

Lemma pack_unpack_items fmt : forall b, Forall size_ok fmt -> len b = calcsize fmt ->
  pack fmt (unpack_items fmt b) = Some b.
Proof.
  induction fmt as [|f fmt IH]; intros b Hs Hl.
  - cbn in *. apply len_zero_nil in Hl. subst. reflexivity.
  - inversion Hs; subst. cbn [calcsize fold_right] in Hl. fold (calcsize fmt) in Hl.
    assert (Hc : 0 <= calcsize fmt).
    { clear -H2. induction fmt as [|g fmt IHf]; cbn [calcsize fold_right]; [lia|].
      inversion H2; subst. unfold size_ok in *. specialize (IHf H3). unfold calcsize in IHf. lia. }
    unfold size_ok in *. cbn [unpack_items pack].
    rewrite pack1_unpack1 by (try (apply len_py_take); unfold size_ok; lia).
    rewrite IH; [|assumption|rewrite len_py_drop by lia; lia].
    rewrite py_take_drop. reflexivity.
Qed.

Lemma pack_unpack fmt b vals : Forall size_ok fmt -> unpack fmt b = Some vals -> pack fmt vals = Some b.
Proof.
  intros Hs. unfold unpack. destruct (len b =? calcsize fmt) eqn:E; [|discriminate].
  intros [= <-]. apply pack_unpack_items; [exact Hs|lia].
Qed.

Lemma unpack_len fmt b vals : unpack fmt b = Some vals -> len b = calcsize fmt.
Proof. unfold unpack. destruct (len b =? calcsize fmt) eqn:E; [lia|discriminate]. Qed.

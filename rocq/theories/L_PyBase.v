(** Lemmas about bytes, slices and results. *)
From Coq Require Import Strings.Byte.
From Verif Require Import PyBase.

Lemma Z_of_byte_range b : 0 <= Z_of_byte b < 256.
Proof. unfold Z_of_byte. pose proof (Byte.to_N_bounded b). lia. Qed.

Lemma Z_of_byte_of_Z z : Z_of_byte (byte_of_Z z) = z mod 256.
Proof.
  unfold byte_of_Z, Z_of_byte.
  assert (Hr : 0 <= z mod 256 < 256) by (apply Z.mod_pos_bound; lia).
  destruct (Byte.of_N (Z.to_N (z mod 256))) as [b|] eqn:E.
  - apply Byte.to_of_N in E. rewrite E. rewrite Z2N.id; lia.
  - exfalso. apply Byte.of_N_None_iff in E. lia.
Qed.

Lemma byte_of_Z_of_byte b : byte_of_Z (Z_of_byte b) = b.
Proof. destruct b; reflexivity. Qed.

Lemma byte_of_Z_mod z : byte_of_Z (z mod 256) = byte_of_Z z.
Proof. unfold byte_of_Z. rewrite Z.mod_mod by lia. reflexivity. Qed.

Lemma Z_of_byte_inj a b : Z_of_byte a = Z_of_byte b -> a = b.
Proof. intros H. rewrite <- (byte_of_Z_of_byte a), <- (byte_of_Z_of_byte b), H. reflexivity. Qed.

Lemma len_nonneg {A} (l : list A) : 0 <= len l.
Proof. unfold len. lia. Qed.
Lemma len_nil {A} : len (@nil A) = 0. Proof. reflexivity. Qed.
Lemma len_cons {A} (x : A) l : len (x :: l) = 1 + len l.
Proof. unfold len. cbn [length]. lia. Qed.
Lemma len_app {A} (a b : list A) : len (a ++ b) = len a + len b.
Proof. unfold len. rewrite app_length. lia. Qed.
Lemma len_zero_nil {A} (l : list A) : len l = 0 -> l = [].
Proof. destruct l; [reflexivity|rewrite len_cons; pose proof (len_nonneg l); lia]. Qed.

Lemma py_take_firstn {A} n (l : list A) : py_take n l = firstn (Z.to_nat n) l.
Proof.
  unfold py_take. destruct (Z.leb_spec (len l) n); [|reflexivity].
  symmetry. apply firstn_all2. unfold len in *. lia.
Qed.
Lemma py_drop_skipn {A} n (l : list A) : py_drop n l = skipn (Z.to_nat n) l.
Proof.
  unfold py_drop. destruct (Z.leb_spec (len l) n); [|reflexivity].
  symmetry. apply skipn_all2. unfold len in *. lia.
Qed.
Lemma py_take_drop {A} n (l : list A) : py_take n l ++ py_drop n l = l.
Proof. rewrite py_take_firstn, py_drop_skipn. apply firstn_skipn. Qed.
Lemma len_py_take {A} n (l : list A) : 0 <= n -> n <= len l -> len (py_take n l) = n.
Proof. intros H1 H2. rewrite py_take_firstn. unfold len in *. rewrite firstn_length. lia. Qed.
Lemma len_py_take_le {A} n (l : list A) : 0 <= n -> len (py_take n l) <= n.
Proof. intros H1. rewrite py_take_firstn. unfold len in *. rewrite firstn_length. lia. Qed.
Lemma len_py_drop {A} n (l : list A) : 0 <= n -> n <= len l -> len (py_drop n l) = len l - n.
Proof. intros H1 H2. rewrite py_drop_skipn. unfold len in *. rewrite skipn_length. lia. Qed.
Lemma py_take_app {A} (a b : list A) : py_take (len a) (a ++ b) = a.
Proof.
  rewrite py_take_firstn. unfold len. rewrite Nat2Z.id.
  rewrite firstn_app, Nat.sub_diag, firstn_all. cbn. apply app_nil_r.
Qed.
Lemma py_drop_app {A} (a b : list A) : py_drop (len a) (a ++ b) = b.
Proof.
  rewrite py_drop_skipn. unfold len. rewrite Nat2Z.id.
  rewrite skipn_app, Nat.sub_diag, skipn_all. reflexivity.
Qed.
Lemma py_take_app' {A} n (a b : list A) : n = len a -> py_take n (a ++ b) = a.
Proof. intros ->. apply py_take_app. Qed.
Lemma py_drop_app' {A} n (a b : list A) : n = len a -> py_drop n (a ++ b) = b.
Proof. intros ->. apply py_drop_app. Qed.
Lemma py_take_app_ge {A} n (a b : list A) : 0 <= n -> n <= len a -> py_take n (a ++ b) = py_take n a.
Proof.
  intros H0 H. rewrite !py_take_firstn. rewrite firstn_app.
  replace (Z.to_nat n - length a)%nat with 0%nat by (unfold len in *; lia).
  cbn. apply app_nil_r.
Qed.
Lemma py_drop_app_ge {A} n (a b : list A) : 0 <= n -> n <= len a -> py_drop n (a ++ b) = py_drop n a ++ b.
Proof.
  intros H0 H. rewrite !py_drop_skipn. rewrite skipn_app.
  replace (Z.to_nat n - length a)%nat with 0%nat by (unfold len in *; lia).
  reflexivity.
Qed.
Lemma py_take_all {A} n (l : list A) : len l <= n -> py_take n l = l.
Proof. intros H. unfold py_take. destruct (Z.leb_spec (len l) n); [reflexivity|lia]. Qed.
Lemma py_drop_all {A} n (l : list A) : len l <= n -> py_drop n l = [].
Proof. intros H. unfold py_drop. destruct (Z.leb_spec (len l) n); [reflexivity|lia]. Qed.
Lemma py_drop_0 {A} (l : list A) : py_drop 0 l = l.
Proof. rewrite py_drop_skipn. reflexivity. Qed.

Lemma skipn_skipn' {A} a b (l : list A) : skipn a (skipn b l) = skipn (b + a) l.
Proof. revert l; induction b as [|b IH]; intros l; [reflexivity|]. destruct l; cbn; [destruct a; reflexivity|apply IH]. Qed.
Lemma py_drop_drop {A} m n (l : list A) : 0 <= m -> 0 <= n -> py_drop n (py_drop m l) = py_drop (m + n) l.
Proof. intros Hm Hn. rewrite !py_drop_skipn, skipn_skipn'. f_equal; lia. Qed.

Lemma pystr_eqb_eq a b : pystr_eqb a b = true <-> a = b.
Proof. unfold pystr_eqb. destruct (pystr_eq_dec a b); split; congruence. Qed.
Lemma pystr_eqb_refl a : pystr_eqb a a = true.
Proof. apply pystr_eqb_eq; reflexivity. Qed.
Lemma bytes_eqb_eq a b : bytes_eqb a b = true <-> a = b.
Proof. unfold bytes_eqb. destruct (bytes_eq_dec a b); split; congruence. Qed.

Lemma bind_Ok {A B} (r : res A) (f : A -> res B) b :
  bind r f = Ok b <-> exists a, r = Ok a /\ f a = Ok b.
Proof. destruct r; cbn; split; [eauto|intros (a' & H & H'); congruence|discriminate|intros (a' & H & _); discriminate]. Qed.

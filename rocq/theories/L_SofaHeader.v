(** Header codec: correctness against S_Wire, totality, round trip, size of re-encodings. *)
From Coq Require Import ZifyBool.
From Verif Require Import PyBase L_PyBase PyDict L_PyDict Utf8 L_Utf8 Struct L_Struct M_SofaHeader S_Wire.
Ltac Zify.zify_post_hook ::= Z.div_mod_to_equations.

Lemma Ok_inj {A} (x y : A) : Ok x = Ok y -> x = y.
Proof. congruence. Qed.

Lemma uval_be_uint b : uval b = be_uint b.
Proof. induction b as [|x b IH]; [reflexivity|]. rewrite be_uint_cons. cbn [uval]. rewrite IH. reflexivity. Qed.

Lemma sval_be_sint b : 1 <= len b -> sval b = be_sint b.
Proof.
  intros Hl. unfold sval, be_sint. rewrite uval_be_uint.
  assert (Heven : 256 ^ len b = 2 * (128 * 256 ^ (len b - 1))).
  { replace (len b) with (Z.succ (len b - 1)) at 1 by lia. rewrite Z.pow_succ_r by lia. lia. }
  destruct (2 * be_uint b <? _) eqn:E1, (be_uint b <? _) eqn:E2; lia.
Qed.

(** ** UTF-8 *)

Lemma map_Z_of_byte_of l : Forall (fun z => 0 <= z < 256) l -> map Z_of_byte (map byte_of_Z l) = l.
Proof.
  induction 1 as [|z l Hz _ IH]; [reflexivity|]. cbn. rewrite IH, Z_of_byte_of_Z, Z.mod_small by exact Hz. reflexivity.
Qed.

Lemma map_Z_of_byte_inv l : forall cb, map Z_of_byte cb = l -> cb = map byte_of_Z l.
Proof.
  induction l as [|z l IH]; intros [|x cb] H; cbn in H; try discriminate; [reflexivity|].
  injection H as <- <-. cbn. rewrite byte_of_Z_of_byte. f_equal. apply IH. reflexivity.
Qed.

Lemma scalar_iff c : scalar c <-> 0 <= c <= 0x10FFFF /\ is_surrogate c = false.
Proof. unfold scalar, is_surrogate. lia. Qed.

Lemma utf8_char_enc1 c cb : utf8_char c (map Z_of_byte cb) -> utf8_enc1 c = Some cb.
Proof.
  intros H. unfold utf8_enc1. remember (map Z_of_byte cb) as l eqn:Hl. symmetry in Hl.
  apply map_Z_of_byte_inv in Hl. subst cb. inversion H; subst; cbn [map].
  - unfold is_surrogate. destruct (_ || _) eqn:E1; [lia|]. destruct (c <? 128) eqn:E2; [|lia]. reflexivity.
  - remember (a * 64 + b) as c eqn:Hc. unfold is_surrogate.
    destruct (_ || _) eqn:E1; [lia|]. destruct (c <? 128) eqn:E2; [lia|]. destruct (c <? 2048) eqn:E3; [|lia].
    repeat f_equal; lia.
  - remember (a * 4096 + b * 64 + d) as c eqn:Hc. apply scalar_iff in H3 as [Hr Hs].
    rewrite Hs. destruct (_ || _) eqn:E1; [lia|].
    destruct (c <? 128) eqn:E2; [lia|]. destruct (c <? 2048) eqn:E3; [lia|]. destruct (c <? 65536) eqn:E4; [|lia].
    assert (c / 4096 = a) by lia. assert (c / 64 = a * 64 + b) by lia. assert (c mod 64 = d) by lia.
    rewrite H3, H4, H5. replace ((a * 64 + b) mod 64) with b by lia. reflexivity.
  - remember (a * 262144 + b * 4096 + d * 64 + e) as c eqn:Hc. unfold is_surrogate.
    destruct (_ || _) eqn:E1; [lia|].
    destruct (c <? 128) eqn:E2; [lia|]. destruct (c <? 2048) eqn:E3; [lia|]. destruct (c <? 65536) eqn:E4; [lia|].
    assert (Ha : c / 262144 = a) by lia. assert (Hb : c / 4096 = a * 64 + b) by lia.
    assert (Hd : c / 64 = (a * 64 + b) * 64 + d) by lia. assert (He : c mod 64 = e) by lia.
    rewrite Ha, Hb, Hd, He. replace ((a * 64 + b) mod 64) with b by lia.
    replace (((a * 64 + b) * 64 + d) mod 64) with d by lia. reflexivity.
Qed.

Lemma enc1_utf8_char c cb : utf8_enc1 c = Some cb -> utf8_char c (map Z_of_byte cb).
Proof.
  intros H. pose proof (utf8_enc1_valid _ _ H) as Hv. apply scalar_iff in Hv as Hs. destruct Hv as [Hr _].
  unfold utf8_enc1 in H. destruct (_ || _) eqn:E1; [discriminate|].
  destruct (c <? 128) eqn:E2; [|destruct (c <? 2048) eqn:E3; [|destruct (c <? 65536) eqn:E4]];
    apply Some_inj in H; subst cb; cbn [map]; rewrite !Z_of_byte_of_Z.
  - rewrite Z.mod_small by lia. constructor. lia.
  - rewrite !Z.mod_small by lia.
    pose proof (U2 (c / 64) (c mod 64) ltac:(lia)) as HU.
    replace (c / 64 * 64 + c mod 64) with c in HU by lia. apply HU. lia.
  - rewrite !(Z.mod_small _ 256) by lia.
    pose proof (U3 (c / 4096) (c / 64 mod 64) (c mod 64) ltac:(lia) ltac:(lia)) as HU.
    replace (c / 4096 * 4096 + c / 64 mod 64 * 64 + c mod 64) with c in HU by lia. apply HU; [lia|assumption].
  - rewrite !(Z.mod_small _ 256) by lia.
    pose proof (U4 (c / 262144) (c / 4096 mod 64) (c / 64 mod 64) (c mod 64) ltac:(lia) ltac:(lia) ltac:(lia)) as HU.
    replace (c / 262144 * 262144 + c / 4096 mod 64 * 4096 + c / 64 mod 64 * 64 + c mod 64) with c in HU by lia.
    apply HU; lia.
Qed.

Lemma utf8_text_encode s b : utf8_text s b <-> utf8_encode s = Some b.
Proof.
  split.
  - induction 1 as [|c s cb bs Hc _ IH]; [reflexivity|]. cbn. rewrite (utf8_char_enc1 _ _ Hc), IH. reflexivity.
  - revert b. induction s as [|c s IH]; intros b H; cbn in H.
    + injection H as <-. constructor.
    + destruct (utf8_enc1 c) as [cb|] eqn:E1; [|discriminate]. destruct (utf8_encode s) as [bs|] eqn:E2; [|discriminate].
      injection H as <-. constructor; [apply enc1_utf8_char; exact E1|apply IH; reflexivity].
Qed.

Lemma utf8_text_decode s b : utf8_text s b <-> utf8_decode b = Some s.
Proof.
  rewrite utf8_text_encode. split; [apply utf8_decode_encode|apply utf8_encode_decode].
Qed.

Lemma utf8_text_fun s s' b : utf8_text s b -> utf8_text s' b -> s = s'.
Proof. rewrite !utf8_text_decode. congruence. Qed.

(** ** length prefixes *)

Lemma bytes2int_be_4 b : len b = 4 -> bytes2int_be b = Ok (sval b).
Proof.
  intros Hl. unfold bytes2int_be, unpack. cbn [calcsize fold_right fsize]. rewrite Hl. cbn [Z.eqb Z.add Pos.eqb].
  cbn [unpack_items unpack1 fsize]. rewrite py_take_all by lia. rewrite sval_be_sint by lia. reflexivity.
Qed.

Lemma sval_range4 b : len b = 4 -> -2147483648 <= sval b <= 2147483647.
Proof.
  intros Hl. rewrite sval_be_sint by lia. pose proof (be_sint_range b ltac:(lia)) as H. rewrite Hl in H. cbn in H. lia.
Qed.

Lemma int2bytes_be_eq i : int2bytes_be i =
  if (-2147483648 <=? i) && (i <=? 2147483647) then Ok (be_bytes 4 i) else Raise StructError.
Proof.
  unfold int2bytes_be. cbn [pack pack1]. unfold pack_int. cbn [int_value].
  destruct (_ && _); [|reflexivity]. rewrite app_nil_r. reflexivity.
Qed.

Lemma int2bytes_be_Ok i l : int2bytes_be i = Ok l <-> -2147483648 <= i <= 2147483647 /\ len l = 4 /\ sval l = i.
Proof.
  rewrite int2bytes_be_eq. split.
  - destruct (_ && _) eqn:E; [|discriminate]. intros H. apply Ok_inj in H. subst l.
    rewrite sval_be_sint by (rewrite len_be_bytes; lia). rewrite be_sint_be_bytes by (cbn; lia).
    rewrite len_be_bytes. lia.
  - intros (Hi & Hl & Hs). destruct (_ && _) eqn:E; [|lia]. f_equal. rewrite <- Hs.
    rewrite sval_be_sint by lia. rewrite <- (be_bytes_be_sint l) at 2. f_equal. unfold len in Hl. lia.
Qed.

Lemma sval_inj4 a b : len a = 4 -> len b = 4 -> sval a = sval b -> a = b.
Proof.
  intros Ha Hb H. pose proof (sval_range4 a Ha).
  assert (H1 : int2bytes_be (sval a) = Ok a) by (apply int2bytes_be_Ok; auto).
  assert (H2 : int2bytes_be (sval a) = Ok b) by (apply int2bytes_be_Ok; auto). congruence.
Qed.

Lemma str_to_bytes_Ok s r : str_to_bytes_with_len s = Ok r <->
  exists l b, r = l ++ b /\ utf8_text s b /\ len l = 4 /\ sval l = len b.
Proof.
  unfold str_to_bytes_with_len. split.
  - destruct (utf8_encode s) as [b|] eqn:E; [|discriminate]. intros H. apply bind_Ok in H as (l & Hl & [= <-]).
    apply int2bytes_be_Ok in Hl as (_ & ? & ?). exists l, b. rewrite utf8_text_encode. auto.
  - intros (l & b & -> & Hu & Hl & Hs). apply utf8_text_encode in Hu. rewrite Hu.
    assert (H : int2bytes_be (len b) = Ok l).
    { apply int2bytes_be_Ok. pose proof (sval_range4 l Hl). pose proof (len_nonneg b). lia. }
    rewrite H. reflexivity.
Qed.

(** ** the parsing loop *)

Lemma step_Ok b s b' : bytes_to_str_step b = Ok (s, b') <->
  (exists l payload, b = l ++ payload ++ b' /\ len l = 4 /\ sval l = len payload /\ utf8_text s payload) \/
  (exists l, b = l ++ b' /\ len l = 4 /\ sval l = -1 /\ s = []).
Proof.
  unfold bytes_to_str_step. split.
  - destruct (len b <? 4) eqn:E4; [discriminate|]. remember (py_take 4 b) as l eqn:Hl.
    assert (Hll : len l = 4) by (subst l; apply len_py_take; lia).
    rewrite (bytes2int_be_4 _ Hll). cbn [bind].
    destruct (sval l =? -1) eqn:E1.
    + cbn [Z.ltb Z.compare]. destruct (len b <? 4 + 0) eqn:E2; [discriminate|].
      replace (4 + 0) with 4 by lia. rewrite <- Hl. rewrite py_drop_all by lia. cbn. intros [= <- <-].
      right. exists l. split; [subst l; symmetry; apply py_take_drop|]. repeat split; lia.
    + destruct (sval l <? 0) eqn:E2; [discriminate|]. destruct (len b <? 4 + sval l) eqn:E3; [discriminate|].
      remember (4 + sval l) as n eqn:Hn.
      destruct (utf8_decode (py_drop 4 (py_take n b))) as [s0|] eqn:E5; [|discriminate]. intros [= <- <-].
      left. exists l, (py_drop 4 (py_take n b)).
      assert (Hpl : len (py_drop 4 (py_take n b)) = sval l).
      { rewrite len_py_drop by (try rewrite len_py_take; lia). rewrite len_py_take; lia. }
      split; [|rewrite utf8_text_decode, Hpl; auto].
      rewrite app_assoc. rewrite <- (py_take_drop n b) at 1. f_equal.
      rewrite <- (py_take_drop 4 (py_take n b)) at 1. f_equal. subst l.
      rewrite !py_take_firstn. rewrite firstn_firstn. f_equal. lia.
  - intros [(l & p & -> & Hl & Hs & Hu)|(l & -> & Hl & Hs & ->)].
    + pose proof (len_nonneg p). pose proof (len_nonneg b').
      rewrite !len_app. destruct (_ <? 4) eqn:E4; [lia|].
      rewrite (py_take_app' 4) by lia. rewrite (bytes2int_be_4 _ Hl). cbn [bind].
      destruct (sval l =? -1) eqn:E1; [lia|]. destruct (sval l <? 0) eqn:E2; [lia|].
      destruct (_ <? 4 + sval l) eqn:E3; [lia|].
      rewrite app_assoc. rewrite (py_take_app' (4 + sval l)) by (rewrite len_app; lia).
      rewrite (py_drop_app' 4) by lia. apply utf8_text_decode in Hu. rewrite Hu.
      rewrite (py_drop_app' (4 + sval l)) by (rewrite len_app; lia). reflexivity.
    + pose proof (len_nonneg b').
      rewrite !len_app. destruct (_ <? 4) eqn:E4; [lia|].
      rewrite (py_take_app' 4) by lia. rewrite (bytes2int_be_4 _ Hl). cbn [bind]. rewrite Hs. cbn [Z.eqb Pos.eqb Z.ltb Z.compare].
      destruct (_ <? 4 + 0) eqn:E3; [lia|].
      rewrite (py_take_app' (4 + 0)) by lia. rewrite py_drop_all by lia. cbn [utf8_decode].
      rewrite (py_drop_app' (4 + 0)) by lia. reflexivity.
Qed.

Lemma step_shorter b s b' : bytes_to_str_step b = Ok (s, b') -> len b' + 4 <= len b.
Proof.
  rewrite step_Ok. intros [(l & p & -> & Hl & _)|(l & -> & Hl & _)]; rewrite !len_app; pose proof (len_nonneg b');
    try pose proof (len_nonneg p); lia.
Qed.

Lemma step_errors b e : bytes_to_str_step b = Raise e -> e = DecodeError \/ e = UnicodeDecodeError.
Proof.
  unfold bytes_to_str_step. destruct (len b <? 4) eqn:E4; [intros H; injection H; auto|].
  rewrite bytes2int_be_4 by (apply len_py_take; lia). cbn [bind].
  do 2 match goal with |- (if ?c then _ else _) = _ -> _ => destruct c; [intros H; injection H; auto|] end.
  destruct (utf8_decode _); [discriminate|]. intros H; injection H; auto.
Qed.

Lemma loop_fuel fuel : forall b ret, (length b <= fuel)%nat -> exists r, bytes_to_str_loop fuel b ret = Some r.
Proof.
  induction fuel as [|fuel IH]; intros [|x b] ret Hf; cbn [length] in Hf; try (cbn; eauto; lia).
  cbn [bytes_to_str_loop]. destruct (bytes_to_str_step (x :: b)) as [[s b']|e] eqn:E; [|eauto].
  apply IH. apply step_shorter in E. unfold len in E. cbn [length] in E. lia.
Qed.

Lemma loop_mono fuel : forall fuel' b ret r, (fuel <= fuel')%nat ->
  bytes_to_str_loop fuel b ret = Some r -> bytes_to_str_loop fuel' b ret = Some r.
Proof.
  induction fuel as [|fuel IH]; intros [|fuel'] [|x b] ret r Hf; cbn [bytes_to_str_loop]; try discriminate; auto; try lia.
  destruct (bytes_to_str_step (x :: b)) as [[s b']|e]; [|auto]. apply IH. lia.
Qed.

Definition prepend (ret : list pystr) (r : res (list pystr)) : res (list pystr) :=
  match r with Ok ss => Ok (ret ++ ss) | Raise e => Raise e end.

Lemma loop_acc fuel : forall b ret,
  bytes_to_str_loop fuel b ret = option_map (prepend ret) (bytes_to_str_loop fuel b []).
Proof.
  induction fuel as [|fuel IH]; intros [|x b] ret; cbn [bytes_to_str_loop option_map prepend];
    rewrite ?app_nil_r; try reflexivity.
  destruct (bytes_to_str_step (x :: b)) as [[s b']|e]; [|reflexivity].
  rewrite (IH b' (ret ++ [s])), (IH b' ([] ++ [s])).
  destruct (bytes_to_str_loop fuel b' []) as [[ss|e]|]; cbn; rewrite <- ?app_assoc; reflexivity.
Qed.

Lemma bytes_to_str_unfold b : b <> [] ->
  bytes_to_str b = match bytes_to_str_step b with
                   | Raise e => Raise e
                   | Ok (s, b') => prepend [s] (bytes_to_str b')
                   end.
Proof.
  destruct b as [|x b]; [congruence|]. intros _. unfold bytes_to_str at 1. cbn [length bytes_to_str_loop].
  destruct (bytes_to_str_step (x :: b)) as [[s b']|e] eqn:E; [|reflexivity].
  apply step_shorter in E. rewrite loop_acc. unfold bytes_to_str.
  destruct (loop_fuel (length b') b' [] (Nat.le_refl _)) as [r Hr]. rewrite Hr.
  rewrite (loop_mono (length b') (length b) b' [] r); [reflexivity| |exact Hr]. unfold len in E. cbn [length] in E. lia.
Qed.

Lemma bytes_to_str_iff b ss : bytes_to_str b = Ok ss <-> header_strings b ss.
Proof.
  split.
  - remember (length b) as n eqn:Hn. revert b ss Hn. induction n as [n IH] using lt_wf_ind. intros b ss Hn H.
    destruct b as [|x b]; [cbn in H; injection H as <-; constructor|].
    rewrite bytes_to_str_unfold in H by discriminate.
    destruct (bytes_to_str_step (x :: b)) as [[s b']|e] eqn:E; [|discriminate].
    destruct (bytes_to_str b') as [ss'|e] eqn:E'; [|discriminate]. injection H as <-.
    pose proof (step_shorter _ _ _ E) as Hsh. unfold len in Hsh. cbn [length] in *.
    apply (IH (length b')) in E'; [|lia|reflexivity].
    apply step_Ok in E as [(l & p & -> & Hl & Hs & Hu)|(l & -> & Hl & Hs & ->)]; econstructor; eassumption.
  - induction 1 as [|l payload rest s ss Hl Hs Hu _ IH|l rest ss Hl Hs _ IH]; [reflexivity| |].
    + rewrite bytes_to_str_unfold by (destruct l; [discriminate Hl|discriminate]).
      assert (E : bytes_to_str_step (l ++ payload ++ rest) = Ok (s, rest)) by (apply step_Ok; left; eauto 7).
      rewrite E, IH. reflexivity.
    + rewrite bytes_to_str_unfold by (destruct l; [discriminate Hl|discriminate]).
      assert (E : bytes_to_str_step (l ++ rest) = Ok ([], rest)) by (apply step_Ok; right; eauto 7).
      rewrite E, IH. reflexivity.
Qed.

Lemma bytes_to_str_errors b e : bytes_to_str b = Raise e -> e = DecodeError \/ e = UnicodeDecodeError.
Proof.
  remember (length b) as n eqn:Hn. revert b Hn. induction n as [n IH] using lt_wf_ind. intros b Hn H.
  destruct b as [|x b]; [discriminate|]. rewrite bytes_to_str_unfold in H by discriminate.
  destruct (bytes_to_str_step (x :: b)) as [[s b']|e'] eqn:E; [|injection H as <-; eapply step_errors; exact E].
  destruct (bytes_to_str b') as [|e'] eqn:E'; [discriminate|]. injection H as <-.
  pose proof (step_shorter _ _ _ E) as Hsh. unfold len in Hsh. cbn [length] in *.
  eapply (IH (length b')); [lia|reflexivity|exact E'].
Qed.

Lemma header_strings_fun b ss ss' : header_strings b ss -> header_strings b ss' -> ss = ss'.
Proof. rewrite <- !bytes_to_str_iff. congruence. Qed.

Lemma header_strings_app b1 ss1 : header_strings b1 ss1 -> forall b2 ss2,
  header_strings b2 ss2 -> header_strings (b1 ++ b2) (ss1 ++ ss2).
Proof.
  induction 1 as [|l payload rest s ss Hl Hs Hu _ IH|l rest ss Hl Hs _ IH]; intros b2 ss2 H2; cbn [app]; [exact H2| |].
  - rewrite <- !app_assoc. econstructor; eauto.
  - rewrite <- app_assoc. apply HS_null; auto.
Qed.

(** ** keys and values *)

Lemma list_ind2 {A} (P : list A -> Prop) : P [] -> (forall x, P [x]) -> (forall x y l, P l -> P (x :: y :: l)) -> forall l, P l.
Proof.
  intros H0 H1 H2. fix IH 1. intros [|x [|y l]]; [exact H0|apply H1|apply H2, IH].
Qed.

Lemma strides_pairs (ss : list pystr) kvs :
  (len (stride2 ss) = len (stride2 (tl ss)) /\ kvs = combine (stride2 ss) (stride2 (tl ss))) <-> ss = flatten_pairs kvs.
Proof.
  revert kvs. induction ss as [|x|x y l IH] using list_ind2; intros kvs.
  - cbn. split; [intros [_ ->]; reflexivity|]. destruct kvs as [|[k v] kvs]; [auto|discriminate].
  - cbn. split; [intros [H _]; discriminate|]. destruct kvs as [|[k v] kvs]; discriminate.
  - assert (Htl : stride2 (tl (x :: y :: l)) = y :: stride2 (tl l)) by (destruct l as [|z [|w l]]; reflexivity).
    rewrite Htl. cbn [stride2 combine]. rewrite !len_cons. split.
    + intros [Hl ->]. cbn [flatten_pairs]. do 2 f_equal. apply (IH (combine (stride2 l) (stride2 (tl l)))). split; [lia|reflexivity].
    + destruct kvs as [|[k v] kvs]; [discriminate|]. cbn [flatten_pairs]. intros [= -> -> H].
      apply IH in H as [Hl ->]. split; [lia|reflexivity].
Qed.

Lemma flatten_pairs_inj a : forall b, flatten_pairs a = flatten_pairs b -> a = b.
Proof.
  induction a as [|[k v] a IH]; intros [|[k' v'] b] H; cbn in H; try discriminate; [reflexivity|].
  injection H as -> -> H. f_equal. apply IH. exact H.
Qed.

Lemma from_bytes_iff b h : from_bytes b = Ok h <-> exists kvs, header_pairs b kvs /\ h = dict_of kvs.
Proof.
  unfold from_bytes, header_pairs. split.
  - intros H. apply bind_Ok in H as (ss & Hss & H). cbv zeta in H.
    destruct (negb _) eqn:E; [discriminate|]. injection H as <-. apply bytes_to_str_iff in Hss.
    exists (combine (stride2 ss) (stride2 (tl ss))). split; [|reflexivity].
    replace (flatten_pairs _) with ss; [exact Hss|]. apply strides_pairs. split; [lia|reflexivity].
  - intros (kvs & Hs & ->). apply bytes_to_str_iff in Hs. rewrite Hs. cbn [bind].
    destruct (proj2 (strides_pairs _ kvs) eq_refl) as [Hl He]. rewrite Hl, Z.eqb_refl. cbn [negb]. rewrite <- He. reflexivity.
Qed.

Lemma from_bytes_errors b e : from_bytes b = Raise e -> e = DecodeError \/ e = UnicodeDecodeError.
Proof.
  unfold from_bytes. destruct (bytes_to_str b) as [ss|e'] eqn:E; cbn [bind].
  - destruct (negb _); [intros H; injection H; auto|discriminate].
  - intros [= <-]. eapply bytes_to_str_errors. exact E.
Qed.

(** ** writing *)

Lemma to_bytes_strings h : forall b, to_bytes h = Ok b -> header_pairs b h.
Proof.
  unfold header_pairs. induction h as [|[k v] h IH]; intros b H; cbn in H.
  - injection H as <-. constructor.
  - apply bind_Ok in H as (kb & Hk & H). apply bind_Ok in H as (vb & Hv & H). apply bind_Ok in H as (r & Hr & [= <-]).
    apply str_to_bytes_Ok in Hk as (lk & pk & -> & ? & ? & ?). apply str_to_bytes_Ok in Hv as (lv & pv & -> & ? & ? & ?).
    cbn [flatten_pairs]. rewrite <- app_assoc. econstructor; try eassumption.
    rewrite <- app_assoc. econstructor; try eassumption. apply IH. exact Hr.
Qed.

Lemma from_to_bytes h b : wf_dict h -> to_bytes h = Ok b -> from_bytes b = Ok h.
Proof.
  intros Hw Hb. apply from_bytes_iff. exists h. split; [apply to_bytes_strings; exact Hb|].
  symmetry. apply dict_of_id. exact Hw.
Qed.

(** serialized size of one string *)
Definition ssize (s : pystr) : Z := match utf8_encode s with Some b => 4 + len b | None => 0 end.
Fixpoint hsize (h : list (pystr * pystr)) : Z :=
  match h with [] => 0 | (k, v) :: h' => ssize k + ssize v + hsize h' end.

Definition enc_ok (s : pystr) : Prop := exists b, utf8_encode s = Some b /\ len b <= 2147483647.

Lemma str_to_bytes_total s : enc_ok s -> exists r, str_to_bytes_with_len s = Ok r /\ len r = ssize s.
Proof.
  intros (b & Hb & Hl). unfold str_to_bytes_with_len, ssize. rewrite Hb.
  destruct (int2bytes_be (len b)) as [l|e] eqn:E.
  - apply int2bytes_be_Ok in E as (_ & Hll & _). cbn [bind]. exists (l ++ b). rewrite len_app. split; [reflexivity|lia].
  - rewrite int2bytes_be_eq in E.
    pose proof (len_nonneg b). destruct (_ && _) eqn:E2; [discriminate|lia].
Qed.

Lemma str_to_bytes_enc_ok s r : str_to_bytes_with_len s = Ok r -> enc_ok s /\ len r = ssize s.
Proof.
  intros H. pose proof H as H0. apply str_to_bytes_Ok in H as (l & b & -> & Hu & Hl & Hs).
  apply utf8_text_encode in Hu. pose proof (sval_range4 l Hl). unfold ssize, enc_ok. rewrite Hu. rewrite len_app.
  split; [exists b; split; [reflexivity|lia]|lia].
Qed.

Lemma to_bytes_total h : (forall k v, In (k, v) h -> enc_ok k /\ enc_ok v) ->
  exists b, to_bytes h = Ok b /\ len b = hsize h.
Proof.
  induction h as [|[k v] h IH]; intros He; [exists []; auto|].
  destruct (He k v (or_introl eq_refl)) as [Hk Hv].
  destruct (str_to_bytes_total _ Hk) as (kb & Hkb & Hkl). destruct (str_to_bytes_total _ Hv) as (vb & Hvb & Hvl).
  destruct IH as (r & Hr & Hrl); [intros; apply He; right; assumption|].
  exists (kb ++ vb ++ r). cbn [to_bytes]. rewrite Hkb. cbn [bind]. rewrite Hvb. cbn [bind]. rewrite Hr. cbn [bind].
  split; [reflexivity|]. rewrite !len_app. cbn [hsize]. lia.
Qed.

Lemma to_bytes_enc_ok h : forall b, to_bytes h = Ok b -> len b = hsize h /\ forall k v, In (k, v) h -> enc_ok k /\ enc_ok v.
Proof.
  induction h as [|[k v] h IH]; intros b H; cbn in H.
  - injection H as <-. split; [reflexivity|]. intros ? ? [].
  - apply bind_Ok in H as (kb & Hk & H). apply bind_Ok in H as (vb & Hv & H). apply bind_Ok in H as (r & Hr & [= <-]).
    apply str_to_bytes_enc_ok in Hk as [Hk Hkl]. apply str_to_bytes_enc_ok in Hv as [Hv Hvl]. apply IH in Hr as [Hrl Hr].
    split; [rewrite !len_app; cbn [hsize]; lia|]. intros k' v' [[= <- <-]|Hin]; [auto|]. apply Hr. exact Hin.
Qed.

Lemma ssize_nonneg s : 0 <= ssize s.
Proof. unfold ssize. destruct (utf8_encode s) as [b|]; [pose proof (len_nonneg b)|]; lia. Qed.
Lemma hsize_nonneg h : 0 <= hsize h.
Proof. induction h as [|[k v] h IH]; cbn [hsize]; [lia|]. pose proof (ssize_nonneg k). pose proof (ssize_nonneg v). lia. Qed.

(** sizes of parsed strings *)
Lemma strings_size b ss : header_strings b ss -> fold_right (fun s n => ssize s + n) 0 ss = len b /\ Forall enc_ok ss.
Proof.
  induction 1 as [|l payload rest s ss Hl Hs Hu _ [IH1 IH2]|l rest ss Hl Hs _ [IH1 IH2]]; [split; [reflexivity|constructor]| |].
  - apply utf8_text_encode in Hu. cbn [fold_right]. rewrite IH1, !len_app. unfold ssize at 1. rewrite Hu. split; [lia|].
    constructor; [|exact IH2]. exists payload. split; [exact Hu|]. pose proof (sval_range4 l Hl). lia.
  - cbn [fold_right]. rewrite IH1, len_app. unfold ssize at 1. cbn [utf8_encode]. rewrite len_nil. split; [lia|].
    constructor; [|exact IH2]. exists []. split; [reflexivity|rewrite len_nil; lia].
Qed.

Lemma flatten_size kvs : fold_right (fun s n => ssize s + n) 0 (flatten_pairs kvs) = hsize kvs.
Proof. induction kvs as [|[k v] kvs IH]; [reflexivity|]. cbn [flatten_pairs fold_right hsize]. rewrite IH. lia. Qed.

Lemma flatten_Forall P kvs : Forall P (flatten_pairs kvs) <-> (forall k v, In (k, v) kvs -> P k /\ P v).
Proof.
  induction kvs as [|[k v] kvs IH]; cbn [flatten_pairs].
  - split; [intros _ ? ? []|constructor].
  - rewrite !Forall_cons_iff, IH. split.
    + intros (Hk & Hv & H) k' v' [[= <- <-]|Hin]; auto.
    + intros H. split; [apply (H k v); left; reflexivity|]. split; [apply (H k v); left; reflexivity|]. intros; apply H; right; assumption.
Qed.

Lemma hsize_app a b : hsize (a ++ b) = hsize a + hsize b.
Proof. induction a as [|[k v] a IH]; cbn [app hsize]; lia. Qed.

Lemma hsize_dset k v (d : sofa_header) : hsize (dset k v d) <= hsize d + ssize k + ssize v.
Proof.
  induction d as [|[k' v'] d IH]; cbn [dset hsize]; [lia|].
  destruct (eq_dec k k') as [->|]; cbn [hsize]; [|lia].
  pose proof (ssize_nonneg v'). pose proof (ssize_nonneg k'). lia.
Qed.

Lemma hsize_dupdate (l : list (pystr * pystr)) : forall d : sofa_header, hsize (dupdate d l) <= hsize d + hsize l.
Proof.
  induction l as [|[k v] l IH]; intros d; [cbn; lia|].
  change (dupdate d ((k, v) :: l)) with (dupdate (dset k v d) l). cbn [hsize].
  pose proof (IH (dset k v d)). pose proof (hsize_dset k v d). lia.
Qed.

Lemma In_dupdate (l : list (pystr * pystr)) : forall (d : sofa_header) kv, In kv (dupdate d l) ->
  exists v0, (In (fst kv, v0) d \/ In (fst kv, v0) l) /\ exists k0, In (k0, snd kv) d \/ In (k0, snd kv) l.
Proof.
  induction l as [|[k v] l IH]; intros d [a b] H.
  - cbn in H. exists b. split; [left; exact H|]. exists a. left. exact H.
  - change (dupdate d ((k, v) :: l)) with (dupdate (dset k v d) l) in H. apply IH in H as (v0 & H1 & k0 & H2).
    cbn [fst snd] in *.
    assert (Hd : forall x y, In (x, y) (dset k v d) -> In (x, y) d \/ In (x, y) ((k, v) :: l)).
    { intros x y Hxy. apply In_dset_inv in Hxy as [[-> ->]|Hxy]; [right; left; reflexivity|left; exact Hxy]. }
    exists v0. split; [destruct H1 as [H1|H1]; [apply Hd in H1; exact H1|right; right; exact H1]|].
    exists k0. destruct H2 as [H2|H2]; [apply Hd in H2; exact H2|right; right; exact H2].
Qed.

(** re-encoding a parsed header succeeds and never grows *)
Lemma reencode b h : from_bytes b = Ok h -> exists b', to_bytes h = Ok b' /\ len b' <= len b.
Proof.
  intros H. apply from_bytes_iff in H as (kvs & Hp & ->). apply strings_size in Hp as [Hs Hf].
  rewrite flatten_size in Hs. rewrite flatten_Forall in Hf.
  destruct (to_bytes_total (dict_of kvs)) as (b' & Hb & Hl).
  - intros k v Hin. apply In_dupdate in Hin as (v0 & H1 & k0 & H2). cbn [fst snd] in *.
    destruct H1 as [[]|H1], H2 as [[]|H2]. apply Hf in H1 as [? _]. apply Hf in H2 as [_ ?]. auto.
  - exists b'. split; [exact Hb|]. pose proof (hsize_dupdate kvs []) as Hh. cbn [hsize] in Hh. unfold dict_of in Hl. lia.
Qed.

(** ** the parsed map, against [map_of] *)

Lemma first_occ_gen ks : forall acc,
  fold_left (fun acc k => if in_dec pystr_eq_dec k acc then acc else acc ++ [k]) ks acc =
  keys (fold_left (fun d kv => dset (fst kv) (snd kv) d) (map (fun k => (k, @nil Z)) ks) (map (fun k => (k, @nil Z)) acc)).
Proof.
  assert (Hk : forall acc : list pystr, keys (map (fun k => (k, @nil Z)) acc) = acc).
  { intros acc. unfold keys. rewrite map_map. cbn. apply map_id. }
  induction ks as [|k ks IH]; intros acc; cbn [fold_left map fst snd]; [symmetry; apply Hk|].
  destruct (in_dec pystr_eq_dec k acc) as [Hin|Hin].
  - rewrite IH. f_equal. f_equal. symmetry. apply dset_same_id.
    clear -Hin. induction acc as [|a acc IH]; [destruct Hin|]. cbn. destruct (eq_dec k a) as [->|Hn]; [reflexivity|].
    apply IH. destruct Hin; [congruence|assumption].
  - rewrite IH. f_equal. f_equal. rewrite dset_fresh by (rewrite Hk; exact Hin). rewrite map_app. reflexivity.
Qed.

Lemma keys_dupdate_indep (l l' : list (pystr * pystr)) : forall d d' : sofa_header,
  map fst l = map fst l' -> keys d = keys d' -> keys (dupdate d l) = keys (dupdate d' l').
Proof.
  revert l'. induction l as [|[k v] l IH]; intros [|[k' v'] l'] d d' Hl Hd; cbn in Hl; try discriminate; [exact Hd|].
  injection Hl as <- Hl. unfold dupdate. cbn [fold_left fst snd]. apply IH; [exact Hl|].
  destruct (in_dec pystr_eq_dec k (keys d)) as [Hin|Hin].
  - rewrite !keys_dset_mem; congruence.
  - rewrite !keys_dset_fresh; congruence.
Qed.

Lemma last_value_rev k kvs v : last_value k kvs v <-> dget k (rev kvs) = Some v.
Proof.
  induction kvs as [|[k' v'] kvs IH]; cbn [rev].
  - split; [intros H; inversion H|discriminate].
  - rewrite dget_app. split.
    + intros H. inversion H; subst.
      * assert (Hn : dget k' (rev kvs) = None).
        { apply dget_None. unfold keys. rewrite map_rev. rewrite <- in_rev. assumption. }
        rewrite Hn. cbn. destruct (eq_dec k' k'); congruence.
      * match goal with Hlv : last_value k kvs v |- _ => apply IH in Hlv; rewrite Hlv; reflexivity end.
    + destruct (dget k (rev kvs)) as [v0|] eqn:E.
      * intros [= ->]. apply LV_later. apply IH. reflexivity.
      * cbn. destruct (eq_dec k k') as [<-|]; [|discriminate]. intros [= <-]. apply LV_here.
        apply dget_None in E. unfold keys in E. rewrite map_rev in E. rewrite <- in_rev in E. exact E.
Qed.

Lemma dict_of_map_of kvs : map_of kvs (dict_of kvs).
Proof.
  split.
  - unfold first_occurrences. rewrite first_occ_gen. apply keys_dupdate_indep; [|reflexivity].
    rewrite map_map. cbn. symmetry. apply map_id.
  - intros k v Hin. apply last_value_rev. apply In_dget in Hin; [|apply wf_dict_of].
    unfold dict_of in Hin. rewrite dget_dupdate in Hin. destruct (dget k (rev kvs)); [exact Hin|discriminate].
Qed.

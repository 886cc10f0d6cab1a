(** Numerals, int(), split and join. *)
From Coq Require Import ZifyBool.
From Verif Require Import PyBase L_PyBase PyInt S_Rpc.
Ltac Zify.zify_post_hook ::= Z.div_mod_to_equations.

Lemma digit_char_hex d : 0 <= d <= 15 -> hex_digit (digit_char d) d.
Proof. unfold hex_digit, digit_char. destruct (d <? 10) eqn:E; lia. Qed.

Lemma hex_digit_fun c d d' : hex_digit c d -> hex_digit c d' -> d = d'.
Proof. unfold hex_digit. lia. Qed.
Lemma hex_digit_char c d : hex_digit c d -> c = digit_char d /\ 0 <= d <= 15.
Proof. unfold hex_digit, digit_char. destruct (d <? 10) eqn:E; lia. Qed.

Lemma numeral_nonneg b s n : 2 <= b -> numeral b s n -> 0 <= n.
Proof. intros Hb H. induction H; [unfold hex_digit in *; lia|unfold hex_digit in *; nia]. Qed.

Lemma numeral_nonempty b s n : numeral b s n -> s <> [].
Proof. intros H. destruct H; [discriminate|]. destruct s; discriminate. Qed.

(** the digits produced *)
Lemma nat_digits_numeral b : 2 <= b <= 16 -> forall fuel n acc, 0 <= n < 2 ^ Z.of_nat fuel ->
  exists s, nat_digits fuel b n acc = s ++ acc /\ (fuel <> O -> numeral b s n).
Proof.
  intros Hb. induction fuel as [|f IH]; intros n acc Hn.
  - exists []. split; [reflexivity|congruence].
  - cbn [nat_digits]. destruct (n <? b) eqn:E.
    + exists [digit_char n]. split; [reflexivity|]. intros _. apply num_one; [apply digit_char_hex; lia|lia].
    + rewrite Nat2Z.inj_succ, Z.pow_succ_r in Hn by lia.
      assert (Hq : 0 <= n / b < 2 ^ Z.of_nat f). { split; [apply Z.div_pos; lia|apply Z.div_lt_upper_bound; nia]. }
      assert (Hd : n = (n / b) * b + n mod b) by (pose proof (Z.div_mod n b ltac:(lia)); lia).
      assert (Hr : 0 <= n mod b < b) by (apply Z.mod_pos_bound; lia).
      assert (Hq1 : 0 < n / b) by (apply Z.div_str_pos; lia).
      destruct (IH (n / b) (digit_char (n mod b) :: acc) Hq) as (s & H1 & H2).
      exists (s ++ [digit_char (n mod b)]). split; [rewrite H1, <- app_assoc; reflexivity|]. intros _.
      assert (Hf : f <> O) by (intros ->; cbn in Hq; lia).
      rewrite Hd at 2. apply num_snoc; [apply H2; exact Hf|exact Hq1|apply digit_char_hex; lia|lia].
Qed.

Lemma nat_text_numeral b n : 2 <= b <= 16 -> 0 <= n -> numeral b (nat_text b n) n.
Proof.
  intros Hb Hn. unfold nat_text.
  assert (Hlt : 0 <= n < 2 ^ Z.of_nat (S (Z.to_nat (Z.log2 n)))).
  { split; [exact Hn|]. pose proof (Z.log2_nonneg n). rewrite Nat2Z.inj_succ, Z2Nat.id by lia.
    destruct (Z.eq_dec n 0) as [->|Hz]; [reflexivity|]. apply Z.log2_spec. lia. }
  destruct (nat_digits_numeral b Hb _ n [] Hlt) as (s & H1 & H2). rewrite H1, app_nil_r. apply H2. discriminate.
Qed.

Lemma numeral_fun b s n : numeral b s n -> forall n', numeral b s n' -> n = n'.
Proof.
  intros H. induction H as [c d Hc Hd|s n c d H IH Hn Hc Hd]; intros n' H'.
  - inversion H' as [c' d' Hc' Hd' E1 E2|s' m c' d' H2 Hm Hc' Hd' E1 E2].
    + subst. eapply hex_digit_fun; eauto.
    + destruct s' as [|x [|y s']]; cbn in E1; try discriminate. exfalso. apply (numeral_nonempty _ _ _ H2). reflexivity.
  - inversion H' as [c' d' Hc' Hd' E1 E2|s' m c' d' H2 Hm Hc' Hd' E1 E2].
    + destruct s as [|x s]; [exfalso; apply (numeral_nonempty _ _ _ H); reflexivity|]. destruct s; discriminate.
    + apply app_inj_tail in E1 as [-> ->]. rewrite (IH m H2), (hex_digit_fun _ _ _ Hc Hc'). reflexivity.
Qed.

Lemma numeral_inj b s n : 2 <= b -> numeral b s n -> forall s', numeral b s' n -> s = s'.
Proof.
  intros Hb H. induction H as [c d Hc Hd|s n c d H IH Hn Hc Hd]; intros s2 H'.
  - inversion H' as [c' d' Hc' Hd' E1 E2|s' m c' d' H2 Hm Hc' Hd' E1 E2]; subst.
    + apply hex_digit_char in Hc as [-> _]. apply hex_digit_char in Hc' as [-> _]. reflexivity.
    + exfalso. apply hex_digit_char in Hc' as [_ ?]. nia.
  - remember (n * b + d) as v eqn:Ev. destruct H' as [c' d' Hc' Hd'|s' m c' d' H2 Hm Hc' Hd'].
    + exfalso. apply hex_digit_char in Hc as [_ ?]. nia.
    + apply hex_digit_char in Hc as [-> Hc]. apply hex_digit_char in Hc' as [-> Hc'].
      assert (m = n) by nia. assert (d' = d) by nia. subst. f_equal. apply IH. exact H2.
Qed.

Lemma numeral_nat_text b s n : 2 <= b <= 16 -> numeral b s n -> s = nat_text b n.
Proof.
  intros Hb H. apply (numeral_inj b s n); [lia|exact H|]. apply nat_text_numeral; [exact Hb|].
  apply (numeral_nonneg b s n); [lia|exact H].
Qed.

(** length of a numeral *)
Lemma numeral_size b s n : 2 <= b -> numeral b s n -> 0 < n -> b ^ (len s - 1) <= n < b ^ len s.
Proof.
  intros Hb H. induction H as [c d Hc Hd|s n c d H IH Hn Hc Hd]; intros Hp.
  - unfold len. cbn [length]. change (Z.of_nat 1 - 1) with 0. change (Z.of_nat 1) with 1. rewrite Z.pow_0_r, Z.pow_1_r. lia.
  - specialize (IH Hn). rewrite len_app. change (len [c]) with 1.
    assert (Hl : 0 < len s). { pose proof (numeral_nonempty _ _ _ H). destruct s; [congruence|]. unfold len. cbn [length]. lia. }
    replace (len s + 1 - 1) with (Z.succ (len s - 1)) by lia. replace (len s + 1) with (Z.succ (len s)) by lia.
    rewrite !Z.pow_succ_r by lia. apply hex_digit_char in Hc as [_ Hc]. nia.
Qed.

Lemma numeral_len b s n k : 2 <= b -> 1 <= k -> numeral b s n -> b ^ (k - 1) <= n < b ^ k -> len s = k.
Proof.
  intros Hb Hk H Hn. assert (Hp : 0 < n). { pose proof (Z.pow_pos_nonneg b (k - 1)). lia. }
  pose proof (numeral_size b s n Hb H Hp) as Hs.
  assert (Hl : 0 <= len s) by (unfold len; lia).
  destruct (Z.lt_trichotomy (len s) k) as [Hc|[Hc|Hc]]; [|exact Hc|].
  - pose proof (Z.pow_le_mono_r b (len s) (k - 1)). lia.
  - pose proof (Z.pow_le_mono_r b k (len s - 1)). lia.
Qed.

(** fixed width *)
Lemma fixed_len b k s n : fixed_numeral b k s n -> length s = k.
Proof. intros H. induction H; [reflexivity|]. rewrite app_length, IHfixed_numeral. cbn. lia. Qed.

Lemma fixed_of_numeral b s n : numeral b s n -> fixed_numeral b (length s) s n.
Proof.
  intros H. induction H as [c d Hc Hd|s n c d H IH Hn Hc Hd].
  - pose proof (fix_snoc b 0 [] 0 c d (fix_nil b) Hc Hd) as H. replace (0 * b + d) with d in H by lia. exact H.
  - rewrite app_length. cbn [length]. rewrite Nat.add_1_r. apply fix_snoc; auto.
Qed.

Lemma fixed_pad b k s n : 2 <= b -> fixed_numeral b k s n -> forall j, fixed_numeral b (j + k) (repeat 48 j ++ s) n.
Proof.
  intros Hb H. induction H as [|k s n c d H IH Hc Hd]; intros j.
  - rewrite app_nil_r, Nat.add_0_r. induction j as [|j IHj]; [apply fix_nil|].
    replace (repeat 48 (S j)) with (repeat 48 j ++ [48]).
    + pose proof (fix_snoc b j _ 0 48 0 IHj ltac:(left; lia) ltac:(lia)) as H. replace (0 * b + 0) with 0 in H by lia. exact H.
    + clear. induction j as [|j IH]; [reflexivity|]. cbn [repeat app] in *. f_equal. exact IH.
  - rewrite app_assoc, Nat.add_succ_r. apply fix_snoc; [apply IH|exact Hc|exact Hd].
Qed.

Lemma fixed_inj b k s n : 2 <= b -> fixed_numeral b k s n -> forall s', fixed_numeral b k s' n -> s = s'.
Proof.
  intros Hb H. induction H as [|k s n c d H IH Hc Hd]; intros s2 H'.
  - inversion H'. reflexivity.
  - inversion H' as [|k' s' m c' d' H2 Hc' Hd' E1 E2 E3]; subst.
    apply hex_digit_char in Hc as [-> Hc]. apply hex_digit_char in Hc' as [-> Hc'].
    assert (m = n) by nia. assert (d' = d) by nia. subst. f_equal. apply IH. exact H2.
Qed.

Lemma fixed_fun b k s n : fixed_numeral b k s n -> forall n', fixed_numeral b k s n' -> n = n'.
Proof.
  intros H. induction H as [|k s n c d H IH Hc Hd]; intros n2 H'.
  - inversion H'. reflexivity.
  - inversion H' as [|k' s' m c' d' H2 Hc' Hd' E1 E2 E3]; subst.
    apply app_inj_tail in E2 as [-> ->]. rewrite (IH m H2), (hex_digit_fun _ _ _ Hc Hc'). reflexivity.
Qed.

Lemma nat_text_small b n k : 2 <= b <= 16 -> 0 <= n < b ^ Z.of_nat k -> (1 <= k)%nat -> (length (nat_text b n) <= k)%nat.
Proof.
  intros Hb Hn Hk. pose proof (nat_text_numeral b n Hb ltac:(lia)) as H.
  destruct (Z.eq_dec n 0) as [->|Hz].
  - cbn [nat_text]. unfold nat_text. cbn [Z.log2 Z.to_nat nat_digits]. replace (0 <? b) with true by lia. cbn. lia.
  - pose proof (numeral_size b _ n ltac:(lia) H ltac:(lia)) as Hs. unfold len in Hs.
    destruct (Nat.le_gt_cases (length (nat_text b n)) k) as [Hle|Hgt]; [exact Hle|exfalso].
    pose proof (Z.pow_le_mono_r b (Z.of_nat k) (Z.of_nat (length (nat_text b n)) - 1)). lia.
Qed.

Lemma hex8_fixed ip : 0 <= ip < 2 ^ 32 -> fixed_numeral 16 8 (hex8 ip) ip.
Proof.
  intros H. unfold hex8. pose proof (nat_text_numeral 16 ip ltac:(lia) ltac:(lia)) as Hn.
  assert (Hl : (length (nat_text 16 ip) <= 8)%nat).
  { apply nat_text_small; [lia| |lia]. change (16 ^ Z.of_nat 8) with (2 ^ 32). exact H. }
  replace 8%nat with ((8 - length (nat_text 16 ip)) + length (nat_text 16 ip))%nat at 1 by lia.
  apply fixed_pad; [lia|]. apply fixed_of_numeral. exact Hn.
Qed.

(** ** str(int) is the canonical text *)
Lemma canonical_str_int z : canonical_int (str_int z) z.
Proof.
  unfold canonical_int, str_int. destruct (z <? 0) eqn:E.
  - right. split; [lia|]. eexists. split; [reflexivity|]. apply nat_text_numeral; lia.
  - left. split; [lia|]. apply nat_text_numeral; lia.
Qed.

Lemma canonical_iff s z : canonical_int s z <-> s = str_int z.
Proof.
  split; [|intros ->; apply canonical_str_int]. unfold canonical_int, str_int.
  intros [[Hz Hn]|[Hz (t & -> & Hn)]].
  - replace (z <? 0) with false by lia. apply numeral_nat_text; [lia|exact Hn].
  - replace (z <? 0) with true by lia. f_equal. apply numeral_nat_text; [lia|exact Hn].
Qed.

Lemma numeral_chars s n : numeral 10 s n -> Forall (fun c => 48 <= c <= 57) s.
Proof.
  intros H. induction H as [c d Hc Hd|s n c d H IH Hn Hc Hd].
  - constructor; [|constructor]. unfold hex_digit in Hc. lia.
  - apply Forall_app. split; [exact IH|]. constructor; [|constructor]. unfold hex_digit in Hc. lia.
Qed.

Lemma str_int_chars z c : In c (str_int z) -> c = 45 \/ 48 <= c <= 57.
Proof.
  intros H. destruct (canonical_str_int z) as [[_ Hn]|[_ (t & Ht & Hn)]]; apply numeral_chars in Hn; rewrite Forall_forall in Hn.
  - right. apply Hn. exact H.
  - rewrite Ht in H. destruct H as [<-|H]; [left; reflexivity|right; apply Hn; exact H].
Qed.

Lemma str_int_no_dot z : ~ In 46 (str_int z).
Proof. intros H. apply str_int_chars in H. lia. Qed.

Lemma str_int_inj a b : str_int a = str_int b -> a = b.
Proof.
  intros H. pose proof (canonical_str_int a) as Ha. pose proof (canonical_str_int b) as Hb. rewrite H in Ha.
  destruct Ha as [[Ha1 Ha2]|[Ha1 (t & Ht & Ha2)]]; destruct Hb as [[Hb1 Hb2]|[Hb1 (u & Hu & Hb2)]].
  - exact (numeral_fun _ _ _ Ha2 _ Hb2).
  - exfalso. rewrite Hu in Ha2. apply numeral_chars in Ha2. inversion Ha2. lia.
  - exfalso. rewrite Ht in Hb2. apply numeral_chars in Hb2. inversion Hb2. lia.
  - rewrite Ht in Hu. injection Hu as ->. pose proof (numeral_fun _ _ _ Ha2 _ Hb2). lia.
Qed.

(** ** int(s) accepts exactly [int_text] *)
Section Parse.
  Variable U : tables.
  Hypothesis HU : tables_ok U.

  Lemma int_digits_sound sp : forall s acc pu z, int_digits U sp acc pu s = Some z ->
    forall pre0, (if pu then exists pre1, pre0 = pre1 ++ [95] /\ digit_run (u_digit U) pre1 acc else digit_run (u_digit U) pre0 acc) ->
    exists body r, pre0 ++ s = body ++ r /\ Forall (fun c => sp c = true) r /\ digit_run (u_digit U) body z.
  Proof.
    induction s as [|c s IH]; intros acc pu z H pre0 Hp; cbn [int_digits] in H.
    - destruct pu; [discriminate|]. injection H as <-. exists pre0, []. rewrite app_nil_r. auto.
    - destruct (u_digit U c) as [d|] eqn:Ed.
      + assert (Hr : digit_run (u_digit U) (pre0 ++ [c]) (acc * 10 + d)).
        { destruct pu; [|apply dr_digit; assumption]. destruct Hp as (pre1 & -> & Hr). rewrite <- app_assoc. apply dr_underscore; assumption. }
        destruct (IH _ _ _ H (pre0 ++ [c]) Hr) as (body & r & E & Hr1 & Hr2). exists body, r. rewrite <- app_assoc in E. auto.
      + destruct pu; [discriminate|]. destruct (c =? 95) eqn:E95.
        * assert (c = 95) by lia. subst c.
          destruct (IH _ _ _ H (pre0 ++ [95])) as (body & r & E & Hr1 & Hr2); [exists pre0; auto|].
          exists body, r. rewrite <- app_assoc in E. auto.
        * destruct (forallb sp (c :: s)) eqn:Ef; [|discriminate]. injection H as <-.
          exists pre0, (c :: s). split; [reflexivity|]. split; [|exact Hp]. apply Forall_forall. apply forallb_forall. exact Ef.
  Qed.

  Lemma run_first sp s n : digit_run (u_digit U) s n -> forall r,
    int_unsigned U sp (s ++ r) = int_digits U sp n false r.
  Proof.
    intros H. induction H as [c d Hd|s n c d H IH Hd|s n c d H IH Hd]; intros r.
    - cbn [app int_unsigned]. rewrite Hd. reflexivity.
    - rewrite <- app_assoc, IH. cbn [app int_digits]. rewrite Hd. reflexivity.
    - rewrite <- app_assoc, IH. cbn [app]. destruct HU as (_ & _ & _ & _ & H95 & _).
      cbn [int_digits]. rewrite H95. cbn [Z.eqb Pos.eqb]. rewrite Hd. reflexivity.
  Qed.

  Lemma int_digits_spaces a n r : Forall (fun c => u_space U a c = true) r -> int_digits U (u_space U a) n false r = Some n.
  Proof.
    destruct HU as (_ & _ & _ & _ & _ & _ & Hds & Hsp).
    intros H. destruct r as [|c r]; [reflexivity|]. cbn [int_digits].
    destruct (u_digit U c) eqn:Ed.
    { exfalso. inversion H; subst. rewrite (Hds a c) in H2 by congruence. discriminate. }
    destruct (c =? 95) eqn:E95.
    { exfalso. assert (c = 95) by lia. subst c. inversion H; subst. destruct (Hsp a) as (_ & _ & Hx). congruence. }
    replace (forallb (u_space U a) (c :: r)) with true; [reflexivity|]. symmetry. apply forallb_forall. apply Forall_forall. exact H.
  Qed.

  Lemma run_head s n : digit_run (u_digit U) s n -> exists c d t, s = c :: t /\ u_digit U c = Some d.
  Proof.
    intros H. induction H as [c d Hd|s n c d H IH Hd|s n c d H IH Hd]; [eauto| |];
    destruct IH as (c' & d' & t & -> & Hd'); exists c', d'; eexists; (split; [reflexivity|exact Hd']).
  Qed.

  Lemma int_unsigned_iff a s z : int_unsigned U (u_space U a) s = Some z <->
    exists body r, s = body ++ r /\ Forall (fun c => u_space U a c = true) r /\ digit_run (u_digit U) body z.
  Proof.
    split.
    - destruct s as [|c s]; cbn [int_unsigned]; [discriminate|]. destruct (u_digit U c) as [d|] eqn:Ed; [|discriminate].
      intros H. destruct (int_digits_sound _ _ _ _ _ H [c]) as (body & r & E & H1 & H2); [apply dr_one; exact Ed|]. exists body, r. auto.
    - intros (body & r & -> & Hr & Hb). rewrite (run_first _ _ _ Hb). apply int_digits_spaces. exact Hr.
  Qed.

  Lemma lstrip_spec sp s : exists l, s = l ++ lstrip sp s /\ Forall (fun c => sp c = true) l.
  Proof.
    induction s as [|c s (l & E & H)]; [exists []; auto|]. cbn [lstrip]. destruct (sp c) eqn:Es; [|exists []; auto].
    exists (c :: l). split; [cbn; f_equal; exact E|constructor; assumption].
  Qed.

  Lemma lstrip_app sp l s : Forall (fun c => sp c = true) l -> lstrip sp (l ++ s) = lstrip sp s.
  Proof. induction l as [|c l IH]; intros H; [reflexivity|]. inversion H; subst. cbn [app lstrip]. rewrite H2. apply IH. assumption. Qed.

  Lemma parse_int_iff s z : parse_int U s = Some z <-> int_text (u_digit U) (u_space U (is_ascii s)) s z.
  Proof.
    unfold parse_int, int_text. remember (u_space U (is_ascii s)) as sp eqn:Esp.
    destruct HU as (_ & _ & H43 & H45 & _ & _ & Hds & Hsp). split.
    - intros H. destruct (lstrip_spec sp s) as (l & E & Hl).
      destruct (lstrip sp s) as [|c r]; [discriminate|].
      destruct (c =? 45) eqn:E45; [|destruct (c =? 43) eqn:E43].
      + destruct (int_unsigned U sp r) as [n|] eqn:Ei; [|discriminate]. cbn in H. injection H as <-.
        rewrite Esp in Ei. apply int_unsigned_iff in Ei as (body & r' & Er & Hr' & Hb). rewrite <- Esp in Hr'.
        exists l, [45], body, r', n. assert (c = 45) by lia. subst c r. split; [exact E|]. repeat (split; [assumption|]). auto.
      + rewrite Esp in H. apply int_unsigned_iff in H as (body & r' & Er & Hr' & Hb). rewrite <- Esp in Hr'.
        exists l, [43], body, r', z. assert (c = 43) by lia. subst c r. split; [exact E|]. repeat (split; [assumption|]). auto.
      + rewrite Esp in H. apply int_unsigned_iff in H as (body & r' & Er & Hr' & Hb). rewrite <- Esp in Hr'.
        exists l, [], body, r', z. split; [rewrite E, Er; reflexivity|]. repeat (split; [assumption|]). auto.
    - intros (l & sign & body & r & n & E & Hl & Hr & Hb & Hs). rewrite E, lstrip_app by exact Hl.
      assert (Hi : int_unsigned U sp (body ++ r) = Some n) by (rewrite Esp; apply int_unsigned_iff; exists body, r; rewrite <- Esp; auto).
      destruct Hs as [[-> ->]|[[-> ->]|[-> ->]]]; cbn [app].
      + destruct (run_head _ _ Hb) as (c & d & t & -> & Hd). cbn [app] in *. cbn [lstrip].
        replace (sp c) with false by (rewrite Esp; symmetry; apply Hds; congruence).
        destruct (c =? 45) eqn:E45; [assert (c = 45) by lia; congruence|]. destruct (c =? 43) eqn:E43; [assert (c = 43) by lia; congruence|]. exact Hi.
      + cbn [lstrip]. destruct (Hsp (is_ascii s)) as (Hx & _ & _). rewrite <- Esp in Hx. rewrite Hx. exact Hi.
      + cbn [lstrip]. destruct (Hsp (is_ascii s)) as (_ & Hx & _). rewrite <- Esp in Hx. rewrite Hx. cbn [Z.eqb Pos.eqb]. rewrite Hi. reflexivity.
  Qed.

  Lemma numeral_run s n : numeral 10 s n -> digit_run (u_digit U) s n.
  Proof.
    destruct HU as (Hd & _).
    intros H. induction H as [c d Hc Hlt|s n c d H IH Hn Hc Hlt].
    - apply dr_one. unfold hex_digit in Hc. rewrite Hd by lia. f_equal. lia.
    - apply dr_digit; [exact IH|]. unfold hex_digit in Hc. rewrite Hd by lia. f_equal. lia.
  Qed.

  Lemma parse_str_int z : parse_int U (str_int z) = Some z.
  Proof.
    apply parse_int_iff. destruct (canonical_str_int z) as [[Hz Hn]|[Hz (t & Ht & Hn)]].
    - exists [], [], (str_int z), [], z. rewrite app_nil_r. repeat split; [constructor|constructor|apply numeral_run; exact Hn|auto].
    - exists [], [45], t, [], (- z). rewrite app_nil_r, Ht. repeat split; [constructor|constructor|apply numeral_run; exact Hn|].
      right. right. split; [reflexivity|lia].
  Qed.
End Parse.

(** ** split and join *)
Lemma split_dot_nonempty s : split_dot s <> [].
Proof. destruct s as [|c s]; cbn [split_dot]; [discriminate|]. destruct (c =? 46); [discriminate|]. destruct (split_dot s); discriminate. Qed.

Lemma split_no_dot s : ~ In 46 s -> split_dot s = [s].
Proof.
  induction s as [|c s IH]; intros H; [reflexivity|]. cbn [split_dot In] in *.
  replace (c =? 46) with false by lia. rewrite IH by tauto. reflexivity.
Qed.

Lemma split_cons s r : ~ In 46 s -> split_dot (s ++ 46 :: r) = s :: split_dot r.
Proof.
  induction s as [|c s IH]; intros H; [reflexivity|]. cbn [app split_dot In] in *.
  replace (c =? 46) with false by lia. rewrite IH by tauto. reflexivity.
Qed.

Lemma split_dot_parts s l : dot_parts s l <-> split_dot s = l.
Proof.
  split.
  - intros H. induction H as [s H|s r l H H' IH]; [apply split_no_dot; exact H|]. rewrite split_cons by exact H. congruence.
  - intros <-. induction s as [|c s IH]; [apply dp_one; intros []|]. cbn [split_dot]. destruct (c =? 46) eqn:E.
    + assert (c = 46) by lia. subst c. apply (dp_cons [] s); [intros []|exact IH].
    + destruct IH as [s Hs|s r l Hs Hr].
      * apply dp_one. cbn [In]. intros [->|H]; [discriminate|tauto].
      * apply (dp_cons (c :: s) r l); [cbn [In]; intros [->|H]; [discriminate|tauto]|exact Hr].
Qed.

Lemma split_join l : l <> [] -> Forall (fun s => ~ In 46 s) l -> split_dot (join_dot l) = l.
Proof.
  induction l as [|x l IH]; intros Hne H; [congruence|]. inversion H; subst. destruct l as [|y l].
  - apply split_no_dot. assumption.
  - change (join_dot (x :: y :: l)) with (x ++ 46 :: join_dot (y :: l)). rewrite split_cons by assumption. f_equal. apply IH; [discriminate|assumption].
Qed.

Lemma join_split s : join_dot (split_dot s) = s.
Proof.
  induction s as [|c s IH]; [reflexivity|]. cbn [split_dot]. destruct (c =? 46) eqn:E.
  - assert (c = 46) by lia. subst c. pose proof (split_dot_nonempty s). destruct (split_dot s) as [|x l] eqn:Es; [congruence|].
    change (join_dot ([] :: x :: l)) with ([] ++ 46 :: join_dot (x :: l)). rewrite IH. reflexivity.
  - pose proof (split_dot_nonempty s). destruct (split_dot s) as [|x l] eqn:Es; [congruence|].
    destruct l as [|y l]; cbn [join_dot] in *; [congruence|]. cbn [app]. f_equal. exact IH.
Qed.

Lemma split_parts_no_dot s : Forall (fun x => ~ In 46 x) (split_dot s).
Proof.
  induction s as [|c s IH]; [constructor; [intros []|constructor]|]. cbn [split_dot]. destruct (c =? 46) eqn:E.
  - constructor; [intros []|exact IH].
  - destruct (split_dot s) as [|x l]; inversion IH; subst; constructor; auto; cbn [In]; intros [->|H]; try discriminate; tauto.
Qed.

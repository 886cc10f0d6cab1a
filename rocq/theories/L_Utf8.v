(** UTF-8: decode after encode and encode after decode are identities. *)
From Coq Require Import ZifyBool.
From Verif Require Import PyBase L_PyBase Utf8.
Ltac Zify.zify_post_hook ::= Z.div_mod_to_equations.

Lemma cont_byte x : 0 <= x < 64 -> cont (byte_of_Z (0x80 + x)) = Some x.
Proof.
  intros Hx. unfold cont. rewrite Z_of_byte_of_Z.
  rewrite Z.mod_small by lia.
  destruct (_ && _) eqn:E; [f_equal; lia|lia].
Qed.

Lemma cont_inv b x : cont b = Some x -> 0 <= x < 64 /\ byte_of_Z (0x80 + x) = b.
Proof.
  unfold cont. destruct (_ && _) eqn:E; [|discriminate].
  intros [= <-]. split; [lia|].
  replace (128 + (Z_of_byte b - 128)) with (Z_of_byte b) by lia. apply byte_of_Z_of_byte.
Qed.

Lemma Some_inj {A} (x y : A) : Some x = Some y -> x = y.
Proof. congruence. Qed.

Lemma utf8_decode_cons b0 r0 : utf8_decode (b0 :: r0) =
  let z := Z_of_byte b0 in
  if z <? 0x80 then option_map (cons z) (utf8_decode r0)
  else if z <? 0xC2 then None
  else if z <? 0xE0 then
    match r0 with
    | b1 :: r1 =>
        match cont b1 with
        | Some c1 => option_map (cons ((z - 0xC0) * 64 + c1)) (utf8_decode r1)
        | None => None
        end
    | _ => None
    end
  else if z <? 0xF0 then
    match r0 with
    | b1 :: b2 :: r2 =>
        match cont b1, cont b2 with
        | Some c1, Some c2 =>
            let c := (z - 0xE0) * 4096 + c1 * 64 + c2 in
            if (c <? 0x800) || is_surrogate c then None
            else option_map (cons c) (utf8_decode r2)
        | _, _ => None
        end
    | _ => None
    end
  else if z <? 0xF5 then
    match r0 with
    | b1 :: b2 :: b3 :: r3 =>
        match cont b1, cont b2, cont b3 with
        | Some c1, Some c2, Some c3 =>
            let c := (z - 0xF0) * 262144 + c1 * 4096 + c2 * 64 + c3 in
            if (c <? 0x10000) || (0x10FFFF <? c) then None
            else option_map (cons c) (utf8_decode r3)
        | _, _, _ => None
        end
    | _ => None
    end
  else None.
Proof. reflexivity. Qed.

Lemma utf8_enc1_valid c b : utf8_enc1 c = Some b -> 0 <= c <= 0x10FFFF /\ is_surrogate c = false.
Proof.
  unfold utf8_enc1. destruct ((c <? 0) || (1114111 <? c) || is_surrogate c) eqn:E; [discriminate|].
  intros _. destruct (is_surrogate c); [lia|]. split; [lia|reflexivity].
Qed.

Lemma utf8_enc1_total c : 0 <= c <= 0x10FFFF -> is_surrogate c = false -> exists b, utf8_enc1 c = Some b.
Proof.
  intros Hc Hs. unfold utf8_enc1. rewrite Hs.
  destruct ((c <? 0) || (1114111 <? c) || false) eqn:E; [lia|].
  destruct (c <? 128); [eauto|]. destruct (c <? 2048); [eauto|]. destruct (c <? 65536); eauto.
Qed.

Lemma decode_enc1 c b r : utf8_enc1 c = Some b -> utf8_decode (b ++ r) = option_map (cons c) (utf8_decode r).
Proof.
  intros He. pose proof (utf8_enc1_valid _ _ He) as [Hc Hs].
  unfold utf8_enc1 in He. rewrite Hs in He.
  destruct ((c <? 0) || (1114111 <? c) || false) eqn:E0; [discriminate|].
  destruct (c <? 128) eqn:E1.
  { apply Some_inj in He. subst b. cbn [app]. rewrite utf8_decode_cons. cbv zeta. rewrite Z_of_byte_of_Z, Z.mod_small by lia.
    rewrite E1. reflexivity. }
  destruct (c <? 2048) eqn:E2.
  { apply Some_inj in He. subst b. cbn [app]. rewrite utf8_decode_cons. cbv zeta. rewrite Z_of_byte_of_Z.
    rewrite cont_byte by lia. rewrite Z.mod_small by lia.
    destruct (192 + c / 64 <? 128) eqn:?; [lia|].
    destruct (192 + c / 64 <? 194) eqn:?; [lia|].
    destruct (192 + c / 64 <? 224) eqn:?; [|lia].
    f_equal. f_equal. lia. }
  destruct (c <? 65536) eqn:E3.
  { apply Some_inj in He. subst b. cbn [app]. rewrite utf8_decode_cons. cbv zeta. rewrite Z_of_byte_of_Z.
    rewrite !cont_byte by lia. rewrite (Z.mod_small (224 + _)) by lia.
    destruct (224 + c / 4096 <? 128) eqn:?; [lia|].
    destruct (224 + c / 4096 <? 194) eqn:?; [lia|].
    destruct (224 + c / 4096 <? 224) eqn:?; [lia|].
    destruct (224 + c / 4096 <? 240) eqn:?; [|lia].
    assert (Hv : (224 + c / 4096 - 224) * 4096 + (c / 64) mod 64 * 64 + c mod 64 = c) by lia.
    cbv zeta. rewrite Hv, E2, Hs. cbn [orb]. reflexivity. }
  { apply Some_inj in He. subst b. cbn [app]. rewrite utf8_decode_cons. cbv zeta. rewrite Z_of_byte_of_Z.
    rewrite !cont_byte by lia. rewrite (Z.mod_small (240 + _)) by lia.
    destruct (240 + c / 262144 <? 128) eqn:?; [lia|].
    destruct (240 + c / 262144 <? 194) eqn:?; [lia|].
    destruct (240 + c / 262144 <? 224) eqn:?; [lia|].
    destruct (240 + c / 262144 <? 240) eqn:?; [lia|].
    destruct (240 + c / 262144 <? 245) eqn:?; [|lia].
    assert (Hv : (240 + c / 262144 - 240) * 262144 + (c / 4096) mod 64 * 4096 + (c / 64) mod 64 * 64 + c mod 64 = c) by lia.
    cbv zeta. rewrite Hv, E3.
    destruct (1114111 <? c) eqn:?; [lia|]. reflexivity. }
Qed.

Theorem utf8_decode_encode s b : utf8_encode s = Some b -> utf8_decode b = Some s.
Proof.
  revert b. induction s as [|c s IH]; cbn; intros b He; [injection He as <-; reflexivity|].
  destruct (utf8_enc1 c) as [b1|] eqn:E1; [|discriminate].
  destruct (utf8_encode s) as [bs|] eqn:E2; [|discriminate].
  injection He as <-. rewrite (decode_enc1 _ _ _ E1), (IH bs eq_refl). reflexivity.
Qed.

Lemma utf8_enc1_inv1 z b0 : Z_of_byte b0 = z -> z < 128 -> utf8_enc1 z = Some [b0].
Proof.
  intros Hb Hz. pose proof (Z_of_byte_range b0). unfold utf8_enc1, is_surrogate.
  destruct ((z <? 0) || _ || _) eqn:E; [lia|]. destruct (z <? 128) eqn:E1; [|lia].
  rewrite <- Hb, byte_of_Z_of_byte. reflexivity.
Qed.

Theorem utf8_encode_decode b s : utf8_decode b = Some s -> utf8_encode s = Some b.
Proof.
  revert s. remember (length b) as n eqn:Hn. revert b Hn.
  induction n as [n IH] using lt_wf_ind. intros b Hn s Hd.
  destruct b as [|b0 r0]; cbn in Hd; [injection Hd as <-; reflexivity|].
  pose proof (Z_of_byte_range b0) as Hb0.
  pose proof (byte_of_Z_of_byte b0) as Hbb.
  destruct (Z_of_byte b0 <? 128) eqn:E1.
  { destruct (utf8_decode r0) as [s'|] eqn:Er; [|discriminate]. injection Hd as <-.
    cbn. rewrite (utf8_enc1_inv1 _ b0 eq_refl) by lia.
    rewrite (IH (length r0) ltac:(subst n; cbn; lia) r0 eq_refl s' Er). reflexivity. }
  destruct (Z_of_byte b0 <? 194) eqn:E2; [discriminate|].
  destruct (Z_of_byte b0 <? 224) eqn:E3.
  { destruct r0 as [|b1 r1]; [discriminate|].
    destruct (cont b1) as [c1|] eqn:Ec1; [|discriminate].
    destruct (utf8_decode r1) as [s'|] eqn:Er; [|discriminate]. injection Hd as <-.
    apply cont_inv in Ec1. destruct Ec1 as [Hc1 Hbc1].
    remember ((Z_of_byte b0 - 192) * 64 + c1) as c eqn:Hc.
    assert (Henc : utf8_enc1 c = Some [b0; b1]).
    { unfold utf8_enc1, is_surrogate.
      destruct ((c <? 0) || _ || _) eqn:?; [lia|].
      destruct (c <? 128) eqn:?; [lia|]. destruct (c <? 2048) eqn:?; [|lia].
      replace (c / 64) with (Z_of_byte b0 - 192) by lia.
      replace (c mod 64) with c1 by lia.
      replace (192 + (Z_of_byte b0 - 192)) with (Z_of_byte b0) by lia.
      rewrite Hbb, Hbc1. reflexivity. }
    cbn [utf8_encode]. rewrite Henc.
    rewrite (IH (length r1) ltac:(subst n; cbn; lia) r1 eq_refl s' Er). reflexivity. }
  destruct (Z_of_byte b0 <? 240) eqn:E4.
  { destruct r0 as [|b1 [|b2 r2]]; [discriminate|discriminate|].
    destruct (cont b1) as [c1|] eqn:Ec1; [|discriminate].
    destruct (cont b2) as [c2|] eqn:Ec2; [|discriminate].
    apply cont_inv in Ec1. destruct Ec1 as [Hc1 Hbc1].
    apply cont_inv in Ec2. destruct Ec2 as [Hc2 Hbc2].
    cbv zeta in Hd. remember ((Z_of_byte b0 - 224) * 4096 + c1 * 64 + c2) as c eqn:Hc.
    destruct ((c <? 2048) || is_surrogate c) eqn:Es; [discriminate|].
    destruct (utf8_decode r2) as [s'|] eqn:Er; [|discriminate]. injection Hd as <-.
    assert (Henc : utf8_enc1 c = Some [b0; b1; b2]).
    { unfold utf8_enc1. destruct (is_surrogate c) eqn:Esu; [lia|].
      destruct ((c <? 0) || _ || _) eqn:?; [lia|].
      destruct (c <? 128) eqn:?; [lia|]. destruct (c <? 2048) eqn:?; [lia|].
      destruct (c <? 65536) eqn:?; [|lia].
      replace (c / 4096) with (Z_of_byte b0 - 224) by lia.
      replace ((c / 64) mod 64) with c1 by lia.
      replace (c mod 64) with c2 by lia.
      replace (224 + (Z_of_byte b0 - 224)) with (Z_of_byte b0) by lia.
      rewrite Hbb, Hbc1, Hbc2. reflexivity. }
    cbn [utf8_encode]. rewrite Henc.
    rewrite (IH (length r2) ltac:(subst n; cbn; lia) r2 eq_refl s' Er). reflexivity. }
  destruct (Z_of_byte b0 <? 245) eqn:E5; [|discriminate].
  { destruct r0 as [|b1 [|b2 [|b3 r3]]]; [discriminate|discriminate|discriminate|].
    destruct (cont b1) as [c1|] eqn:Ec1; [|discriminate].
    destruct (cont b2) as [c2|] eqn:Ec2; [|discriminate].
    destruct (cont b3) as [c3|] eqn:Ec3; [|discriminate].
    apply cont_inv in Ec1. destruct Ec1 as [Hc1 Hbc1].
    apply cont_inv in Ec2. destruct Ec2 as [Hc2 Hbc2].
    apply cont_inv in Ec3. destruct Ec3 as [Hc3 Hbc3].
    cbv zeta in Hd. remember ((Z_of_byte b0 - 240) * 262144 + c1 * 4096 + c2 * 64 + c3) as c eqn:Hc.
    destruct ((c <? 65536) || (1114111 <? c)) eqn:Es; [discriminate|].
    destruct (utf8_decode r3) as [s'|] eqn:Er; [|discriminate]. injection Hd as <-.
    assert (Henc : utf8_enc1 c = Some [b0; b1; b2; b3]).
    { unfold utf8_enc1, is_surrogate.
      destruct ((c <? 0) || _ || _) eqn:?; [lia|].
      destruct (c <? 128) eqn:?; [lia|]. destruct (c <? 2048) eqn:?; [lia|].
      destruct (c <? 65536) eqn:?; [lia|].
      replace (c / 262144) with (Z_of_byte b0 - 240) by lia.
      replace ((c / 4096) mod 64) with c1 by lia.
      replace ((c / 64) mod 64) with c2 by lia.
      replace (c mod 64) with c3 by lia.
      replace (240 + (Z_of_byte b0 - 240)) with (Z_of_byte b0) by lia.
      rewrite Hbb, Hbc1, Hbc2, Hbc3. reflexivity. }
    cbn [utf8_encode]. rewrite Henc.
    rewrite (IH (length r3) ltac:(subst n; cbn; lia) r3 eq_refl s' Er). reflexivity. }
Qed.

Lemma utf8_encode_Some s : (forall c, In c s -> 0 <= c <= 0x10FFFF /\ is_surrogate c = false) <-> exists b, utf8_encode s = Some b.
Proof.
  induction s as [|c s IH]; cbn.
  - split; [eauto|intros _ c []].
  - split.
    + intros Hall. destruct (utf8_enc1_total c) as [b Hb]; [apply Hall; auto|apply Hall; auto|].
      rewrite Hb. destruct IH as [IH _]. destruct IH as [bs Hbs]; [auto|]. rewrite Hbs. eauto.
    + intros [b Hb]. destruct (utf8_enc1 c) as [b1|] eqn:E1; [|discriminate].
      destruct (utf8_encode s) as [bs|] eqn:E2; [|discriminate].
      intros c' [<-|Hi]; [eapply utf8_enc1_valid; exact E1|]. apply IH; [eauto|exact Hi].
Qed.

(** cycle(chain(range, range)) *)
From Coq Require Import ZifyBool.
From Verif Require Import PyBase L_PyBase M_RequestId.

(** the items a chain of ranges produces *)
Definition range_list (a b : Z) : list Z := map (fun i => a + Z.of_nat i) (seq 0 (Z.to_nat (b - a))).
Definition chain_list (c : list (Z * Z)) : list Z := flat_map (fun ab => range_list (fst ab) (snd ab)) c.

Lemma range_list_empty a b : b <= a -> range_list a b = [].
Proof. intros H. unfold range_list. replace (Z.to_nat (b - a)) with O by lia. reflexivity. Qed.

Lemma range_list_cons a b : a < b -> range_list a b = a :: range_list (a + 1) b.
Proof.
  intros H. unfold range_list. replace (Z.to_nat (b - a)) with (S (Z.to_nat (b - (a + 1)))) by lia.
  cbn [seq map]. f_equal; [lia|]. rewrite <- seq_shift, map_map. apply map_ext. intros i. lia.
Qed.

Lemma chain_next_list c : match chain_next c with
  | Some (z, c') => chain_list c = z :: chain_list c'
  | None => chain_list c = [] end.
Proof.
  induction c as [|[a b] c IH]; [reflexivity|]. cbn [chain_next]. destruct (a <? b) eqn:E.
  - unfold chain_list. cbn [flat_map fst snd]. rewrite range_list_cons by lia. reflexivity.
  - unfold chain_list in *. cbn [flat_map fst snd]. rewrite range_list_empty by lia. cbn [app]. exact IH.
Qed.

(** state after n draws from a cycle over a non-empty list [l] *)
Definition cyc_inv (l : list Z) (n : nat) (s : cycle) : Prop :=
  (exists c, cy_it s = Some c /\ cy_idx s = 0%nat /\ (n <= length l)%nat /\
     cy_saved s = firstn n l /\ chain_list c = skipn n l) \/
  (cy_it s = None /\ cy_saved s = l /\ cy_idx s = Nat.modulo n (length l)).

Lemma replay_next l n : l <> [] -> let r := cycle_replay l (Nat.modulo n (length l)) in
  fst r = nth_error l (Nat.modulo n (length l)) /\ fst r <> None /\
  cy_it (snd r) = None /\ cy_saved (snd r) = l /\ cy_idx (snd r) = Nat.modulo (S n) (length l).
Proof.
  intros Hl. assert (Hpos : (length l <> 0)%nat) by (destruct l; [congruence|discriminate]).
  pose proof (Nat.mod_upper_bound n (length l) Hpos) as Hb. cbv zeta. unfold cycle_replay.
  destruct (nth_error l (n mod length l)) as [z|] eqn:E; [|apply nth_error_None in E; lia].
  cbn [fst snd cy_it cy_saved cy_idx]. repeat split; [discriminate|].
  pose proof (Nat.div_mod n (length l) Hpos) as Hd. destruct (Nat.leb _ _) eqn:El.
  - apply Nat.leb_le in El. apply (Nat.mod_unique (S n) (length l) (S (n / length l)) 0); lia.
  - apply Nat.leb_gt in El. apply (Nat.mod_unique (S n) (length l) (n / length l) (S (n mod length l))); lia.
Qed.

Lemma firstn_S_nth {A} (l : list A) n z r : skipn n l = z :: r -> firstn (S n) l = firstn n l ++ [z] /\ skipn (S n) l = r /\ nth_error l n = Some z.
Proof.
  revert l. induction n as [|n IH]; intros [|x l] H; cbn in H; try discriminate.
  - injection H as -> ->. auto.
  - destruct (IH l H) as (H1 & H2 & H3). cbn [firstn skipn app nth_error]. split; [f_equal; exact H1|]. split; [exact H2|exact H3].
Qed.

Lemma cycle_draw_step l n s : l <> [] -> cyc_inv l n s ->
  fst (cycle_next s) = nth_error l (Nat.modulo n (length l)) /\ fst (cycle_next s) <> None /\ cyc_inv l (S n) (snd (cycle_next s)).
Proof.
  intros Hl [(c & H1 & H2 & H3 & H4 & H5)|(H1 & H2 & H3)]; unfold cycle_next; rewrite H1.
  - pose proof (chain_next_list c) as Hc. destruct (chain_next c) as [[z c']|].
    + rewrite H5 in Hc. destruct (firstn_S_nth l n z _ Hc) as (F1 & F2 & F3).
      assert (n < length l)%nat by (apply nth_error_Some; congruence).
      cbn [fst snd]. rewrite Nat.mod_small by assumption. split; [congruence|]. split; [discriminate|].
      left. exists c'. cbn [cy_it cy_saved cy_idx]. rewrite H4, F1, F2. auto with arith.
    + rewrite H5 in Hc. assert (Hn : n = length l).
      { assert (length (skipn n l) = 0%nat) by (rewrite Hc; reflexivity). rewrite skipn_length in H. lia. }
      assert (Hpos : (length l <> 0)%nat) by (destruct l; [congruence|discriminate]).
      assert (Hz : 0%nat = Nat.modulo n (length l)) by (rewrite Hn; symmetry; apply Nat.mod_same; exact Hpos).
      assert (Hs : cy_saved s = l) by (rewrite H4, Hn; apply firstn_all).
      rewrite Hs, H2, Hz. destruct (replay_next l n Hl) as (R1 & R2 & R3 & R4 & R5).
      split; [exact R1|]. split; [exact R2|]. right. auto.
  - rewrite H2, H3. destruct (replay_next l n Hl) as (R1 & R2 & R3 & R4 & R5).
    split; [exact R1|]. split; [exact R2|]. right. auto.
Qed.

Lemma cycle_after_inv c n : chain_list c <> [] -> cyc_inv (chain_list c) n (cycle_after (cycle_init c) n).
Proof.
  intros Hl. induction n as [|n IH]; cbn [cycle_after].
  - left. exists c. cbn. auto with arith.
  - apply (cycle_draw_step _ _ _ Hl IH).
Qed.

Lemma cycle_draw_nth c n : chain_list c <> [] ->
  cycle_draw (cycle_init c) n = nth_error (chain_list c) (Nat.modulo n (length (chain_list c))) /\ cycle_draw (cycle_init c) n <> None.
Proof.
  intros Hl. unfold cycle_draw. destruct (cycle_draw_step _ _ _ Hl (cycle_after_inv c n Hl)) as (H1 & H2 & _). auto.
Qed.

Lemma length_range_list a b : length (range_list a b) = Z.to_nat (b - a).
Proof. unfold range_list. rewrite map_length, seq_length. reflexivity. Qed.

Lemma nth_range_list a b i : Z.of_nat i < b - a -> nth_error (range_list a b) i = Some (a + Z.of_nat i).
Proof.
  intros H. unfold range_list. rewrite nth_error_map. rewrite (nth_error_nth' _ 0%nat) by (rewrite seq_length; lia).
  rewrite seq_nth by lia. reflexivity.
Qed.

Lemma request_ids_draw start n : 0 <= start < 2 ^ 31 ->
  cycle_draw (request_ids start) n = Some ((start + Z.of_nat n) mod 2 ^ 31).
Proof.
  intros Hs. unfold request_ids.
  remember (chain_list [(start, 2147483647 + 1); (0, start)]) as l eqn:El.
  assert (Hll : Z.of_nat (length l) = 2 ^ 31).
  { subst l. unfold chain_list. cbn [flat_map fst snd]. rewrite !app_length, !length_range_list. cbn [length]. lia. }
  assert (Hne : l <> []) by (intros ->; cbn [length] in Hll; lia).
  destruct (cycle_draw_nth [(start, 2147483647 + 1); (0, start)] n ltac:(rewrite <- El; exact Hne)) as [Hd _].
  change (0x7fffffff + 1) with (2147483647 + 1). rewrite Hd, <- El. clear Hd.
  remember (Nat.modulo n (length l)) as i eqn:Ei.
  assert (Hi : Z.of_nat i = Z.of_nat n mod 2 ^ 31) by (rewrite Ei, Nat2Z.inj_mod, Hll; reflexivity).
  assert (Hib : 0 <= Z.of_nat i < 2 ^ 31) by (rewrite Hi; apply Z.mod_pos_bound; lia).
  assert (Hv : (start + Z.of_nat n) mod 2 ^ 31 = (start + Z.of_nat i) mod 2 ^ 31).
  { rewrite Hi. rewrite Zplus_mod_idemp_r. reflexivity. }
  rewrite Hv. clear Hv Ei Hi Hne Hll. subst l. unfold chain_list. cbn [flat_map fst snd]. rewrite app_nil_r.
  destruct (Z.ltb_spec (start + Z.of_nat i) (2 ^ 31)) as [Hlt|Hge].
  - rewrite nth_error_app1 by (rewrite length_range_list; lia). rewrite nth_range_list by lia.
    rewrite Z.mod_small by lia. reflexivity.
  - rewrite nth_error_app2 by (rewrite length_range_list; lia). rewrite length_range_list.
    rewrite nth_range_list by lia. f_equal.
    assert (Hm : (start + Z.of_nat i) mod 2 ^ 31 = start + Z.of_nat i - 2 ^ 31).
    { symmetry. apply (Z.mod_unique _ _ 1); lia. }
    rewrite Hm. lia.
Qed.

Lemma mod_eq_sub a b m : m <> 0 -> a mod m = b mod m -> (b - a) mod m = 0.
Proof. intros Hm H. rewrite Zminus_mod, H, Z.sub_diag. apply Z.mod_0_l. exact Hm. Qed.

Lemma request_ids_distinct start i j : 0 <= start < 2 ^ 31 -> (i < j)%nat -> Z.of_nat j - Z.of_nat i < 2 ^ 31 ->
  cycle_draw (request_ids start) i <> cycle_draw (request_ids start) j.
Proof.
  intros Hs Hij Hw. rewrite !request_ids_draw by exact Hs. remember (2 ^ 31) as m. intros H.
  assert (H' : (start + Z.of_nat i) mod m = (start + Z.of_nat j) mod m) by congruence.
  apply mod_eq_sub in H'; [|lia]. rewrite Z.mod_small in H' by lia. lia.
Qed.

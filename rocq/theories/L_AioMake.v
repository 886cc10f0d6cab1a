(** Lemmas behind C142. *)
From Coq Require Import ZifyBool Lia.
From Verif Require Import PyBase M_AioMake S_AioMake.

Definition rank (p : cpc) : Z := match p with MkBase => 0 | MkLoop => 1 | MkMaps => 2 | MkThread | MkFailed _ => 3 | MkBeat => 4 | MkRest => 5 | MkDone => 6 end.
Definition beat_ok (s : making) : Prop :=
  match a_beat s with
  | BNone => rank (a_pc s) < 5 \/ a_mesh s = false
  | BQueued => a_mesh s = true /\ 5 <= rank (a_pc s)
  | BAsleep t => (a_mesh s = true /\ 5 <= rank (a_pc s)) /\ a_asked s + INTERVAL <= t
  | BSent | BDead => (a_mesh s = true /\ 5 <= rank (a_pc s)) /\ a_asked s + INTERVAL <= a_now s
  end.
Definition ainv (s : making) : Prop :=
  (a_loop s = (2 <=? rank (a_pc s)) /\ a_maps s = (3 <=? rank (a_pc s)) /\ a_run s = (4 <=? rank (a_pc s)) /\ a_dial s = (6 <=? rank (a_pc s))) /\ a_asked s <= a_now s /\ beat_ok s.
Lemma ainv_step s o : ainv s -> ainv (mk_step s o).
Proof.
  destruct s as [pc m lo ma di ru be ask now]. unfold ainv, beat_ok. cbn [a_pc a_mesh a_loop a_maps a_dial a_run a_beat a_asked a_now]. intros ((-> & -> & -> & ->) & A & B). destruct o as [mesh thread| |d].
  - unfold mk_step. cbn [a_pc]. destruct pc; try (destruct thread); cbn in *; (split; [repeat split; reflexivity|]); (split; [lia|]); try exact B; destruct be; try (exfalso; lia); try (left; lia); try exact B; try (destruct m; cbn; auto; lia); intuition lia.
  - unfold mk_step. cbn [a_run]. destruct (4 <=? rank pc) eqn:R; cbn [a_pc a_mesh a_loop a_maps a_dial a_run a_beat a_asked a_now]; (split; [rewrite ?R; repeat split; reflexivity|]); (split; [exact A|]); [|exact B].
    destruct be as [| |t| |]; try exact B; [split; [exact B|lia]|]. destruct B as (B1 & B2). destruct (now <? t) eqn:E; [split; assumption|]. destruct (6 <=? rank pc); (split; [exact B1|lia]).
  - cbn. split; [repeat split; reflexivity|]. split; [lia|]. destruct be; try exact B; destruct B as (B1 & B2); (split; [exact B1|lia]).
Qed.
Lemma ainv_init now : ainv (mk_init now).
Proof. unfold ainv, beat_ok. cbn. split; [repeat split; reflexivity|]. split; [lia|left; lia]. Qed.
Lemma mk_app now l1 l2 : mk_run now (l1 ++ l2) = fold_left mk_step l2 (mk_run now l1).
Proof. apply fold_left_app. Qed.
Lemma ainv_run now l : ainv (mk_run now l).
Proof. induction l as [|o l IH] using rev_ind; [apply ainv_init|]. rewrite mk_app. apply ainv_step, IH. Qed.

Lemma complete_when_returned now l : returned (mk_run now l) -> complete (mk_run now l) /\ (a_beat (mk_run now l) = BNone <-> a_mesh (mk_run now l) = false).
Proof.
  intros R. destruct (ainv_run now l) as ((H1 & H2 & H3 & H4) & _ & B). unfold returned in R. unfold complete, beat_ok in *. rewrite R in *. cbn in *. repeat split; auto; intros E; rewrite ?E in B; [lia|]. destruct (a_beat (mk_run now l)); auto; destruct B as (B & _); try destruct B as (B & _); congruence.
Qed.
Lemma not_before now l : a_beat (mk_run now l) = BSent -> a_mesh (mk_run now l) = true /\ a_asked (mk_run now l) + 30000 <= a_now (mk_run now l).
Proof. intros E. destruct (ainv_run now l) as (_ & _ & B). unfold beat_ok in B. rewrite E in B. unfold INTERVAL in B. tauto. Qed.

(** once the constructor has returned with the heartbeat alive, it stays so *)
Lemma done_step s o : returned s -> returned (mk_step s o) /\ a_dial (mk_step s o) = a_dial s.
Proof. unfold returned. intros R. destruct o; cbn; [rewrite R; auto|destruct (a_run s); auto|auto]. Qed.
Lemma alive_step s o : returned s -> a_dial s = true -> a_beat s <> BDead -> a_beat (mk_step s o) <> BDead.
Proof. unfold returned. intros R D N. destruct o; cbn; [rewrite R; exact N| |exact N]. destruct (a_run s); [|exact N]. cbn. rewrite D. destruct (a_beat s) as [| |t| |]; try exact N; try discriminate. destruct (a_now s <? t); discriminate. Qed.
Lemma alive_fold l : forall s, returned s -> a_dial s = true -> a_beat s <> BDead -> a_beat (fold_left mk_step l s) <> BDead.
Proof.
  induction l as [|o l IH]; intros s R D N; [exact N|]. destruct (done_step s o R) as (R' & D'). cbn. apply IH; [exact R'|congruence|apply alive_step; assumption].
Qed.
Lemma quick now l1 l2 : returned (mk_run now l1) -> a_now (mk_run now l1) < a_asked (mk_run now l1) + 30000 -> a_beat (mk_run now (l1 ++ l2)) <> BDead.
Proof.
  intros R Q. rewrite mk_app. destruct (complete_when_returned now l1 R) as ((_ & _ & D & _) & _). apply alive_fold; [exact R|exact D|]. intros E. destruct (ainv_run now l1) as (_ & _ & B). unfold beat_ok in B. rewrite E in B. unfold INTERVAL in B. lia.
Qed.
Lemma dead_fold l : forall s, returned s -> a_beat s = BDead -> a_beat (fold_left mk_step l s) = BDead.
Proof.
  induction l as [|o l IH]; intros s R E; [exact E|]. cbn. apply IH; [apply (done_step s o R)|]. unfold returned in R. destruct o; cbn; [rewrite R; exact E|destruct (a_run s); cbn; rewrite ?E; auto|exact E].
Qed.
Lemma dead_stays now l1 l2 : returned (mk_run now l1) -> a_beat (mk_run now l1) = BDead -> a_beat (mk_run now (l1 ++ l2)) = BDead.
Proof. intros. rewrite mk_app. now apply dead_fold. Qed.
Lemma turn s : a_run s = true -> mk_step s Turn = {| a_pc := a_pc s; a_mesh := a_mesh s; a_loop := a_loop s; a_maps := a_maps s; a_dial := a_dial s; a_run := a_run s; a_asked := a_asked s; a_now := a_now s;
           a_beat := match a_beat s with BQueued => BAsleep (a_now s + INTERVAL) | BAsleep t => if a_now s <? t then BAsleep t else if a_dial s then BSent else BDead | b => b end |}.
Proof. intros R. unfold mk_step. now rewrite R. Qed.
(** [w] is at least as long as what is left of the sleep *)
Lemma first_beat now l w : returned (mk_run now l) -> a_mesh (mk_run now l) = true -> a_beat (mk_run now l) <> BDead ->
  (forall t, a_beat (mk_run now (l ++ [Turn])) = BAsleep t -> t <= a_now (mk_run now l) + Z.of_nat w) -> a_beat (mk_run now (l ++ [Turn; Wait w; Turn])) = BSent.
Proof.
  intros R M N W. destruct (complete_when_returned now l R) as ((_ & _ & D & Ru) & B). rewrite mk_app in *. cbn [fold_left] in *. set (s := mk_run now l) in *. clearbody s. rewrite (turn s Ru) in *. cbn [a_beat] in W.
  rewrite turn by exact Ru. cbn [mk_step a_beat a_now a_dial]. rewrite D in *. destruct (a_beat s) as [| |t| |] eqn:E; try reflexivity; [|specialize (W _ eq_refl); rewrite (proj2 (Z.ltb_ge _ _) W); reflexivity| |congruence].
  - destruct B as (B & _). specialize (B eq_refl). congruence.
  - destruct (a_now s <? t) eqn:L; [|reflexivity]. specialize (W _ eq_refl). rewrite (proj2 (Z.ltb_ge _ _) W). reflexivity.
Qed.

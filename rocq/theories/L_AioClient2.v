(** Lemmas about the asyncio client: events, waiting calls, bookkeeping. *)
From Coq Require Import ZifyBool.
From Verif Require Import PyBase L_PyBase PyDict L_PyDict M_SofaHeader M_Package L_Package L_Codec S_Wire M_AioClient L_AioClient.
Open Scope Z_scope.

Ltac split_eff E :=
  destruct E as [V|t Hp Hr V|i t e Ht Hp Ha V|i t p Ht Hp Hs V|i t p Ht Hs Hs' V|i t Ht Hs Hm V|i t Ht Hs Hm V|i t ev Ht Hs Hg V|i t ev p Ho Ht Hp He Hg V|i t ev Ho Ht Hp He Hg V|i t Ho Ht Hl V|p c k frame ev Ho Hk Hi Hf Su Hev V|p c k frame ev Ho Hk Hi Hf Su Hev V];
  unfold view in V; injection V as V1 V2 V3 V4.

(** ** Events *)
Record inv_ev (s : st) : Prop := {
  e_unset : forall k ev, dget k (s_req s) = Some ev -> nth_error (s_events s) ev = Some false;
  e_inj : forall k k' ev, dget k (s_req s) = Some ev -> dget k' (s_req s) = Some ev -> k = k';
  e_own : forall i t ev, nth_error (s_tasks s) i = Some t -> t_pc t = WaitResp ev ->
    (ev < List.length (s_events s))%nat /\ (forall k, dget k (s_req s) = Some ev -> k = rid_of (t_req t)) /\
    (nth_error (s_events s) ev = Some true -> exists p, seen s p /\ rid_of p = rid_of (t_req t))
}.

Lemma upd_true ev l j b : nth_error (upd ev (fun _ : bool => true) l) j = Some b -> b = true /\ ev = j \/ nth_error l j = Some b.
Proof. intros H. apply upd_get in H as [(_ & H)|(-> & x & _ & ->)]; auto. Qed.

Lemma inv_ev_step o s : inv s -> inv_ev s -> inv_ev (run_step o s).
Proof.
  intros I [U J W]. pose proof (step_links o s) as L. pose proof (step_eff o s (i_links _ I)) as E. remember (run_step o s) as s' eqn:Es. clear Es.
  pose proof (i_wfreq _ I) as W1.
  (* a change of one coroutine only, not to WaitResp *)
  assert (MV : forall i q, (forall ev, q <> WaitResp ev) -> forall j t ev, nth_error (moved i q s) j = Some t -> t_pc t = WaitResp ev -> nth_error (s_tasks s) j = Some t).
  { intros i q N j t ev H1 H2. apply moved_get in H1 as [(_ & H1)|(-> & t0 & H1 & ->)]; [exact H1|]. cbn in H2. exfalso. exact (N ev H2). }
  assert (SE : forall t ev, (nth_error (s_events s) ev = Some true -> exists p, seen s p /\ rid_of p = rid_of (t_req t)) ->
                            nth_error (s_events s) ev = Some true -> exists p, seen s' p /\ rid_of p = rid_of (t_req t)).
  { intros t ev H1 H2. destruct (H1 H2) as (p & Hp & Hr). exists p. split; [exact (seen_mono _ _ _ L Hp)|exact Hr]. }
  assert (Same : s_req s' = s_req s -> s_events s' = s_events s -> (forall j t ev, nth_error (s_tasks s') j = Some t -> t_pc t = WaitResp ev -> nth_error (s_tasks s) j = Some t) -> inv_ev s').
  { intros E1 E2 E3. constructor; rewrite ?E1, ?E2; auto. intros i t ev H1 H2. destruct (W i t ev (E3 _ _ _ H1 H2) H2) as (A & B & C). split; [exact A|]. split; [exact B|]. apply SE. exact C. }
  assert (Del : forall r, s_req s' = ddel r (s_req s) -> s_events s' = s_events s -> (forall j t ev, nth_error (s_tasks s') j = Some t -> t_pc t = WaitResp ev -> nth_error (s_tasks s) j = Some t) -> inv_ev s').
  { intros r E1 E2 E3. assert (G : forall k ev, dget k (ddel r (s_req s)) = Some ev -> dget k (s_req s) = Some ev).
    { intros k ev H. destruct (Z.eq_dec k r) as [->|N]; [rewrite dget_ddel_same in H by exact W1; discriminate|]. rewrite dget_ddel_other in H by congruence. exact H. }
    constructor; rewrite ?E1, ?E2; [eauto|intros k k' ev H1 H2; eauto|]. intros i t ev H1 H2. destruct (W i t ev (E3 _ _ _ H1 H2) H2) as (A & B & C). split; [exact A|]. split; [eauto|]. apply SE. exact C. }
  assert (Answer : forall p ev, seen s' p -> dget (rid_of p) (s_req s) = Some ev -> s_req s' = ddel (rid_of p) (s_req s) -> s_events s' = upd ev (fun _ => true) (s_events s) -> s_tasks s' = s_tasks s -> inv_ev s').
  { intros p ev SP Hev V1 V3 V4.
    assert (G : forall k0 ev0, dget k0 (ddel (rid_of p) (s_req s)) = Some ev0 -> k0 <> rid_of p /\ dget k0 (s_req s) = Some ev0).
    { intros k0 ev0 H. destruct (Z.eq_dec k0 (rid_of p)) as [->|N]; [rewrite dget_ddel_same in H by exact W1; discriminate|]. rewrite dget_ddel_other in H by congruence. auto. }
    constructor; rewrite ?V1, ?V3.
    * intros k0 ev0 H. apply G in H as [N H]. rewrite upd_other; [exact (U _ _ H)|]. intros ->. apply N. exact (J _ _ _ H Hev).
    * intros k0 k1 ev0 H1 H2. apply G in H1 as [_ H1]. apply G in H2 as [_ H2]. eauto.
    * intros j t' ev' H1 H2. rewrite V4 in H1. destruct (W j t' ev' H1 H2) as (A & B & C). rewrite upd_length. split; [exact A|]. split; [intros k0 H; apply G in H as [_ H]; exact (B _ H)|].
      intros H. apply upd_true in H as [[_ <-]|H]; [|exact (SE _ _ C H)]. exists p. split; [exact SP|]. exact (B _ Hev). }
  split_eff E.
  - apply Same; auto. rewrite V4. auto.
  - apply Same; auto. intros j t' ev H1 H2. rewrite V4 in H1. apply nth_app in H1 as [H1|(-> & ->)]; [exact H1|congruence].
  - apply Same; auto. rewrite V4. apply MV. discriminate.
  - set (r := rid_of (t_req t)) in *. set (n := List.length (s_events s)) in *.
    assert (LT : forall k ev, dget k (s_req s) = Some ev -> (ev < n)%nat) by (intros k ev H; apply U in H; apply nth_error_Some; congruence).
    assert (NL : forall ev b, (ev < n)%nat -> nth_error (s_events s ++ [false]) ev = Some b -> nth_error (s_events s) ev = Some b) by (intros ev b H1 H2; rewrite nth_error_app1 in H2 by exact H1; exact H2).
    constructor; rewrite ?V1, ?V3.
    + intros k ev H. destruct (Z.eq_dec k r) as [->|N].
      * rewrite dget_dset_same in H. assert (ev = n) by congruence. subst ev. unfold n. rewrite nth_error_app2, Nat.sub_diag by lia. reflexivity.
      * rewrite dget_dset_other in H by congruence. rewrite nth_error_app1 by exact (LT _ _ H). exact (U _ _ H).
    + intros k k' ev H1 H2. destruct (Z.eq_dec k r) as [->|N], (Z.eq_dec k' r) as [->|N']; try reflexivity.
      * rewrite dget_dset_same in H1. rewrite dget_dset_other in H2 by congruence. apply LT in H2. assert (ev = n) by congruence. lia.
      * rewrite dget_dset_same in H2. rewrite dget_dset_other in H1 by congruence. apply LT in H1. assert (ev = n) by congruence. lia.
      * rewrite dget_dset_other in H1, H2 by congruence. eauto.
    + intros j t' ev H1 H2. rewrite V4 in H1. assert (H0 : nth_error (s_tasks s) j = Some t') by (apply (MV i p) with (ev := ev); [intros x ->; exact Hs|exact H1|exact H2]). destruct (W j t' ev H0 H2) as (A & B & C). rewrite app_length. split; [cbn; lia|]. split.
      * intros k H. destruct (Z.eq_dec k r) as [->|N]; [rewrite dget_dset_same in H; assert (ev = n) by congruence; fold n in A; lia|]. rewrite dget_dset_other in H by congruence. exact (B _ H).
      * intros H. apply NL in H; [|exact A]. exact (SE _ _ C H).
  - apply Same; auto. rewrite V4. apply MV. intros x ->. exact Hs'.
  - apply (Del _ V1); auto. rewrite V4. apply MV. discriminate.
  - apply Same; auto. rewrite V4. apply MV. discriminate.
  - constructor; rewrite ?V1, ?V3; auto. intros j t' ev' H1 H2. rewrite V4 in H1. apply moved_get in H1 as [(N & H1)|(-> & t0 & H1 & ->)].
    + destruct (W j t' ev' H1 H2) as (A & B & C). split; [exact A|]. split; [exact B|]. apply SE. exact C.
    + cbn in H2 |- *. assert (t0 = t) by congruence. assert (ev' = ev) by congruence. subst t0 ev'. split; [apply nth_error_Some; rewrite (U _ _ Hg); discriminate|].
      split; [intros k H; exact (J _ _ _ H Hg)|]. intros H. rewrite (U _ _ Hg) in H. discriminate.
  - apply Same; auto. rewrite V4. apply MV. discriminate.
  - apply Same; auto. rewrite V4. apply MV. discriminate.
  - apply Same; auto. rewrite V4. apply MV. discriminate.
  - apply (Answer p ev); auto. exists c, k, frame. auto.
  - apply (Answer p ev); auto. exists c, k, frame. auto.
Qed.

Lemma inv_ev_init t : inv_ev (init t).
Proof. constructor; cbn; try discriminate. intros i t0 ev H. destruct i; discriminate. Qed.
Lemma inv_ev_from l : forall s, inv s -> inv_ev s -> inv (from s l) /\ inv_ev (from s l).
Proof. induction l as [|o l IH]; intros s I V; [split; assumption|]. apply IH; [apply inv_step; exact I|apply inv_ev_step; assumption]. Qed.
Lemma inv_ev_run t l : inv_ev (run t l).
Proof. exact (proj2 (inv_ev_from l (init t) (inv_init t) (inv_ev_init t))). Qed.

(** ** Waiting calls *)
Lemma seen_from l : forall s p, seen s p -> seen (from s l) p.
Proof. induction l as [|o l IH]; intros s p H; [exact H|]. apply IH. exact (seen_mono _ _ _ (step_links o s) H). Qed.

Lemma moved_other i p s j t : i <> j -> nth_error (s_tasks s) j = Some t -> nth_error (moved i p s) j = Some t.
Proof. intros N H. unfold moved. rewrite upd_other by exact N. exact H. Qed.
Lemma moved_same i p s t : nth_error (s_tasks s) i = Some t -> nth_error (moved i p s) i = Some (at_pc p t).
Proof. apply upd_same. Qed.

(** a waiting coroutine stays where it is until its event is set or it is cancelled *)
Lemma wait_step o s i t ev : links_ok s -> nth_error (s_tasks s) i = Some t -> t_pc t = WaitResp ev ->
  nth_error (s_tasks (run_step o s)) i = Some t \/ (nth_error (s_events s) ev = Some true /\ o = Wake i) \/ o = Cancel i.
Proof.
  intros K Hi Hw. pose proof (step_eff o s K) as E. remember (run_step o s) as s' eqn:Es. clear Es.
  assert (MV : forall j t0 q, nth_error (s_tasks s) j = Some t0 -> (t_pc t0 = Start \/ sending (t_pc t0)) -> s_tasks s' = moved j q s -> nth_error (s_tasks s') i = Some t).
  { intros j t0 q H1 H2 ->. apply moved_other; [|exact Hi]. intros ->. assert (t0 = t) by congruence. subst t0. rewrite Hw in H2. destruct H2 as [H2|H2]; [discriminate|exact H2]. }
  destruct E as [V|t0 Hp Hr V|j t0 e Ht Hp Ha V|j t0 p Ht Hp Hs V|j t0 p Ht Hs Hs' V|j t0 Ht Hs Hm V|j t0 Ht Hs Hm V|j t0 ev0 Ht Hs Hg V|j t0 ev0 p Ho Ht Hp He Hg V|j t0 ev0 Ho Ht Hp He Hg V|j t0 Ho Ht Hl V|p c k frame ev0 Ho Hk Hf Hd Su Hev V|p c k frame ev0 Ho Hk Hf Hd Su Hev V];
    unfold view in V; injection V as V1 V2 V3 V4.
  - left. rewrite V4. exact Hi.
  - left. rewrite V4. rewrite nth_error_app1; [exact Hi|]. apply nth_error_Some. congruence.
  - left. eauto.
  - left. eauto.
  - left. eauto.
  - left. eauto.
  - left. eauto.
  - left. eauto.
  - destruct (Nat.eq_dec j i) as [->|N]; [|left; rewrite V4; apply moved_other; assumption]. right. left. assert (t0 = t) by congruence. subst t0. split; congruence.
  - destruct (Nat.eq_dec j i) as [->|N]; [|left; rewrite V4; apply moved_other; assumption]. right. left. assert (t0 = t) by congruence. subst t0. split; congruence.
  - destruct (Nat.eq_dec j i) as [->|N]; [|left; rewrite V4; apply moved_other; assumption]. right. right. exact Ho.
  - left. rewrite V4. exact Hi.
  - left. rewrite V4. exact Hi.
Qed.

(** without an answer a waiting call waits on, whatever happens to the connections *)
Lemma waits l : forall s i t ev, inv s -> inv_ev s -> nth_error (s_tasks s) i = Some t -> t_pc t = WaitResp ev -> ~ In (Cancel i) l ->
  (forall p, seen (from s l) p -> rid_of p <> rid_of (t_req t)) -> nth_error (s_tasks (from s l)) i = Some t.
Proof.
  induction l as [|o l IH]; intros s i t ev I V Hi Hw Hc Hn; [exact Hi|]. cbn [from fold_left] in *.
  apply (IH _ _ _ ev); auto using inv_step, inv_ev_step.
  - destruct (wait_step o s i t ev (i_links _ I) Hi Hw) as [H|[(H & _)|H]]; [exact H| |exfalso; apply Hc; left; congruence].
    destruct (e_own _ V i t ev Hi Hw) as (_ & _ & D). destruct (D H) as (p & Sp & Rp). exfalso. apply (Hn p); [|exact Rp]. apply seen_from. exact (seen_mono _ _ _ (step_links o s) Sp).
  - intros H. apply Hc. right. exact H.
Qed.

(** ** Calls in progress with distinct request ids *)
Definition live_rid (r : Z) (s : st) : Prop := exists i t, nth_error (s_tasks s) i = Some t /\ live (t_pc t) /\ rid_of (t_req t) = r.
Fixpoint distinct_ids (s : st) (l : list step) : Prop :=
  match l with
  | [] => True
  | o :: l' => (forall r, new_rid o = Some r -> ~ live_rid r s) /\ distinct_ids (run_step o s) l'
  end.
Lemma distinct_app s l l' : distinct_ids s (l ++ l') <-> distinct_ids s l /\ distinct_ids (from s l) l'.
Proof. revert s. induction l as [|o l IH]; intros s; cbn; [tauto|]. rewrite IH. tauto. Qed.

Record inv_live (s : st) : Prop := {
  l_distinct : forall i j ti tj, nth_error (s_tasks s) i = Some ti -> nth_error (s_tasks s) j = Some tj -> live (t_pc ti) -> live (t_pc tj) ->
    rid_of (t_req ti) = rid_of (t_req tj) -> i = j;
  l_wait : forall i t ev, nth_error (s_tasks s) i = Some t -> t_pc t = WaitResp ev -> nth_error (s_events s) ev = Some false ->
    dget (rid_of (t_req t)) (s_req s) = Some ev
}.

Lemma sending_live p : sending p -> live p. Proof. destruct p; cbn; tauto. Qed.

Lemma inv_live_step o s : inv s -> inv_ev s -> inv_live s -> (forall r, new_rid o = Some r -> ~ live_rid r s) -> inv_live (run_step o s).
Proof.
  intros I Q [D W] HN. pose proof (step_eff o s (i_links _ I)) as E. remember (run_step o s) as s' eqn:Es. clear Es. pose proof (i_wfreq _ I) as W1.
  assert (DM : forall i t q, nth_error (s_tasks s) i = Some t -> live (t_pc t) -> forall i0 j ti tj, nth_error (moved i q s) i0 = Some ti -> nth_error (moved i q s) j = Some tj ->
     live (t_pc ti) -> live (t_pc tj) -> rid_of (t_req ti) = rid_of (t_req tj) -> i0 = j).
  { intros i t q Ht Hl i0 j ti tj H1 H2 H3 H4 H5.
    apply moved_get in H1 as [(_ & H1)|(-> & t1 & H1 & ->)]; apply moved_get in H2 as [(_ & H2)|(-> & t2 & H2 & ->)]; cbn [at_pc t_req t_pc] in *.
    - eauto.
    - assert (t2 = t) by congruence. subst t2. eauto.
    - assert (t1 = t) by congruence. subst t1. eauto.
    - reflexivity. }
  assert (NW : forall i q, (forall ev, q <> WaitResp ev) -> forall j t ev, nth_error (moved i q s) j = Some t -> t_pc t = WaitResp ev -> i <> j /\ nth_error (s_tasks s) j = Some t).
  { intros i q N j t ev H1 H2. apply moved_get in H1 as [(M & H1)|(-> & t0 & H1 & ->)]; [auto|]. cbn in H2. exfalso. exact (N ev H2). }
  (* the entry of a waiting call is not the one of another live call *)
  assert (KD : forall i t j t' ev, nth_error (s_tasks s) i = Some t -> live (t_pc t) -> i <> j -> nth_error (s_tasks s) j = Some t' -> t_pc t' = WaitResp ev -> rid_of (t_req t) <> rid_of (t_req t')).
  { intros i t j t' ev Ht Hl N Ht' Hw Er. apply N. apply (D i j t t'); auto. rewrite Hw. exact Logic.I. }
  assert (KU : forall p ev, dget (rid_of p) (s_req s) = Some ev -> forall j t' ev', nth_error (s_tasks s) j = Some t' -> t_pc t' = WaitResp ev' ->
     nth_error (upd ev (fun _ => true) (s_events s)) ev' = Some false -> dget (rid_of (t_req t')) (ddel (rid_of p) (s_req s)) = Some ev').
  { intros p ev Hev j t' ev' H1 H2 H3. apply upd_get in H3 as [(N & H3)|(-> & x & _ & H3)]; [|discriminate]. pose proof (W j t' ev' H1 H2 H3) as G.
    rewrite dget_ddel_other; [exact G|]. congruence. }
  split_eff E; constructor; rewrite ?V1, ?V3, ?V4.
  - exact D.
  - exact W.
  - intros i j ti tj H1 H2 H3 H4 H5. apply nth_app in H1 as [H1|(-> & ->)]; apply nth_app in H2 as [H2|(-> & ->)]; try reflexivity; [eauto| |].
    + exfalso. apply (HN _ Hr). exists i, ti. auto.
    + exfalso. apply (HN _ Hr). exists j, tj. auto.
  - intros i t' ev H1 H2 H3. apply nth_app in H1 as [H1|(-> & ->)]; [eauto|congruence].
  - apply (DM i t); auto. rewrite Hp. exact Logic.I.
  - intros j t' ev H1 H2 H3. apply (NW i) with (ev := ev) in H1 as (_ & H1); [eauto|discriminate|exact H2].
  - apply (DM i t); auto. rewrite Hp. exact Logic.I.
  - intros j t' ev H1 H2 H3. apply (NW i) with (ev := ev) in H1 as (N & H1); [|intros x ->; exact Hs|exact H2].
    assert (R : rid_of (t_req t) <> rid_of (t_req t')) by (apply (KD i t j t' ev); auto; rewrite Hp; exact Logic.I).
    rewrite dget_dset_other by congruence. apply (W j t' ev H1 H2). destruct (e_own _ Q j t' ev H1 H2) as (A & _). rewrite nth_error_app1 in H3 by exact A. exact H3.
  - apply (DM i t); auto. apply sending_live. exact Hs.
  - intros j t' ev H1 H2 H3. apply (NW i) with (ev := ev) in H1 as (_ & H1); [eauto|intros x ->; exact Hs'|exact H2].
  - apply (DM i t); auto. apply sending_live. exact Hs.
  - intros j t' ev H1 H2 H3. apply (NW i) with (ev := ev) in H1 as (N & H1); [|discriminate|exact H2].
    assert (R : rid_of (t_req t) <> rid_of (t_req t')) by (apply (KD i t j t' ev); auto; apply sending_live; exact Hs).
    rewrite dget_ddel_other by congruence. eauto.
  - apply (DM i t); auto. apply sending_live. exact Hs.
  - intros j t' ev H1 H2 H3. apply (NW i) with (ev := ev) in H1 as (_ & H1); [eauto|discriminate|exact H2].
  - apply (DM i t); auto. apply sending_live. exact Hs.
  - intros j t' ev' H1 H2 H3. apply moved_get in H1 as [(M & H1)|(-> & t0 & H1 & ->)]; [eauto|]. cbn in H2 |- *. congruence.
  - apply (DM i t); auto. rewrite Hp. exact Logic.I.
  - intros j t' ev' H1 H2 H3. apply (NW i) with (ev := ev') in H1 as (_ & H1); [eauto|discriminate|exact H2].
  - apply (DM i t); auto. rewrite Hp. exact Logic.I.
  - intros j t' ev' H1 H2 H3. apply (NW i) with (ev := ev') in H1 as (_ & H1); [eauto|discriminate|exact H2].
  - apply (DM i t); auto.
  - intros j t' ev' H1 H2 H3. apply (NW i) with (ev := ev') in H1 as (_ & H1); [eauto|discriminate|exact H2].
  - exact D.
  - exact (KU p ev Hev).
  - exact D.
  - exact (KU p ev Hev).
Qed.

(** ** Answers *)
(** connection c consumes exactly one more frame in this step *)
Definition consumes (c : nat) (frame : bytes) (s s' : st) : Prop :=
  exists k k', nth_error (s_links s) c = Some k /\ nth_error (s_links s') c = Some k' /\ k_frames k' = k_frames k ++ [frame].

Lemma app_one_neq {A} (l : list A) x : l <> l ++ [x].
Proof. intros E. apply (f_equal (@List.length A)) in E. rewrite app_length in E. cbn in E. lia. Qed.

Lemma read_consumes c frame s : links_ok s -> consumes c frame s (read c s) ->
  match from_stream BoltResponse frame with Ok p => view (read c s) = view (deliver p s) | Raise _ => view (read c s) = view s end.
Proof.
  intros K (k & k' & Hk & Hk' & Hf). pose proof (K c k Hk) as LO. unfold read in Hk' |- *. rewrite Hk in Hk' |- *.
  assert (U : forall x, nth_error (s_links (set_link c x s)) c = Some k' -> x = k') by (intros x H; cbn in H; rewrite (upd_same c _ _ k Hk) in H; congruence).
  assert (X : forall x, nth_error (s_links (set_link c x s)) c = Some k' -> k_frames x = k_frames k -> False).
  { intros x H E. apply U in H. subst x. rewrite E in Hf. exact (app_one_neq _ _ Hf). }
  assert (Y : nth_error (s_links s) c = Some k' -> False) by (intros H; assert (k' = k) by congruence; subst k'; exact (app_one_neq _ _ Hf)).
  destruct (k_rd k) as [| |fixed h n|] eqn:Er.
  - exfalso. apply (X _ Hk'). reflexivity.
  - exfalso. destruct (k_cancel k || k_exn k); [apply (X _ Hk'); reflexivity|]. destruct (bolt_header_size BoltResponse <=? len (k_buf k)); cbv zeta in Hk'.
    + destruct (bolt_header_from_stream BoltResponse _); apply (X _ Hk'); cbn; apply app_nil_r.
    + destruct (k_eof k); [apply (X _ Hk'); reflexivity|exact (Y Hk')].
  - destruct (k_cancel k || k_exn k); [exfalso; apply (X _ Hk'); reflexivity|].
    destruct (n <=? len (k_buf k)); [|exfalso; destruct (k_eof k); [apply (X _ Hk'); reflexivity|exact (Y Hk')]].
    rewrite links_process in Hk'. apply U in Hk'. subst k'. cbn in Hf. apply app_inv_head in Hf. injection Hf as <-.
    destruct (lo_body _ LO _ _ _ Er) as (L20 & -> & _). unfold process. rewrite content_is_frame by exact L20.
    destruct (from_stream BoltResponse (fixed ++ py_take n (k_buf k))); [apply view_deliver; reflexivity|reflexivity].
  - exfalso. exact (Y Hk').
Qed.

Definition answered (i : nat) (r : Z) (q : option pkg) (s : st) : Prop :=
  exists t ev, nth_error (s_tasks s) i = Some t /\ rid_of (t_req t) = r /\ t_pc t = WaitResp ev /\
    nth_error (s_events s) ev = Some true /\ dget r (s_resp s) = q /\ dget r (s_req s) = None.
Definition verdict (q : option pkg) : ret := match q with Some p => RetPkg p | None => RetErr KeyError end.

Lemma answered_step o s i r q : inv s -> inv_ev s -> inv_live s -> answered i r q s -> o <> Cancel i -> (forall r', new_rid o = Some r' -> ~ live_rid r' s) ->
  (o <> Wake i /\ answered i r q (run_step o s)) \/ (o = Wake i /\ exists t, nth_error (s_tasks (run_step o s)) i = Some t /\ rid_of (t_req t) = r /\ t_pc t = Done (verdict q)).
Proof.
  intros I Q [D W] (t & ev & Hi & Hr & Hw & He & Hq & Hn) Hc HN. 
  destruct (wait_step o s i t ev (i_links _ I) Hi Hw) as [Hi'|[(_ & ->)|H]]; [|right|congruence].
  - assert (How : o <> Wake i).
    { intros ->. cbn [run_step] in Hi'. rewrite Hi, Hw, He, Hr, Hq in Hi'. destruct q; cbn in Hi'; rewrite (upd_same i _ _ t Hi) in Hi'; injection Hi' as Hi'; rewrite <- Hi' in Hw; discriminate. }
    left. split; [exact How|]. exists t, ev. split; [exact Hi'|]. split; [exact Hr|]. split; [exact Hw|].
    pose proof (step_eff o s (i_links _ I)) as E. remember (run_step o s) as s' eqn:Es. clear Es. pose proof (i_wfreq _ I) as W1. pose proof (i_wfresp _ I) as W2.
    assert (Lr : live (t_pc t)) by (rewrite Hw; exact Logic.I).
    assert (KD : forall j tj, nth_error (s_tasks s) j = Some tj -> live (t_pc tj) -> t_pc tj <> t_pc t -> rid_of (t_req tj) <> r).
    { intros j tj Hj Hl Hne Er. assert (j = i) by (apply (D j i tj t); auto; congruence). subst j. congruence. }
    destruct E as [V|t0 Hp Hr0 V|j t0 e Ht Hp Ha V|j t0 p Ht Hp Hs V|j t0 p Ht Hs Hs' V|j t0 Ht Hs Hm V|j t0 Ht Hs Hm V|j t0 ev0 Ht Hs Hg V|j t0 ev0 p Ho Ht Hp He0 Hg V|j t0 ev0 Ho Ht Hp He0 Hg V|j t0 Ho Ht Hl V|p c k frame ev0 Ho Hk Hf Hd Su Hev V|p c k frame ev0 Ho Hk Hf Hd Su Hev V];
      unfold view in V; injection V as V1 V2 V3 V4; rewrite ?V1, ?V2, ?V3; auto.
    + (* start *) assert (N : rid_of (t_req t0) <> r) by (apply (KD j); auto; rewrite ?Hp, ?Hw; [exact Logic.I|discriminate]).
      rewrite dget_dset_other by congruence. rewrite nth_error_app1; [auto|]. apply nth_error_Some. congruence.
    + assert (N : rid_of (t_req t0) <> r) by (apply (KD j); auto; [apply sending_live; exact Hs|rewrite Hw; intros X; rewrite X in Hs; exact Hs]). rewrite dget_ddel_other by congruence. auto.
    + (* return *) assert (N : rid_of (t_req t0) <> r).
      { intros Er. apply How. rewrite Ho. f_equal. apply (D j i t0 t); auto; [rewrite Hp; exact Logic.I|congruence]. }
      rewrite dget_ddel_other by congruence. auto.
    + assert (N : rid_of p <> r) by congruence. rewrite dget_ddel_other, dget_dset_other by congruence. split; [|auto].
      destruct (Nat.eq_dec ev0 ev) as [->|M]; [rewrite (upd_same _ _ _ _ He); reflexivity|rewrite upd_other by exact M; exact He].
    + assert (N : rid_of p <> r) by congruence. rewrite dget_ddel_other by congruence. split; [|auto].
      destruct (Nat.eq_dec ev0 ev) as [->|M]; [rewrite (upd_same _ _ _ _ He); reflexivity|rewrite upd_other by exact M; exact He].
  - split; [reflexivity|]. cbn [run_step]. rewrite Hi, Hw, He, Hr, Hq. destruct q; eexists; cbn; rewrite (upd_same i _ _ t Hi); cbn; auto.
Qed.

Lemma done_step o s i t x : links_ok s -> nth_error (s_tasks s) i = Some t -> t_pc t = Done x -> nth_error (s_tasks (run_step o s)) i = Some t.
Proof.
  intros K Hi Hd. pose proof (step_eff o s K) as E. remember (run_step o s) as s' eqn:Es. clear Es.
  assert (MV : forall j t0 q, nth_error (s_tasks s) j = Some t0 -> live (t_pc t0) -> s_tasks s' = moved j q s -> nth_error (s_tasks s') i = Some t).
  { intros j t0 q H1 H2 ->. apply moved_other; [|exact Hi]. intros ->. assert (t0 = t) by congruence. subst t0. rewrite Hd in H2. exact H2. }
  destruct E as [V|t0 Hp Hr V|j t0 e Ht Hp Ha V|j t0 p Ht Hp Hs V|j t0 p Ht Hs Hs' V|j t0 Ht Hs Hm V|j t0 Ht Hs Hm V|j t0 ev0 Ht Hs Hg V|j t0 ev0 p Ho Ht Hp He Hg V|j t0 ev0 Ho Ht Hp He Hg V|j t0 Ho Ht Hl V|p c k frame ev0 Ho Hk Hf Hd0 Su Hev V|p c k frame ev0 Ho Hk Hf Hd0 Su Hev V];
    unfold view in V; injection V as V1 V2 V3 V4; try (eapply MV; [exact Ht| |exact V4]; try (apply sending_live; exact Hs); try exact Hl; rewrite Hp; exact Logic.I); try (rewrite V4; exact Hi).
  rewrite V4. rewrite nth_error_app1; [exact Hi|]. apply nth_error_Some. congruence.
Qed.
Lemma done_from l : forall s i t x, inv s -> nth_error (s_tasks s) i = Some t -> t_pc t = Done x -> nth_error (s_tasks (from s l)) i = Some t.
Proof. induction l as [|o l IH]; intros s i t x I Hi Hd; [exact Hi|]. cbn. apply (IH _ _ _ x); auto using inv_step. apply (done_step o s i t x); auto. exact (i_links _ I). Qed.

Lemma inv_all_from l : forall s, inv s -> inv_ev s -> inv_live s -> distinct_ids s l -> inv (from s l) /\ inv_ev (from s l) /\ inv_live (from s l).
Proof.
  induction l as [|o l IH]; intros s I Q L D; [auto|]. destruct D as [D1 D2]. apply IH; auto using inv_step, inv_ev_step, inv_live_step.
Qed.
Lemma inv_live_init t : inv_live (init t).
Proof. constructor; cbn; intros i; destruct i; discriminate. Qed.
Lemma inv_all_run t l : distinct_ids (init t) l -> inv (run t l) /\ inv_ev (run t l) /\ inv_live (run t l).
Proof. intros D. apply inv_all_from; auto using inv_init, inv_ev_init, inv_live_init. Qed.

(** once answered, the verdict is fixed: the call ends with it at its next run, whatever happens before *)
Lemma answered_from l : forall s i r q, inv s -> inv_ev s -> inv_live s -> answered i r q s -> distinct_ids s l -> ~ In (Cancel i) l ->
  answered i r q (from s l) /\ ~ In (Wake i) l \/ exists t, nth_error (s_tasks (from s l)) i = Some t /\ rid_of (t_req t) = r /\ t_pc t = Done (verdict q).
Proof.
  induction l as [|o l IH]; intros s i r q I Q L A D Hc; [left; split; [exact A|intros []]|]. destruct D as [D1 D2]. cbn [from fold_left].
  assert (Hc1 : o <> Cancel i) by (intros ->; apply Hc; left; reflexivity). assert (Hc2 : ~ In (Cancel i) l) by (intros H; apply Hc; right; exact H).
  destruct (answered_step o s i r q I Q L A Hc1 D1) as [(Hw & A')|(_ & t & H1 & H2 & H3)].
  - destruct (IH (run_step o s) i r q) as [(B & Hw2)|B]; auto using inv_step, inv_ev_step, inv_live_step. left. split; [exact B|]. intros [->|H]; [congruence|exact (Hw2 H)].
  - right. exists t. split; [|auto]. apply (done_from l _ i t (verdict q)); auto using inv_step.
Qed.

(** the arrival of an answer for a waiting call *)
Lemma arrival s i t ev c frame p : inv s -> inv_ev s -> inv_live s -> nth_error (s_tasks s) i = Some t -> t_pc t = WaitResp ev -> nth_error (s_events s) ev = Some false ->
  consumes c frame s (read c s) -> from_stream BoltResponse frame = Ok p -> rid_of p = rid_of (t_req t) ->
  (success p -> answered i (rid_of (t_req t)) (Some p) (read c s)) /\ (~ success p -> answered i (rid_of (t_req t)) (dget (rid_of (t_req t)) (s_resp s)) (read c s)).
Proof.
  intros I Q L Hi Hw He Hc Hf Hr. pose proof (read_consumes c frame s (i_links _ I) Hc) as R. rewrite Hf in R.
  pose proof (l_wait _ L i t ev Hi Hw He) as Hg. pose proof (i_wfreq _ I) as W1. rewrite <- Hr in Hg |- *.
  destruct (deliver_view p s (decoded_cmdcode _ _ Hf)) as [(Hnone & E)|(ev' & Hev & [(Su & E)|(Su & E)])]; [congruence| |];
    rewrite E in R; unfold view in R; injection R as V1 V2 V3 V4; assert (ev' = ev) by congruence; subst ev'; (split; intros Su'; [|]; try (exfalso; tauto));
    exists t, ev; rewrite V1, V2, V3, V4; (split; [exact Hi|]); (split; [congruence|]); (split; [exact Hw|]); (split; [exact (upd_same _ _ _ _ He)|]).
  - split; [apply dget_dset_same|apply dget_ddel_same; exact W1].
  - split; [reflexivity|apply dget_ddel_same; exact W1].
Qed.

(** ** Bookkeeping, when nothing is cancelled *)
Definition busy (p : pc) : Prop := match p with Start => False | Done _ => False | _ => True end.
Definition unlucky (p : pc) : Prop := match p with Start => False | Done RetNone => True | Done (RetErr KeyError) => True | Done _ => False | _ => True end.
Lemma sending_busy p : sending p -> busy p. Proof. destruct p; cbn; tauto. Qed.
Lemma busy_unlucky p : busy p -> unlucky p. Proof. destruct p; cbn; tauto. Qed.
Lemma busy_live p : busy p -> live p. Proof. destruct p; cbn; tauto. Qed.

Record inv_books (s : st) : Prop := {
  b_req : forall k ev, dget k (s_req s) = Some ev -> exists i t, nth_error (s_tasks s) i = Some t /\ rid_of (t_req t) = k /\ busy (t_pc t);
  b_resp : forall k p, dget k (s_resp s) = Some p -> exists i t, nth_error (s_tasks s) i = Some t /\ rid_of (t_req t) = k /\ unlucky (t_pc t);
  b_set : forall i t ev, nth_error (s_tasks s) i = Some t -> t_pc t = WaitResp ev -> nth_error (s_events s) ev = Some true -> dget (rid_of (t_req t)) (s_req s) = None
}.

Lemma inv_books_step o s : inv s -> inv_ev s -> inv_live s -> inv_books s -> (forall i, o <> Cancel i) -> inv_books (run_step o s).
Proof.
  intros I Q L [B1 B2 B3] NC. pose proof (step_eff o s (i_links _ I)) as E. remember (run_step o s) as s' eqn:Es. clear Es. pose proof (i_wfreq _ I) as W1. pose proof (i_wfresp _ I) as W2.
  destruct L as [D W].
  (* a witness other than i, or i itself if it stays in the class *)
  assert (MW : forall (P : pc -> Prop) i q k, (exists j t, nth_error (s_tasks s) j = Some t /\ rid_of (t_req t) = k /\ P (t_pc t)) ->
     (forall t, nth_error (s_tasks s) i = Some t -> rid_of (t_req t) = k -> P q) -> exists j t, nth_error (moved i q s) j = Some t /\ rid_of (t_req t) = k /\ P (t_pc t)).
  { intros P i q k (j & t & H1 & H2 & H3) Hq. destruct (Nat.eq_dec i j) as [<-|N].
    - exists i, (at_pc q t). split; [apply moved_same; exact H1|]. cbn. split; [exact H2|]. exact (Hq t H1 H2).
    - exists j, t. split; [apply moved_other; assumption|auto]. }
  assert (NW : forall i q, (forall ev, q <> WaitResp ev) -> forall j t ev, nth_error (moved i q s) j = Some t -> t_pc t = WaitResp ev -> i <> j /\ nth_error (s_tasks s) j = Some t).
  { intros i q N j t ev H1 H2. apply moved_get in H1 as [(M & H1)|(-> & t0 & H1 & ->)]; [auto|]. cbn in H2. exfalso. exact (N ev H2). }
  assert (G : forall {V} r (d : dict Z V) k v, wf_dict d -> dget k (ddel r d) = Some v -> k <> r /\ dget k d = Some v).
  { intros V0 r d k v Wd H. destruct (Z.eq_dec k r) as [->|N]; [rewrite dget_ddel_same in H by exact Wd; discriminate|]. rewrite dget_ddel_other in H by congruence. auto. }
  assert (Gn : forall r k, dget k (s_req s) = None -> dget k (ddel r (s_req s)) = None).
  { intros r k H. destruct (dget k (ddel r (s_req s))) eqn:E0; [|reflexivity]. apply G in E0; [|exact W1]. destruct E0. congruence. }
  split_eff E; constructor; rewrite ?V1, ?V2, ?V3, ?V4.
  - exact B1.
  - exact B2.
  - exact B3.
  - intros k ev H. destruct (B1 _ _ H) as (j & tj & H1 & H2). exists j, tj. split; [|exact H2]. rewrite nth_error_app1; [exact H1|]. apply nth_error_Some. congruence.
  - intros k ev H. destruct (B2 _ _ H) as (j & tj & H1 & H2). exists j, tj. split; [|exact H2]. rewrite nth_error_app1; [exact H1|]. apply nth_error_Some. congruence.
  - intros j t' ev H1 H2 H3. apply nth_app in H1 as [H1|(-> & ->)]; [eauto|congruence].
  - intros k ev H. destruct (B1 _ _ H) as (j & tj & H1 & H2 & H3). exists j, tj. split; [|auto]. apply moved_other; [|exact H1]. intros ->. assert (tj = t) by congruence. subst tj. rewrite Hp in H3. exact H3.
  - intros k ev H. destruct (B2 _ _ H) as (j & tj & H1 & H2 & H3). exists j, tj. split; [|auto]. apply moved_other; [|exact H1]. intros ->. assert (tj = t) by congruence. subst tj. rewrite Hp in H3. exact H3.
  - intros j t' ev H1 H2 H3. apply (NW i) with (ev := ev) in H1 as (_ & H1); [eauto|discriminate|exact H2].
  - (* start *) intros k ev H. destruct (Z.eq_dec k (rid_of (t_req t))) as [->|N].
    + exists i, (at_pc p t). split; [apply moved_same; exact Ht|]. split; [reflexivity|]. apply sending_busy. exact Hs.
    + rewrite dget_dset_other in H by congruence. apply MW; [exact (B1 _ _ H)|]. intros t0 H1 H2. apply sending_busy. exact Hs.
  - intros k q H. apply MW; [exact (B2 _ _ H)|]. intros t0 H1 H2. apply busy_unlucky, sending_busy. exact Hs.
  - intros j t' ev H1 H2 H3. apply (NW i) with (ev := ev) in H1 as (N & H1); [|intros x ->; exact Hs|exact H2].
    destruct (e_own _ Q j t' ev H1 H2) as (A & _). rewrite nth_error_app1 in H3 by exact A. rewrite dget_dset_other; [eauto|].
    intros Er. apply N. apply (D i j t t'); auto; [rewrite Hp; exact Logic.I|rewrite H2; exact Logic.I].
  - intros k ev H. apply MW; [exact (B1 _ _ H)|]. intros t0 H1 H2. apply sending_busy. exact Hs'.
  - intros k q H. apply MW; [exact (B2 _ _ H)|]. intros t0 H1 H2. apply busy_unlucky, sending_busy. exact Hs'.
  - intros j t' ev H1 H2 H3. apply (NW i) with (ev := ev) in H1 as (_ & H1); [eauto|intros x ->; exact Hs'|exact H2].
  - intros k ev H. apply G in H as [N H]; [|exact W1]. apply MW; [exact (B1 _ _ H)|]. intros t0 H1 H2. exfalso. apply N. congruence.
  - intros k q H. apply MW; [exact (B2 _ _ H)|]. intros t0 H1 H2. exact Logic.I.
  - intros j t' ev H1 H2 H3. apply (NW i) with (ev := ev) in H1 as (_ & H1); [|discriminate|exact H2]. apply Gn. eauto.
  - intros k ev H. apply MW; [exact (B1 _ _ H)|]. intros t0 H1 H2. exfalso. assert (t0 = t) by congruence. subst t0. rewrite H2 in Hm. unfold dmem in Hm. rewrite H in Hm. discriminate.
  - intros k q H. apply MW; [exact (B2 _ _ H)|]. intros t0 H1 H2. exact Logic.I.
  - intros j t' ev H1 H2 H3. apply (NW i) with (ev := ev) in H1 as (_ & H1); [eauto|discriminate|exact H2].
  - intros k ev' H. apply MW; [exact (B1 _ _ H)|]. intros t0 H1 H2. exact Logic.I.
  - intros k q H. apply MW; [exact (B2 _ _ H)|]. intros t0 H1 H2. exact Logic.I.
  - intros j t' ev' H1 H2 H3. apply moved_get in H1 as [(M & H1)|(-> & t0 & H1 & ->)]; [eauto|]. cbn in H2. assert (ev' = ev) by congruence. subst ev'. rewrite (e_unset _ Q _ _ Hg) in H3. discriminate.
  - (* return *) intros k ev' H. apply MW; [exact (B1 _ _ H)|]. intros t0 H1 H2. exfalso. assert (t0 = t) by congruence. subst t0. rewrite <- H2 in H. rewrite (B3 _ _ _ Ht Hp He) in H. discriminate.
  - intros k q H. apply G in H as [N H]; [|exact W2]. apply MW; [exact (B2 _ _ H)|]. intros t0 H1 H2. exfalso. apply N. congruence.
  - intros j t' ev' H1 H2 H3. apply (NW i) with (ev := ev') in H1 as (_ & H1); [eauto|discriminate|exact H2].
  - intros k ev' H. apply MW; [exact (B1 _ _ H)|]. intros t0 H1 H2. exfalso. assert (t0 = t) by congruence. subst t0. rewrite <- H2 in H. rewrite (B3 _ _ _ Ht Hp He) in H. discriminate.
  - intros k q H. apply MW; [exact (B2 _ _ H)|]. intros t0 H1 H2. exact Logic.I.
  - intros j t' ev' H1 H2 H3. apply (NW i) with (ev := ev') in H1 as (_ & H1); [eauto|discriminate|exact H2].
  - exfalso. exact (NC i Ho).
  - exfalso. exact (NC i Ho).
  - exfalso. exact (NC i Ho).
  - intros k0 ev' H. apply G in H as [N H]; [|exact W1]. eauto.
  - intros k0 q H. destruct (Z.eq_dec k0 (rid_of p)) as [->|N]; [|rewrite dget_dset_other in H by congruence; eauto].
    destruct (B1 _ _ Hev) as (j & tj & H1 & H2 & H3). exists j, tj. auto using busy_unlucky.
  - intros j t' ev' H1 H2 H3. apply upd_true in H3 as [[_ <-]|H3]; [|apply Gn; eauto].
    destruct (e_own _ Q j t' ev H1 H2) as (_ & A & _). rewrite <- (A _ Hev). apply dget_ddel_same. exact W1.
  - intros k0 ev' H. apply G in H as [N H]; [|exact W1]. eauto.
  - exact B2.
  - intros j t' ev' H1 H2 H3. apply upd_true in H3 as [[_ <-]|H3]; [|apply Gn; eauto].
    destruct (e_own _ Q j t' ev H1 H2) as (_ & A & _). rewrite <- (A _ Hev). apply dget_ddel_same. exact W1.
Qed.

Definition no_cancel (l : list step) : Prop := forall i, ~ In (Cancel i) l.
Lemma inv_books_from l : forall s, inv s -> inv_ev s -> inv_live s -> inv_books s -> distinct_ids s l -> no_cancel l -> inv_books (from s l).
Proof.
  induction l as [|o l IH]; intros s I Q L B D N; [exact B|]. destruct D as [D1 D2]. assert (No : forall i, o <> Cancel i) by (intros i ->; apply (N i); left; reflexivity).
  apply IH; auto using inv_step, inv_ev_step, inv_live_step, inv_books_step. intros i H. apply (N i). right. exact H.
Qed.
Lemma inv_books_run t l : distinct_ids (init t) l -> no_cancel l -> inv_books (run t l).
Proof.
  intros D N. apply inv_books_from; auto using inv_init, inv_ev_init, inv_live_init. constructor; cbn; try discriminate. intros i t0 ev H. destruct i; discriminate.
Qed.

Definition all_done (s : st) : Prop := forall i t, nth_error (s_tasks s) i = Some t -> exists r, t_pc t = Done r.
Lemma no_request_left t l : distinct_ids (init t) l -> no_cancel l -> all_done (run t l) -> s_req (run t l) = [].
Proof.
  intros D N A. pose proof (inv_books_run t l D N) as [B _ _]. destruct (s_req (run t l)) as [|[k v] r] eqn:E; [reflexivity|]. exfalso.
  destruct (B k v) as (i & t0 & H1 & _ & H2). { cbn [dget]. rewrite ?E. cbn. destruct (eq_dec k k); [reflexivity|congruence]. }
  destruct (A i t0 H1) as (x & Hx). rewrite Hx in H2. exact H2.
Qed.
Lemma no_response_left t l : distinct_ids (init t) l -> no_cancel l ->
  (forall i tk, nth_error (s_tasks (run t l)) i = Some tk -> exists r, t_pc tk = Done r /\ r <> RetNone /\ r <> RetErr KeyError) -> s_resp (run t l) = [].
Proof.
  intros D N A. pose proof (inv_books_run t l D N) as [_ B _]. destruct (s_resp (run t l)) as [|[k v] r] eqn:E; [reflexivity|]. exfalso.
  destruct (B k v) as (i & t0 & H1 & _ & H2). { cbn. destruct (eq_dec k k); [reflexivity|congruence]. }
  destruct (A i t0 H1) as (x & Hx & X1 & X2). rewrite Hx in H2. destruct x as [|p|e]; cbn in H2; try tauto. destruct e; try exact H2. congruence.
Qed.

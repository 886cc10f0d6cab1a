(** More lemmas about the connection pool: what get_conn returns, lost capacity, closed pools. *)
From Coq Require Import ZifyBool.
From Verif Require Import PyBase L_PyBase PyDict L_PyDict M_ConnPool S_Pool L_ConnPool.

Lemma put_closed_In cfg p c x : In x (p_closed (put_conn cfg p c)) -> x = c \/ In x (p_closed p).
Proof.
  unfold put_conn. destruct (p_free p) as [q|]; [destruct (q_full cfg q)|]; cbn [p_closed close_conn add_num set_free]; try (intros Hi; right; exact Hi);
  intros Hi; apply in_app_iff in Hi; destruct Hi as [Hi|[Hi|[]]]; auto.
Qed.

Lemma refill_closed cfg mk q p0 p1 r x : refill cfg mk q p0 = (p1, r) -> In x (p_closed p1) -> In x (p_closed p0) \/ x = p_attempts p0.
Proof.
  unfold refill, new_conn. destruct (len q <? min_free cfg); [|intros [= <- <-]; auto].
  destruct (max_connections cfg <=? p_num p0); [intros [= <- <-]; auto|].
  destruct (mk (p_attempts p0)); intros [= <- <-]; [|cbn; auto].
  intros Hi. apply put_closed_In in Hi. cbn [p_closed p_attempts] in Hi. destruct Hi; auto.
Qed.

Lemma refill_keeps cfg mk q p0 p1 r x : refill cfg mk q p0 = (p1, r) -> In x (p_closed p0) -> In x (p_closed p1).
Proof.
  unfold refill, new_conn. destruct (len q <? min_free cfg); [|intros [= <- <-]; auto].
  destruct (max_connections cfg <=? p_num p0); [intros [= <- <-]; auto|].
  destruct (mk (p_attempts p0)); intros [= <- <-]; [|cbn; auto].
  intros Hi. unfold put_conn. cbn [p_free]. destruct (p_free p0) as [q'|]; [destruct (q_full cfg q')|]; cbn; try (apply in_app_iff; left); exact Hi.
Qed.

(** what get_conn returns is a free connection that was not closed and not dropped, or a new one, unless
    it is a free connection seen to be dropped *)
Lemma get_fresh cfg mk dr p lent p' c : good cfg p lent -> get_conn cfg mk dr p = (p', Ok c) ->
  dr c = false -> ~ In c (p_closed p) -> ~ In c (p_closed p').
Proof.
  intros G E Hd Hc. destruct (p_free p) as [[|c0 q]|] eqn:F.
  - unfold get_conn in E. rewrite F in E. destruct (block cfg); [discriminate|].
    destruct (good_new _ _ _ _ _ _ G E) as (_ & _ & _ & E1 & _ & _). rewrite E1. exact Hc.
  - rewrite (get_unfold _ _ _ _ _ _ F) in E. destruct (refill cfg mk q (set_free p (Some q))) as [p1 [u|e]] eqn:R; [|discriminate].
    assert (Ec : c0 = c) by (destruct (dropped dr p1 c0); congruence). subst c0.
    assert (N : ~ In c (p_closed p1)).
    { intros Hi. destruct (refill_closed _ _ _ _ _ _ _ R Hi) as [Hi'|Hi']; [exact (Hc Hi')|]. cbn [p_attempts set_free] in Hi'.
      assert (In c (free_conns p ++ lent)) by (unfold free_conns; rewrite F; left; reflexivity). apply (g_lt _ _ _ G) in H. lia. }
    unfold dropped in E. rewrite Hd in E. rewrite (proj2 (mem_nat_not _ _) N) in E. cbn [orb] in E. assert (p1 = p') by congruence. subst. exact N.
  - unfold get_conn in E. rewrite F in E. discriminate.
Qed.

Lemma get_dropped cfg mk dr p c q p' r : p_free p = Some (c :: q) -> get_conn cfg mk dr p = (p', Ok r) ->
  dr c = true \/ In c (p_closed p) -> r = c /\ In c (p_closed p').
Proof.
  intros F E H. rewrite (get_unfold _ _ _ _ _ _ F) in E. destruct (refill cfg mk q (set_free p (Some q))) as [p1 [u|e]] eqn:R; [|discriminate].
  unfold dropped in E. assert (B : dr c || mem_nat c (p_closed p1) = true).
  { destruct H as [->|H]; [reflexivity|]. apply orb_true_iff. right. apply mem_nat_In. exact (refill_keeps _ _ _ (set_free p (Some q)) _ _ _ R H). }
  rewrite B in E. assert (r = c) by congruence. split; [assumption|]. assert (p' = add_num (close_conn p1 c) (-1)) by congruence. subst p'.
  cbn [p_closed add_num close_conn]. apply in_app_iff. right. left. reflexivity.
Qed.

Lemma get_free cfg mk dr p c q : p_free p = Some (c :: q) ->
  (min_free cfg <= len q \/ (p_num p < max_connections cfg /\ mk (p_attempts p) = true)) -> exists p', get_conn cfg mk dr p = (p', Ok c).
Proof.
  intros F H. rewrite (get_unfold _ _ _ _ _ _ F). unfold refill, new_conn. cbn [p_num p_attempts set_free].
  destruct (Z.ltb_spec (len q) (min_free cfg)).
  - destruct H as [H|[Hn Hm]]; [lia|]. destruct (Z.leb_spec (max_connections cfg) (p_num p)); [lia|]. rewrite Hm.
    match goal with |- exists p', (if ?b then _ else _) = _ => destruct b end; eexists; reflexivity.
  - match goal with |- exists p', (if ?b then _ else _) = _ => destruct b end; eexists; reflexivity.
Qed.

Lemma get_new cfg mk dr p : p_free p = Some [] -> block cfg = false -> p_num p < max_connections cfg -> mk (p_attempts p) = true ->
  exists p', get_conn cfg mk dr p = (p', Ok (p_attempts p)).
Proof.
  intros F B Hn Hm. unfold get_conn, new_conn. rewrite F, B, Hm. destruct (Z.leb_spec (max_connections cfg) (p_num p)); [lia|]. eexists. reflexivity.
Qed.

(** a pool whose counter has reached the limit, with nothing free and nothing lent, is useless for ever *)
Definition stuck (cfg : config) (s : pstate) : Prop :=
  (p_free (s_pool s) = Some [] \/ p_free (s_pool s) = None) /\ s_lent s = [] /\ max_connections cfg <= p_num (s_pool s).
Definition get_refused (o : option (res nat)) : Prop := match o with Some (Ok _) => False | _ => True end.

Lemma stuck_step cfg mk s o : stuck cfg s -> (match o with PPut c => In c (s_lent s) | _ => True end) ->
  stuck cfg (fst (pstep cfg mk s o)) /\ get_refused (snd (pstep cfg mk s o)).
Proof.
  intros (F & L & N) Hl. destruct o as [dr|c| |c].
  - unfold pstep, get_conn, new_conn. destruct F as [F|F]; rewrite F.
    + destruct (block cfg); [|destruct (Z.leb_spec (max_connections cfg) (p_num (s_pool s))); [|lia]];
      (split; [split; [left; exact F|split; [exact L|exact N]]|exact I]).
    + split; [split; [right; exact F|split; [exact L|exact N]]|exact I].
  - rewrite L in Hl. destruct Hl.
  - split; [|exact I]. unfold pstep, pool_close. destruct F as [F|F]; rewrite F; cbn [fst].
    + split; [right; reflexivity|split; [exact L|exact N]].
    + split; [right; exact F|split; [exact L|exact N]].
  - split; [|exact I]. split; [exact F|split; [exact L|exact N]].
Qed.

Lemma stuck_run cfg mk ops : forall s, stuck cfg s -> lawful cfg mk s ops -> stuck cfg (prun cfg mk s ops).
Proof.
  induction ops as [|o ops IH]; intros s S L; [exact S|]. destruct L as [L1 L2]. cbn [prun]. apply IH; [|exact L2]. apply stuck_step; assumption.
Qed.

(** ** closed pools *)
Lemma shut_step cfg mk s o : p_free (s_pool s) = None ->
  p_free (s_pool (fst (pstep cfg mk s o))) = None /\ incl (s_lent (fst (pstep cfg mk s o))) (s_lent s) /\
  incl (p_closed (s_pool s)) (p_closed (s_pool (fst (pstep cfg mk s o)))) /\
  (forall dr, o = PGet dr -> snd (pstep cfg mk s o) = Some (Raise ClosedPoolError)) /\
  (forall c, o = PPut c -> In c (p_closed (s_pool (fst (pstep cfg mk s o))))).
Proof.
  intros F. destruct o as [dr|c| |c]; cbn [pstep].
  - unfold get_conn. rewrite F. cbn. split; [exact F|]. split; [intros x Hx; exact Hx|]. split; [intros x Hx; exact Hx|]. split; [reflexivity|discriminate].
  - unfold put_conn. rewrite F. cbn. split; [exact F|]. split; [intros x Hx; apply in_remove in Hx; apply Hx|].
    split; [intros x Hx; apply in_app_iff; left; exact Hx|]. split; [discriminate|]. intros c' [= <-]. apply in_app_iff. right. left. reflexivity.
  - unfold pool_close. rewrite F. cbn. split; [exact F|]. split; [intros x Hx; exact Hx|]. split; [intros x Hx; exact Hx|]. split; discriminate.
  - cbn. split; [exact F|]. split; [intros x Hx; exact Hx|]. split; [intros x Hx; exact Hx|]. split; discriminate.
Qed.

Lemma shut_run cfg mk ops : forall s, p_free (s_pool s) = None ->
  p_free (s_pool (prun cfg mk s ops)) = None /\ incl (s_lent (prun cfg mk s ops)) (s_lent s) /\
  incl (p_closed (s_pool s)) (p_closed (s_pool (prun cfg mk s ops))).
Proof.
  induction ops as [|o ops IH]; intros s F; [split; [exact F|split; intros x Hx; exact Hx]|]. cbn [prun].
  destruct (shut_step cfg mk s o F) as (F1 & I1 & I2 & _). destruct (IH _ F1) as (F2 & J1 & J2). split; [exact F2|].
  split; [exact (incl_tran J1 I1)|exact (incl_tran I2 J2)].
Qed.

Lemma close_all cfg mk s c : In c (free_conns (s_pool s)) -> In c (p_closed (s_pool (fst (pstep cfg mk s PClose)))).
Proof.
  unfold free_conns, pstep, pool_close. destruct (p_free (s_pool s)) as [q|]; [|intros []]. cbn. intros Hi. apply in_app_iff. right. exact Hi.
Qed.
Lemma close_shut cfg mk s : p_free (s_pool (fst (pstep cfg mk s PClose))) = None.
Proof. unfold pstep, pool_close. destruct (p_free (s_pool s)) eqn:F; cbn; [reflexivity|exact F]. Qed.

Lemma prun_app cfg mk a : forall s b, prun cfg mk s (a ++ b) = prun cfg mk (prun cfg mk s a) b.
Proof. induction a as [|o a IH]; intros s b; [reflexivity|]. cbn [prun app]. apply IH. Qed.

(** every connection that was free when the pool was closed or is given back afterwards has been closed *)
Lemma shut_given_back cfg mk post : forall s c, p_free (s_pool s) = None -> In (PPut c) post -> In c (p_closed (s_pool (prun cfg mk s post))).
Proof.
  induction post as [|o post IH]; intros s c F Hi; [destruct Hi|]. cbn [prun]. destruct (shut_step cfg mk s o F) as (F1 & _ & _ & _ & P).
  destruct Hi as [->|Hi]; [|exact (IH _ c F1 Hi)]. destruct (shut_run cfg mk post _ F1) as (_ & _ & J). apply J. exact (P c eq_refl).
Qed.

Lemma get_unlent cfg mk p ops dr c : build cfg mk = Built p -> lawful cfg mk (start_pool p) ops ->
  snd (pstep cfg mk (prun cfg mk (start_pool p) ops) (PGet dr)) = Some (Ok c) -> ~ In c (s_lent (prun cfg mk (start_pool p) ops)).
Proof.
  intros B L E Hi. destruct (build_ok _ _ _ B) as (G & _). pose proof (good_run cfg mk ops (start_pool p) G L) as G'.
  set (s := prun cfg mk (start_pool p) ops) in *. pose proof (good_step cfg mk s (PGet dr) G' I) as G2. cbn [pstep] in *.
  destruct (get_conn cfg mk (fun c => dr c || mem_nat c (s_user s)) (s_pool s)) as [p' r]. cbn [fst snd s_lent s_pool] in *.
  assert (r = Ok c) by congruence. subst r. pose proof (NoDup_app_r _ _ (g_nd _ _ _ G2)) as N. inversion N. contradiction.
Qed.

Lemma get_undropped cfg mk p ops dr c s' : build cfg mk = Built p -> lawful cfg mk (start_pool p) ops ->
  let s := prun cfg mk (start_pool p) ops in
  pstep cfg mk s (PGet dr) = (s', Some (Ok c)) -> dr c = false -> ~ In c (s_user s) -> ~ In c (p_closed (s_pool s)) ->
  ~ In c (p_closed (s_pool s')) /\ ~ In c (s_user s').
Proof.
  intros B L s E Hd Hu Hc. destruct (build_ok _ _ _ B) as (G & _). pose proof (good_run cfg mk ops (start_pool p) G L) as G'. fold s in G'.
  cbn [pstep] in E. destruct (get_conn cfg mk (fun c => dr c || mem_nat c (s_user s)) (s_pool s)) as [p' r] eqn:Eg.
  assert (r = Ok c) by congruence. subst r. assert (s' = {| s_pool := p'; s_lent := c :: s_lent s; s_user := s_user s |}) by congruence. subst s'. cbn [s_pool s_user].
  split; [|exact Hu]. apply (get_fresh _ _ _ _ _ _ _ G' Eg); [|exact Hc]. rewrite Hd. cbn [orb]. apply mem_nat_not. exact Hu.
Qed.

Lemma get_dropped_closed cfg mk dr p c q p' r : p_free p = Some (c :: q) -> dr c = true ->
  get_conn cfg mk dr p = (p', Ok r) -> r = c /\ In r (p_closed p').
Proof. intros F D E. destruct (get_dropped _ _ _ _ _ _ _ _ F E (or_introl D)) as [-> H]. auto. Qed.

Lemma new_conn_cases cfg mk p : (room cfg mk p /\ exists p', new_conn cfg mk p = (p', Ok (p_attempts p)) /\ p_free p' = p_free p) \/
  (~ room cfg mk p /\ exists p' e, new_conn cfg mk p = (p', Raise e) /\ e <> ClosedPoolError /\ p_free p' = p_free p /\ p_closed p' = p_closed p).
Proof.
  unfold new_conn, room. destruct (max_connections cfg <=? p_num p) eqn:M.
  - right. split; [lia|]. exists p, EmptyPoolError. repeat split; discriminate.
  - destruct (mk (p_attempts p)) eqn:K; [left|right].
    + split; [split; [lia|reflexivity]|]. eexists. split; reflexivity.
    + split; [intros [_ X]; discriminate|]. do 2 eexists. split; [reflexivity|]. repeat split; discriminate.
Qed.
Lemma get_exactly cfg mk dr p :
  ((exists c, snd (get_conn cfg mk dr p) = Ok c) <-> can_serve cfg mk p) /\
  (snd (get_conn cfg mk dr p) = Raise ClosedPoolError <-> p_free p = None) /\
  (forall c q, p_free p = Some (c :: q) -> ~ can_serve cfg mk p ->
     p_free (fst (get_conn cfg mk dr p)) = Some q /\ p_closed (fst (get_conn cfg mk dr p)) = p_closed p).
Proof.
  unfold can_serve, get_conn. destruct (p_free p) as [[|c q]|] eqn:F.
  - destruct (block cfg) eqn:B.
    + split; [split; [intros [c X]; discriminate X|intros [X _]; discriminate X]|]. split; [split; discriminate|]. intros c q X. discriminate X.
    + destruct (new_conn_cases cfg mk p) as [(R & p' & E & _)|(R & p' & e & E & N & _)]; rewrite E; cbn [fst snd].
      * split; [split; [intros _; split; [reflexivity|exact R]|intros _; eexists; reflexivity]|]. split; [split; discriminate|]. intros c q X. discriminate X.
      * split; [split; [intros [c X]; discriminate X|intros [_ X]; contradiction]|].
        split; [split; [intros [= X]; contradiction|discriminate]|]. intros c q X. discriminate X.
  - destruct (len q <? min_free cfg) eqn:M; cbn zeta beta iota.
    + assert (RR : room cfg mk (set_free p (Some q)) <-> room cfg mk p) by (unfold room; cbn [set_free p_num p_attempts]; tauto).
      destruct (new_conn_cases cfg mk (set_free p (Some q))) as [(R & p' & E & _)|(R & p' & e & E & N & G & H)]; rewrite E; cbn [fst snd].
      * destruct (dropped dr (put_conn cfg p' (p_attempts (set_free p (Some q)))) c); cbn [fst snd].
        all: split; [split; [intros _; right; tauto|intros _; eexists; reflexivity]|]; split; [split; discriminate|]; intros c0 q0 _ X; exfalso; apply X; right; tauto.
      * split; [split; [intros [x X]; discriminate X|intros [X|X]; [lia|tauto]]|].
        split; [split; [intros [= X]; contradiction|discriminate]|]. intros c0 q0 [= <- <-] _. split; [exact G|exact H].
    + destruct (dropped dr (set_free p (Some q)) c); cbn [fst snd].
      all: split; [split; [intros _; left; lia|intros _; eexists; reflexivity]|]; split; [split; discriminate|]; intros c0 q0 _ X; exfalso; apply X; left; lia.
  - cbn [fst snd]. split; [split; [intros [c X]; discriminate X|contradiction]|]. split; [split; reflexivity|]. intros c q X. discriminate X.
Qed.

Lemma get_succeeds cfg mk dr p :
  (forall c q, p_free p = Some (c :: q) -> min_free cfg <= len q \/ (p_num p < max_connections cfg /\ mk (p_attempts p) = true) ->
     exists p', get_conn cfg mk dr p = (p', Ok c)) /\
  (p_free p = Some [] -> block cfg = false -> p_num p < max_connections cfg -> mk (p_attempts p) = true ->
     exists p', get_conn cfg mk dr p = (p', Ok (p_attempts p))).
Proof. split; [intros c q; apply get_free|apply get_new]. Qed.

Lemma close_releases cfg mk s post :
  let s1 := fst (pstep cfg mk s PClose) in
  let s2 := prun cfg mk s1 post in
  (forall c, In c (free_conns (s_pool s)) -> In c (p_closed (s_pool s1))) /\
  (forall c, In (PPut c) post -> In c (p_closed (s_pool s2))) /\
  (forall dr, snd (pstep cfg mk s2 (PGet dr)) = Some (Raise ClosedPoolError)) /\
  incl (s_lent s2) (s_lent s) /\ free_conns (s_pool s2) = [].
Proof.
  cbn zeta. pose proof (close_shut cfg mk s) as F. destruct (shut_run cfg mk post _ F) as (F2 & I1 & _). split; [intros c; apply close_all|].
  split; [intros c; apply shut_given_back; exact F|]. split; [intros dr; destruct (shut_step cfg mk _ (PGet dr) F2) as (_ & _ & _ & Q & _); exact (Q dr eq_refl)|].
  split; [intros x Hx; exact (I1 x Hx)|]. unfold free_conns. rewrite F2. reflexivity.
Qed.

Lemma close_left_open cfg mk s post c :
  let s2 := prun cfg mk (fst (pstep cfg mk s PClose)) post in is_open s2 c -> In c (s_lent s) /\ ~ In (PPut c) post.
Proof.
  destruct (close_releases cfg mk s post) as (_ & R2 & _ & R4 & R5). intros s2 ([Hf|Hl] & Hc & _).
  - unfold s2 in Hf. rewrite R5 in Hf. destruct Hf.
  - split; [exact (R4 _ Hl)|]. intros Hp. exact (Hc (R2 c Hp)).
Qed.

Lemma second_close p p' r : pool_close p = (p', r) -> pool_close p' = (p', Raise AttributeError).
Proof. unfold pool_close. destruct (p_free p) as [q|] eqn:F; intros [= <- <-]; [reflexivity|rewrite F; reflexivity]. Qed.

Lemma put_means cfg p c :
  (forall q, p_free p = Some q -> max_free cfg <= 0 \/ len q < max_free cfg -> p_free (put_conn cfg p c) = Some (c :: q) /\ p_closed (put_conn cfg p c) = p_closed p) /\
  (p_free p = None \/ (exists q, p_free p = Some q /\ 0 < max_free cfg <= len q) -> p_free (put_conn cfg p c) = p_free p /\ p_closed (put_conn cfg p c) = p_closed p ++ [c]).
Proof.
  unfold put_conn, q_full. split.
  - intros q -> H. replace ((0 <? max_free cfg) && (max_free cfg <=? len q)) with false by lia. split; reflexivity.
  - intros [E|(q & E & H)]; rewrite E; [split; [exact E|reflexivity]|]. replace ((0 <? max_free cfg) && (max_free cfg <=? len q)) with true by lia. split; [exact E|reflexivity].
Qed.

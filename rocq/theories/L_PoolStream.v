(** Lemmas behind C105. *)
From Coq Require Import Lia.
From Verif Require Import PyBase L_PyBase PyDict M_ConnPool S_Pool L_ConnPool M_PoolStream S_PoolStream.
Open Scope nat_scope.

Lemma u_run_snoc cfg mk p l o : u_run cfg mk p (l ++ [o]) = ustep_do cfg mk o (u_run cfg mk p l).
Proof. unfold u_run. rewrite fold_left_app. reflexivity. Qed.
Lemma upd_use_same u f l x : nth_error l u = Some x -> nth_error (upd_use u f l) u = Some (f x).
Proof. revert u. induction l as [|y l IH]; intros [|u] H; cbn in *; try discriminate; [congruence|apply IH; exact H]. Qed.
Lemma upd_use_other u f l v : v <> u -> nth_error (upd_use u f l) v = nth_error l v.
Proof. revert u v. induction l as [|y l IH]; intros [|u] [|v] N; cbn; auto; congruence. Qed.

Lemma put_closed cfg p c x : In x (p_closed p) -> In x (p_closed (put_conn cfg p c)).
Proof. unfold put_conn. destruct (p_free p) as [q|]; [destruct (q_full cfg q)|]; cbn; auto; intros H; apply in_or_app; auto. Qed.
Lemma new_facts cfg mk p p1 r : new_conn cfg mk p = (p1, r) -> p_closed p1 = p_closed p /\ (p_attempts p <= p_attempts p1) /\ p_free p1 = p_free p /\ (forall c, r = Ok c -> c = p_attempts p).
Proof. unfold new_conn. destruct (_ <=? _)%Z; [intros [= <- <-]; repeat split; auto; discriminate|]. destruct (mk _); intros [= <- <-]; cbn; repeat split; auto; try discriminate. congruence. Qed.
(** a connection that is handed out is new, or closed, or has nothing to be read *)
Lemma get_facts cfg mk dr p p' r : get_conn cfg mk dr p = (p', r) ->
  p_attempts p <= p_attempts p' /\ (forall x, In x (p_closed p) -> In x (p_closed p')) /\
  (forall c, r = Ok c -> c = p_attempts p \/ In c (p_closed p') \/ dr c = false).
Proof.
  intros E. destruct (p_free p) as [[|c q]|] eqn:Ef.
  - unfold get_conn in E. rewrite Ef in E. destruct (block cfg); [injection E as <- <-; repeat split; auto; discriminate|].
    destruct (new_facts _ _ _ _ _ E) as (A & B & _ & C). rewrite A. repeat split; auto.
  - rewrite (get_unfold _ _ _ _ _ _ Ef) in E. destruct (refill cfg mk q (set_free p (Some q))) as [p1 r1] eqn:Er.
    assert (F : p_attempts p <= p_attempts p1 /\ forall x, In x (p_closed p) -> In x (p_closed p1)).
    { unfold refill in Er. destruct (_ <? _)%Z; [|injection Er as <- <-; auto]. destruct (new_conn cfg mk (set_free p (Some q))) as [p2 [n|e]] eqn:En; destruct (new_facts _ _ _ _ _ En) as (A & B & _); injection Er as <- <-.
      - rewrite put_attempts. split; [exact B|]. intros x Hx. apply put_closed. rewrite A. exact Hx.
      - rewrite A. split; [exact B|auto]. }
    destruct F as (F1 & F2). destruct r1 as [u|e]; [|injection E as <- <-; repeat split; auto; discriminate].
    destruct (dropped dr p1 c) eqn:D; injection E as <- <-; cbn; (split; [exact F1|split]).
    + intros x Hx. apply in_or_app. auto.
    + intros x [= <-]. right. left. apply in_or_app. right. left. reflexivity.
    + exact F2.
    + intros x [= <-]. right. right. unfold dropped in D. apply orb_false_iff in D as (D & _). exact D.
  - unfold get_conn in E. rewrite Ef in E. injection E as <- <-. repeat split; auto; discriminate.
Qed.

Lemma upd_use_get u f l v y : nth_error (upd_use u f l) v = Some y -> (v <> u /\ nth_error l v = Some y) \/ (v = u /\ exists x, nth_error l u = Some x /\ y = f x).
Proof.
  intros H. destruct (Nat.eq_dec v u) as [->|N]; [right|left; rewrite upd_use_other in H by exact N; auto]. split; [reflexivity|].
  destruct (nth_error l u) as [x|] eqn:E; [exists x; rewrite (upd_use_same _ _ _ _ E) in H; split; congruence|]. exfalso. assert (L : length (upd_use u f l) = length l) by (clear; revert u; induction l as [|y l IH]; intros [|u]; cbn; auto).
  apply nth_error_None in E. assert (u < length (upd_use u f l)) by (apply nth_error_Some; congruence). lia.
Qed.
Lemma nth_snoc {A} (l : list A) a i x : nth_error (l ++ [a]) i = Some x -> nth_error l i = Some x \/ (i = length l /\ x = a).
Proof.
  intros H. destruct (Nat.lt_ge_cases i (length l)) as [L|L]; [rewrite nth_error_app1 in H by exact L; auto|]. rewrite nth_error_app2 in H by exact L.
  destruct (i - length l) as [|k] eqn:E; [right; split; [lia|cbn in H; congruence]|destruct k; discriminate].
Qed.

Record uinv (cfg : config) (s : ustate) : Prop := {
  ui_good : good cfg (s_pool (u_pool s)) (s_lent (u_pool s));
  ui_lent : forall u x, nth_error (u_uses s) u = Some x -> v_over x = false -> In (v_conn x) (s_lent (u_pool s));
  ui_one : forall u v x y, nth_error (u_uses s) u = Some x -> nth_error (u_uses s) v = Some y -> v_over x = false -> v_over y = false -> v_conn x = v_conn y -> u = v;
  ui_lt : forall u x, nth_error (u_uses s) u = Some x -> v_conn x < p_attempts (s_pool (u_pool s));
  ui_new : forall c, p_attempts (s_pool (u_pool s)) <= c -> f_flight (u_str s c) = [] /\ f_unread (u_str s c) = [] }.

Lemma uinv_start cfg mk p : build cfg mk = Built p -> uinv cfg (u_start p).
Proof. intros B. destruct (build_ok _ _ _ B) as (G & _). constructor; cbn; auto; intros [|u]; discriminate. Qed.
Lemma close_facts p : p_attempts (fst (pool_close p)) = p_attempts p.
Proof. unfold pool_close. destruct (p_free p); reflexivity. Qed.
(** a step of the pool that leaves the uses and the streams alone *)
Lemma uinv_pool cfg s p : uinv cfg s -> good cfg (s_pool p) (s_lent p) -> (forall c, In c (s_lent (u_pool s)) -> In c (s_lent p)) -> p_attempts (s_pool (u_pool s)) <= p_attempts (s_pool p) -> uinv cfg (with_pool p s).
Proof.
  intros [A B C D E] G L H. constructor; cbn; auto.
  - intros u x Hu Ho. eauto.
  - intros u x Hu. specialize (D u x Hu). lia.
  - intros c Hc. apply E. lia.
Qed.
Lemma uinv_stream cfg s c f : uinv cfg s -> (p_attempts (s_pool (u_pool s)) <= c -> f_flight (f (u_str s c)) = [] /\ f_unread (f (u_str s c)) = []) -> uinv cfg (with_stream c f s).
Proof. intros [A B C D E] H. constructor; cbn; auto. intros x Hx. destruct (Nat.eqb_spec x c) as [->|N]; auto. Qed.
Lemma uinv_use cfg s u f : uinv cfg s -> (forall x, v_conn (f x) = v_conn x /\ (v_over (f x) = false -> v_over x = false)) -> uinv cfg (with_use u f s).
Proof.
  intros [A B C D E] H.
  assert (K : forall v y, nth_error (upd_use u f (u_uses s)) v = Some y -> exists x, nth_error (u_uses s) v = Some x /\ v_conn x = v_conn y /\ (v_over y = false -> v_over x = false)).
  { intros v y Hv. apply upd_use_get in Hv as [(_ & Hv)|(-> & x & Hx & ->)]; [eauto|]. exists x. destruct (H x) as (H1 & H2). auto. }
  constructor; cbn; auto.
  - intros v y Hv Ho. destruct (K v y Hv) as (x & Hx & Ec & Eo). rewrite <- Ec. eauto.
  - intros v w x y Hv Hw Hx Hy Ec. destruct (K v x Hv) as (x' & Hx' & Ec1 & Eo1). destruct (K w y Hw) as (y' & Hy' & Ec2 & Eo2). apply (C v w x' y'); auto; congruence.
  - intros v y Hv. destruct (K v y Hv) as (x & Hx & <- & _). eauto.
Qed.
Lemma pget_lent cfg mk dr s s' r : pstep cfg mk s (PGet dr) = (s', r) -> s_lent s' = match r with Some (Ok c) => c :: s_lent s | _ => s_lent s end.
Proof. cbn. destruct (get_conn cfg mk _ (s_pool s)) as [p [c|e]]; intros [= <- <-]; reflexivity. Qed.
Lemma pget_facts cfg mk dr s s' r : pstep cfg mk s (PGet dr) = (s', r) ->
  p_attempts (s_pool s) <= p_attempts (s_pool s') /\ (forall x, In x (p_closed (s_pool s)) -> In x (p_closed (s_pool s'))) /\ s_user s' = s_user s /\
  forall c, r = Some (Ok c) -> c = p_attempts (s_pool s) \/ In c (p_closed (s_pool s')) \/ dr c = false.
Proof.
  cbn. destruct (get_conn cfg mk _ (s_pool s)) as [p r0] eqn:E. intros [= <- <-]. destruct (get_facts _ _ _ _ _ _ E) as (A & B & C). cbn. repeat split; auto.
  intros c [= ->]. destruct (C c eq_refl) as [H|[H|H]]; auto. apply orb_false_iff in H as (H & _). auto.
Qed.

Lemma uinv_step cfg mk o s : uinv cfg s -> uinv cfg (ustep_do cfg mk o s).
Proof.
  intros I. destruct o as [|u bs|c n|c|u n|u|u|]; cbn [ustep_do].
  - destruct (pstep cfg mk (u_pool s) (PGet _)) as [p r] eqn:E. pose proof (good_step cfg mk (u_pool s) (PGet (fun c => readable (u_str s c))) (ui_good _ _ I) Logic.I) as G. rewrite E in G. cbn [fst] in G.
    destruct (pget_facts _ _ _ _ _ _ E) as (F1 & _ & _ & _). pose proof (pget_lent _ _ _ _ _ _ E) as Lp.
    assert (J : uinv cfg (with_pool p s)) by (apply uinv_pool; auto; rewrite Lp; destruct r as [[c|e]|]; cbn; auto).
    destruct r as [[c|e]|]; [|exact J|exact J]. destruct J as [A B C D X]. cbn in *.
    assert (Hc : In c (s_lent p)) by (rewrite Lp; left; reflexivity).
    assert (Hn : forall u x, nth_error (u_uses s) u = Some x -> v_over x = false -> v_conn x <> c).
    { intros u x Hu Ho Ec. pose proof (ui_lent _ _ I u x Hu Ho) as H. rewrite Ec in H. pose proof (g_nd _ _ _ G) as N. rewrite Lp in N. clear - H N. induction (free_conns (s_pool p)) as [|y l IH]; cbn in N; [inversion N; contradiction|inversion N; auto]. }
    constructor; cbn; auto.
    + intros u x Hu Ho. apply nth_snoc in Hu as [Hu|(_ & ->)]; [eauto|exact Hc].
    + intros u v x y Hu Hv Hx Hy Ec. apply nth_snoc in Hu as [Hu|(-> & ->)]; apply nth_snoc in Hv as [Hv|(-> & ->)]; cbn in *; [eauto|exfalso; exact (Hn _ _ Hu Hx Ec)|exfalso; apply (Hn _ _ Hv Hy); congruence|reflexivity].
    + intros u x Hu. apply nth_snoc in Hu as [Hu|(_ & ->)]; [eauto|]. cbn. apply (g_lt _ _ _ G). apply in_or_app. right. exact Hc.
  - destruct (nth_error (u_uses s) u) as [x|] eqn:E; [|exact I]. apply uinv_stream; [exact I|]. intros H. pose proof (ui_lt _ _ I u x E). lia.
  - apply uinv_stream; [exact I|]. intros H. destruct (ui_new _ _ I c H) as (A & B). cbn. rewrite A, B, firstn_nil, skipn_nil. auto.
  - apply uinv_stream; [exact I|]. intros H. exact (ui_new _ _ I c H).
  - destruct (nth_error (u_uses s) u) as [x|] eqn:E; [|exact I]. destruct (v_over x || shut s (v_conn x)); [exact I|]. apply uinv_stream; [apply uinv_use; [exact I|auto]|].
    cbn. intros H. destruct (ui_new _ _ I _ H) as (A & B). rewrite A, B, skipn_nil. auto.
  - destruct (nth_error (u_uses s) u) as [x|] eqn:E; [|exact I]. destruct (v_over x) eqn:O; [exact I|]. pose proof (ui_lent _ _ I u x E O) as Hl.
    pose proof (good_step cfg mk (u_pool s) (PPut (v_conn x)) (ui_good _ _ I) Hl) as G. destruct I as [A B C D X]. set (p := fst (pstep cfg mk (u_pool s) (PPut (v_conn x)))) in *.
    assert (At : p_attempts (s_pool p) = p_attempts (s_pool (u_pool s))) by apply put_attempts.
    assert (K : forall v y, nth_error (upd_use u ends (u_uses s)) v = Some y -> exists z, nth_error (u_uses s) v = Some z /\ v_conn z = v_conn y /\ (v_over y = false -> v_over z = false /\ v <> u)).
    { intros v y Hv. apply upd_use_get in Hv as [(N & Hv)|(-> & z & Hz & ->)]; [exists y; auto|]. exists z. cbn. split; [exact Hz|split; [reflexivity|discriminate]]. }
    constructor; cbn [u_pool u_str u_uses with_use with_pool]; auto.
    + intros v y Hv Ho. destruct (K v y Hv) as (z & Hz & Ec & Eo). destruct (Eo Ho) as (Oz & N). rewrite <- Ec. cbn. apply in_in_remove; [|eauto]. intros Ev. apply N. apply (C v u z x); auto.
    + intros v w y y' Hv Hw Hy Hy' Ec. destruct (K v y Hv) as (z & Hz & Ec1 & Eo1). destruct (K w y' Hw) as (z' & Hz' & Ec2 & Eo2). apply (C v w z z'); auto; [apply Eo1; auto|apply Eo2; auto|congruence].
    + intros v y Hv. destruct (K v y Hv) as (z & Hz & <- & _). rewrite At. eauto.
    + intros c Hc. rewrite At in Hc. auto.
  - destruct (nth_error (u_uses s) u) as [x|] eqn:E; [|exact I]. destruct (v_over x); [exact I|]. apply uinv_pool; auto. exact (ui_good _ _ I).
  - apply uinv_pool; auto.
    + exact (good_step cfg mk (u_pool s) PClose (ui_good _ _ I) Logic.I).
    + cbn. rewrite close_facts. auto.
Qed.
Lemma uinv_run cfg mk p l : build cfg mk = Built p -> uinv cfg (u_run cfg mk p l).
Proof. intros B. induction l as [|o l IH] using rev_ind; [exact (uinv_start _ _ _ B)|rewrite u_run_snoc; apply uinv_step; exact IH]. Qed.

(** ** When a connection is handed out *)
Lemma shut_In s c : shut s c = true <-> In c (p_closed (s_pool (u_pool s))) \/ In c (s_user (u_pool s)).
Proof. unfold shut. rewrite orb_true_iff, !mem_nat_In. reflexivity. Qed.
Lemma get_nothing_waiting cfg mk p l c : build cfg mk = Built p -> let s := u_run cfg mk p l in let s' := ustep_do cfg mk UGet s in
  has s' (length (u_uses s)) c -> shut s' c = true \/ f_unread (u_str s' c) = [].
Proof.
  intros Bu. cbv zeta. set (s := u_run cfg mk p l). pose proof (uinv_run cfg mk p l Bu) as I. fold s in I. cbn [ustep_do]. destruct (pstep cfg mk (u_pool s) (PGet _)) as [q r] eqn:E.
  destruct (pget_facts _ _ _ _ _ _ E) as (_ & _ & _ & F). assert (N : nth_error (u_uses s) (length (u_uses s)) = None) by (apply nth_error_None; lia).
  destruct r as [[d|e]|]; intros (x & Hx & Hc & _); cbn in Hx; [|congruence|congruence]. apply nth_snoc in Hx as [Hx|(_ & ->)]; [congruence|]. cbn in Hc. subst d.
  destruct (F c eq_refl) as [H|[H|H]].
  - right. subst c. exact (proj2 (ui_new _ _ I _ (Nat.le_refl _))).
  - left. apply shut_In. left. exact H.
  - right. cbn. unfold readable in H. destruct (f_unread (u_str s c)); [reflexivity|discriminate].
Qed.

(** ** Own bytes *)
Definition own (u : nat) (l : list (nat * byte)) : Prop := Forall (fun b => fst b = u) l.
Record oinv (s : ustate) : Prop := {
  oi_unread : forall u c, has s u c -> shut s c = true \/ own u (f_unread (u_str s c));
  oi_read : forall u x, nth_error (u_uses s) u = Some x -> own u (v_read x) }.
Lemma timely_pre cfg mk p l o : timely cfg mk p (l ++ [o]) -> timely cfg mk p l.
Proof. intros T l1 c n l2 ->. apply (T l1 c n (l2 ++ [o])). rewrite <- app_assoc. reflexivity. Qed.
Lemma shut_more s p c : (forall x, In x (p_closed (s_pool (u_pool s))) -> In x (p_closed (s_pool p))) -> (forall x, In x (s_user (u_pool s)) -> In x (s_user p)) -> shut s c = true -> shut (with_pool p s) c = true.
Proof. rewrite !shut_In. cbn. intros A B [H|H]; auto. Qed.
Lemma own_firstn u n l : own u l -> own u (firstn n l).
Proof. unfold own. rewrite !Forall_forall. intros H b Hb. apply H. rewrite <- (firstn_skipn n l). apply in_or_app. auto. Qed.
Lemma own_skipn u n l : own u l -> own u (skipn n l).
Proof. unfold own. rewrite !Forall_forall. intros H b Hb. apply H. rewrite <- (firstn_skipn n l). apply in_or_app. auto. Qed.
Lemma oinv_run cfg mk p l : build cfg mk = Built p -> timely cfg mk p l -> oinv (u_run cfg mk p l).
Proof.
  intros Bu. induction l as [|o l IH] using rev_ind; intros T; [constructor; [intros u c (x & Hx & _); destruct u; discriminate|intros [|u]; discriminate]|].
  specialize (IH (timely_pre _ _ _ _ _ T)). pose proof (uinv_run cfg mk p l Bu) as I. pose proof (get_nothing_waiting cfg mk p l) as W. rewrite u_run_snoc.
  specialize (T l). set (s := u_run cfg mk p l) in *. destruct IH as [A B].
  destruct o as [|u bs|c n|c|u n|u|u|].
  - assert (K : forall v c, has (ustep_do cfg mk UGet s) v c -> has s v c \/ v = length (u_uses s)).
    { cbn [ustep_do]. destruct (pstep cfg mk (u_pool s) (PGet _)) as [q [[d|e]|]]; intros v c (x & Hx & R); cbn in Hx; [|left; exists x; auto..]. apply nth_snoc in Hx as [Hx|(-> & _)]; [left; exists x; auto|auto]. }
    assert (M : forall c, u_str (ustep_do cfg mk UGet s) c = u_str s c /\ (shut s c = true -> shut (ustep_do cfg mk UGet s) c = true)).
    { intros c. cbn [ustep_do]. destruct (pstep cfg mk (u_pool s) (PGet _)) as [q r] eqn:E. destruct (pget_facts _ _ _ _ _ _ E) as (_ & F & Us & _).
      assert (X : shut s c = true -> shut (with_pool q s) c = true) by (apply shut_more; [exact F|rewrite Us; auto]). destruct r as [[d|e]|]; split; auto. }
    constructor.
    + intros v c H. destruct (M c) as (M1 & M2). destruct (K v c H) as [H'|Ev].
      * rewrite M1. destruct (A v c H') as [S'|O]; auto.
      * subst v. destruct (W c Bu H) as [S'|O]; [left; exact S'|right]. rewrite O. constructor.
    + intros v x. cbn [ustep_do]. destruct (pstep cfg mk (u_pool s) (PGet _)) as [q [[d|e]|]]; cbn; [|apply B..]. intros Hx. apply nth_snoc in Hx as [Hx|(_ & ->)]; [eauto|constructor].
  - cbn [ustep_do]. destruct (nth_error (u_uses s) u) as [x|]; [|split; assumption]. constructor; [|exact B]. intros v c H. cbn. destruct (Nat.eqb c (v_conn x)); exact (A v c H).
  - cbn [ustep_do]. constructor; [|exact B]. intros v d H. cbn. destruct (Nat.eqb_spec d c) as [->|N]; [|exact (A v d H)]. destruct (A v c H) as [S'|O]; [left; exact S'|right]. cbn. apply Forall_app. split; [exact O|].
    exact (T c n [] eq_refl v H).
  - cbn [ustep_do]. constructor; [|exact B]. intros v d H. cbn. destruct (Nat.eqb d c); exact (A v d H).
  - cbn [ustep_do]. destruct (nth_error (u_uses s) u) as [x|] eqn:E; [|split; assumption]. destruct (v_over x || shut s (v_conn x)) eqn:O; [split; assumption|]. apply orb_false_iff in O as (Ov & Os).
    assert (Ou : own u (f_unread (u_str s (v_conn x)))) by (destruct (A u (v_conn x)) as [S'|O]; [exists x; auto|congruence|exact O]).
    constructor.
    + intros v d (y & Hy & Hc & Ho). cbn in Hy. assert (H : has s v d) by (apply upd_use_get in Hy as [(_ & Hy)|(-> & z & Hz & ->)]; [exists y; auto|exists z; cbn in *; auto]).
      cbn. destruct (Nat.eqb d (v_conn x)); [|exact (A v d H)]. destruct (A v d H) as [S'|O]; [left; exact S'|right; apply own_skipn; exact O].
    + intros v y Hy. cbn in Hy. apply upd_use_get in Hy as [(_ & Hy)|(-> & z & Hz & ->)]; [exact (B _ _ Hy)|]. cbn. apply Forall_app. split; [exact (B _ _ Hz)|apply own_firstn; exact Ou].
  - cbn [ustep_do]. destruct (nth_error (u_uses s) u) as [x|] eqn:E; [|split; assumption]. destruct (v_over x); [split; assumption|]. constructor.
    + intros v d (y & Hy & Hc & Ho). cbn in Hy. assert (H : has s v d) by (apply upd_use_get in Hy as [(_ & Hy)|(-> & z & Hz & ->)]; [exists y; auto|discriminate Ho]).
      destruct (A v d H) as [S'|O]; [left|right; exact O]. apply shut_In in S'. apply shut_In. cbn. destruct S' as [S'|S']; [left; apply put_closed; exact S'|auto].
    + intros v y Hy. cbn in Hy. apply upd_use_get in Hy as [(_ & Hy)|(-> & z & Hz & ->)]; [exact (B _ _ Hy)|exact (B _ _ Hz)].
  - cbn [ustep_do]. destruct (nth_error (u_uses s) u) as [x|] eqn:E; [|split; assumption]. destruct (v_over x); [split; assumption|]. constructor; [|exact B].
    intros v d H. destruct (A v d H) as [S'|O]; [left|right; exact O]. apply (shut_more s _ d); [auto| |exact S']. cbn. auto.
  - cbn [ustep_do]. constructor; [|exact B]. intros v d H. destruct (A v d H) as [S'|O]; [left|right; exact O]. apply (shut_more s _ d); [|auto|exact S']. cbn. unfold pool_close. destruct (p_free (s_pool (u_pool s))); cbn; auto.
    intros y Hy. apply in_or_app. auto.
Qed.
Lemma own_bytes cfg mk p l u bs : build cfg mk = Built p -> timely cfg mk p l -> has_read (u_run cfg mk p l) u bs -> Forall (fun b => fst b = u) bs.
Proof. intros B T (x & Hx & <-). exact (oi_read _ (oinv_run cfg mk p l B T) u x Hx). Qed.

(** ** A late answer *)
Lemma late_read mk p bs : (forall n, mk n = true) -> build usual mk = Built p -> has_read (u_run usual mk p (late bs)) 1 (map (pair 0) bs).
Proof.
  intros M B. unfold build in B. cbn in B. unfold new_conn in B. cbn in B. rewrite (M 0) in B. cbn in B. injection B as <-. unfold u_run, late. cbn [fold_left].
  set (s3 := ustep_do usual mk UGet _). assert (E : exists p3, s3 = {| u_pool := p3; u_str := fun _ => no_stream; u_uses := [{| v_conn := 0; v_over := true; v_read := [] |}; {| v_conn := 0; v_over := false; v_read := [] |}] |} /\ p_closed (s_pool p3) = [] /\ s_user p3 = []).
  { subst s3. unfold ustep_do at 3. cbn. unfold new_conn. cbn. rewrite (M 1). cbn. eexists. split; [reflexivity|]. split; reflexivity. }
  destruct E as (p3 & -> & C & U). cbn. unfold shut. cbn. rewrite C, U. cbn. eexists. split; [reflexivity|]. cbn.
  rewrite <- (map_length (pair 0) bs), !firstn_all. reflexivity.
Qed.

(** ** Connections that their peer has closed *)
Lemma attempts_grow cfg mk o s : p_attempts (s_pool (u_pool s)) <= p_attempts (s_pool (u_pool (ustep_do cfg mk o s))).
Proof.
  destruct o as [|u bs|c n|c|u n|u|u|]; cbn [ustep_do]; try (cbn; lia).
  - destruct (pstep cfg mk (u_pool s) (PGet _)) as [q r] eqn:E. destruct (pget_facts _ _ _ _ _ _ E) as (F & _). destruct r as [[d|e]|]; cbn; exact F.
  - destruct (nth_error (u_uses s) u); cbn; lia.
  - destruct (nth_error (u_uses s) u) as [x|]; [|lia]. destruct (_ || _); cbn; lia.
  - destruct (nth_error (u_uses s) u) as [x|]; [|lia]. destruct (v_over x); [lia|]. cbn. rewrite put_attempts. lia.
  - destruct (nth_error (u_uses s) u) as [x|]; [|lia]. destruct (v_over x); cbn; lia.
  - cbn. rewrite close_facts. lia.
Qed.
Lemma eof_stays cfg mk o s c : f_eof (u_str s c) = true -> f_eof (u_str (ustep_do cfg mk o s) c) = true.
Proof.
  intros H. destruct o as [|u bs|d n|d|u n|u|u|]; cbn [ustep_do].
  - destruct (pstep cfg mk (u_pool s) (PGet _)) as [q [[d|e]|]]; exact H.
  - destruct (nth_error (u_uses s) u); [|exact H]. cbn. destruct (Nat.eqb c _); exact H.
  - cbn. destruct (Nat.eqb c d); exact H.
  - cbn. destruct (Nat.eqb c d); [reflexivity|exact H].
  - destruct (nth_error (u_uses s) u) as [x|]; [|exact H]. destruct (_ || _); [exact H|]. cbn. destruct (Nat.eqb c _); exact H.
  - destruct (nth_error (u_uses s) u) as [x|]; [|exact H]. destruct (v_over x); exact H.
  - destruct (nth_error (u_uses s) u) as [x|]; [|exact H]. destruct (v_over x); exact H.
  - exact H.
Qed.
Lemma closed_made cfg mk p l : closes_made cfg mk p l -> forall c, In (UFin c) l -> f_eof (u_str (u_run cfg mk p l) c) = true /\ c < p_attempts (s_pool (u_pool (u_run cfg mk p l))).
Proof.
  induction l as [|o l IH] using rev_ind; intros M c H; [destruct H|]. rewrite u_run_snoc. apply in_app_or in H as [H|[->|[]]].
  - destruct (IH ltac:(intros l1 d l2 ->; apply (M l1 d (l2 ++ [o])); rewrite <- app_assoc; reflexivity) c H) as (A & B). split; [apply eof_stays; exact A|]. pose proof (attempts_grow cfg mk o (u_run cfg mk p l)). lia.
  - specialize (M l c [] eq_refl). split; [cbn; rewrite Nat.eqb_refl; reflexivity|exact M].
Qed.
Lemma get_not_ended cfg mk p l c : build cfg mk = Built p -> closes_made cfg mk p l -> let s := u_run cfg mk p l in let s' := ustep_do cfg mk UGet s in
  has s' (length (u_uses s)) c -> In (UFin c) l -> shut s' c = true.
Proof.
  intros Bu M. cbv zeta. intros Hh H. destruct (closed_made cfg mk p l M c H) as (A & B). set (s := u_run cfg mk p l) in *. cbn [ustep_do] in *. destruct (pstep cfg mk (u_pool s) (PGet _)) as [q r] eqn:E.
  destruct (pget_facts _ _ _ _ _ _ E) as (_ & _ & _ & F). assert (N : nth_error (u_uses s) (length (u_uses s)) = None) by (apply nth_error_None; lia).
  destruct r as [[d|e]|]; destruct Hh as (x & Hx & Hc & _); cbn in Hx; [|congruence|congruence]. apply nth_snoc in Hx as [Hx|(_ & ->)]; [congruence|]. cbn in Hc. subst d.
  destruct (F c eq_refl) as [X|[X|X]]; [lia|apply shut_In; left; exact X|]. exfalso. unfold readable in X. destruct (f_unread (u_str s c)); [congruence|discriminate].
Qed.

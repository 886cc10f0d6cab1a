(** Lemmas behind C98. *)
From Coq Require Import ZifyBool.
From Verif Require Import PyBase L_PyBase M_ConnPool S_Pool L_ConnPool M_PoolThreads S_PoolThreads L_PoolThreads S_PoolLimit.

(** ** With care the limit holds *)
(** connections on their way with a thread, without the one it is about to close *)
Definition act (p : tpc) : list nat := match p with PClose k _ => match k with ToCaller => [] | ToGet d => [d] end | _ => pc_conns p end.
(** those that are not closed *)
Definition hot (p : tpc) : list nat := match p with GLock _ | GDecLoad _ | GDecStore _ _ => [] | _ => pc_conns p end.
Definition live (s : ts) (c : nat) : Prop := ~ In c (h_closed s) /\ (In c (h_queue s) \/ exists i t, nth_error (h_threads s) i = Some t /\ In c (t_lent t ++ act (t_pc t))).
(** counted, and not yet or no longer there *)
Definition pend1 (p : tpc) : Z := match p with NMake _ | GLock _ | GDecLoad _ | GDecStore _ _ => 1 | _ => 0 end.
Fixpoint pend (l : list thr) : Z := match l with [] => 0 | t :: r => pend1 (t_pc t) + pend r end.
Lemma pend_updt i t t' l : nth_error l i = Some t -> pend (updt i t' l) = pend l + pend1 (t_pc t') - pend1 (t_pc t).
Proof. revert l. induction i; intros [|z l] H; try discriminate; cbn in *; [injection H as ->; lia|]. specialize (IHi l H). lia. Qed.

Definition counted (s : ts) : Prop := forall x, NoDup x -> (forall c, In c x -> live s c) -> len x + pend (h_threads s) <= h_num s.
Definition fresh_ones (s : ts) : Prop := (forall c, In c (h_queue s) -> ~ In c (h_closed s)) /\ forall i t c, nth_error (h_threads s) i = Some t -> In c (hot (t_pc t)) -> ~ In c (h_closed s).
Definition stored (cfg : config) (s : ts) (p : tpc) : Prop :=
  match p with
  | NLoad _ => h_num s < max_connections cfg
  | NStore _ v => v = h_num s + 1 /\ h_num s < max_connections cfg
  | PDecStore _ _ v | GDecStore _ v => v = h_num s - 1
  | _ => True
  end.
Definition below (cfg : config) (s : ts) : Prop := h_num s <= Z.max 0 (max_connections cfg) /\ forall i t, nth_error (h_threads s) i = Some t -> stored cfg s (t_pc t).

Lemma counted_keep s s' : counted s -> (forall c, live s' c -> live s c) -> h_num s - pend (h_threads s) <= h_num s' - pend (h_threads s') -> counted s'.
Proof. intros K L H x Nd Hx. specialize (K x Nd (fun c Hc => L c (Hx c Hc))). lia. Qed.
Lemma counted_less s s' d : counted s -> (forall c, live s' c -> live s c /\ c <> d) -> live s d -> h_num s - pend (h_threads s) - 1 <= h_num s' - pend (h_threads s') -> counted s'.
Proof.
  intros K L Hd H x Nd Hx. assert (Nd' : NoDup (d :: x)) by (constructor; [intros Hi; exact (proj2 (L d (Hx d Hi)) eq_refl)|exact Nd]).
  specialize (K (d :: x) Nd'). rewrite len_cons in K. enough (len x + 1 + pend (h_threads s) <= h_num s) by lia. apply K. intros c [<-|Hc]; [exact Hd|exact (proj1 (L c (Hx c Hc)))].
Qed.
Lemma len_remove d x : NoDup x -> len x <= len (remove Nat.eq_dec d x) + 1.
Proof.
  induction 1 as [|a x Na Nd IH]; cbn [remove]; [unfold len; cbn; lia|]. destruct (Nat.eq_dec d a) as [->|Ne]; rewrite ?len_cons; [|lia].
  rewrite notin_remove by exact Na. lia.
Qed.
Lemma NoDup_remove' d (x : list nat) : NoDup x -> NoDup (remove Nat.eq_dec d x).
Proof. induction 1 as [|a x Na Nd IH]; cbn [remove]; [constructor|]. destruct (Nat.eq_dec d a); [exact IH|]. constructor; [intros Hi; apply in_remove in Hi; tauto|exact IH]. Qed.
Lemma counted_more s s' d : counted s -> (forall c, live s' c -> live s c \/ c = d) -> h_num s - pend (h_threads s) + 1 <= h_num s' - pend (h_threads s') -> counted s'.
Proof.
  intros K L H x Nd Hx. pose proof (len_remove d x Nd) as Lr. assert (Q : len (remove Nat.eq_dec d x) + pend (h_threads s) <= h_num s); [|lia].
  apply K; [apply NoDup_remove'; exact Nd|]. intros c Hc. apply in_remove in Hc as (Hc & Ne). destruct (L c (Hx c Hc)) as [A|A]; [exact A|contradiction].
Qed.
Lemma live_thr s s' i t t' : nth_error (h_threads s) i = Some t -> h_threads s' = updt i t' (h_threads s) -> incl (h_closed s) (h_closed s') ->
  (forall c, ~ In c (h_closed s') -> In c (h_queue s') \/ In c (t_lent t' ++ act (t_pc t')) -> In c (h_queue s) \/ In c (t_lent t ++ act (t_pc t))) -> forall c, live s' c -> live s c.
Proof.
  intros Hi Ht Hc H c (A & B). split; [intros X; exact (A (Hc c X))|]. rewrite Ht in B. destruct B as [B|(j & u & Hj & B)].
  - destruct (H c A (or_introl B)) as [C|C]; [left; exact C|right; exists i, t; auto].
  - destruct (Nat.eq_dec i j) as [<-|Ne].
    + rewrite (nth_updt_same _ _ _ _ Hi) in Hj. injection Hj as <-. destruct (H c A (or_intror B)) as [C|C]; [left; exact C|right; exists i, t; auto].
    + rewrite nth_updt_other in Hj by exact Ne. right. exists j, u. auto.
Qed.
Lemma fresh_thr s s' i t t' : fresh_ones s -> nth_error (h_threads s) i = Some t -> h_threads s' = updt i t' (h_threads s) -> h_closed s' = h_closed s ->
  (forall c, In c (h_queue s') \/ In c (hot (t_pc t')) -> In c (h_queue s) \/ In c (hot (t_pc t)) \/ ~ In c (h_closed s)) -> fresh_ones s'.
Proof.
  intros (F & G) Hi Ht Hc H. assert (Q : forall c, In c (h_queue s') \/ In c (hot (t_pc t')) -> ~ In c (h_closed s)) by (intros c X; destruct (H c X) as [Y|[Y|Y]]; [exact (F c Y)|exact (G i t c Hi Y)|exact Y]).
  split; rewrite Hc; [intros c X; apply Q; auto|]. intros j u c Hj X. rewrite Ht in Hj. destruct (Nat.eq_dec i j) as [<-|Ne]; [rewrite (nth_updt_same _ _ _ _ Hi) in Hj; injection Hj as <-; apply Q; auto|rewrite nth_updt_other in Hj by exact Ne; exact (G j u c Hj X)].
Qed.
(** the thread closes d, which it alone has *)
Lemma fresh_shut s s' i t t' d : one_place s -> fresh_ones s -> nth_error (h_threads s) i = Some t -> h_threads s' = updt i t' (h_threads s) -> h_closed s' = h_closed s ++ [d] -> h_queue s' = h_queue s ->
  In d (pc_conns (t_pc t)) -> ~ In d (hot (t_pc t')) -> (forall c, In c (hot (t_pc t')) -> In c (hot (t_pc t))) -> fresh_ones s'.
Proof.
  intros P (F & G) Hi Ht Hc Hq Hd Hn H. pose proof (P d) as Pd. pose proof (total_nth d i t _ Hi) as T. unfold owned in T. rewrite cnt_app in T. pose proof (In_cnt d _ Hd).
  assert (Le : (cnt d (h_queue s) + total d (h_threads s) <= 1)%nat) by (destruct (Nat.ltb d (h_made s)); lia).
  split; rewrite Hc.
  - intros c X Y. rewrite Hq in X. apply in_app_or in Y as [Y|[<-|[]]]; [exact (F c X Y)|]. apply In_cnt in X. lia.
  - intros j u c Hj X Y. rewrite Ht in Hj. destruct (Nat.eq_dec i j) as [<-|Ne].
    + rewrite (nth_updt_same _ _ _ _ Hi) in Hj. injection Hj as <-. apply in_app_or in Y as [Y|[<-|[]]]; [exact (G i t c Hi (H c X) Y)|contradiction].
    + rewrite nth_updt_other in Hj by exact Ne. apply in_app_or in Y as [Y|[<-|[]]]; [exact (G j u c Hj X Y)|]. pose proof (total_two d i j t u _ Hi Hj Ne) as T2. unfold owned in T2. rewrite !cnt_app in T2.
      assert (In d (pc_conns (t_pc u))) by (destruct (t_pc u); cbn in *; tauto). apply In_cnt in H1. lia.
Qed.
Lemma below_thr cfg s s' i t' : below cfg s -> h_threads s' = updt i t' (h_threads s) -> h_num s' = h_num s -> stored cfg s (t_pc t') -> below cfg s'.
Proof.
  intros (B & S) Ht Hn H. split; [lia|]. intros j u Hj. assert (Q : forall p, stored cfg s p -> stored cfg s' p) by (intros p; unfold stored; rewrite Hn; auto). apply Q. rewrite Ht in Hj.
  destruct (Nat.eq_dec i j) as [<-|Ne]; [|rewrite nth_updt_other in Hj by exact Ne; exact (S j u Hj)]. destruct (nth_error (h_threads s) i) as [t|] eqn:Hi; [rewrite (nth_updt_same _ _ _ _ Hi) in Hj; injection Hj as <-; exact H|].
  assert (nth_error (updt i t' (h_threads s)) i = None) by (apply nth_error_None; rewrite length_updt; apply nth_error_None; exact Hi). congruence.
Qed.
(** the only thread that changes the number stores it *)
Lemma below_store cfg s s' i t t' : below cfg s -> alone s -> nth_error (h_threads s) i = Some t -> changing (t_pc t) = true -> h_threads s' = updt i t' (h_threads s) -> h_num s' <= Z.max 0 (max_connections cfg) ->
  changing (t_pc t') = false -> below cfg s'.
Proof.
  intros (B & S) A Hi Hc Ht Hn H. split; [exact Hn|]. intros j u Hj. enough (changing (t_pc u) = false) by (destruct (t_pc u); try discriminate; exact I). rewrite Ht in Hj.
  destruct (Nat.eq_dec i j) as [<-|Ne]; [rewrite (nth_updt_same _ _ _ _ Hi) in Hj; injection Hj as <-; exact H|]. rewrite nth_updt_other in Hj by exact Ne. destruct (changing (t_pc u)) eqn:E; [|reflexivity]. destruct (Ne (A i j t u Hi Hj Hc E)).
Qed.

Definition limited (cfg : config) (s : ts) : Prop := counted s /\ fresh_ones s /\ below cfg s.
Ltac sub := let c := fresh "c" in let A := fresh "A" in let B := fresh "B" in intros c A B; cbn in A, B |- *; rewrite ?in_app_iff in *; cbn [In] in *; tauto.
Ltac subf := let c := fresh "c" in let B := fresh "B" in intros c B; cbn in B |- *; rewrite ?in_app_iff in *; cbn [In] in *; tauto.
(** a step that only moves connections and the thread *)
Lemma limited_move cfg s s' i t t' : limited cfg s -> nth_error (h_threads s) i = Some t -> h_threads s' = updt i t' (h_threads s) -> h_closed s' = h_closed s -> h_num s' = h_num s ->
  (forall c, ~ In c (h_closed s') -> In c (h_queue s') \/ In c (t_lent t' ++ act (t_pc t')) -> In c (h_queue s) \/ In c (t_lent t ++ act (t_pc t))) ->
  (forall c, In c (h_queue s') \/ In c (hot (t_pc t')) -> In c (h_queue s) \/ In c (hot (t_pc t)) \/ ~ In c (h_closed s)) -> pend1 (t_pc t') <= pend1 (t_pc t) -> stored cfg s (t_pc t') -> limited cfg s'.
Proof.
  intros (K & F & B) Hi Ht Hc Hn L H Hp Hs. split; [|split; [exact (fresh_thr s s' i t t' F Hi Ht Hc H)|exact (below_thr cfg s s' i t' B Ht Hn Hs)]].
  apply (counted_keep s); [exact K|apply (live_thr s s' i t t' Hi Ht); [intros c; rewrite Hc; auto|exact L]|]. rewrite Ht, (pend_updt i t t' _ Hi). lia.
Qed.
Lemma limited_shut cfg s s' i t t' d : one_place s -> limited cfg s -> nth_error (h_threads s) i = Some t -> h_threads s' = updt i t' (h_threads s) -> h_closed s' = h_closed s ++ [d] -> h_queue s' = h_queue s -> h_num s' = h_num s ->
  In d (pc_conns (t_pc t)) -> ~ In d (hot (t_pc t')) -> (forall c, In c (hot (t_pc t')) -> In c (hot (t_pc t))) ->
  (forall c, ~ In c (h_closed s') -> In c (t_lent t' ++ act (t_pc t')) -> In c (t_lent t ++ act (t_pc t))) ->
  (pend1 (t_pc t') <= pend1 (t_pc t) \/ In d (act (t_pc t)) /\ In d (hot (t_pc t)) /\ pend1 (t_pc t') <= pend1 (t_pc t) + 1) -> stored cfg s (t_pc t') -> limited cfg s'.
Proof.
  intros P (K & F & B) Hi Ht Hc Hq Hn Hd Hd' Hh L Hp Hs. split; [|split; [exact (fresh_shut s s' i t t' d P F Hi Ht Hc Hq Hd Hd' Hh)|exact (below_thr cfg s s' i t' B Ht Hn Hs)]].
  assert (Lv : forall c, live s' c -> live s c). { apply (live_thr s s' i t t' Hi Ht); [intros c X; rewrite Hc; apply in_or_app; auto|]. intros c X [Y|Y]; [left; rewrite <- Hq; exact Y|right; exact (L c X Y)]. }
  destruct Hp as [Hp|(Ha & Hot & Hp)].
  - apply (counted_keep s); [exact K|exact Lv|]. rewrite Ht, (pend_updt i t t' _ Hi). lia.
  - apply (counted_less s s' d); [exact K| | |].
    + intros c X. split; [exact (Lv c X)|]. intros ->. destruct X as (X & _). apply X. rewrite Hc. apply in_or_app. right. left. reflexivity.
    + split; [exact (proj2 F i t d Hi Hot)|]. right. exists i, t. split; [exact Hi|]. apply in_or_app. auto.
    + rewrite Ht, (pend_updt i t t' _ Hi). lia.
Qed.

Lemma go_limited cfg i b t s : one_place s -> alone s -> limited cfg s -> (forall c, In c (h_closed s) -> (c < h_made s)%nat) -> nth_error (h_threads s) i = Some t -> limited cfg (go cfg i b t s).
Proof.
  intros P A L Cm Hi. pose proof L as (K & F & B). assert (St := proj2 B i t Hi). unfold go. destruct (t_pc t) eqn:Ep; try exact L;
    try (assert (Hd : forall d, In d (hot (t_pc t)) -> ~ In d (h_closed s)) by (intros d; exact (proj2 F i t d Hi)); rewrite Ep in Hd).
  - destruct (h_open s); (eapply (limited_move cfg s _ i t _ L Hi); [reflexivity|reflexivity|reflexivity|rewrite Ep; sub|rewrite Ep; subf|rewrite Ep; cbn; lia|exact I]).
  - destruct (h_queue s) as [|c q] eqn:Eq.
    + destruct (block cfg); [destruct (tmo && b); [|exact L]|]; (eapply (limited_move cfg s _ i t _ L Hi); [reflexivity|reflexivity|reflexivity|rewrite Ep; sub|rewrite Ep; subf|rewrite Ep; cbn; lia|exact I]).
    + eapply (limited_move cfg s _ i t _ L Hi); [reflexivity|reflexivity|reflexivity|rewrite Ep, Eq; sub|rewrite Ep, Eq; subf|rewrite Ep; cbn; lia|exact I].
  - destruct (h_open s); (eapply (limited_move cfg s _ i t _ L Hi); [reflexivity|reflexivity|reflexivity|rewrite Ep; sub|rewrite Ep; subf|rewrite Ep; cbn; lia|exact I]).
  - destruct (len (h_queue s) <? min_free cfg); (eapply (limited_move cfg s _ i t _ L Hi); [reflexivity|reflexivity|reflexivity|rewrite Ep; sub|rewrite Ep; subf|rewrite Ep; cbn; lia|exact I]).
  - destruct (lock_free s); [|exact L]. destruct (max_connections cfg <=? h_num s) eqn:Em.
    + eapply (limited_move cfg s _ i t _ L Hi); [reflexivity|reflexivity|reflexivity|rewrite Ep; destruct w; sub|rewrite Ep; destruct w; subf|rewrite Ep; cbn; lia|exact I].
    + eapply (limited_move cfg s _ i t _ L Hi); [reflexivity|reflexivity|reflexivity|rewrite Ep; destruct w; sub|rewrite Ep; destruct w; subf|rewrite Ep; cbn; lia|cbn; lia].
  - eapply (limited_move cfg s _ i t _ L Hi); [reflexivity|reflexivity|reflexivity|rewrite Ep; destruct w; sub|rewrite Ep; destruct w; subf|rewrite Ep; cbn; lia|]. cbn in St |- *. lia.
  - (* the sum is stored *)
    cbn in St. destruct St as (-> & St). split; [|split].
    + apply (counted_keep s); [exact K| |]; cbn [at_ set_thr set_num h_num h_threads].
      * eapply (live_thr s _ i t); [exact Hi|reflexivity|intros c X; exact X|]. rewrite Ep. destruct w; sub.
      * rewrite (pend_updt i t _ _ Hi), Ep. cbn. lia.
    + eapply (fresh_thr s _ i t _ F Hi); [reflexivity|reflexivity|]. rewrite Ep. destruct w; subf.
    + eapply (below_store cfg s _ i t _ B A Hi); [rewrite Ep; reflexivity|reflexivity|cbn; lia|reflexivity].
  - destruct b; [eapply (limited_move cfg s _ i t _ L Hi); [reflexivity|reflexivity|reflexivity|rewrite Ep; destruct w; sub|rewrite Ep; destruct w; subf|rewrite Ep; cbn; lia|exact I]|].
    assert (Nm : ~ In (h_made s) (h_closed s)) by (intros X; specialize (Cm _ X); lia).
    destruct w; (split; [|split]).
    + apply (counted_more s _ (h_made s)); [exact K| |].
      * intros c X. destruct (Nat.eq_dec c (h_made s)) as [->|Ne]; [right; reflexivity|left]. destruct X as (X & Y). split; [exact X|]. destruct Y as [Y|(j & u & Hj & Y)]; [left; exact Y|right]. cbn in Hj.
        destruct (Nat.eq_dec i j) as [<-|Nj]; [rewrite (nth_updt_same _ _ _ _ Hi) in Hj; injection Hj as <-; exists i, t; split; [exact Hi|]; rewrite Ep; cbn in Y |- *; rewrite app_nil_r in *; destruct Y as [Y|Y]; [congruence|exact Y]|rewrite nth_updt_other in Hj by exact Nj; exists j, u; auto].
      * cbn. rewrite (pend_updt i t _ _ Hi), Ep. cbn. lia.
    + eapply (fresh_thr s _ i t _ F Hi); [reflexivity|reflexivity|]. rewrite Ep. subf.
    + eapply (below_thr cfg s _ i _ B); [reflexivity|reflexivity|exact I].
    + apply (counted_more s _ (h_made s)); [exact K| |].
      * intros x X. destruct (Nat.eq_dec x (h_made s)) as [->|Ne]; [right; reflexivity|left]. destruct X as (X & Y). split; [exact X|]. destruct Y as [Y|(j & u & Hj & Y)]; [left; exact Y|right]. cbn in Hj.
        destruct (Nat.eq_dec i j) as [<-|Nj]; [rewrite (nth_updt_same _ _ _ _ Hi) in Hj; injection Hj as <-; exists i, t; split; [exact Hi|]; rewrite Ep; cbn in Y |- *; rewrite in_app_iff in *; cbn [In] in *; intuition congruence|rewrite nth_updt_other in Hj by exact Nj; exists j, u; auto].
      * cbn. rewrite (pend_updt i t _ _ Hi), Ep. cbn. lia.
    + eapply (fresh_thr s _ i t _ F Hi); [reflexivity|reflexivity|]. rewrite Ep. intros x [X|X]; [left; exact X|]. cbn in X. destruct X as [<-|[<-|[]]]; [right; right; exact Nm|right; left; left; reflexivity].
    + eapply (below_thr cfg s _ i _ B); [reflexivity|reflexivity|exact I].
  - destruct (h_open s); (eapply (limited_move cfg s _ i t _ L Hi); [reflexivity|reflexivity|reflexivity|rewrite Ep; sub|rewrite Ep; subf|rewrite Ep; cbn; lia|exact I]).
  - destruct (q_full cfg (h_queue s)); [eapply (limited_move cfg s _ i t _ L Hi); [reflexivity|reflexivity|reflexivity|rewrite Ep; sub|rewrite Ep; subf|rewrite Ep; cbn; lia|exact I]|].
    destruct k; (eapply (limited_move cfg s _ i t _ L Hi); [reflexivity|reflexivity|reflexivity|rewrite Ep; sub|rewrite Ep; subf|rewrite Ep; cbn; lia|exact I]).
  - destruct (lock_free s); [|exact L]. eapply (limited_move cfg s _ i t _ L Hi); [reflexivity|reflexivity|reflexivity|rewrite Ep; sub|rewrite Ep; subf|rewrite Ep; cbn; lia|exact I].
  - eapply (limited_move cfg s _ i t _ L Hi); [reflexivity|reflexivity|reflexivity|rewrite Ep; sub|rewrite Ep; subf|rewrite Ep; cbn; lia|]. cbn. reflexivity.
  - (* the difference is stored by put_conn *)
    cbn in St. subst v. assert (Hc : ~ In c (h_closed s)) by (apply Hd; left; reflexivity).
    assert (Pc : forall s', s' = at_ i t (PClose k c) (set_lock None (set_num (h_num s - 1) s)) -> forall x, live s' x -> live s x /\ x <> c).
    { intros s' -> x X. assert (Lx : live s x) by (revert x X; eapply (live_thr s _ i t); [exact Hi|reflexivity|intros x X; exact X|rewrite Ep; destruct k; sub]). split; [exact Lx|]. intros ->.
      pose proof (P c) as Pd. pose proof (total_nth c i t _ Hi) as T. unfold owned in T. rewrite cnt_app, Ep in T. cbn [pc_conns] in T. rewrite cnt_cons, Nat.eqb_refl in T. assert (Le : (cnt c (h_queue s) + total c (h_threads s) <= 1)%nat) by (destruct (Nat.ltb c (h_made s)); lia).
      destruct X as (_ & [X|(j & u & Hj & X)]); [cbn in X; apply In_cnt in X; lia|]. cbn in Hj. destruct (Nat.eq_dec i j) as [<-|Nj].
      - rewrite (nth_updt_same _ _ _ _ Hi) in Hj. injection Hj as <-. apply in_app_or in X as [X|X]; cbn in X; [apply In_cnt in X; lia|]. destruct k; [destruct X|]. destruct X as [->|[]]. rewrite cnt_cons, Nat.eqb_refl in T. lia.
      - rewrite nth_updt_other in Hj by exact Nj. pose proof (total_two c i j t u _ Hi Hj Nj) as T2. unfold owned in T2. rewrite !cnt_app, Ep in T2. cbn [pc_conns] in T2. rewrite cnt_cons, Nat.eqb_refl in T2.
        assert (In c (t_lent u) \/ In c (pc_conns (t_pc u))) as [Y|Y]; [|apply In_cnt in Y; lia|apply In_cnt in Y; lia]. apply in_app_or in X as [X|X]; [left; exact X|right]. destruct (t_pc u); cbn in *; tauto. }
    split; [|split].
    + apply (counted_less s _ c K (Pc _ eq_refl)).
      * split; [exact Hc|]. right. exists i, t. split; [exact Hi|]. rewrite Ep. apply in_or_app. right. left. reflexivity.
      * cbn. rewrite (pend_updt i t _ _ Hi), Ep. cbn. lia.
    + eapply (fresh_thr s _ i t _ F Hi); [reflexivity|reflexivity|]. rewrite Ep. subf.
    + eapply (below_store cfg s _ i t _ B A Hi); [rewrite Ep; reflexivity|reflexivity|cbn; destruct B; lia|reflexivity].
  - pose proof (P c) as Pd. pose proof (total_nth c i t _ Hi) as T. unfold owned in T. rewrite cnt_app, Ep in T. cbn [pc_conns] in T. rewrite cnt_cons, Nat.eqb_refl in T. assert (Le : (cnt c (h_queue s) + total c (h_threads s) <= 1)%nat) by (destruct (Nat.ltb c (h_made s)); lia).
    destruct k.
    + eapply (limited_shut cfg s _ i t _ c P L Hi); [reflexivity|reflexivity|reflexivity|reflexivity|rewrite Ep; left; reflexivity|intros []|intros x []|rewrite Ep; intros x X Y; exact Y|left; rewrite Ep; cbn; lia|exact I].
    + eapply (limited_shut cfg s _ i t _ c P L Hi); [reflexivity|reflexivity|reflexivity|reflexivity|rewrite Ep; left; reflexivity| |rewrite Ep; intros x X; right; exact X|rewrite Ep; intros x X Y; exact Y|left; rewrite Ep; cbn; lia|exact I].
      cbn. intros [->|[]]. rewrite cnt_cons, Nat.eqb_refl in T. lia.
  - destruct (b || mem_nat c (h_closed s)); (eapply (limited_move cfg s _ i t _ L Hi); [reflexivity|reflexivity|reflexivity|rewrite Ep; sub|rewrite Ep; subf|rewrite Ep; cbn; lia|exact I]).
  - eapply (limited_shut cfg s _ i t _ c P L Hi); [reflexivity|reflexivity|reflexivity|reflexivity|rewrite Ep; left; reflexivity|intros []|intros x []|rewrite Ep; intros x X Y; exact Y|right; rewrite Ep; cbn; split; [left; reflexivity|split; [left; reflexivity|lia]]|exact I].
  - destruct (lock_free s); [|exact L]. eapply (limited_move cfg s _ i t _ L Hi); [reflexivity|reflexivity|reflexivity|rewrite Ep; sub|rewrite Ep; subf|rewrite Ep; cbn; lia|exact I].
  - eapply (limited_move cfg s _ i t _ L Hi); [reflexivity|reflexivity|reflexivity|rewrite Ep; sub|rewrite Ep; subf|rewrite Ep; cbn; lia|]. cbn. reflexivity.
  - (* the difference is stored by get_conn *)
    cbn in St. subst v. split; [|split].
    + apply (counted_keep s); [exact K| |].
      * eapply (live_thr s _ i t); [exact Hi|reflexivity|intros x X; exact X|]. rewrite Ep. sub.
      * cbn. rewrite (pend_updt i t _ _ Hi), Ep. cbn. lia.
    + eapply (fresh_thr s _ i t _ F Hi); [reflexivity|reflexivity|]. rewrite Ep. subf.
    + eapply (below_store cfg s _ i t _ B A Hi); [rewrite Ep; reflexivity|reflexivity|cbn; destruct B; lia|reflexivity].
  - eapply (limited_move cfg s _ i t _ L Hi); [reflexivity|reflexivity|reflexivity|rewrite Ep; sub|rewrite Ep; subf|rewrite Ep; cbn; lia|exact I].
  - eapply (limited_move cfg s _ i t _ L Hi); [reflexivity|reflexivity|reflexivity|rewrite Ep; sub|rewrite Ep; subf|rewrite Ep; cbn; lia|exact I].
  - destruct was; [|eapply (limited_move cfg s _ i t _ L Hi); [reflexivity|reflexivity|reflexivity|rewrite Ep; sub|rewrite Ep; subf|rewrite Ep; cbn; lia|exact I]].
    destruct (h_queue s) as [|c q] eqn:Eq.
    + eapply (limited_move cfg s _ i t _ L Hi); [reflexivity|reflexivity|reflexivity|rewrite Ep; sub|rewrite Ep; subf|rewrite Ep; cbn; lia|exact I].
    + eapply (limited_move cfg s _ i t _ L Hi); [reflexivity|reflexivity|reflexivity|rewrite Ep, Eq; sub|rewrite Ep, Eq; subf|rewrite Ep; cbn; lia|exact I].
  - eapply (limited_shut cfg s _ i t _ c P L Hi); [reflexivity|reflexivity|reflexivity|reflexivity|rewrite Ep; left; reflexivity|intros []|intros x []|rewrite Ep; intros x X Y; cbn in Y |- *; rewrite app_nil_r in Y; apply in_or_app; left; exact Y|left; rewrite Ep; cbn; lia|exact I].
Qed.
Lemma owned_made s i t c : one_place s -> nth_error (h_threads s) i = Some t -> In c (pc_conns (t_pc t)) -> (c < h_made s)%nat.
Proof.
  intros P Hi Hc. specialize (P c). pose proof (total_nth c i t _ Hi) as T. unfold owned in T. rewrite cnt_app in T. apply In_cnt in Hc. destruct (Nat.ltb_spec c (h_made s)); [assumption|lia].
Qed.
Definition closed_made (s : ts) : Prop := forall c, In c (h_closed s) -> (c < h_made s)%nat.
Lemma go_closed_made cfg i b t s : one_place s -> closed_made s -> nth_error (h_threads s) i = Some t -> closed_made (go cfg i b t s).
Proof.
  intros P C Hi. assert (Sh : forall c s', In c (pc_conns (t_pc t)) -> h_closed s' = h_closed s ++ [c] -> h_made s' = h_made s -> closed_made s').
  { intros c s' Hc E1 E2 x Hx. rewrite E1 in Hx. rewrite E2. apply in_app_or in Hx as [Hx|[<-|[]]]; [exact (C x Hx)|exact (owned_made s i t c P Hi Hc)]. }
  unfold go. destruct (t_pc t) eqn:Ep; try exact C; repeat match goal with
      | |- context [if ?x then _ else _] => destruct x
      | |- context [match h_queue s with _ => _ end] => destruct (h_queue s)
      | |- context [match ?w with ForCaller => _ | ForRefill _ => _ end] => is_var w; destruct w
      | |- context [put_over _ _ ?k _] => is_var k; destruct k
      end; try exact C; try (apply (Sh c); [cbn; auto|reflexivity|reflexivity]); intros x Hx; cbn in Hx |- *; specialize (C x Hx); lia.
Qed.
Lemma step_limited cfg o s : one_place s -> alone s -> closed_made s -> limited cfg s -> (forall i c, o = TPut i c -> ~ In c (h_closed s)) -> limited cfg (t_step cfg o s) /\ closed_made (t_step cfg o s).
Proof.
  intros P A C L N. assert (U : limited cfg s /\ closed_made s) by (split; assumption). destruct o; cbn [t_step].
  - destruct (nth_error (h_threads s) i) as [t|] eqn:Hi; [|exact U]. unfold begin. destruct (t_pc t) eqn:Ep; try exact U. split; [|exact C].
    eapply (limited_move cfg s _ i t _ L Hi); [reflexivity|reflexivity|reflexivity|rewrite Ep; sub|rewrite Ep; subf|rewrite Ep; cbn; lia|exact I].
  - destruct (nth_error (h_threads s) i) as [t|] eqn:Hi; [|exact U]. destruct (t_pc t) eqn:Ep; try exact U. destruct (mem_nat c (t_lent t)) eqn:Em; [|exact U]. split; [|exact C].
    assert (Hc : In c (t_lent t)) by (apply existsb_exists in Em as (x & Hx & He); apply Nat.eqb_eq in He; subst x; exact Hx). specialize (N i c eq_refl).
    eapply (limited_move cfg s _ i t _ L Hi); [reflexivity|reflexivity|reflexivity| | |rewrite Ep; cbn; lia|exact I].
    + intros x _ X. cbn [set_thr h_queue] in X. rewrite Ep. cbn [act pc_conns t_lent t_pc] in X |- *. destruct X as [X|X]; [left; exact X|right]. apply in_app_or in X as [X|[<-|[]]]; apply in_or_app; left; [|exact Hc]. unfold drop in X. apply in_remove in X. tauto.
    + intros x [X|X]; [left; exact X|]. cbn in X. destruct X as [<-|[]]. right. right. exact N.
  - destruct (nth_error (h_threads s) i) as [t|] eqn:Hi; [|exact U]. unfold begin. destruct (t_pc t) eqn:Ep; try exact U. split; [|exact C].
    eapply (limited_move cfg s _ i t _ L Hi); [reflexivity|reflexivity|reflexivity|rewrite Ep; sub|rewrite Ep; subf|rewrite Ep; cbn; lia|exact I].
  - destruct (nth_error (h_threads s) i) as [t|] eqn:Hi; [|exact U]. split; [apply go_limited; assumption|apply go_closed_made; assumption].
  - destruct (nth_error (h_threads s) i) as [t|] eqn:Hi; [|exact U]. destruct (nth_error (h_threads s) j) as [u|] eqn:Hj; [|exact U]. destruct (mem_nat c (t_lent t)) eqn:Em; [|exact U]. destruct (Nat.eqb_spec i j) as [|Ne]; [exact U|]. cbn [andb negb]. split; [|exact C].
    assert (Hc : In c (t_lent t)) by (apply existsb_exists in Em as (x & Hx & He); apply Nat.eqb_eq in He; subst x; exact Hx).
    set (t' := {| t_pc := t_pc t; t_lent := drop c (t_lent t) |}). set (u' := {| t_pc := t_pc u; t_lent := c :: t_lent u |}). destruct L as (K & F & B).
    assert (Th : forall k w, nth_error (updt j u' (updt i t' (h_threads s))) k = Some w -> exists w0, nth_error (h_threads s) k = Some w0 /\ t_pc w = t_pc w0 /\ forall x, In x (t_lent w) -> In x (t_lent w0) \/ x = c).
    { intros k w Hk. destruct (Nat.eq_dec j k) as [<-|Nj].
      - assert (Hj' : nth_error (updt i t' (h_threads s)) j = Some u) by (rewrite nth_updt_other by exact Ne; exact Hj). rewrite (nth_updt_same _ _ _ _ Hj') in Hk. injection Hk as <-. exists u. split; [exact Hj|]. split; [reflexivity|]. intros x [<-|Hx]; auto.
      - rewrite nth_updt_other in Hk by exact Nj. destruct (Nat.eq_dec i k) as [<-|Ni]; [rewrite (nth_updt_same _ _ _ _ Hi) in Hk; injection Hk as <-; exists t; split; [exact Hi|]; split; [reflexivity|]; intros x Hx; unfold drop in Hx; apply in_remove in Hx; tauto|].
        rewrite nth_updt_other in Hk by exact Ni. exists w. auto. }
    split; [|split].
    + apply (counted_keep s); [exact K| |].
      * intros x (X & Y). split; [exact X|]. destruct Y as [Y|(k & w & Hk & Y)]; [left; exact Y|right]. destruct (Th k w Hk) as (w0 & Hw & Ew & Lw). apply in_app_or in Y as [Y|Y].
        -- destruct (Lw x Y) as [Z|Z]; [exists k, w0; split; [exact Hw|apply in_or_app; auto]|subst x; exists i, t; split; [exact Hi|apply in_or_app; auto]].
        -- rewrite Ew in Y. exists k, w0. split; [exact Hw|apply in_or_app; auto].
      * cbn [set_thr h_num h_threads]. assert (Hj' : nth_error (updt i t' (h_threads s)) j = Some u) by (rewrite nth_updt_other by exact Ne; exact Hj). rewrite (pend_updt j u u' _ Hj'), (pend_updt i t t' _ Hi). cbn. lia.
    + split; [exact (proj1 F)|]. intros k w x Hk X. destruct (Th k w Hk) as (w0 & Hw & Ew & _). rewrite Ew in X. exact (proj2 F k w0 x Hw X).
    + split; [exact (proj1 B)|]. intros k w Hk. destruct (Th k w Hk) as (w0 & Hw & Ew & _). rewrite Ew. exact (proj2 B k w0 Hw).
Qed.
Lemma limited_init cfg mk p n : build cfg mk = Built p -> limited cfg (t_init p n) /\ closed_made (t_init p n).
Proof.
  intros Bd. apply build_ok in Bd as (G & [_ Cc Cx] & _ & Nn & _). split; [|intros c []].
  assert (Th : forall i t, nth_error (repeat {| t_pc := Idle; t_lent := [] |} n) i = Some t -> t = {| t_pc := Idle; t_lent := [] |}) by (intros i t H; apply nth_error_In, repeat_spec in H; exact H).
  split; [|split].
  - intros x Nd Hx. cbn [t_init h_threads h_num]. assert (Pz : forall k, pend (repeat {| t_pc := Idle; t_lent := [] |} k) = 0) by (intros k; induction k; cbn; auto). rewrite Pz.
    assert (Hi : incl x (free_conns p)). { intros c Hc. destruct (Hx c Hc) as (_ & [Y|(i & t & Hi & Y)]); [exact Y|]. cbn in Hi. apply Th in Hi. subst t. destruct Y. }
    pose proof (NoDup_incl_length Nd Hi) as Le. unfold L_ConnPool.cnt in Cc. unfold len in *. lia.
  - split; [intros c _ []|]. intros i t c _ _ [].
  - split; [exact Cx|]. intros i t Hi. cbn in Hi. apply Th in Hi. subst t. exact I.
Qed.
Lemma run_snoc cfg p n l o : t_run cfg p n (l ++ [o]) = t_step cfg o (t_run cfg p n l).
Proof. unfold t_run. rewrite fold_left_app. reflexivity. Qed.
Lemma limited_run cfg mk p n l : build cfg mk = Built p -> one_at_a_time cfg p n l -> no_closed_back cfg p n l -> limited cfg (t_run cfg p n l) /\ closed_made (t_run cfg p n l).
Proof.
  intros Bd. induction l as [|o l IH] using rev_ind; intros O N; [apply (limited_init cfg mk p n Bd)|]. destruct IH as (L & C).
  - intros l1 l2 ->. apply (O l1 (l2 ++ [o])). rewrite app_assoc. reflexivity.
  - intros l1 i c l2 ->. apply (N l1 i c (l2 ++ [o])). rewrite <- app_assoc. reflexivity.
  - rewrite run_snoc. apply step_limited; [apply (run_place cfg mk p n l Bd)|apply (O l [o]); reflexivity|exact C|exact L|]. intros i c ->. apply (N l i c []). reflexivity.
Qed.
Lemma limit_holds cfg mk p n l x : build cfg mk = Built p -> one_at_a_time cfg p n l -> no_closed_back cfg p n l -> NoDup x -> (forall c, In c x -> in_use (t_run cfg p n l) c) ->
  len x <= h_num (t_run cfg p n l) <= Z.max 0 (max_connections cfg).
Proof.
  intros Bd O N Nd Hx. destruct (limited_run cfg mk p n l Bd O N) as ((K & _ & (B & _)) & _). split; [|exact B].
  assert (Pn : forall t, 0 <= pend t) by (intros t; induction t as [|a t IH]; cbn [pend]; [lia|]; assert (0 <= pend1 (t_pc a)) by (destruct (t_pc a); cbn; lia); lia). specialize (Pn (h_threads (t_run cfg p n l))).
  enough (len x + pend (h_threads (t_run cfg p n l)) <= h_num (t_run cfg p n l)) by lia. apply K; [exact Nd|]. intros c Hc. destruct (Hx c Hc) as (A & [X|(i & t & Hi & X)]); (split; [exact A|]); [left; exact X|right; exists i, t; split; [exact Hi|apply in_or_app; auto]].
Qed.

(** ** Without it there is no limit: two threads, a limit of three *)
(** thread 0 gives a connection back, and the free list is full; between the load and the store of its decrement
    thread 1 stores its increment *)
Definition st (i k : nat) : list tstep := repeat (TStep i false) k.
Definition round1 (f c : nat) : list tstep := (TGet 0 false :: st 0 5) ++ (TGet 1 false :: st 1 4) ++ (TPut 0 f :: st 0 2) ++ [TPut 0%nat c] ++ st 0 4 ++ st 1 1 ++ st 0 2 ++ st 1 1.
Definition round2 (f : nat) : list tstep := (TGet 0 false :: st 0 5) ++ (TGet 0 false :: st 0 6) ++ (TPut 0 f :: st 0 2).
Definition from (s : ts) (l : list tstep) : ts := fold_left (fun s o => t_step three o s) l s.
Lemma from_app s a b : from s (a ++ b) = from (from s a) b.
Proof. apply fold_left_app. Qed.
Definition shape (q : list nat) (num : Z) (K : list nat) (m : nat) (a b : thr) (g : list (nat * outcome)) : ts :=
  {| h_open := true; h_queue := q; h_num := num; h_lock := None; h_closed := K; h_made := m; h_threads := [a; b]; h_log := g |}.
Definition idle_with (l : list nat) : thr := {| t_pc := Idle; t_lent := l |}.
Lemma take_free f num K m L b g : mem_nat f K = false -> from (shape [f] num K m (idle_with L) b g) (TGet 0 false :: st 0 5) = shape [] num K m (idle_with (f :: L)) b (g ++ [(0%nat, OGot f)]).
Proof.
  intros H. change (TGet 0 false :: st 0 5) with ((TGet 0 false :: st 0 4) ++ st 0 1). rewrite from_app. assert (E : from (shape [f] num K m (idle_with L) b g) (TGet 0 false :: st 0 4) = shape [] num K m {| t_pc := GDrop f; t_lent := L |} b g) by reflexivity. rewrite E.
  unfold from, st. cbn [repeat fold_left t_step nth_error h_threads shape go t_pc orb h_closed]. rewrite H. reflexivity.
Qed.
Lemma give_free f num K m L b g : ~ In f L -> from (shape [] num K m (idle_with (f :: L)) b g) (TPut 0 f :: st 0 2) = shape [f] num K m (idle_with L) b (g ++ [(0%nat, ODone)]).
Proof.
  intros H. change (TPut 0 f :: st 0 2) with ([TPut 0 f] ++ st 0 2). rewrite from_app.
  assert (E : from (shape [] num K m (idle_with (f :: L)) b g) [TPut 0 f] = shape [] num K m {| t_pc := PLoad ToCaller f; t_lent := L |} b g).
  { unfold from. cbn [fold_left t_step nth_error h_threads shape idle_with t_pc t_lent mem_nat existsb]. rewrite Nat.eqb_refl. cbn [orb]. unfold drop. cbn [remove]. destruct (Nat.eq_dec f f) as [_|N]; [|destruct (N eq_refl)]. rewrite notin_remove by exact H. reflexivity. }
  rewrite E. reflexivity.
Qed.
Lemma make_one num K m L b g : num < 3 -> from (shape [] num K m (idle_with L) b g) (TGet 0 false :: st 0 6) = shape [] (num + 1) K (S m) (idle_with (m :: L)) b (g ++ [(0%nat, OGot m)]).
Proof.
  intros H. change (TGet 0 false :: st 0 6) with ((TGet 0 false :: st 0 2) ++ st 0 4). rewrite from_app. assert (E0 : from (shape [] num K m (idle_with L) b g) (TGet 0 false :: st 0 2) = shape [] num K m {| t_pc := NCheck ForCaller; t_lent := L |} b g) by reflexivity. rewrite E0.
  change (st 0 4) with (st 0 1 ++ st 0 3). rewrite from_app. assert (E : from (shape [] num K m {| t_pc := NCheck ForCaller; t_lent := L |} b g) (st 0 1) = shape [] num K m {| t_pc := NLoad ForCaller; t_lent := L |} b g).
  { unfold from, st. cbn [repeat fold_left t_step nth_error h_threads shape go t_pc lock_free h_lock h_num three max_connections]. destruct (Z.leb_spec 3 num); [lia|]. reflexivity. }
  rewrite E. reflexivity.
Qed.
Lemma put_begins f q num K m L b g : mem_nat f L = true -> from (shape q num K m (idle_with L) b g) [TPut 0 f] = shape q num K m {| t_pc := PLoad ToCaller f; t_lent := drop f L |} b g.
Proof. intros H. unfold from. cbn [fold_left t_step nth_error h_threads shape idle_with t_pc t_lent]. rewrite H. reflexivity. Qed.
Lemma other_begins L K m M g : from (shape [] 2 K m L (idle_with M) g) (TGet 1 false :: st 1 4) = shape [] 2 K m L {| t_pc := NStore ForCaller 3; t_lent := M |} g.
Proof. reflexivity. Qed.
Definition locked (f : nat) (num : Z) (K : list nat) (m : nat) (a b : thr) (g : list (nat * outcome)) : ts :=
  {| h_open := true; h_queue := [f]; h_num := num; h_lock := Some 0%nat; h_closed := K; h_made := m; h_threads := [a; b]; h_log := g |}.
Lemma full_begins f c K m L b g : from (shape [f] 2 K m {| t_pc := PLoad ToCaller c; t_lent := L |} b g) (st 0 4) = locked f 2 K m {| t_pc := PDecStore ToCaller c 1; t_lent := L |} b g.
Proof. reflexivity. Qed.
Lemma other_stores f K m a M g : from (locked f 2 K m a {| t_pc := NStore ForCaller 3; t_lent := M |} g) (st 1 1) = locked f 3 K m a {| t_pc := NMake ForCaller; t_lent := M |} g.
Proof. reflexivity. Qed.
Lemma this_stores f c K m L b g : from (locked f 3 K m {| t_pc := PDecStore ToCaller c 1; t_lent := L |} b g) (st 0 2) = shape [f] 1 (K ++ [c]) m (idle_with L) b (g ++ [(0%nat, ODone)]).
Proof. reflexivity. Qed.
Lemma other_makes f K m a M g : from (shape [f] 1 K m a {| t_pc := NMake ForCaller; t_lent := M |} g) (st 1 1) = shape [f] 1 K (S m) a (idle_with (m :: M)) (g ++ [(1%nat, OGot m)]).
Proof. reflexivity. Qed.
Lemma mem_head c L : mem_nat c (c :: L) = true.
Proof. unfold mem_nat. cbn. rewrite Nat.eqb_refl. reflexivity. Qed.
Lemma drop_only c : drop c [c] = [].
Proof. unfold drop. cbn. destruct (Nat.eq_dec c c) as [_|N]; [reflexivity|destruct (N eq_refl)]. Qed.
(** the increment of thread 1 is lost *)
Lemma lost f c K m M g : mem_nat f K = false -> f <> c -> exists g', from (shape [f] 2 K m (idle_with [c]) (idle_with M) g) (round1 f c) = shape [f] 1 (K ++ [c]) (S m) (idle_with []) (idle_with (m :: M)) g'.
Proof.
  intros H Ne. unfold round1. eexists.
  rewrite from_app, (take_free f 2 K m [c] _ g H), from_app, other_begins, from_app, give_free by (intros [X|[]]; congruence).
  rewrite from_app, put_begins by apply mem_head. rewrite drop_only, from_app, full_begins, from_app, other_stores, from_app, this_stores, other_makes. reflexivity.
Qed.
Lemma put_ends f num K m L b g : from (shape [] num K m {| t_pc := PLoad ToCaller f; t_lent := L |} b g) (st 0 2) = shape [f] num K m (idle_with L) b (g ++ [(0%nat, ODone)]).
Proof. reflexivity. Qed.
Lemma refill f K m M g : mem_nat f K = false -> f <> m -> exists g', from (shape [f] 1 K m (idle_with []) (idle_with M) g) (round2 f) = shape [f] 2 K (S m) (idle_with [m]) (idle_with M) g'.
Proof.
  intros H Ne. unfold round2. change (TPut 0 f :: st 0 2) with ([TPut 0%nat f] ++ st 0 2). eexists. rewrite from_app, (take_free f 1 K m [] _ g H), from_app, make_one by lia.
  rewrite from_app, put_begins by (unfold mem_nat; cbn; rewrite Nat.eqb_refl, orb_true_r; reflexivity).
  assert (D : drop f [m; f] = [m]) by (unfold drop; cbn; destruct (Nat.eq_dec f m) as [N|_]; [contradiction|]; destruct (Nat.eq_dec f f) as [_|N]; [reflexivity|destruct (N eq_refl)]). rewrite D, put_ends. reflexivity.
Qed.
Lemma mem_nat_snoc f K c : mem_nat f K = false -> f <> c -> mem_nat f (K ++ [c]) = false.
Proof. intros H N. unfold mem_nat in *. rewrite existsb_app, H. cbn. destruct (Nat.eqb_spec f c); [contradiction|reflexivity]. Qed.
Lemma mem_nat_false f K : mem_nat f K = false -> ~ In f K.
Proof. intros H X. assert (mem_nat f K = true) by (apply existsb_exists; exists f; split; [exact X|apply Nat.eqb_refl]). congruence. Qed.
(** after k rounds *)
Lemma rounds k : exists l c M K m g, from (shape [0%nat] 2 [] 2 (idle_with [1%nat]) (idle_with []) [(0%nat, OGot 0%nat); (0%nat, OGot 1%nat); (0%nat, ODone)]) l = shape [0%nat] 2 K m (idle_with [c]) (idle_with M) g /\
  List.length M = k /\ NoDup M /\ mem_nat 0%nat K = false /\ (0 < c)%nat /\ (c < m)%nat /\ ~ In c M /\ (forall x, In x M -> x < m)%nat /\ (forall x, In x K -> x < m)%nat /\ (forall x, In x M -> ~ In x K).
Proof.
  induction k as [|k (l & c & M & K & m & g & E & Hl & Nd & H0 & C0 & Cm & Nc & HM & HK & HMK)].
  - exists [], 1%nat, [], [], 2%nat. eexists. split; [reflexivity|]. split; [reflexivity|]. split; [constructor|]. split; [reflexivity|]. split; [lia|]. split; [lia|]. split; [intros []|]. split; [intros x []|]. split; [intros x []|intros x []].
  - destruct (lost 0%nat c K m M g H0 ltac:(lia)) as (g1 & E1). destruct (refill 0%nat (K ++ [c]) (S m) (m :: M) g1 (mem_nat_snoc 0%nat K c H0 ltac:(lia)) ltac:(lia)) as (g2 & E2).
    exists (l ++ round1 0%nat c ++ round2 0%nat), (S m), (m :: M), (K ++ [c]), (S (S m)), g2. split; [rewrite from_app, E, from_app, E1, E2; reflexivity|]. split; [cbn; lia|]. split; [constructor; [intros X; specialize (HM m X); lia|exact Nd]|].
    split; [apply mem_nat_snoc; [exact H0|lia]|]. split; [lia|]. split; [lia|]. split; [intros [X|X]; [lia|specialize (HM _ X); lia]|]. split; [intros x [<-|X]; [lia|specialize (HM x X); lia]|]. split; [intros x X; apply in_app_or in X as [X|[<-|[]]]; [specialize (HK x X); lia|lia]|].
    intros x [<-|X] Y; apply in_app_or in Y as [Y|[<-|[]]]; [specialize (HK _ Y); lia|lia|exact (HMK x X Y)|contradiction].
Qed.
Definition set_up : list tstep := (TGet 0 false :: st 0 5) ++ (TGet 0 false :: st 0 6) ++ (TPut 0 0 :: st 0 2).
Lemma no_limit mk p k : build three mk = Built p -> exists l x, NoDup x /\ List.length x = k /\ forall c, In c x -> in_use (t_run three p 2 l) c.
Proof.
  intros Bd. unfold build, fill in Bd. cbn in Bd. destruct (mk 0%nat); [|discriminate]. injection Bd as <-. destruct (rounds k) as (l & c & M & K & m & g & E & Hl & Nd & _ & _ & _ & _ & _ & _ & HMK).
  exists (set_up ++ l), M. split; [exact Nd|]. split; [exact Hl|]. intros x Hx.
  assert (R : forall q, q = {| p_free := Some [0%nat]; p_num := 1; p_attempts := 1; p_closed := [] |} -> t_run three q 2 (set_up ++ l) = shape [0%nat] 2 K m (idle_with [c]) (idle_with M) g).
  { intros q ->. unfold t_run. rewrite fold_left_app. rewrite <- E. reflexivity. }
  rewrite R by reflexivity. split; [exact (HMK x Hx)|]. right. exists 1%nat. eexists. split; [reflexivity|exact Hx].
Qed.

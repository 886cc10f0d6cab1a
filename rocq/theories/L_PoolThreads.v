(** Lemmas behind C75-C78: threads using one connection pool. *)
From Coq Require Import ZifyBool.
From Verif Require Import PyBase L_PyBase M_ConnPool S_Pool L_ConnPool M_PoolThreads S_PoolThreads.

(** ** Who has which connection *)
Definition pc_conns (p : tpc) : list nat :=
  match p with
  | GSizeLoad c | GSize c | GDrop c | GClose c | GLock c | GDecLoad c | GDecStore c _ | CShut c => [c]
  | NCheck w | NLoad w | NStore w _ | NMake w => match w with ForCaller => [] | ForRefill c => [c] end
  | PLoad k c | PPut k c | PLock k c | PDecLoad k c | PDecStore k c _ | PClose k c => c :: match k with ToCaller => [] | ToGet d => [d] end
  | _ => []
  end.
Definition owned (t : thr) : list nat := t_lent t ++ pc_conns (t_pc t).
Definition cnt (c : nat) (l : list nat) : nat := count_occ Nat.eq_dec l c.
Fixpoint total (c : nat) (l : list thr) : nat := match l with [] => 0%nat | t :: r => (cnt c (owned t) + total c r)%nat end.

Lemma nth_updt_same {A} i (x y : A) l : nth_error l i = Some y -> nth_error (updt i x l) i = Some x.
Proof. revert l. induction i; intros [|z l] H; try discriminate; cbn in *; [reflexivity|auto]. Qed.
Lemma nth_updt_other {A} i j (x : A) l : i <> j -> nth_error (updt i x l) j = nth_error l j.
Proof. revert j l. induction i; intros [|j] [|z l] H; cbn; try congruence; auto. Qed.
Lemma total_updt c i t t' l : nth_error l i = Some t -> (total c (updt i t' l) + cnt c (owned t) = total c l + cnt c (owned t'))%nat.
Proof. revert l. induction i; intros [|z l] H; try discriminate; cbn in *; [injection H as ->; lia|]. specialize (IHi l H). lia. Qed.
Lemma total_nth c i t l : nth_error l i = Some t -> (cnt c (owned t) <= total c l)%nat.
Proof. revert l. induction i; intros [|z l] H; try discriminate; cbn in *; [injection H as ->; lia|]. specialize (IHi l H). lia. Qed.
Lemma total_two c i j t u l : nth_error l i = Some t -> nth_error l j = Some u -> i <> j -> (cnt c (owned t) + cnt c (owned u) <= total c l)%nat.
Proof.
  revert j l. induction i; intros [|j] [|z l] H H' N; try discriminate; try congruence; cbn in *.
  - injection H as ->. pose proof (total_nth c j u l H'). lia.
  - injection H' as ->. pose proof (total_nth c i t l H). lia.
  - assert (i <> j) by congruence. specialize (IHi j l H H' ltac:(assumption)). lia.
Qed.
Lemma cnt_app c l m : cnt c (l ++ m) = (cnt c l + cnt c m)%nat.
Proof. apply count_occ_app. Qed.
Lemma cnt_cons c x l : cnt c (x :: l) = ((if Nat.eqb x c then 1 else 0) + cnt c l)%nat.
Proof. unfold cnt. cbn. destruct (Nat.eq_dec x c) as [->|N]; [rewrite Nat.eqb_refl; reflexivity|]. destruct (Nat.eqb_spec x c); [contradiction|reflexivity]. Qed.
Lemma cnt_drop c x l : cnt c (drop x l) = if Nat.eqb x c then 0%nat else cnt c l.
Proof.
  unfold drop. induction l as [|y l IH]; [destruct (Nat.eqb x c); reflexivity|]. cbn [remove]. destruct (Nat.eq_dec x y) as [->|N].
  - rewrite IH, cnt_cons. destruct (Nat.eqb y c); lia.
  - rewrite !cnt_cons, IH. destruct (Nat.eqb_spec x c) as [->|]; [|reflexivity]. destruct (Nat.eqb_spec y c); [congruence|reflexivity].
Qed.
Lemma cnt_mem c l : mem_nat c l = true -> (1 <= cnt c l)%nat.
Proof. intros H. unfold mem_nat in H. apply existsb_exists in H as (x & Hi & He). apply Nat.eqb_eq in He. subst x. unfold cnt. apply (count_occ_In Nat.eq_dec) in Hi. lia. Qed.

(** each connection made is in one place at most *)
Definition one_place (s : ts) : Prop := forall c, (cnt c (h_queue s) + total c (h_threads s) <= if Nat.ltb c (h_made s) then 1 else 0)%nat.

Lemma place_thr s s' i t t' : one_place s -> nth_error (h_threads s) i = Some t -> h_threads s' = updt i t' (h_threads s) -> (h_made s <= h_made s')%nat ->
  (forall c, (cnt c (h_queue s') + cnt c (owned t') <= cnt c (h_queue s) + cnt c (owned t) + (if Nat.ltb c (h_made s) then 0 else if Nat.ltb c (h_made s') then 1 else 0))%nat) -> one_place s'.
Proof.
  intros P Hi Ht Hm Hc c. specialize (P c). specialize (Hc c). pose proof (total_updt c i t t' _ Hi) as T. rewrite Ht. pose proof (total_nth c i t _ Hi).
  destruct (Nat.ltb_spec c (h_made s)), (Nat.ltb_spec c (h_made s')); lia.
Qed.

Ltac places := cbn [pc_conns owned t_pc t_lent]; rewrite ?cnt_app, ?cnt_cons; cbn [cnt count_occ]; repeat match goal with |- context [Nat.eqb ?x ?y] => destruct (Nat.eqb_spec x y) end; repeat match goal with |- context [Nat.ltb ?x ?y] => destruct (Nat.ltb_spec x y) end; try lia.
Ltac chk P Hi Ep := eapply (place_thr _ _ _ _ _ P Hi); [reflexivity|cbn; lia|]; let c := fresh "c" in intros c; cbn [h_queue h_made at_ fails gives set_thr log set_queue set_num set_lock shut made_one set_none]; unfold owned; rewrite ?Ep; places.

Lemma put_place s s' i t k c : one_place s -> nth_error (h_threads s) i = Some t -> pc_conns (t_pc t) = c :: match k with ToCaller => [] | ToGet d => [d] end ->
  h_threads s' = h_threads s -> h_made s' = h_made s -> (h_queue s' = h_queue s \/ h_queue s' = c :: h_queue s) -> one_place (put_over i t k s').
Proof.
  intros P Hi Ep Ht Hm Hq. destruct k; cbn [put_over].
  - eapply (place_thr _ _ i t {| t_pc := Idle; t_lent := t_lent t |} P Hi); [cbn; rewrite Ht; reflexivity|cbn; lia|]. intros x. cbn [h_queue h_made at_ log set_thr]. rewrite Hm. unfold owned. rewrite Ep. destruct Hq as [-> | ->]; places.
  - eapply (place_thr _ _ i t {| t_pc := GDrop c0; t_lent := t_lent t |} P Hi); [cbn; rewrite Ht; reflexivity|cbn; lia|]. intros x. cbn [h_queue h_made at_ log set_thr]. rewrite Hm. unfold owned. rewrite Ep. destruct Hq as [-> | ->]; places.
Qed.
Lemma go_place cfg i b t s : one_place s -> nth_error (h_threads s) i = Some t -> one_place (go cfg i b t s).
Proof.
  intros P Hi. unfold go. destruct (t_pc t) eqn:Ep; try exact P.
  - destruct (h_open s); chk P Hi Ep.
  - destruct (h_queue s) as [|c q] eqn:Eq; [destruct (block cfg); [destruct (tmo && b); [chk P Hi Ep|exact P]|chk P Hi Ep]|]. chk P Hi Ep; rewrite Eq, cnt_cons; places.
  - destruct (h_open s); chk P Hi Ep.
  - destruct (len (h_queue s) <? min_free cfg); chk P Hi Ep.
  - destruct (lock_free s); [|exact P]. destruct (max_connections cfg <=? h_num s); destruct w; chk P Hi Ep.
  - destruct w; chk P Hi Ep.
  - destruct w; chk P Hi Ep.
  - destruct b; destruct w; chk P Hi Ep.
  - destruct (h_open s); chk P Hi Ep.
  - destruct (q_full cfg (h_queue s)); [chk P Hi Ep|]. apply (put_place s _ i t k c P Hi); try reflexivity; [rewrite Ep; reflexivity|right; reflexivity].
  - destruct (lock_free s); [|exact P]. chk P Hi Ep.
  - chk P Hi Ep.
  - chk P Hi Ep.
  - apply (put_place s _ i t k c P Hi); try reflexivity; [rewrite Ep; reflexivity|left; reflexivity].
  - destruct (b || mem_nat c (h_closed s)); chk P Hi Ep.
  - chk P Hi Ep.
  - destruct (lock_free s); [|exact P]. chk P Hi Ep.
  - chk P Hi Ep.
  - chk P Hi Ep.
  - chk P Hi Ep.
  - chk P Hi Ep.
  - destruct was; [|chk P Hi Ep]. destruct (h_queue s) as [|c q] eqn:Eq; chk P Hi Ep; rewrite Eq, ?cnt_cons; places.
  - chk P Hi Ep.
Qed.
Lemma step_place cfg o s : one_place s -> one_place (t_step cfg o s).
Proof.
  intros P. destruct o; cbn [t_step].
  - destruct (nth_error (h_threads s) i) as [t|] eqn:Hi; [|exact P]. unfold begin. destruct (t_pc t) eqn:Ep; try exact P. chk P Hi Ep.
  - destruct (nth_error (h_threads s) i) as [t|] eqn:Hi; [|exact P]. destruct (t_pc t) eqn:Ep; try exact P. destruct (mem_nat c (t_lent t)) eqn:Em; [|exact P]. apply cnt_mem in Em.
    eapply (place_thr _ _ _ _ _ P Hi); [reflexivity|cbn; lia|]. intros x. cbn [h_queue set_thr h_made]. unfold owned. rewrite Ep. cbn [t_pc t_lent pc_conns]. rewrite ?cnt_app, ?cnt_cons, cnt_drop. cbn [cnt count_occ]. destruct (Nat.eqb_spec c x) as [->|]; lia.
  - destruct (nth_error (h_threads s) i) as [t|] eqn:Hi; [|exact P]. unfold begin. destruct (t_pc t) eqn:Ep; try exact P. chk P Hi Ep.
  - destruct (nth_error (h_threads s) i) as [t|] eqn:Hi; [|exact P]. apply go_place; assumption.
  - destruct (nth_error (h_threads s) i) as [t|] eqn:Hi; [|exact P]. destruct (nth_error (h_threads s) j) as [u|] eqn:Hj; [|exact P].
    destruct (mem_nat c (t_lent t)) eqn:Em; [|exact P]. destruct (Nat.eqb_spec i j) as [|N]; [exact P|]. cbn [andb negb]. apply cnt_mem in Em.
    intros x. specialize (P x). cbn [h_queue set_thr h_made h_threads].
    assert (Hj' : nth_error (updt i {| t_pc := t_pc t; t_lent := drop c (t_lent t) |} (h_threads s)) j = Some u) by (rewrite nth_updt_other by congruence; exact Hj).
    pose proof (total_updt x j u {| t_pc := t_pc u; t_lent := c :: t_lent u |} _ Hj') as T1. pose proof (total_updt x i t {| t_pc := t_pc t; t_lent := drop c (t_lent t) |} _ Hi) as T2.
    unfold owned in T1, T2. cbn [t_pc t_lent] in T1, T2. rewrite !cnt_app, cnt_cons in T1. rewrite !cnt_app, cnt_drop in T2. destruct (Nat.eqb_spec c x) as [->|]; lia.
Qed.
Lemma total_repeat c t n : owned t = [] -> total c (repeat t n) = 0%nat.
Proof. intros E. induction n as [|n IH]; cbn; [reflexivity|]. rewrite E, IH. reflexivity. Qed.
Lemma init_place cfg mk p n : build cfg mk = Built p -> one_place (t_init p n).
Proof.
  intros B c. apply build_ok in B as (G & _). destruct G as [Nd Lt _ _]. unfold free_conns in *. rewrite app_nil_r in *. unfold t_init. cbn [h_queue h_threads h_made]. rewrite total_repeat by reflexivity. rewrite Nat.add_0_r.
  set (q := match p_free p with Some q => q | None => [] end) in *. unfold cnt. pose proof (proj1 (NoDup_count_occ Nat.eq_dec q) Nd c). destruct (Nat.ltb_spec c (p_attempts p)); [exact H|].
  destruct (in_dec Nat.eq_dec c q) as [Hi|Hi]; [specialize (Lt c Hi); lia|]. apply (count_occ_not_In Nat.eq_dec) in Hi. lia.
Qed.
Lemma run_from cfg (P : ts -> Prop) : (forall o s, P s -> P (t_step cfg o s)) -> forall l s, P s -> P (fold_left (fun s o => t_step cfg o s) l s).
Proof. intros H l. induction l as [|o l IH]; intros s Hs; [exact Hs|]. cbn. apply IH, H, Hs. Qed.
Lemma run_place cfg mk p n l : build cfg mk = Built p -> one_place (t_run cfg p n l).
Proof. intros B. apply (run_from cfg one_place); [intros o s; apply step_place|exact (init_place cfg mk p n B)]. Qed.

Lemma In_cnt c l : In c l -> (1 <= cnt c l)%nat.
Proof. intros H. apply (count_occ_In Nat.eq_dec) in H. unfold cnt. lia. Qed.
Lemma one_holder cfg mk p n l i j t u c : build cfg mk = Built p -> nth_error (h_threads (t_run cfg p n l)) i = Some t -> nth_error (h_threads (t_run cfg p n l)) j = Some u ->
  In c (t_lent t) -> In c (t_lent u) -> i = j.
Proof.
  intros B Hi Hj Hc Hc'. destruct (Nat.eq_dec i j) as [|N]; [assumption|]. exfalso. pose proof (run_place cfg mk p n l B c) as P. pose proof (total_two c i j t u _ Hi Hj N) as T. unfold owned in T. rewrite !cnt_app in T.
  apply In_cnt in Hc, Hc'. destruct (Nat.ltb c (h_made (t_run cfg p n l))); lia.
Qed.
Lemma held_once cfg mk p n l i t : build cfg mk = Built p -> nth_error (h_threads (t_run cfg p n l)) i = Some t -> NoDup (t_lent t).
Proof.
  intros B Hi. apply (NoDup_count_occ Nat.eq_dec). intros c. pose proof (run_place cfg mk p n l B c) as P. pose proof (total_nth c i t _ Hi) as T. unfold owned in T. rewrite cnt_app in T. unfold cnt in T at 1.
  destruct (Nat.ltb c (h_made (t_run cfg p n l))); lia.
Qed.
Lemma lent_not_free cfg mk p n l i t c : build cfg mk = Built p -> nth_error (h_threads (t_run cfg p n l)) i = Some t -> In c (t_lent t) -> ~ In c (h_queue (t_run cfg p n l)).
Proof.
  intros B Hi Hc Hq. pose proof (run_place cfg mk p n l B c) as P. pose proof (total_nth c i t _ Hi) as T. unfold owned in T. rewrite cnt_app in T. apply In_cnt in Hc, Hq.
  destruct (Nat.ltb c (h_made (t_run cfg p n l))); lia.
Qed.
Lemma free_once cfg mk p n l : build cfg mk = Built p -> NoDup (h_queue (t_run cfg p n l)).
Proof.
  intros B. apply (NoDup_count_occ Nat.eq_dec). intros c. pose proof (run_place cfg mk p n l B c) as P. unfold cnt in P. destruct (Nat.ltb c (h_made (t_run cfg p n l))); lia.
Qed.

(** ** The free list is bounded *)
Definition fits (cfg : config) (s : ts) : Prop := 0 < max_free cfg -> len (h_queue s) <= max_free cfg.
Lemma fits_step cfg o s : fits cfg s -> fits cfg (t_step cfg o s).
Proof.
  intros F M. specialize (F M).
  assert (S1 : forall s', h_queue s' = h_queue s -> len (h_queue s') <= max_free cfg) by (intros s' ->; exact F).
  destruct o; cbn [t_step].
  - destruct (nth_error (h_threads s) i) as [t|]; [|exact F]. unfold begin. destruct (t_pc t); exact F.
  - destruct (nth_error (h_threads s) i) as [t|]; [|exact F]. destruct (t_pc t); try exact F. destruct (mem_nat c (t_lent t)); exact F.
  - destruct (nth_error (h_threads s) i) as [t|]; [|exact F]. unfold begin. destruct (t_pc t); exact F.
  - destruct (nth_error (h_threads s) i) as [t|]; [|exact F]. unfold go. destruct (t_pc t); try (exact F); repeat match goal with
      | |- context [if ?x then _ else _] => let E := fresh "E" in destruct x eqn:E
      | |- context [match h_queue s with _ => _ end] => let E := fresh "E" in destruct (h_queue s) eqn:E
      | |- context [match ?w with ForCaller => _ | ForRefill _ => _ end] => is_var w; destruct w
      | |- context [put_over _ _ ?k _] => is_var k; destruct k
      end; cbn [h_queue at_ fails gives set_thr log set_queue set_num set_lock shut made_one set_none put_over]; rewrite ?len_cons in *; try lia.
    all: unfold q_full in *; rewrite ?len_cons in *; try lia. all: match goal with H : h_queue _ = [] |- _ => rewrite H; exact F end.
  - destruct (nth_error (h_threads s) i) as [t|]; [|exact F]. destruct (nth_error (h_threads s) j) as [u|]; [|exact F]. destruct (mem_nat c (t_lent t) && negb (Nat.eqb i j)); exact F.
Qed.
Lemma free_fits cfg mk p n l : build cfg mk = Built p -> 0 < max_free cfg -> len (h_queue (t_run cfg p n l)) <= max_free cfg.
Proof.
  intros B. apply (run_from cfg (fits cfg)); [intros o s; apply fits_step|]. apply build_ok in B as (G & _). exact (g_bound _ _ _ G).
Qed.

(** ** The lock is held by a thread that is about to release it *)
Definition in_lock (p : tpc) : bool := match p with PDecLoad _ _ | PDecStore _ _ _ | GDecLoad _ | GDecStore _ _ => true | _ => false end.
Definition lock_ok (s : ts) : Prop := forall i t, nth_error (h_threads s) i = Some t -> in_lock (t_pc t) = true <-> h_lock s = Some i.
Definition lock_there (s : ts) : Prop := forall i, h_lock s = Some i -> exists t, nth_error (h_threads s) i = Some t.

Lemma lock_same s s' i t t' : lock_ok s -> lock_there s -> nth_error (h_threads s) i = Some t -> h_threads s' = updt i t' (h_threads s) -> h_lock s' = h_lock s -> in_lock (t_pc t') = in_lock (t_pc t) -> lock_ok s' /\ lock_there s'.
Proof.
  intros L E Hi Ht Hl Hp. split.
  - intros j u Hj. rewrite Ht in Hj. rewrite Hl. destruct (Nat.eq_dec i j) as [<-|N]; [|rewrite nth_updt_other in Hj by exact N; exact (L j u Hj)].
    rewrite (nth_updt_same _ _ _ _ Hi) in Hj. injection Hj as <-. rewrite Hp. exact (L i t Hi).
  - intros j Hj. rewrite Hl in Hj. rewrite Ht. destruct (Nat.eq_dec i j) as [<-|N]; [rewrite (nth_updt_same _ _ _ _ Hi); eauto|]. rewrite nth_updt_other by exact N. exact (E j Hj).
Qed.
Lemma lock_take s s' i t t' : lock_ok s -> nth_error (h_threads s) i = Some t -> h_threads s' = updt i t' (h_threads s) -> h_lock s = None -> h_lock s' = Some i -> in_lock (t_pc t') = true -> lock_ok s' /\ lock_there s'.
Proof.
  intros L Hi Ht Hn Hl Hp. split.
  - intros j u Hj. rewrite Ht in Hj. rewrite Hl. destruct (Nat.eq_dec i j) as [<-|N].
    + rewrite (nth_updt_same _ _ _ _ Hi) in Hj. injection Hj as <-. split; auto.
    + rewrite nth_updt_other in Hj by exact N. split; [|congruence]. intros Hu. apply (L j u Hj) in Hu. congruence.
  - intros j Hj. rewrite Hl in Hj. injection Hj as <-. rewrite Ht, (nth_updt_same _ _ _ _ Hi). eauto.
Qed.
Lemma lock_drop s s' i t t' : lock_ok s -> nth_error (h_threads s) i = Some t -> in_lock (t_pc t) = true -> h_threads s' = updt i t' (h_threads s) -> h_lock s' = None -> in_lock (t_pc t') = false -> lock_ok s' /\ lock_there s'.
Proof.
  intros L Hi Hb Ht Hl Hp. split; [|intros j Hj; congruence].
  intros j u Hj. rewrite Ht in Hj. rewrite Hl. destruct (Nat.eq_dec i j) as [<-|N].
  - rewrite (nth_updt_same _ _ _ _ Hi) in Hj. injection Hj as <-. rewrite Hp. split; discriminate.
  - rewrite nth_updt_other in Hj by exact N. split; [|discriminate]. intros Hu. apply (L j u Hj) in Hu. apply (L i t Hi) in Hb. congruence.
Qed.
Lemma go_lock cfg i b t s : lock_ok s -> lock_there s -> nth_error (h_threads s) i = Some t -> lock_ok (go cfg i b t s) /\ lock_there (go cfg i b t s).
Proof.
  intros L E Hi. unfold go. assert (U : lock_ok s /\ lock_there s) by (split; assumption).
  destruct (t_pc t) eqn:Ep; try exact U; repeat match goal with
      | |- context [if lock_free s then _ else _] => fail 1
      | |- context [if ?x then _ else _] => destruct x
      | |- context [match h_queue s with _ => _ end] => destruct (h_queue s)
      | |- context [match ?w with ForCaller => _ | ForRefill _ => _ end] => is_var w; destruct w
      | |- context [put_over _ _ ?k _] => is_var k; destruct k
      end; try exact U; try (eapply (lock_same s _ i t _ L E Hi); [reflexivity|reflexivity|rewrite Ep; reflexivity]).
  - unfold lock_free. destruct (h_lock s) eqn:El; [exact U|]. destruct (max_connections cfg <=? h_num s); (eapply (lock_same s _ i t _ L E Hi); [reflexivity|reflexivity|rewrite Ep; reflexivity]).
  - unfold lock_free. destruct (h_lock s) eqn:El; [exact U|]. eapply (lock_take s _ i t _ L Hi); [reflexivity|exact El|reflexivity|reflexivity].
  - eapply (lock_drop s _ i t _ L Hi); [rewrite Ep; reflexivity|reflexivity|reflexivity|reflexivity].
  - unfold lock_free. destruct (h_lock s) eqn:El; [exact U|]. eapply (lock_take s _ i t _ L Hi); [reflexivity|exact El|reflexivity|reflexivity].
  - eapply (lock_drop s _ i t _ L Hi); [rewrite Ep; reflexivity|reflexivity|reflexivity|reflexivity].
Qed.
Lemma step_lock cfg o s : lock_ok s /\ lock_there s -> lock_ok (t_step cfg o s) /\ lock_there (t_step cfg o s).
Proof.
  intros (L & E). assert (U : lock_ok s /\ lock_there s) by (split; assumption). destruct o; cbn [t_step].
  - destruct (nth_error (h_threads s) i) as [t|] eqn:Hi; [|exact U]. unfold begin. destruct (t_pc t) eqn:Ep; try exact U. eapply (lock_same s _ i t _ L E Hi); [reflexivity|reflexivity|rewrite Ep; reflexivity].
  - destruct (nth_error (h_threads s) i) as [t|] eqn:Hi; [|exact U]. destruct (t_pc t) eqn:Ep; try exact U. destruct (mem_nat c (t_lent t)); [|exact U]. eapply (lock_same s _ i t _ L E Hi); [reflexivity|reflexivity|rewrite Ep; reflexivity].
  - destruct (nth_error (h_threads s) i) as [t|] eqn:Hi; [|exact U]. unfold begin. destruct (t_pc t) eqn:Ep; try exact U. eapply (lock_same s _ i t _ L E Hi); [reflexivity|reflexivity|rewrite Ep; reflexivity].
  - destruct (nth_error (h_threads s) i) as [t|] eqn:Hi; [|exact U]. exact (go_lock cfg i b t s L E Hi).
  - destruct (nth_error (h_threads s) i) as [t|] eqn:Hi; [|exact U]. destruct (nth_error (h_threads s) j) as [u|] eqn:Hj; [|exact U]. destruct (mem_nat c (t_lent t)); [|exact U]. destruct (Nat.eqb_spec i j) as [|N]; [exact U|]. cbn [andb negb].
    destruct (lock_same s (set_thr i {| t_pc := t_pc t; t_lent := drop c (t_lent t) |} s) i t _ L E Hi eq_refl eq_refl eq_refl) as (L' & E').
    eapply (lock_same _ _ j u _ L' E'); [|reflexivity|reflexivity|reflexivity]. cbn [set_thr h_threads]. rewrite nth_updt_other by exact N. exact Hj.
Qed.
Lemma run_lock cfg p n l : lock_ok (t_run cfg p n l) /\ lock_there (t_run cfg p n l).
Proof.
  apply (run_from cfg (fun s => lock_ok s /\ lock_there s)); [intros o s; apply step_lock|]. split; [|intros i H; discriminate].
  intros i t Hi. cbn [t_init h_threads] in Hi. apply nth_error_In, repeat_spec in Hi. subst t. split; discriminate.
Qed.

(** ** Everything comes to an end *)
Definition weight (p : tpc) : nat :=
  match p with
  | Idle => 0 | GLoad _ => 40 | GTake _ => 39 | GSizeLoad _ => 30 | GSize _ => 29
  | NCheck _ => 28 | NLoad _ => 27 | NStore _ _ => 26 | NMake _ => 25 | PLoad _ _ => 24 | PPut _ _ => 23 | PLock _ _ => 22 | PDecLoad _ _ => 21 | PDecStore _ _ _ => 20 | PClose _ _ => 19
  | GDrop _ => 10 | GClose _ => 9 | GLock _ => 8 | GDecLoad _ => 7 | GDecStore _ _ => 6
  | CLoad => 4 | CStore _ => 3 | CDrain _ => 1 | CShut _ => 2
  end%nat.
Fixpoint weights (l : list thr) : nat := match l with [] => 0%nat | t :: r => (weight (t_pc t) + weights r)%nat end.
Definition work (s : ts) : nat := (weights (h_threads s) + 3 * List.length (h_queue s))%nat.
Lemma weights_updt i t t' l : nth_error l i = Some t -> (weights (updt i t' l) + weight (t_pc t) = weights l + weight (t_pc t'))%nat.
Proof. revert l. induction i; intros [|z l] H; try discriminate; cbn in *; [injection H as ->; lia|]. specialize (IHi l H). lia. Qed.
(** a thread that cannot take its next step: it waits for the lock, or for a connection *)
Definition waits_lock (p : tpc) : bool := match p with NCheck _ | PLock _ _ | GLock _ => true | _ => false end.
Definition stuck (cfg : config) (s : ts) (b : bool) (p : tpc) : bool :=
  match p with
  | Idle => true
  | GTake tmo => match h_queue s with [] => block cfg && negb (tmo && b) | _ => false end
  | _ => waits_lock p && negb (lock_free s)
  end.
Lemma go_stuck cfg i b t s : stuck cfg s b (t_pc t) = true -> go cfg i b t s = s.
Proof.
  unfold go, stuck. destruct (t_pc t); cbn [waits_lock andb]; try discriminate; try reflexivity; try (destruct (lock_free s); [discriminate|reflexivity]).
  destruct (h_queue s); [|discriminate]. destruct (block cfg); [|discriminate]. destruct (tmo && b); [discriminate|reflexivity].
Qed.
Lemma go_works cfg i b t s : nth_error (h_threads s) i = Some t -> stuck cfg s b (t_pc t) = false -> (work (go cfg i b t s) < work s)%nat.
Proof.
  intros Hi. unfold stuck, go. destruct (t_pc t) eqn:Ep; cbn [waits_lock andb]; try discriminate; intros Hs;
  assert (W : forall t', (weights (updt i t' (h_threads s)) + weight (t_pc t) = weights (h_threads s) + weight (t_pc t'))%nat) by (intros t'; exact (weights_updt i t t' _ Hi)); rewrite Ep in W;
  repeat match goal with
      | |- context [if lock_free s then _ else _] => destruct (lock_free s); [|discriminate Hs]
      | |- context [if ?x then _ else _] => let E := fresh "E" in destruct x eqn:E
      | |- context [match h_queue s with _ => _ end] => let E := fresh "E" in destruct (h_queue s) eqn:E
      | |- context [match ?w with ForCaller => _ | ForRefill _ => _ end] => is_var w; destruct w
      | |- context [put_over _ _ ?k _] => is_var k; destruct k
      end; cbn [put_over]; try discriminate Hs;
  unfold work, fails, gives, at_; cbn [h_threads h_queue set_thr log set_queue set_num set_lock shut made_one set_none];
  try match goal with |- context [updt i ?t' _] => specialize (W t') end; cbn [t_pc weight List.length] in *; try lia.
  all: match goal with H : h_queue _ = _ |- _ => rewrite ?H; cbn [List.length]; try lia end.
Qed.

Lemma busy_work cfg k s s' : busy cfg k s s' -> (k + work s' <= work s)%nat.
Proof.
  induction 1 as [|k s i b s' N B IH]; [lia|]. cbn [t_step] in *. destruct (nth_error (h_threads s) i) as [t|] eqn:Hi; [|contradiction].
  destruct (stuck cfg s b (t_pc t)) eqn:E; [rewrite (go_stuck _ _ _ _ _ E) in N; contradiction|]. pose proof (go_works cfg i b t s Hi E). lia.
Qed.
Lemma weights_le l : (weights l <= 40 * List.length l)%nat.
Proof. induction l as [|t l IH]; cbn [weights List.length]; [lia|]. assert (weight (t_pc t) <= 40)%nat by (destruct (t_pc t); cbn; lia). lia. Qed.
Lemma length_updt {A} i (x : A) l : List.length (updt i x l) = List.length l.
Proof. revert l. induction i; intros [|y l]; cbn; auto. Qed.
Lemma threads_go cfg i b t s : List.length (h_threads (go cfg i b t s)) = List.length (h_threads s).
Proof.
  unfold go. destruct (t_pc t); repeat match goal with
      | |- context [if ?x then _ else _] => destruct x
      | |- context [match h_queue s with _ => _ end] => destruct (h_queue s)
      | |- context [match ?w with ForCaller => _ | ForRefill _ => _ end] => is_var w; destruct w
      | |- context [put_over _ _ ?k _] => is_var k; destruct k
      end; cbn; rewrite ?length_updt; reflexivity.
Qed.
Lemma threads_step cfg o s : List.length (h_threads (t_step cfg o s)) = List.length (h_threads s).
Proof.
  destruct o; cbn [t_step].
  - destruct (nth_error (h_threads s) i) as [t|]; [|reflexivity]. unfold begin. destruct (t_pc t); cbn; rewrite ?length_updt; reflexivity.
  - destruct (nth_error (h_threads s) i) as [t|]; [|reflexivity]. destruct (t_pc t); try reflexivity. destruct (mem_nat c (t_lent t)); cbn; rewrite ?length_updt; reflexivity.
  - destruct (nth_error (h_threads s) i) as [t|]; [|reflexivity]. unfold begin. destruct (t_pc t); cbn; rewrite ?length_updt; reflexivity.
  - destruct (nth_error (h_threads s) i) as [t|]; [|reflexivity]. apply threads_go.
  - destruct (nth_error (h_threads s) i) as [t|]; [|reflexivity]. destruct (nth_error (h_threads s) j) as [u|]; [|reflexivity]. destruct (mem_nat c (t_lent t) && negb (Nat.eqb i j)); cbn; rewrite ?length_updt; reflexivity.
Qed.
Lemma threads_run cfg p n l : List.length (h_threads (t_run cfg p n l)) = n.
Proof.
  apply (run_from cfg (fun s => List.length (h_threads s) = n)); [intros o s <-; apply threads_step|]. cbn. apply repeat_length.
Qed.
Lemma finite_work cfg p n l k s : busy cfg k (t_run cfg p n l) s -> (k <= 40 * n + 3 * List.length (h_queue (t_run cfg p n l)))%nat.
Proof. intros B. apply busy_work in B. pose proof (weights_le (h_threads (t_run cfg p n l))) as W. rewrite threads_run in W. unfold work in B. lia. Qed.

(** when nothing moves any more, every operation is over or waits for a connection *)
Lemma moves cfg i b t s : nth_error (h_threads s) i = Some t -> stuck cfg s b (t_pc t) = false -> t_step cfg (TStep i b) s <> s.
Proof. intros Hi Hs E. cbn [t_step] in E. rewrite Hi in E. pose proof (go_works cfg i b t s Hi Hs) as W. rewrite E in W. lia. Qed.
Lemma at_rest cfg p n l i t : (forall j b, t_step cfg (TStep j b) (t_run cfg p n l) = t_run cfg p n l) -> nth_error (h_threads (t_run cfg p n l)) i = Some t ->
  t_pc t = Idle \/ (t_pc t = GTake false /\ block cfg = true /\ h_queue (t_run cfg p n l) = []).
Proof.
  intros R Hi. destruct (run_lock cfg p n l) as (L & E). set (s := t_run cfg p n l) in *.
  assert (K : forall j u b, nth_error (h_threads s) j = Some u -> stuck cfg s b (t_pc u) = true).
  { intros j u b Hj. destruct (stuck cfg s b (t_pc u)) eqn:X; [reflexivity|]. contradiction (moves cfg j b u s Hj X (R j b)). }
  assert (F : lock_free s = true).
  { unfold lock_free. destruct (h_lock s) as [j|] eqn:El; [|reflexivity]. destruct (E j El) as (u & Hu). pose proof (proj2 (L j u Hu) El) as Hb. specialize (K j u true Hu). destruct (t_pc u); discriminate. }
  pose proof (K i t true Hi) as K1. unfold stuck in K1. destruct (t_pc t) eqn:Ep; cbn [waits_lock andb] in K1; try discriminate; try (rewrite F in K1; discriminate).
  - left. reflexivity.
  - right. destruct (h_queue s); [|discriminate]. destruct (block cfg); [|discriminate]. destruct tmo; [discriminate|]. auto.
Qed.

(** ** Closing *)
Lemma go_closed cfg i b t s : h_open s = false -> h_open (go cfg i b t s) = false.
Proof.
  intros H. unfold go. rewrite ?H. destruct (t_pc t); repeat match goal with
      | |- context [if ?x then _ else _] => destruct x
      | |- context [match h_queue s with _ => _ end] => destruct (h_queue s)
      | |- context [match ?w with ForCaller => _ | ForRefill _ => _ end] => is_var w; destruct w
      | |- context [put_over _ _ ?k _] => is_var k; destruct k
      end; cbn; assumption || reflexivity.
Qed.
Lemma step_closed cfg o s : h_open s = false -> h_open (t_step cfg o s) = false.
Proof.
  intros H. destruct o; cbn [t_step]; destruct (nth_error (h_threads s) i) as [t|]; try exact H.
  - unfold begin. destruct (t_pc t); exact H.
  - destruct (t_pc t); try exact H. destruct (mem_nat c (t_lent t)); exact H.
  - unfold begin. destruct (t_pc t); exact H.
  - apply go_closed. exact H.
  - destruct (nth_error (h_threads s) j) as [u|]; [|exact H]. destruct (mem_nat c (t_lent t) && negb (Nat.eqb i j)); exact H.
Qed.
Lemma stays_closed cfg l s : h_open s = false -> h_open (fold_left (fun s o => t_step cfg o s) l s) = false.
Proof. apply (run_from cfg (fun s => h_open s = false)). intros o s'. apply step_closed. Qed.

(** a thread in the middle of an operation only moves by its own steps *)
Lemma threads_shape cfg i b t s : (h_threads (go cfg i b t s) = h_threads s) \/ exists t', h_threads (go cfg i b t s) = updt i t' (h_threads s).
Proof.
  unfold go. destruct (t_pc t); repeat match goal with
      | |- context [if ?x then _ else _] => destruct x
      | |- context [match h_queue s with _ => _ end] => destruct (h_queue s)
      | |- context [match ?w with ForCaller => _ | ForRefill _ => _ end] => is_var w; destruct w
      | |- context [put_over _ _ ?k _] => is_var k; destruct k
      end; cbn; (left; reflexivity) || (right; eexists; reflexivity).
Qed.
Lemma other_pc cfg o s i t : nth_error (h_threads s) i = Some t -> t_pc t <> Idle -> (forall b, o <> TStep i b) -> exists t', nth_error (h_threads (t_step cfg o s)) i = Some t' /\ t_pc t' = t_pc t.
Proof.
  intros Hi Np Nb. assert (U : exists t', nth_error (h_threads s) i = Some t' /\ t_pc t' = t_pc t) by eauto.
  assert (O : forall j p x, nth_error (h_threads s) j = Some x -> (j <> i \/ t_pc p = t_pc x) -> exists t', nth_error (updt j p (h_threads s)) i = Some t' /\ t_pc t' = t_pc t).
  { intros j p x Hj [N|N]; [rewrite nth_updt_other by exact N; exact U|]. destruct (Nat.eq_dec j i) as [->|Nj]; [|rewrite nth_updt_other by exact Nj; exact U]. rewrite (nth_updt_same _ _ _ _ Hj). exists p. split; [reflexivity|congruence]. }
  destruct o as [j tmo|j c|j|j b|j k c]; cbn [t_step]; destruct (nth_error (h_threads s) j) as [x|] eqn:Hj; try exact U.
  - unfold begin. destruct (t_pc x) eqn:Ep; try exact U. cbn. apply (O j _ x Hj). left. intros ->. congruence.
  - destruct (t_pc x) eqn:Ep; try exact U. destruct (mem_nat c (t_lent x)); [|exact U]. cbn. apply (O j _ x Hj). left. intros ->. congruence.
  - unfold begin. destruct (t_pc x) eqn:Ep; try exact U. cbn. apply (O j _ x Hj). left. intros ->. congruence.
  - assert (Nj : j <> i) by (intros ->; apply (Nb b); reflexivity). destruct (threads_shape cfg j b x s) as [-> | (t' & ->)]; [exact U|]. apply (O j t' x Hj). left. exact Nj.
  - destruct (nth_error (h_threads s) k) as [y|] eqn:Hk; [|exact U]. destruct (mem_nat c (t_lent x)); [|exact U]. destruct (Nat.eqb_spec j k) as [|N]; [exact U|]. cbn.
    destruct (O j {| t_pc := t_pc x; t_lent := drop c (t_lent x) |} x Hj (or_intror eq_refl)) as (t' & Ht' & Hp').
    destruct (Nat.eq_dec k i) as [->|Nk]; [|rewrite nth_updt_other by exact Nk; eauto]. rewrite (nth_updt_same _ _ _ _ Ht'). eexists. split; [reflexivity|]. cbn. congruence.
Qed.
Lemma others_pc cfg i m s t : nth_error (h_threads s) i = Some t -> t_pc t <> Idle -> (forall b, ~ In (TStep i b) m) ->
  exists t', nth_error (h_threads (fold_left (fun s o => t_step cfg o s) m s)) i = Some t' /\ t_pc t' = t_pc t.
Proof.
  revert s t. induction m as [|o m IH]; intros s t Hi Np Nb; [exists t; auto|]. cbn.
  destruct (other_pc cfg o s i t Hi Np) as (t' & Hi' & Hp'); [intros b E; apply (Nb b); left; exact E|].
  destruct (IH _ t' Hi') as (t2 & H2 & P2); [congruence|intros b H; apply (Nb b); right; exact H|]. exists t2. split; [exact H2|congruence].
Qed.
Lemma t_app cfg p n l m : t_run cfg p n (l ++ m) = fold_left (fun s o => t_step cfg o s) m (t_run cfg p n l).
Proof. unfold t_run. apply fold_left_app. Qed.

Lemma closed_get cfg p n l i t tmo m b : h_open (t_run cfg p n l) = false -> nth_error (h_threads (t_run cfg p n l)) i = Some t -> t_pc t = Idle -> (forall b, ~ In (TStep i b) m) ->
  h_log (t_run cfg p n (l ++ TGet i tmo :: m ++ [TStep i b])) = h_log (t_run cfg p n (l ++ TGet i tmo :: m)) ++ [(i, OErr ClosedPoolError)].
Proof.
  intros Hc Hi Hp Nb. replace (l ++ TGet i tmo :: m ++ [TStep i b]) with ((l ++ TGet i tmo :: m) ++ [TStep i b]) by (rewrite <- app_assoc; reflexivity).
  rewrite t_app. cbn [fold_left]. rewrite (t_app cfg p n l). cbn [fold_left].
  set (s1 := t_step cfg (TGet i tmo) (t_run cfg p n l)). assert (H1 : nth_error (h_threads s1) i = Some {| t_pc := GLoad tmo; t_lent := t_lent t |}).
  { unfold s1. cbn [t_step]. rewrite Hi. unfold begin. rewrite Hp. cbn. apply (nth_updt_same _ _ _ _ Hi). }
  destruct (others_pc cfg i m s1 _ H1 ltac:(discriminate) Nb) as (t2 & H2 & P2). cbn [t_pc] in P2.
  assert (C2 : h_open (fold_left (fun s o => t_step cfg o s) m s1) = false) by (apply stays_closed, step_closed, Hc).
  cbn [t_step]. rewrite H2. unfold go. rewrite P2, C2. reflexivity.
Qed.
Lemma closed_close cfg p n l i t m1 b1 m2 b2 m3 b3 : h_open (t_run cfg p n l) = false -> nth_error (h_threads (t_run cfg p n l)) i = Some t -> t_pc t = Idle ->
  (forall b, ~ In (TStep i b) (m1 ++ m2 ++ m3)) -> let l' := l ++ TClose i :: m1 ++ TStep i b1 :: m2 ++ TStep i b2 :: m3 in
  h_log (t_run cfg p n (l' ++ [TStep i b3])) = h_log (t_run cfg p n l') ++ [(i, OErr AttributeError)].
Proof.
  intros Hc Hi Hp Nb l'. set (run := fold_left (fun s o => t_step cfg o s)).
  assert (N1 : forall b, ~ In (TStep i b) m1) by (intros b H; apply (Nb b), in_or_app; auto).
  assert (N2 : forall b, ~ In (TStep i b) m2) by (intros b H; apply (Nb b), in_or_app; right; apply in_or_app; auto).
  assert (N3 : forall b, ~ In (TStep i b) m3) by (intros b H; apply (Nb b), in_or_app; right; apply in_or_app; auto).
  set (s0 := t_step cfg (TClose i) (t_run cfg p n l)).
  assert (H0 : nth_error (h_threads s0) i = Some {| t_pc := CLoad; t_lent := t_lent t |}).
  { unfold s0. cbn [t_step]. rewrite Hi. unfold begin. rewrite Hp. cbn. apply (nth_updt_same _ _ _ _ Hi). }
  destruct (others_pc cfg i m1 s0 _ H0 ltac:(discriminate) N1) as (t1 & H1 & P1). cbn [t_pc] in P1. fold run in H1. set (s1 := run m1 s0) in *.
  assert (C1 : h_open s1 = false) by (unfold s1, run; apply stays_closed, step_closed, Hc).
  set (s2 := t_step cfg (TStep i b1) s1).
  assert (E2 : s2 = at_ i t1 (CStore false) s1) by (unfold s2; cbn [t_step]; rewrite H1; unfold go; rewrite P1, C1; reflexivity).
  assert (H2 : nth_error (h_threads s2) i = Some {| t_pc := CStore false; t_lent := t_lent t1 |}) by (rewrite E2; exact (nth_updt_same _ _ _ _ H1)).
  destruct (others_pc cfg i m2 s2 _ H2 ltac:(discriminate) N2) as (t3 & H3 & P3). cbn [t_pc] in P3. fold run in H3. set (s3 := run m2 s2) in *.
  set (s4 := t_step cfg (TStep i b2) s3).
  assert (E4 : s4 = at_ i t3 (CDrain false) (set_none s3)) by (unfold s4; cbn [t_step]; rewrite H3; unfold go; rewrite P3; reflexivity).
  assert (H4 : nth_error (h_threads s4) i = Some {| t_pc := CDrain false; t_lent := t_lent t3 |}) by (rewrite E4; exact (nth_updt_same _ _ _ _ H3)).
  destruct (others_pc cfg i m3 s4 _ H4 ltac:(discriminate) N3) as (t5 & H5 & P5). cbn [t_pc] in P5. fold run in H5.
  rewrite t_app. cbn [fold_left]. assert (E : t_run cfg p n l' = run m3 s4).
  { unfold l'. rewrite t_app. cbn [fold_left]. rewrite fold_left_app. cbn [fold_left]. rewrite fold_left_app. reflexivity. }
  rewrite E. cbn [t_step]. rewrite H5. unfold go. rewrite P5. reflexivity.
Qed.
Lemma go_shut cfg i b t s : incl (h_closed s) (h_closed (go cfg i b t s)).
Proof.
  unfold go. destruct (t_pc t); repeat match goal with
      | |- context [if ?x then _ else _] => destruct x
      | |- context [match h_queue s with _ => _ end] => destruct (h_queue s)
      | |- context [match ?w with ForCaller => _ | ForRefill _ => _ end] => is_var w; destruct w
      | |- context [put_over _ _ ?k _] => is_var k; destruct k
      end; cbn; try apply incl_refl; apply incl_appl, incl_refl.
Qed.
Lemma closed_put cfg p n l i t c m b m' b' : h_open (t_run cfg p n l) = false -> nth_error (h_threads (t_run cfg p n l)) i = Some t -> t_pc t = Idle -> In c (t_lent t) ->
  (forall b, ~ In (TStep i b) m) -> (forall b, ~ In (TStep i b) m') ->
  In c (h_closed (t_run cfg p n (l ++ TPut i c :: m ++ TStep i b :: m' ++ [TStep i b']))).
Proof.
  intros Hc Hi Hp Hl Nb Nb'. replace (l ++ TPut i c :: m ++ TStep i b :: m' ++ [TStep i b']) with (l ++ [TPut i c] ++ m ++ [TStep i b] ++ m' ++ [TStep i b']) by reflexivity.
  rewrite t_app. rewrite !fold_left_app. cbn [fold_left].
  set (s1 := t_step cfg (TPut i c) (t_run cfg p n l)). assert (M : mem_nat c (t_lent t) = true) by (unfold mem_nat; apply existsb_exists; exists c; split; [exact Hl|apply Nat.eqb_refl]).
  assert (H1 : nth_error (h_threads s1) i = Some {| t_pc := PLoad ToCaller c; t_lent := drop c (t_lent t) |}).
  { unfold s1. cbn [t_step]. rewrite Hi, Hp, M. cbn. apply (nth_updt_same _ _ _ _ Hi). }
  destruct (others_pc cfg i m s1 _ H1 ltac:(discriminate) Nb) as (t2 & H2 & P2). cbn [t_pc] in P2. set (s2 := fold_left (fun s o => t_step cfg o s) m s1) in *.
  assert (C2 : h_open s2 = false) by (apply stays_closed, step_closed, Hc).
  set (s3 := t_step cfg (TStep i b) s2). assert (H3 : nth_error (h_threads s3) i = Some {| t_pc := PClose ToCaller c; t_lent := t_lent t2 |}).
  { unfold s3. cbn [t_step]. rewrite H2. unfold go. rewrite P2, C2. cbn. apply (nth_updt_same _ _ _ _ H2). }
  destruct (others_pc cfg i m' s3 _ H3 ltac:(discriminate) Nb') as (t4 & H4 & P4). cbn [t_pc] in P4.
  cbn [t_step]. rewrite H4. unfold go. rewrite P4. cbn. apply in_or_app. right. left. reflexivity.
Qed.

(** ** Waiting in a closed pool *)
Definition quiet (s : ts) : Prop := h_open s = false /\ h_queue s = [] /\ forall j u k c, nth_error (h_threads s) j = Some u -> t_pc u <> PPut k c.
Lemma quiet_go cfg i b t s : quiet s -> nth_error (h_threads s) i = Some t -> quiet (go cfg i b t s).
Proof.
  intros (O & Q & N) Hi. unfold go.
  assert (Z : forall s' t', h_open s' = false -> h_queue s' = [] -> h_threads s' = updt i t' (h_threads s) -> (forall k c, t_pc t' <> PPut k c) -> quiet s').
  { intros s' t' A B C D. split; [exact A|]. split; [exact B|]. intros j u k c Hj. rewrite C in Hj. destruct (Nat.eq_dec i j) as [<-|Nj]; [|rewrite nth_updt_other in Hj by exact Nj; exact (N j u k c Hj)].
    rewrite (nth_updt_same _ _ _ _ Hi) in Hj. injection Hj as <-. apply D. }
  assert (U : quiet s) by (split; auto). rewrite Q, O.
  destruct (t_pc t) eqn:Ep; try exact U; repeat match goal with
      | |- context [if ?x then _ else _] => destruct x
      | |- context [match ?w with ForCaller => _ | ForRefill _ => _ end] => is_var w; destruct w
      | |- context [put_over _ _ ?k _] => is_var k; destruct k
      end; try exact U; try (eapply Z; [exact O|exact Q|reflexivity|cbn; discriminate]); try (eapply Z; [reflexivity|exact Q|reflexivity|cbn; discriminate]);
  exfalso; exact (N i t _ _ Hi Ep).
Qed.
Lemma quiet_step cfg o s : quiet s -> quiet (t_step cfg o s).
Proof.
  intros U. pose proof U as (O & Q & N).
  assert (Z : forall i t t' s', nth_error (h_threads s) i = Some t -> h_open s' = false -> h_queue s' = [] -> h_threads s' = updt i t' (h_threads s) -> ((forall k c, t_pc t' <> PPut k c) \/ t_pc t' = t_pc t) -> quiet s').
  { intros i t t' s' Hi A B C D. split; [exact A|]. split; [exact B|]. intros j u k c Hj. rewrite C in Hj. destruct (Nat.eq_dec i j) as [<-|Nj]; [|rewrite nth_updt_other in Hj by exact Nj; exact (N j u k c Hj)].
    rewrite (nth_updt_same _ _ _ _ Hi) in Hj. injection Hj as <-. destruct D as [D|D]; [apply D|rewrite D; exact (N i t k c Hi)]. }
  destruct o; cbn [t_step]; destruct (nth_error (h_threads s) i) as [t|] eqn:Hi; try exact U.
  - unfold begin. destruct (t_pc t); try exact U. eapply (Z i t); [exact Hi|exact O|exact Q|reflexivity|left; cbn; discriminate].
  - destruct (t_pc t); try exact U. destruct (mem_nat c (t_lent t)); [|exact U]. eapply (Z i t); [exact Hi|exact O|exact Q|reflexivity|left; cbn; discriminate].
  - unfold begin. destruct (t_pc t); try exact U. eapply (Z i t); [exact Hi|exact O|exact Q|reflexivity|left; cbn; discriminate].
  - apply quiet_go; assumption.
  - destruct (nth_error (h_threads s) j) as [u|] eqn:Hj; [|exact U]. destruct (mem_nat c (t_lent t)); [|exact U]. destruct (Nat.eqb_spec i j) as [|Ne]; [exact U|]. cbn [andb negb].
    split; [exact O|]. split; [exact Q|]. intros x y k d Hx. cbn [set_thr h_threads] in Hx. destruct (Nat.eq_dec j x) as [<-|Nj].
    + rewrite (nth_updt_same j _ u) in Hx by (rewrite nth_updt_other by exact Ne; exact Hj). injection Hx as <-. exact (N j u k d Hj).
    + rewrite nth_updt_other in Hx by exact Nj. destruct (Nat.eq_dec i x) as [<-|Ni]; [rewrite (nth_updt_same _ _ _ _ Hi) in Hx; injection Hx as <-; exact (N i t k d Hi)|]. rewrite nth_updt_other in Hx by exact Ni. exact (N x y k d Hx).
Qed.
Lemma waits_for_ever cfg p n l m i t : quiet (t_run cfg p n l) -> block cfg = true -> nth_error (h_threads (t_run cfg p n l)) i = Some t -> t_pc t = GTake false ->
  exists t', nth_error (h_threads (t_run cfg p n (l ++ m))) i = Some t' /\ t_pc t' = GTake false.
Proof.
  intros Q B. rewrite t_app. revert Q t. generalize (t_run cfg p n l) as s. induction m as [|o m IH]; intros s Q t Hi Hp; [exists t; auto|]. cbn.
  assert (K : exists t', nth_error (h_threads (t_step cfg o s)) i = Some t' /\ t_pc t' = GTake false).
  { destruct o as [j tmo|j c|j|j b|j k c]; try (destruct (other_pc cfg _ s i t Hi ltac:(congruence) ltac:(intros x; discriminate)) as (t' & Ht' & Hp'); exists t'; split; [exact Ht'|congruence]; fail).
    - destruct (other_pc cfg (TGet j tmo) s i t Hi) as (t' & Ht' & Hp'); [congruence|discriminate|]. exists t'. split; [exact Ht'|congruence].
    - destruct (other_pc cfg (TPut j c) s i t Hi) as (t' & Ht' & Hp'); [congruence|discriminate|]. exists t'. split; [exact Ht'|congruence].
    - destruct (other_pc cfg (TClose j) s i t Hi) as (t' & Ht' & Hp'); [congruence|discriminate|]. exists t'. split; [exact Ht'|congruence].
    - destruct (Nat.eq_dec j i) as [->|Nj].
      + cbn [t_step]. rewrite Hi. unfold go. rewrite Hp. destruct Q as (_ & -> & _). rewrite B. cbn [andb]. eauto.
      + destruct (other_pc cfg (TStep j b) s i t Hi) as (t' & Ht' & Hp'); [congruence|congruence|]. exists t'. split; [exact Ht'|congruence].
    - destruct (other_pc cfg (THand j k c) s i t Hi) as (t' & Ht' & Hp'); [congruence|discriminate|]. exists t'. split; [exact Ht'|congruence]. }
  destruct K as (t' & Ht' & Hp'). exact (IH _ (quiet_step cfg o s Q) t' Ht' Hp').
Qed.

(** ** A connection is free, held, closed, or was dropped by a get_conn that failed *)
Definition some_error (s : ts) : Prop := exists i e, In (i, OErr e) (h_log s) /\ e <> AttributeError.
Definition kept (s : ts) : Prop := some_error s \/ forall c, (c < h_made s)%nat -> In c (h_closed s) \/ (1 <= cnt c (h_queue s) + total c (h_threads s))%nat.
Lemma keep_thr s s' i t t' : kept s -> nth_error (h_threads s) i = Some t -> h_threads s' = updt i t' (h_threads s) -> incl (h_closed s) (h_closed s') -> incl (h_log s) (h_log s') ->
  (forall c, (c < h_made s')%nat -> In c (h_closed s') \/ (cnt c (h_queue s) + cnt c (owned t) + (if Nat.ltb c (h_made s) then 0 else 1) <= cnt c (h_queue s') + cnt c (owned t'))%nat) -> kept s'.
Proof.
  intros [(j & e & He & Ne)|K] Hi Ht Hc Hl Hx; [left; exists j, e; auto|]. right. intros c Hm. destruct (Hx c Hm) as [X|X]; [left; exact X|].
  pose proof (total_updt c i t t' _ Hi) as T. pose proof (total_nth c i t _ Hi). destruct (Nat.ltb_spec c (h_made s)) as [L|L].
  - destruct (K c L) as [Y|Y]; [left; auto|]. right. rewrite Ht. lia.
  - right. rewrite Ht. lia.
Qed.
Lemma kept_err s i e : e <> AttributeError -> kept (log i (OErr e) s).
Proof. intros N. left. exists i, e. split; [cbn; apply in_or_app; right; left; reflexivity|exact N]. Qed.
Ltac kep P Hi Ep := eapply (keep_thr _ _ _ _ _ P Hi); [reflexivity|cbn; try apply incl_refl; apply incl_appl, incl_refl|cbn; try apply incl_refl; apply incl_appl, incl_refl|]; let c := fresh "c" in let H := fresh "H" in intros c H;
  cbn [h_queue h_made h_closed at_ fails gives set_thr log set_queue set_num set_lock shut made_one set_none] in *; unfold owned; rewrite ?Ep;
  (right; places; fail) || idtac.
Lemma put_kept s s' i t k c : kept s -> nth_error (h_threads s) i = Some t -> pc_conns (t_pc t) = c :: match k with ToCaller => [] | ToGet d => [d] end ->
  h_threads s' = h_threads s -> h_made s' = h_made s -> h_log s' = h_log s -> (h_queue s' = h_queue s /\ h_closed s' = h_closed s ++ [c] \/ h_queue s' = c :: h_queue s /\ h_closed s' = h_closed s) -> kept (put_over i t k s').
Proof.
  intros P Hi Ep Ht Hm Hg Hq.
  assert (I : incl (h_closed s) (h_closed s')) by (destruct Hq as [(_ & ->)|(_ & ->)]; [apply incl_appl|]; apply incl_refl).
  destruct k; cbn [put_over].
  - eapply (keep_thr _ _ i t {| t_pc := Idle; t_lent := t_lent t |} P Hi); [cbn; rewrite Ht; reflexivity|exact I|cbn; rewrite Hg; apply incl_appl, incl_refl|].
    intros x Hx. cbn [h_queue h_made h_closed at_ log set_thr] in *. rewrite Hm in Hx. unfold owned. rewrite Ep. destruct Hq as [(-> & ->)|(-> & ->)].
    + destruct (Nat.eq_dec c x) as [->|N]; [left; apply in_or_app; right; left; reflexivity|right; places].
    + right. places.
  - eapply (keep_thr _ _ i t {| t_pc := GDrop c0; t_lent := t_lent t |} P Hi); [cbn; rewrite Ht; reflexivity|exact I|cbn; rewrite Hg; apply incl_refl|].
    intros x Hx. cbn [h_queue h_made h_closed at_ log set_thr] in *. rewrite Hm in Hx. unfold owned. rewrite Ep. destruct Hq as [(-> & ->)|(-> & ->)].
    + destruct (Nat.eq_dec c x) as [->|N]; [left; apply in_or_app; right; left; reflexivity|right; places].
    + right. places.
Qed.
Lemma go_kept cfg i b t s : kept s -> nth_error (h_threads s) i = Some t -> kept (go cfg i b t s).
Proof.
  intros P Hi. unfold go. destruct (t_pc t) eqn:Ep; try exact P.
  - destruct (h_open s); [kep P Hi Ep|apply kept_err; discriminate].
  - destruct (h_queue s) as [|c q] eqn:Eq; [destruct (block cfg); [destruct (tmo && b); [apply kept_err; discriminate|exact P]|kep P Hi Ep]|]. kep P Hi Ep. right. rewrite Eq, cnt_cons. places.
  - destruct (h_open s); [kep P Hi Ep|apply kept_err; discriminate].
  - destruct (len (h_queue s) <? min_free cfg); kep P Hi Ep.
  - destruct (lock_free s); [|exact P]. destruct (max_connections cfg <=? h_num s); [apply kept_err; discriminate|destruct w; kep P Hi Ep].
  - destruct w; kep P Hi Ep.
  - destruct w; kep P Hi Ep.
  - destruct b; [apply kept_err; discriminate|]. destruct w; kep P Hi Ep.
  - destruct (h_open s); kep P Hi Ep.
  - destruct (q_full cfg (h_queue s)); [kep P Hi Ep|]. apply (put_kept s _ i t k c P Hi); try reflexivity; [rewrite Ep; reflexivity|right; split; reflexivity].
  - destruct (lock_free s); [|exact P]. kep P Hi Ep.
  - kep P Hi Ep.
  - kep P Hi Ep.
  - apply (put_kept s _ i t k c P Hi); try reflexivity; [rewrite Ep; reflexivity|left; split; reflexivity].
  - destruct (b || mem_nat c (h_closed s)); kep P Hi Ep.
  - kep P Hi Ep.
  - destruct (lock_free s); [|exact P]. kep P Hi Ep.
  - kep P Hi Ep.
  - kep P Hi Ep.
  - kep P Hi Ep.
  - kep P Hi Ep.
  - destruct was; [|kep P Hi Ep]. destruct (h_queue s) as [|c q] eqn:Eq; kep P Hi Ep; right; rewrite Eq, ?cnt_cons; places.
  - kep P Hi Ep. match goal with |- In ?y _ \/ _ => destruct (Nat.eq_dec c y) as [->|N] end; [left; apply in_or_app; right; left; reflexivity|right; places].
Qed.
Lemma step_kept cfg o s : kept s -> kept (t_step cfg o s).
Proof.
  intros P. destruct o; cbn [t_step].
  - destruct (nth_error (h_threads s) i) as [t|] eqn:Hi; [|exact P]. unfold begin. destruct (t_pc t) eqn:Ep; try exact P. kep P Hi Ep.
  - destruct (nth_error (h_threads s) i) as [t|] eqn:Hi; [|exact P]. destruct (t_pc t) eqn:Ep; try exact P. destruct (mem_nat c (t_lent t)) eqn:Em; [|exact P].
    destruct P as [(j & e & He & Ne)|K]; [left; exists j, e; auto|]. right. intros x Hx. cbn [h_queue h_made h_closed h_threads set_thr] in *. destruct (K x Hx) as [Y|Y]; [left; exact Y|right].
    pose proof (total_updt x i t {| t_pc := PLoad ToCaller c; t_lent := drop c (t_lent t) |} _ Hi) as T. pose proof (total_nth x i t _ Hi) as T'. unfold owned in T, T'. rewrite Ep in T, T'. cbn [t_pc t_lent pc_conns] in T, T'.
    rewrite !cnt_app, !cnt_cons, cnt_drop in T. rewrite cnt_app in T'. cbn [cnt count_occ] in T, T'. destruct (Nat.eqb_spec c x) as [->|]; lia.
  - destruct (nth_error (h_threads s) i) as [t|] eqn:Hi; [|exact P]. unfold begin. destruct (t_pc t) eqn:Ep; try exact P. kep P Hi Ep.
  - destruct (nth_error (h_threads s) i) as [t|] eqn:Hi; [|exact P]. apply go_kept; assumption.
  - destruct (nth_error (h_threads s) i) as [t|] eqn:Hi; [|exact P]. destruct (nth_error (h_threads s) j) as [u|] eqn:Hj; [|exact P].
    destruct (mem_nat c (t_lent t)) eqn:Em; [|exact P]. destruct (Nat.eqb_spec i j) as [|N]; [exact P|]. cbn [andb negb].
    destruct P as [(k & e & He & Ne)|K]; [left; exists k, e; auto|]. right. intros x Hx. cbn [h_queue h_made h_closed h_threads set_thr] in *. destruct (K x Hx) as [Y|Y]; [left; exact Y|right].
    assert (Hj' : nth_error (updt i {| t_pc := t_pc t; t_lent := drop c (t_lent t) |} (h_threads s)) j = Some u) by (rewrite nth_updt_other by congruence; exact Hj).
    pose proof (total_updt x j u {| t_pc := t_pc u; t_lent := c :: t_lent u |} _ Hj') as T1. pose proof (total_updt x i t {| t_pc := t_pc t; t_lent := drop c (t_lent t) |} _ Hi) as T2.
    pose proof (total_nth x i t _ Hi) as T3. pose proof (total_nth x j u _ Hj') as T4.
    unfold owned in T1, T2, T3, T4. cbn [t_pc t_lent] in T1, T2. rewrite !cnt_app, cnt_cons in T1. rewrite !cnt_app, cnt_drop in T2. rewrite cnt_app in T3, T4. destruct (Nat.eqb_spec c x) as [->|]; lia.
Qed.
Definition all_free (p : pool) : Prop := forall c, (c < p_attempts p)%nat -> In c (free_conns p).
Lemma fill_all cfg mk n : forall p p', all_free p -> fill cfg mk n p = Built p' -> all_free p'.
Proof.
  induction n as [|n IH]; intros p p' A; cbn [fill]; [intros [= <-]; exact A|]. destruct (new_conn cfg mk p) as [p1 [c|e]] eqn:En; [|discriminate].
  unfold new_conn in En. destruct (max_connections cfg <=? p_num p); [discriminate|]. destruct (mk (p_attempts p)); [|discriminate]. injection En as <- <-. cbn [p_free]. 
  destruct (p_free p) as [q|] eqn:Eq; [|discriminate]. destruct (q_full cfg q); [discriminate|]. apply IH. intros c H. cbn in *. unfold all_free, free_conns in A. rewrite Eq in A.
  destruct (Nat.eq_dec c (p_attempts p)) as [->|N]; [left; reflexivity|right; apply A; clear - H N; lia].
Qed.
Lemma run_kept cfg mk p n l : build cfg mk = Built p -> kept (t_run cfg p n l).
Proof.
  intros B. apply (run_from cfg kept); [intros o s; apply step_kept|]. right. intros c H. right. cbn in *. apply fill_all in B; [|intros x Hx; cbn in Hx; lia]. specialize (B c H). unfold free_conns in B.
  destruct (p_free p) as [q|]; [|destruct B]. apply In_cnt in B. unfold cnt in B. lia.
Qed.
Lemma cnt_In c l : (1 <= cnt c l)%nat -> In c l.
Proof. intros H. apply (count_occ_In Nat.eq_dec). unfold cnt in H. lia. Qed.
Lemma total_In c l : (1 <= total c l)%nat -> exists i t, nth_error l i = Some t /\ In c (owned t).
Proof.
  induction l as [|t l IH]; cbn; [lia|]. intros H. destruct (Nat.eq_dec (cnt c (owned t)) 0) as [E|E].
  - destruct IH as (i & u & Hi & Hu); [lia|]. exists (S i), u. auto.
  - exists 0%nat, t. split; [reflexivity|apply cnt_In; lia].
Qed.
(** when every operation is over and none has failed, nothing is lost *)
Lemma nothing_lost cfg mk p n l c : build cfg mk = Built p -> (forall i t, nth_error (h_threads (t_run cfg p n l)) i = Some t -> t_pc t = Idle) ->
  (forall i e, In (i, OErr e) (h_log (t_run cfg p n l)) -> e = AttributeError) -> (c < h_made (t_run cfg p n l))%nat ->
  In c (h_closed (t_run cfg p n l)) \/ In c (h_queue (t_run cfg p n l)) \/ exists i t, nth_error (h_threads (t_run cfg p n l)) i = Some t /\ In c (t_lent t).
Proof.
  intros B I E Hc. destruct (run_kept cfg mk p n l B) as [(i & e & He & Ne)|K]; [contradiction (Ne (E i e He))|]. destruct (K c Hc) as [X|X]; [left; exact X|].
  destruct (Nat.eq_dec (cnt c (h_queue (t_run cfg p n l))) 0) as [Z|Z]; [|right; left; apply cnt_In; lia].
  destruct (total_In c (h_threads (t_run cfg p n l))) as (i & t & Hi & Ho); [lia|]. right. right. exists i, t. split; [exact Hi|]. unfold owned in Ho. rewrite (I i t Hi) in Ho. cbn in Ho. rewrite app_nil_r in Ho. exact Ho.
Qed.
(** a drained pool into which no put_conn is just putting something stays empty *)
Lemma stays_empty cfg p n l m : quiet (t_run cfg p n l) -> h_queue (t_run cfg p n (l ++ m)) = [].
Proof. intros Q. rewrite t_app. apply (run_from cfg quiet); [intros o s; apply quiet_step|exact Q]. Qed.
Lemma wait_ends cfg p n l i t : block cfg = true -> nth_error (h_threads (t_run cfg p n l)) i = Some t -> t_pc t = GTake true -> h_queue (t_run cfg p n l) = [] ->
  h_log (t_run cfg p n (l ++ [TStep i true])) = h_log (t_run cfg p n l) ++ [(i, OErr EmptyPoolError)].
Proof. intros B Hi Hp Q. rewrite t_app. cbn [fold_left t_step]. rewrite Hi. unfold go. rewrite Hp, Q, B. reflexivity. Qed.
Lemma no_wait cfg p n l i t tmo b : block cfg = false -> nth_error (h_threads (t_run cfg p n l)) i = Some t -> t_pc t = GTake tmo ->
  exists t', nth_error (h_threads (t_run cfg p n (l ++ [TStep i b]))) i = Some t' /\ t_pc t' <> t_pc t.
Proof.
  intros B Hi Hp. rewrite t_app. cbn [fold_left t_step]. rewrite Hi. unfold go. rewrite Hp, B. destruct (h_queue (t_run cfg p n l)) as [|c q]; cbn; rewrite (nth_updt_same _ _ _ _ Hi); eexists; (split; [reflexivity|discriminate]).
Qed.

(** ** Of the calls of close(), one does not fail *)
Fixpoint sumf (f : tpc -> nat) (l : list thr) : nat := match l with [] => 0%nat | t :: r => (f (t_pc t) + sumf f r)%nat end.
Lemma sumf_updt f i t t' l : nth_error l i = Some t -> (sumf f (updt i t' l) + f (t_pc t) = sumf f l + f (t_pc t'))%nat.
Proof. revert l. induction i; intros [|z l] H; try discriminate; cbn in *; [injection H as ->; lia|]. specialize (IHi l H). lia. Qed.
Lemma sumf_le f g l : (forall p, f p <= g p)%nat -> (sumf f l <= sumf g l)%nat.
Proof. intros H. induction l as [|t l IH]; cbn; [lia|]. specialize (H (t_pc t)). lia. Qed.
Definition closing (p : tpc) : nat := match p with CLoad | CStore _ | CDrain _ | CShut _ => 1 | _ => 0 end%nat.
Definition doomed (p : tpc) : nat := match p with CStore false | CDrain false => 1 | _ => 0 end%nat.
Definition late (p : tpc) : nat := match p with CLoad | CStore false | CDrain false => 1 | _ => 0 end%nat.
Definition one_left (k : nat) (s : ts) : Prop :=
  if h_open s then failed_closes (h_log s) = 0%nat /\ sumf doomed (h_threads s) = 0%nat /\ (sumf closing (h_threads s) <= k)%nat
  else (failed_closes (h_log s) + sumf late (h_threads s) + 1 <= k)%nat.
Lemma failed_app l m : failed_closes (l ++ m) = (failed_closes l + failed_closes m)%nat.
Proof. induction l as [|[i o] l IH]; [reflexivity|]. cbn. destruct o as [| |[]]; rewrite IH; reflexivity. Qed.
Lemma one_left_go cfg i b t k s : one_left k s -> nth_error (h_threads s) i = Some t -> one_left k (go cfg i b t s).
Proof.
  intros H Hi. unfold one_left in *. unfold go.
  pose proof (fun t' => sumf_updt closing i t t' _ Hi) as Wc. pose proof (fun t' => sumf_updt doomed i t t' _ Hi) as Wd. pose proof (fun t' => sumf_updt late i t t' _ Hi) as Wl.
  set (idle := {| t_pc := Idle; t_lent := [] |}).
  assert (Le : (sumf late (updt i idle (h_threads s)) <= sumf closing (updt i idle (h_threads s)))%nat) by (apply sumf_le; intros []; cbn; try lia; destruct was; lia).
  pose proof (Wc idle) as Wci. pose proof (Wd idle) as Wdi. pose proof (Wl idle) as Wli.
  destruct (t_pc t) eqn:Ep; destruct (h_open s) eqn:Eo; rewrite ?Eo; repeat match goal with
      | |- context [if h_open s then _ else _] => rewrite Eo
      | |- context [if ?x then _ else _] => is_var x; destruct x
      | |- context [if ?x then _ else _] => lazymatch x with h_open _ => fail | _ => destruct x end
      | |- context [match h_queue s with _ => _ end] => destruct (h_queue s)
      | |- context [match ?w with ForCaller => _ | ForRefill _ => _ end] => is_var w; destruct w
      | |- context [put_over _ _ ?k _] => is_var k; destruct k
      end; cbn [put_over at_ fails gives log set_thr set_queue set_num set_lock shut made_one set_none h_open h_log h_threads h_queue]; rewrite ?Eo, ?failed_app; cbn [failed_closes];
  repeat match goal with
      | |- context [sumf closing (updt i ?t' (h_threads s))] => pose proof (Wc t'); generalize dependent (sumf closing (updt i t' (h_threads s))); intros
      | |- context [sumf doomed (updt i ?t' (h_threads s))] => pose proof (Wd t'); generalize dependent (sumf doomed (updt i t' (h_threads s))); intros
      | |- context [sumf late (updt i ?t' (h_threads s))] => pose proof (Wl t'); generalize dependent (sumf late (updt i t' (h_threads s))); intros
      end; try destruct was; cbn [closing doomed late t_pc idle] in *; lia.
Qed.
Lemma one_left_step cfg o k s : one_left k s -> one_left (k + closes [o]) (t_step cfg o s).
Proof.
  intros H. assert (U : one_left (k + closes [o]) s) by (unfold one_left in *; destruct (h_open s); [destruct H as (? & ? & ?); repeat split; try assumption|]; lia).
  assert (B : forall i t p, nth_error (h_threads s) i = Some t -> t_pc t = Idle -> (closing p <= closes [o])%nat -> doomed p = 0%nat -> (late p <= closes [o])%nat -> one_left (k + closes [o]) (at_ i t p s)).
  { intros i t p Hi Ep A C D. unfold one_left in *. cbn [at_ set_thr h_open h_threads h_log].
    pose proof (sumf_updt closing i t {| t_pc := p; t_lent := t_lent t |} _ Hi) as X. pose proof (sumf_updt doomed i t {| t_pc := p; t_lent := t_lent t |} _ Hi) as Y. pose proof (sumf_updt late i t {| t_pc := p; t_lent := t_lent t |} _ Hi) as Z.
    rewrite Ep in X, Y, Z. cbn [t_pc closing doomed late] in X, Y, Z. destruct (h_open s); lia. }
  assert (L : forall i t l p s', nth_error (h_threads s') i = Some t -> t_pc t = p -> one_left k s' -> one_left k (set_thr i {| t_pc := p; t_lent := l |} s')).
  { intros i t l p s' Hi Ep Hs. unfold one_left in *. cbn [set_thr h_open h_threads h_log].
    pose proof (sumf_updt closing i t {| t_pc := p; t_lent := l |} _ Hi) as X. pose proof (sumf_updt doomed i t {| t_pc := p; t_lent := l |} _ Hi) as Y. pose proof (sumf_updt late i t {| t_pc := p; t_lent := l |} _ Hi) as Z.
    rewrite Ep in X, Y, Z. cbn [t_pc] in X, Y, Z. destruct (h_open s'); lia. }
  destruct o as [i tmo|i c|i|i b|i j c]; cbn [t_step]; destruct (nth_error (h_threads s) i) as [t|] eqn:Hi; try exact U.
  - unfold begin. destruct (t_pc t) eqn:Ep; try exact U. apply (B i t _ Hi Ep); cbn; lia.
  - destruct (t_pc t) eqn:Ep; try exact U. destruct (mem_nat c (t_lent t)); [|exact U]. unfold one_left in *. cbn [set_thr h_open h_threads h_log closes] in *.
    pose proof (sumf_updt closing i t {| t_pc := PLoad ToCaller c; t_lent := drop c (t_lent t) |} _ Hi) as X. pose proof (sumf_updt doomed i t {| t_pc := PLoad ToCaller c; t_lent := drop c (t_lent t) |} _ Hi) as Y.
    pose proof (sumf_updt late i t {| t_pc := PLoad ToCaller c; t_lent := drop c (t_lent t) |} _ Hi) as Z. rewrite Ep in X, Y, Z. cbn [t_pc closing doomed late] in X, Y, Z. destruct (h_open s); lia.
  - unfold begin. destruct (t_pc t) eqn:Ep; try exact U. apply (B i t _ Hi Ep); cbn; lia.
  - cbn [closes]. rewrite Nat.add_0_r. apply one_left_go; assumption.
  - destruct (nth_error (h_threads s) j) as [u|] eqn:Hj; [|exact U]. destruct (mem_nat c (t_lent t)); [|exact U]. destruct (Nat.eqb_spec i j) as [|N]; [exact U|]. cbn [andb negb closes]. rewrite Nat.add_0_r.
    apply (L j u); [cbn [set_thr h_threads]; rewrite nth_updt_other by exact N; exact Hj|reflexivity|]. apply (L i t); [exact Hi|reflexivity|exact H].
Qed.
Lemma closes_app l m : closes (l ++ m) = (closes l + closes m)%nat.
Proof. induction l as [|[] l IH]; cbn; rewrite ?IH; reflexivity. Qed.
Lemma one_left_run cfg p n l : one_left (closes l) (t_run cfg p n l).
Proof.
  induction l as [|o l IH] using rev_ind.
  - unfold one_left, t_run. cbn [fold_left t_init h_open h_log h_threads failed_closes closes]. assert (Z : forall f, f Idle = 0%nat -> sumf f (repeat {| t_pc := Idle; t_lent := [] |} n) = 0%nat) by (intros f E; induction n; cbn; lia).
    rewrite !Z by reflexivity. auto.
  - rewrite closes_app, t_app. cbn [fold_left]. apply one_left_step. exact IH.
Qed.
(** a call of close() fails only if another has begun and does not fail *)
Lemma close_works cfg p n l : failed_closes (h_log (t_run cfg p n l)) = 0%nat \/ (failed_closes (h_log (t_run cfg p n l)) < closes l)%nat.
Proof. pose proof (one_left_run cfg p n l) as H. unfold one_left in H. destruct (h_open (t_run cfg p n l)); [left; apply H|right; lia]. Qed.

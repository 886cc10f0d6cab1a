(** Lemmas behind C137. *)
From Coq Require Import Lia ZifyBool.
From Verif Require Import PyBase L_PyBase PyDict M_ConnPool S_Pool L_ConnPool M_PoolLife S_PoolLife.
Open Scope nat_scope.

Lemma get_sources cfg mk dr p p' r : get_conn cfg mk dr p = (p', r) -> incl (p_closed p) (p_closed p') /\ forall x, In x (free_conns p') \/ r = Ok x -> In x (free_conns p) \/ In x (made mk p p').
Proof.
  assert (New : forall p p1 r, new_conn cfg mk p = (p1, r) -> p_free p1 = p_free p /\ p_closed p1 = p_closed p /\ forall n, r = Ok n -> In n (made mk p p1)).
  { intros p0 p1 r0. unfold new_conn. destruct (max_connections cfg <=? p_num p0)%Z; [intros E; injection E as <- <-; repeat split; discriminate|]. destruct (mk (p_attempts p0)) eqn:M; intros E; injection E as <- <-; repeat split; try discriminate.
    intros n [= <-]. unfold made. cbn [p_attempts]. apply filter_In. split; [apply in_seq; lia|exact M]. }
  unfold get_conn. destruct (p_free p) as [[|c q]|] eqn:Ef.
  - destruct (block cfg); [intros E; injection E as <- <-; split; [apply incl_refl|]; intros x [H|H]; [auto|discriminate]|]. intros E. destruct (New _ _ _ E) as (A & B & C). split; [rewrite B; apply incl_refl|].
    intros x [H|H]; [left; unfold free_conns in *; rewrite A in H; exact H|right; exact (C x H)].
  - unfold free_conns. rewrite Ef. set (p0 := set_free p (Some q)). destruct (len q <? min_free cfg)%Z.
    + destruct (new_conn cfg mk p0) as (p1, r1) eqn:E1. destruct (New _ _ _ E1) as (A & B & C). cbn [p0 set_free p_free p_closed] in A, B. destruct r1 as [n|e].
      * specialize (C n eq_refl). assert (P1 : incl (p_closed p) (p_closed (put_conn cfg p1 n)) /\ forall x, In x (free_conns (put_conn cfg p1 n)) -> In x (c :: q) \/ In x (made mk p0 p1)).
        { unfold put_conn. rewrite A. destruct (q_full cfg q); cbn [close_conn add_num set_free p_closed]; unfold free_conns; cbn [close_conn add_num set_free p_free]; rewrite B; rewrite ?A; (split; [intros z Hz; rewrite ?in_app_iff; auto|]); intros x H; [left; right; exact H|destruct H as [<-|H]; [right; exact C|left; right; exact H]]. }
        destruct P1 as (P1 & P2). assert (Em : made mk p0 p1 = made mk p (put_conn cfg p1 n)) by (unfold made; rewrite put_attempts; reflexivity). rewrite Em in P2. unfold free_conns in P2.
        destruct (dropped dr _ c); intros E; injection E as <- <-; cbn [add_num close_conn p_closed p_free]; (split; [intros z Hz; rewrite ?in_app_iff; auto|]); intros x [H|H]; try (injection H as <-; left; left; reflexivity);
          destruct (P2 x H) as [G|G]; auto.
      * intros E; injection E as <- <-. split; [rewrite B; apply incl_refl|]. rewrite A. intros x [H|H]; [left; right; exact H|discriminate].
    + destruct (dropped dr p0 c); intros E; injection E as <- <-; cbn; (split; [intros z Hz; rewrite ?in_app_iff; auto|]); intros x [H|H]; [left; right; exact H|injection H as <-; left; left; reflexivity|left; right; exact H|injection H as <-; left; left; reflexivity].
  - intros E; injection E as <- <-. split; [apply incl_refl|]. unfold free_conns. rewrite Ef. intros x [[]|H]; discriminate.
Qed.

(** ** no connection that can be used is closed behind its user's back *)
Definition sound (s : life) : Prop := forall c, In c (u_lent s) \/ (pool_alive s = true /\ In c (free_conns (u_pool s))) -> ~ shut s c -> In c (u_open s).
Lemma alive_tidy s : pool_alive (tidy s) = true -> pool_alive s = true.
Proof. unfold pool_alive, tidy. cbn [u_held u_errs]. destruct (u_held s); [reflexivity|]. destruct (u_errs s); [intros H; exact H|reflexivity]. Qed.
Lemma sound_tidy s : sound s -> sound (tidy s).
Proof.
  intros G c H N. assert (Hc : In c (u_open s)).
  { apply G; [|exact N]. destruct H as [H|(A & H)]; [left; exact H|right]. split; [exact (alive_tidy s A)|exact H]. }
  unfold tidy. cbn [u_open]. apply filter_In. split; [exact Hc|]. apply andb_true_iff. split; [apply andb_true_iff; split|].
  - unfold referred. cbn [u_lent u_errs u_pool]. destruct H as [H|(A & H)]; [apply mem_nat_In in H; cbn [tidy u_lent] in H; rewrite H; reflexivity|].
    unfold tidy in A. unfold pool_alive in A |- *. cbn [u_held u_errs] in A |- *. rewrite A. apply mem_nat_In in H. cbn [tidy u_pool] in H. unfold free_conns in H. rewrite H. apply orb_true_r.
  - apply negb_true_iff. apply mem_nat_not. intros K. apply N. left. exact K.
  - apply negb_true_iff. apply mem_nat_not. intros K. apply N. right. exact K.
Qed.
Lemma forget_nil i l : forget i l <> [] -> l <> [].
Proof. unfold forget. destruct l; [destruct i; intros H; exact H|discriminate]. Qed.
Lemma sound_step cfg mk s o : sound s -> sound (fst (ustep cfg mk s o)).
Proof.
  intros G. destruct o as [dr|c|c|c| | |i|]; cbn [ustep].
  - destruct (u_held s) eqn:Hh; [|exact G]. destruct (get_conn _ _ _ _) as (p, r) eqn:E. cbn [fst]. apply sound_tidy. destruct (get_sources _ _ _ _ _ _ E) as (A & B). intros c H N. cbn [u_open u_lent u_pool pool_alive u_held] in *. apply in_or_app.
    assert (K : In c (u_lent s) \/ (pool_alive s = true /\ In c (free_conns (u_pool s))) \/ In c (made mk (u_pool s) p)).
    { assert (Al : pool_alive s = true) by (unfold pool_alive; rewrite Hh; reflexivity). destruct H as [H|(_ & H)]; [|destruct (B c (or_introl H)); auto]. destruct r as [x|e]; [|auto]. destruct H as [<-|H]; [|auto]. destruct (B x (or_intror eq_refl)); auto. }
    destruct K as [K|[K|K]]; [left|left|right; exact K]; (apply G; [auto|]); intros [N1|N1]; apply N; [left; exact (A c N1)|right; exact N1|left; exact (A c N1)|right; exact N1].
  - destruct (u_held s && mem_nat c (u_lent s)) eqn:E; [|exact G]. apply andb_true_iff in E as (Hh & Hm). apply mem_nat_In in Hm. cbn [fst]. apply sound_tidy. intros x H N. cbn [u_open u_lent u_pool u_shut u_errs] in *.
    assert (Al : pool_alive s = true) by (unfold pool_alive; rewrite Hh; reflexivity).
    apply G.
    + destruct H as [H|(_ & H)]; [left; apply in_remove in H as (H & _); exact H|]. apply put_free_In in H as [->|H]; [left; exact Hm|right; auto].
    + intros [N1|N1]; apply N; [left|right; exact N1]. cbn [u_pool]. unfold put_conn. destruct (p_free (u_pool s)); [destruct (q_full cfg l)|]; cbn; rewrite ?in_app_iff; auto.
  - destruct (mem_nat c (u_lent s)); [|exact G]. cbn [fst]. apply sound_tidy. intros x H N. apply G; [exact H|]. intros [N1|N1]; apply N; [left; exact N1|right; right; exact N1].
  - apply sound_tidy. intros x H N. apply G; [|exact N]. destruct H as [H|H]; [left; cbn in H; apply in_remove in H as (H & _); exact H|right; exact H].
  - destruct (u_held s); [|exact G]. cbn [fst]. apply sound_tidy. intros x H N. cbn [set_pool u_open u_lent u_pool] in *. apply G.
    + destruct H as [H|(A & H)]; [left; exact H|right]. split; [exact A|]. unfold pool_close, free_conns in *. destruct (p_free (u_pool s)) eqn:E; cbn in H; rewrite ?E in H; destruct H.
    + intros [N1|N1]; apply N; [left|right; exact N1]. cbn. unfold pool_close. destruct (p_free (u_pool s)); cbn; rewrite ?in_app_iff; auto.
  - apply sound_tidy. intros x H N. apply G; [|exact N]. destruct H as [H|(A & H)]; [left; exact H|right]. split; [|exact H]. unfold pool_alive in *. cbn in A. rewrite A. apply orb_true_r.
  - apply sound_tidy. intros x H N. apply G; [|exact N]. destruct H as [H|(A & H)]; [left; exact H|right]. split; [|exact H]. unfold pool_alive in *. cbn in A. destruct (u_held s); [reflexivity|]. cbn in *. destruct (forget i (u_errs s)) eqn:F; [discriminate|]. assert (K : u_errs s <> []) by (apply (forget_nil i); rewrite F; discriminate). destruct (u_errs s); [congruence|reflexivity].
  - apply sound_tidy. intros x H N. apply G; [|exact N]. destruct H as [H|(A & H)]; [left; exact H|right]. split; [|exact H]. unfold pool_alive in *. cbn in A. destruct (u_held s); [reflexivity|]. cbn in *. destruct (u_errs s); [discriminate|reflexivity].
Qed.
Lemma sound_from cfg mk l : forall s, sound s -> sound (ufrom cfg mk s l).
Proof. induction l as [|o l IH]; intros s G; [exact G|]. cbn [ufrom]. apply IH. exact (sound_step cfg mk s o G). Qed.
Lemma sound_start p : sound (ustart p).
Proof. intros c [[]|(_ & H)] _. exact H. Qed.
Lemma idle_free s c : idle s c <-> In c (free_conns (u_pool s)).
Proof. unfold idle, free_conns. destruct (p_free (u_pool s)) as [q|]; split; [intros (q' & [= <-] & H); exact H|eauto|intros (q' & [=] & _)|intros []]. Qed.
Lemma in_use_open cfg mk p l c : build cfg mk = Built p -> let s := ufrom cfg mk (ustart p) l in usable s c -> ~ shut s c -> In c (u_open s).
Proof.
  intros _ s H N. apply (sound_from cfg mk l _ (sound_start p)); [|exact N]. destruct H as [H|(A & H)]; [left; exact H|right]. split; [unfold pool_alive; unfold s in A; rewrite A; reflexivity|apply idle_free; exact H].
Qed.

(** ** and connections nobody can use are closed, but for those of the errors *)
Definition refers (s : life) : Prop := forall c, In c (u_open s) -> usable s c \/ exists e, In e (u_errs s) /\ (In c (e_lost e) \/ idle s c).
Lemma refers_tidy s : refers (tidy s).
Proof.
  intros c H. unfold tidy in H. cbn [u_open] in H. apply filter_In in H as (_ & H). apply andb_true_iff in H as (H & _). apply andb_true_iff in H as (H & _). unfold referred in H. cbn [u_lent u_errs u_pool] in H.
  apply orb_true_iff in H as [H|H]; [apply orb_true_iff in H as [H|H]|].
  - left. left. apply mem_nat_In. exact H.
  - right. apply existsb_exists in H as (e & He & H). apply mem_nat_In in H. exists e. split; [exact He|left; exact H].
  - apply andb_true_iff in H as (A & H). apply mem_nat_In in H. assert (Id : idle (tidy s) c) by (apply idle_free; exact H). unfold pool_alive in A. cbn [u_held u_errs] in A. apply orb_true_iff in A as [A|A]; [left; right; split; [exact A|exact Id]|].
    right. destruct (filter (fun e => e_mine e || e_cycle e) (u_errs s)) as [|e r] eqn:F; [discriminate|]. exists e. split; [cbn [tidy u_errs]; rewrite F; left; reflexivity|right; exact Id].
Qed.
Lemma refers_step cfg mk s o : refers s -> refers (fst (ustep cfg mk s o)).
Proof.
  intros G. destruct o as [dr|c|c|c| | |i|]; cbn [ustep]; try apply refers_tidy.
  - destruct (u_held s); [|exact G]. destruct (get_conn _ _ _ _) as (p, r). apply refers_tidy.
  - destruct (u_held s && mem_nat c (u_lent s)); [apply refers_tidy|exact G].
  - destruct (mem_nat c (u_lent s)); [apply refers_tidy|exact G].
  - destruct (u_held s); [apply refers_tidy|exact G].
Qed.
Lemma refers_from cfg mk l : forall s, refers s -> refers (ufrom cfg mk s l).
Proof. induction l as [|o l IH]; intros s G; [exact G|]. cbn [ufrom]. apply IH. exact (refers_step cfg mk s o G). Qed.
Lemma refers_start p : refers (ustart p).
Proof. intros c H. left. right. split; [reflexivity|]. apply idle_free. exact H. Qed.
Lemma ufrom_app cfg mk l l2 : forall s, ufrom cfg mk s (l ++ l2) = ufrom cfg mk (ufrom cfg mk s l) l2.
Proof. induction l as [|o l IH]; intros s; [reflexivity|]. cbn [app ufrom]. apply IH. Qed.

Lemma collected cfg mk p l c : build cfg mk = Built p -> let s := ufrom cfg mk (ustart p) (l ++ [UCollect]) in In c (u_open s) -> usable s c \/ kept_by_error s c.
Proof.
  intros _ s H. unfold s in *. rewrite ufrom_app in *. cbn [ufrom ustep fst] in *. set (s0 := {| u_pool := _ |}) in *. destruct (refers_tidy s0 c H) as [G|(e & He & G)]; [left; exact G|right]. exists e. split; [exact He|]. split; [|exact G].
  unfold tidy in He. cbn [u_errs s0] in He. apply filter_In in He as (He & _). apply filter_In in He as (_ & He). exact He.
Qed.

Lemma open_not_shut cfg mk p l c : build cfg mk = Built p -> let s := ufrom cfg mk (ustart p) l in shut s c -> ~ In c (u_open s).
Proof.
  intros E. destruct (build_ok _ _ _ E) as (_ & _ & Cl & _). cbv zeta. assert (T : forall s, shut (tidy s) c -> ~ In c (u_open (tidy s))).
  { intros s H K. unfold tidy in K. cbn [u_open] in K. apply filter_In in K as (_ & K). apply andb_true_iff in K as (K & K2). apply andb_true_iff in K as (_ & K1). apply negb_true_iff in K1, K2. apply mem_nat_not in K1, K2. destruct H as [H|H]; [exact (K1 H)|exact (K2 H)]. }
  assert (G : forall l s, (shut s c -> ~ In c (u_open s)) -> shut (ufrom cfg mk s l) c -> ~ In c (u_open (ufrom cfg mk s l))); [|apply G; intros [H|[]]; cbn in H; rewrite Cl in H; destruct H].
  clear - T. induction l as [|o l IH]; intros s G; [exact G|]. cbn [ufrom]. apply IH. destruct o as [dr|x|x|x| | |i|]; cbn [ustep]; try apply T.
  - destruct (u_held s); [|exact G]. destruct (get_conn _ _ _ _) as (p, r). apply T.
  - destruct (u_held s && mem_nat x (u_lent s)); [apply T|exact G].
  - destruct (mem_nat x (u_lent s)); [apply T|exact G].
  - destruct (u_held s); [apply T|exact G].
Qed.

(** ** a connection its borrower drops is closed *)
Lemma good_remove cfg p lent c : good cfg p lent -> good cfg p (remove Nat.eq_dec c lent).
Proof.
  intros [A B C D]. split; [apply NoDup_app_remove; exact A| |exact C|exact D]. intros x Hx. apply B. apply in_app_or in Hx as [Hx|Hx]; apply in_or_app; [left; exact Hx|right]. apply in_remove in Hx as (Hx & _). exact Hx.
Qed.
Lemma good_ustep cfg mk s o : good cfg (u_pool s) (u_lent s) -> good cfg (u_pool (fst (ustep cfg mk s o))) (u_lent (fst (ustep cfg mk s o))).
Proof.
  intros G. destruct o as [dr|c|c|c| | |i|]; cbn [ustep]; try exact G.
  - destruct (u_held s); [|exact G]. destruct (get_conn _ _ _ _) as (p, r) eqn:E. exact (good_get _ _ _ _ _ _ _ G E).
  - destruct (u_held s && mem_nat c (u_lent s)) eqn:E; [|exact G]. apply andb_true_iff in E as (_ & E). apply mem_nat_In in E. exact (good_step cfg mk {| s_pool := u_pool s; s_lent := u_lent s; s_user := [] |} (PPut c) G E).
  - destruct (mem_nat c (u_lent s)); exact G.
  - apply good_remove. exact G.
  - destruct (u_held s); [|exact G]. exact (good_step cfg mk {| s_pool := u_pool s; s_lent := u_lent s; s_user := [] |} PClose G Logic.I).
Qed.
Lemma good_from cfg mk l : forall s, good cfg (u_pool s) (u_lent s) -> good cfg (u_pool (ufrom cfg mk s l)) (u_lent (ufrom cfg mk s l)).
Proof. induction l as [|o l IH]; intros s G; [exact G|]. cbn [ufrom]. apply IH. exact (good_ustep cfg mk s o G). Qed.
Lemma dropped_closed cfg mk p l c : build cfg mk = Built p -> let s := ufrom cfg mk (ustart p) l in In c (u_lent s) -> (forall e, In e (u_errs s) -> ~ In c (e_lost e)) -> ~ In c (u_open (ufrom cfg mk (ustart p) (l ++ [UDrop c]))).
Proof.
  intros E s H N K. rewrite ufrom_app in K. fold s in K. cbn [ufrom ustep fst] in K. destruct (build_ok _ _ _ E) as (G & _). pose proof (good_from cfg mk l (ustart p) G) as Gs. fold s in Gs. set (s0 := {| u_pool := _ |}) in K.
  assert (Nf : ~ In c (free_conns (u_pool s))) by (intros Hf; exact (NoDup_app_disj _ _ _ (g_nd _ _ _ Gs) Hf H)).
  destruct (refers_tidy s0 c K) as [[Q|(_ & Q)]|(e & He & Q)].
  - exact (remove_In Nat.eq_dec (u_lent s) c Q).
  - apply idle_free in Q. exact (Nf Q).
  - destruct Q as [Q|Q]; [|apply idle_free in Q; exact (Nf Q)]. cbn [tidy u_errs s0] in He. apply filter_In in He as (He & _). exact (N e He Q).
Qed.

(** every exception in memory is one its caller has, as long as the pool raised none of its own *)
Definition plain_errs (s : life) : Prop := forall e, In e (u_errs s) -> e_mine e = true /\ e_cycle e = false.
Lemma forget_in i l e : In e (forget i l) -> In e l \/ exists e0, In e0 l /\ e = {| e_mine := false; e_cycle := e_cycle e0; e_lost := e_lost e0 |}.
Proof.
  unfold forget. destruct (nth_error l i) as [e0|] eqn:E; [|auto]. intros H. apply in_app_or in H as [H|[<-|H]].
  - left. rewrite <- (firstn_skipn i l). apply in_or_app. left. exact H.
  - right. exists e0. split; [exact (nth_error_In _ _ E)|reflexivity].
  - left. rewrite <- (firstn_skipn (S i) l). apply in_or_app. right. exact H.
Qed.
Lemma plain_step cfg mk s o : plain_errs s -> (forall e, snd (ustep cfg mk s o) = Some (Raise e) -> cyclic e = false) -> plain_errs (fst (ustep cfg mk s o)).
Proof.
  intros G R. destruct o as [dr|c|c|c| | |i|]; cbn [ustep] in *.
  - destruct (u_held s); [|exact G]. destruct (get_conn _ _ _ _) as (p, r). cbn [fst snd] in *. intros e He. cbn [tidy u_errs] in He. apply filter_In in He as (He & _). destruct r as [x|e1]; [exact (G e He)|]. apply in_app_or in He as [He|[<-|[]]]; [exact (G e He)|]. split; [reflexivity|exact (R e1 eq_refl)].
  - destruct (u_held s && mem_nat c (u_lent s)); [|exact G]. intros e He. cbn [fst tidy u_errs] in He. apply filter_In in He as (He & _). exact (G e He).
  - destruct (mem_nat c (u_lent s)); [|exact G]. intros e He. cbn [fst tidy u_errs] in He. apply filter_In in He as (He & _). exact (G e He).
  - intros e He. cbn [fst tidy u_errs] in He. apply filter_In in He as (He & _). exact (G e He).
  - destruct (u_held s); [|exact G]. intros e He. cbn [fst tidy u_errs set_pool] in He. apply filter_In in He as (He & _). exact (G e He).
  - intros e He. cbn [fst tidy u_errs] in He. apply filter_In in He as (He & _). exact (G e He).
  - intros e He. cbn [fst tidy u_errs] in He. apply filter_In in He as (He & K). apply forget_in in He as [He|(e0 & He & ->)]; [exact (G e He)|]. cbn in K. destruct (G e0 He) as (_ & C). congruence.
  - intros e He. cbn [fst tidy u_errs] in He. apply filter_In in He as (He & _). apply filter_In in He as (He & _). exact (G e He).
Qed.
Lemma plain_from cfg mk l : forall s, plain_errs s -> no_pool_error (ugave cfg mk s l) -> plain_errs (ufrom cfg mk s l).
Proof.
  induction l as [|o l IH]; intros s G (N1 & N2); [exact G|]. cbn [ufrom ugave] in *. rewrite in_app_iff in N1, N2. apply IH; [|split; tauto]. apply plain_step; [exact G|]. intros e E. rewrite E in N1, N2. cbn in N1, N2. destruct e; try reflexivity; tauto.
Qed.
Lemma at_once cfg mk p l c : build cfg mk = Built p -> no_pool_error (ugave cfg mk (ustart p) l) -> let s := ufrom cfg mk (ustart p) l in In c (u_open s) -> usable s c \/ kept_by_error s c.
Proof.
  intros _ N s H. destruct (refers_from cfg mk l _ (refers_start p) c H) as [G|(e & He & G)]; [left; exact G|right]. exists e. split; [exact He|]. split; [|exact G]. refine (proj1 (plain_from cfg mk l (ustart p) _ N e He)). intros e0 [].
Qed.

(** ** an error of the pool keeps the connection that the failing call had taken *)
Definition cfg137 : config := {| max_connections := 2; max_free := 5; min_free := 1; initial := 1; block := false |}.
Definition mk137 (_ : nat) : bool := true.
Definition p137 : pool := {| p_free := Some [0]; p_num := 1; p_attempts := 1; p_closed := [] |}.
Definition dr137 (_ : nat) : bool := false.
(** the second call takes the connection that the first one made for it, and fails to make another *)
Definition l137 : list uop := [UGet dr137; UGet dr137; UForget 0].
Lemma lost_open : exists cfg mk p l c, build cfg mk = Built p /\ let s := ufrom cfg mk (ustart p) l in In c (u_open s) /\ ~ usable s c /\ ~ kept_by_error s c.
Proof.
  exists cfg137, mk137, p137, l137, 1. split; [reflexivity|]. intros s. split; [vm_compute; auto|]. split.
  - intros [H|(_ & q & E & H)]; [vm_compute in H; intuition lia|]. vm_compute in E. injection E as <-. destruct H.
  - intros (e & He & M & _). vm_compute in He. destruct He as [<-|[]]. discriminate M.
Qed.

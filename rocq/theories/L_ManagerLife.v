(** Lemmas behind C146. *)
From Coq Require Import Lia.
From Verif Require Import PyBase L_PyBase PyDict L_PyDict M_Lru M_ConnPool L_ConnPool M_PoolLife S_PoolLife L_PoolLife M_ManagerLife S_ManagerLife.
Open Scope nat_scope.

Lemma each_nth {A} (f : nat -> A -> A) : forall l n i, nth_error (each f n l) i = option_map (f (n + i)) (nth_error l i).
Proof. induction l as [|a l IH]; intros n [|i]; try reflexivity; cbn; [now rewrite Nat.add_0_r|]. rewrite IH. now replace (S n + i) with (n + S i) by lia. Qed.
Lemma each_len {A} (f : nat -> A -> A) : forall l n, List.length (each f n l) = List.length l.
Proof. induction l as [|a l IH]; intros n; cbn; [reflexivity|]. now rewrite IH. Qed.
(** a state of a pool that was made by the constructor and used since *)
Definition lived (cfg : config) (mk : nat -> nat -> bool) (i : nat) (s : life) : Prop := exists p l, build cfg (mk i) = Built p /\ s = ufrom cfg (mk i) (ustart p) l.
Lemma lived_step cfg mk i s o : lived cfg mk i s -> lived cfg mk i (fst (ustep cfg (mk i) s o)).
Proof. intros (p & l & B & ->). exists p, (l ++ [o]). split; [exact B|]. rewrite ufrom_app. reflexivity. Qed.
Lemma held_step cfg mk s o : o <> UForgetPool -> u_held (fst (ustep cfg mk s o)) = u_held s.
Proof.
  intros N. destruct o as [dr|c|c|c| | |i|]; cbn [ustep]; try congruence; try reflexivity.
  - destruct (u_held s) eqn:H; [|exact H]. destruct (get_conn _ _ _ _) as [p r]. reflexivity.
  - destruct (u_held s) eqn:H; cbn [andb]; [|exact H]. destruct (mem_nat c (u_lent s)); [reflexivity|exact H].
  - destruct (mem_nat c (u_lent s)); reflexivity.
  - destruct (u_held s) eqn:H; cbn; [exact H|exact H].
Qed.
Lemma forgot_step cfg mk s : u_held (fst (ustep cfg mk s UForgetPool)) = false.
Proof. reflexivity. Qed.

(** between operations, and after [y_do] *)
Definition all_lived cfg mk (l : list life) : Prop := forall i s, nth_error l i = Some s -> lived cfg mk i s.
Definition kept {K} (y : mlife K) : Prop := forall i s, nth_error (y_lives y) i = Some s -> pool_referred y i = true -> u_held s = true.
Definition exact_held {K} (y : mlife K) : Prop := forall i s, nth_error (y_lives y) i = Some s -> u_held s = pool_referred y i.
Lemma settle_exact {K} cfg mk (y : mlife K) : all_lived cfg mk (y_lives y) -> kept y -> all_lived cfg mk (y_lives (settle cfg mk y)) /\ exact_held (settle cfg mk y).
Proof.
  intros A B. split; intros i s; cbn [settle y_lives]; rewrite each_nth; destruct (nth_error (y_lives y) i) as [s0|] eqn:E; cbn [option_map Nat.add]; try discriminate; intros [= <-].
  - destruct (u_held s0 && negb (pool_referred y i)); [refine (lived_step cfg mk i s0 UForgetPool _)|]; exact (A i s0 E).
  - change (pool_referred (settle cfg mk y) i) with (pool_referred y i). specialize (B i s0 E). destruct (pool_referred y i); cbn [negb]; rewrite ?andb_false_r, ?andb_true_r; [exact (B eq_refl)|]. destruct (u_held s0) eqn:H; [reflexivity|exact H].
Qed.
Lemma at_nth i f l j : nth_error (at_pool i f l) j = option_map (fun s => if Nat.eqb j i then f s else s) (nth_error l j).
Proof. unfold at_pool. rewrite each_nth. reflexivity. Qed.
Lemma at_lived cfg mk i o l : all_lived cfg mk l -> all_lived cfg mk (at_pool i (fun s => fst (ustep cfg (mk i) s o)) l).
Proof.
  intros A j s. rewrite at_nth. destruct (nth_error l j) as [s0|] eqn:E; cbn; [|discriminate]. intros [= <-]. destruct (Nat.eqb_spec j i) as [->|N]; [apply lived_step|]; exact (A _ s0 E).
Qed.
Definition same_held (l l' : list life) : Prop := forall i s', nth_error l' i = Some s' -> exists s, nth_error l i = Some s /\ u_held s' = u_held s.
Lemma same_refl l : same_held l l.
Proof. intros i s E. eauto. Qed.
Lemma same_trans l l1 l2 : same_held l l1 -> same_held l1 l2 -> same_held l l2.
Proof. intros A B i s2 E. destruct (B i s2 E) as (s1 & E1 & H1). destruct (A i s1 E1) as (s & E0 & H0). exists s. split; [exact E0|congruence]. Qed.
Lemma at_same cfg mk i o l : o <> UForgetPool -> same_held l (at_pool i (fun s => fst (ustep cfg (mk i) s o)) l).
Proof.
  intros N j s'. rewrite at_nth. destruct (nth_error l j) as [s|]; cbn; [|discriminate]. intros [= <-]. exists s. split; [reflexivity|]. destruct (Nat.eqb j i); [apply held_step, N|reflexivity].
Qed.
Lemma dispose_ok cfg mk gone : forall l, all_lived cfg mk l -> all_lived cfg mk (fst (dispose cfg mk l gone)) /\ same_held l (fst (dispose cfg mk l gone)).
Proof.
  induction gone as [|i r IH]; intros l A; cbn [dispose]; [split; [exact A|apply same_refl]|].
  destruct (nth_error l i) as [s|]; [|split; [exact A|apply same_refl]]. destruct (snd (pool_close (u_pool s))); [|split; [exact A|apply same_refl]].
  destruct (IH _ (at_lived cfg mk i UClose l A)) as [B C]. split; [exact B|]. eapply same_trans; [apply (at_same cfg mk i UClose); discriminate|exact C].
Qed.
Lemma mem_in i l : mem_nat i l = true <-> In i l.
Proof. unfold mem_nat. rewrite existsb_exists. split; [intros (x & H & E); apply Nat.eqb_eq in E; subst; exact H|intros H; exists i; split; [exact H|apply Nat.eqb_refl]]. Qed.
Lemma referred_iff {K} (y : mlife K) i : pool_referred y i = true <-> reachable_pool y i.
Proof.
  unfold pool_referred, reachable_pool. rewrite orb_true_iff, andb_true_iff, !mem_in, in_map_iff. split; (intros [H|(H & X)]; [left; exact H|right; split; [exact H|]]); [destruct X as ((k & j) & E & X); cbn in E; subst; eauto|destruct X as (k & X); exists (k, i); auto].
Qed.
Lemma dset_vals {K} {E : EqDec K} k (v : nat) (c : dict K nat) x : In x (map snd (dset k v c)) -> x = v \/ In x (map snd c).
Proof. induction c as [|(k', v') c IH]; cbn; [intros [<-|[]]; auto|]. destruct (eq_dec k k'); cbn; intros [H|H]; auto. destruct (IH H); auto. Qed.
Lemma ddel_vals {K} {E : EqDec K} k (c : dict K nat) x : In x (map snd (ddel k c)) -> In x (map snd c).
Proof. induction c as [|(k', v') c IH]; cbn; [intros []|]. destruct (eq_dec k k'); cbn; [auto|]. intros [H|H]; auto. Qed.
Lemma dget_vals {K} {E : EqDec K} k (c : dict K nat) x : dget k c = Some x -> In x (map snd c).
Proof. induction c as [|(k', v') c IH]; cbn; [discriminate|]. destruct (eq_dec k k'); [intros [= <-]; auto|auto]. Qed.

Definition yinv {K} cfg mk (y : mlife K) : Prop := all_lived cfg mk (y_lives y) /\ exact_held y.
Lemma yinv_step {K} {E : EqDec K} mp cfg mk (y : mlife K) o : yinv cfg mk y -> yinv cfg mk (y_step mp cfg mk y o).
Proof.
  intros (A & B). unfold yinv, y_step.
  assert (Id : forall y' : mlife K, y_lives y' = y_lives y -> (forall i, pool_referred y' i = true -> pool_referred y i = true) -> all_lived cfg mk (y_lives y') /\ kept y').
  { intros y' El R. rewrite El. split; [exact A|]. intros i s Ei Ri. rewrite El in Ei. rewrite (B i s Ei). exact (R i Ri). }
  assert (Use : forall i u, u <> UForgetPool -> all_lived cfg mk (y_lives (use_of cfg mk y i u)) /\ kept (use_of cfg mk y i u)).
  { intros i u N. split; [apply at_lived, A|]. intros j s Ej Rj. destruct (at_same cfg mk i u (y_lives y) N j s Ej) as (s0 & E0 & ->). rewrite (B j s0 E0). exact Rj. }
  assert (G : all_lived cfg mk (y_lives (y_do mp cfg mk y o)) /\ kept (y_do mp cfg mk y o)); [|destruct G as [G1 G2]; exact (settle_exact cfg mk _ G1 G2)].
  destruct o as [k| | |i|i dr|i c|i|i c|i c|i e|]; cbn [y_do].
  - destruct (y_held y) eqn:Hy; [|apply Id; auto]. unfold lru_get. destruct (dget k (y_lru y)) as [i|] eqn:D.
    + apply Id; [reflexivity|]. intros j. unfold pool_referred. cbn [y_mine y_held y_lru]. rewrite Hy. cbn [andb]. rewrite !orb_true_iff, !mem_in. intros [[<-|H]|H]; [right; exact (dget_vals k _ _ D)|left; exact H|right]. destruct (dset_vals k i _ j H) as [->|H']; [exact (dget_vals k _ _ D)|exact (ddel_vals k _ _ H')].
    + destruct (build cfg (mk (List.length (y_lives y)))) as [p|e|] eqn:Bd; [|apply Id; auto..].
      assert (A1 : all_lived cfg mk (y_lives y ++ [ustart p])).
      { intros j s Ej. destruct (Nat.lt_ge_cases j (List.length (y_lives y))) as [L|L]; [rewrite nth_error_app1 in Ej by exact L; exact (A j s Ej)|]. rewrite nth_error_app2 in Ej by exact L. destruct (j - List.length (y_lives y)) as [|n] eqn:Z; [|destruct n; discriminate]. injection Ej as <-. assert (j = List.length (y_lives y)) by lia. subst j. exists p, []. split; [exact Bd|reflexivity]. }
      destruct (lru_set mp (y_lru y) k (List.length (y_lives y))) as [c' gone] eqn:Ls. destruct (dispose_ok cfg mk gone _ A1) as [A2 S2]. destruct (dispose cfg mk (y_lives y ++ [ustart p]) gone) as [lives r]. cbn [fst] in *. split; [exact A2|]. intros j s Ej Rj. cbn [y_lives] in Ej.
      destruct (S2 j s Ej) as (s0 & E0 & ->). destruct (Nat.lt_ge_cases j (List.length (y_lives y))) as [L|L].
      * rewrite nth_error_app1 in E0 by exact L. rewrite (B j s0 E0). unfold pool_referred in *. cbn [y_mine y_held y_lru] in Rj. rewrite Hy. cbn [andb] in *. rewrite orb_true_iff, !mem_in in *. destruct Rj as [Rj|Rj].
        -- left. destruct r; [destruct Rj as [Rj|Rj]; [lia|exact Rj]|exact Rj].
        -- right. assert (X : In j (map snd (dset k (List.length (y_lives y)) (y_lru y)))); [|destruct (dset_vals k _ _ j X) as [Y|Y]; [lia|exact Y]]. unfold lru_set in Ls. revert Ls. destruct (mp <? len (dset k (List.length (y_lives y)) (y_lru y)))%Z; [|intros [= <- _]; exact Rj]. destruct (dset k (List.length (y_lives y)) (y_lru y)) as [|(k0, v0) c2]; intros [= <- _]; [exact Rj|right; exact Rj].
      * rewrite nth_error_app2 in E0 by exact L. destruct (j - List.length (y_lives y)) as [|n]; [injection E0 as <-; reflexivity|destruct n; discriminate].
  - destruct (y_held y) eqn:Hy; [|apply Id; auto]. cbn [lru_clear]. destruct (dispose_ok cfg mk (vals (y_lru y)) _ A) as [A2 S2]. unfold lru_clear. destruct (dispose cfg mk (y_lives y) (vals (y_lru y))) as [lives r]. cbn [fst] in *. split; [exact A2|]. intros j s Ej Rj. destruct (S2 j s Ej) as (s0 & E0 & ->). rewrite (B j s0 E0). unfold pool_referred in *. cbn in Rj. rewrite orb_false_r in Rj. change (mem_nat j (y_mine y) = true) in Rj. rewrite Rj. reflexivity.
  - apply Id; [reflexivity|]. intros j. unfold pool_referred. cbn [y_mine y_held y_lru andb]. rewrite orb_false_r. intros ->. reflexivity.
  - apply Id; [reflexivity|]. intros j. unfold pool_referred. cbn [y_mine y_held y_lru]. rewrite !orb_true_iff, !mem_in. intros [H|H]; [left; exact (proj1 (in_remove _ _ _ _ H))|right; exact H].
  - destruct (mem_nat i (y_mine y)); [apply Use; discriminate|apply Id; auto].
  - destruct (mem_nat i (y_mine y)); [apply Use; discriminate|apply Id; auto].
  - destruct (mem_nat i (y_mine y)); [apply Use; discriminate|apply Id; auto].
  - apply Use; discriminate.
  - apply Use; discriminate.
  - apply Use; discriminate.
  - split; intros j s; cbn [with_lives y_lives]; rewrite each_nth; destruct (nth_error (y_lives y) j) as [s0|] eqn:E0; cbn [option_map Nat.add]; try discriminate; intros [= <-].
    + exact (lived_step cfg mk j s0 UCollect (A j s0 E0)).
    + intros Rj. change (pool_referred y j = true) in Rj. rewrite <- (B j s0 E0) in Rj. exact Rj.
Qed.
Lemma y_snoc {K} {E : EqDec K} mp cfg mk (l : list (yop K)) o : y_run mp cfg mk (l ++ [o]) = y_step mp cfg mk (y_run mp cfg mk l) o.
Proof. unfold y_run. now rewrite fold_left_app. Qed.
Lemma yinv_run {K} {E : EqDec K} mp cfg mk (l : list (yop K)) : yinv cfg mk (y_run mp cfg mk l).
Proof. induction l as [|o l IH] using rev_ind; [split; intros [|i] s; discriminate|]. rewrite y_snoc. apply yinv_step, IH. Qed.
Lemma usable_iff {K} cfg mk (y : mlife K) i s c : yinv cfg mk y -> nth_error (y_lives y) i = Some s -> (usable s c <-> usable_of y i s c).
Proof. intros (_ & B) E. unfold usable, usable_of. rewrite (B i s E), referred_iff. reflexivity. Qed.
Lemma m_in_use_open K (E : EqDec K) mp cfg mk (l : list (yop K)) i s c : let y := y_run mp cfg mk l in nth_error (y_lives y) i = Some s -> usable_of y i s c -> ~ shut s c -> In c (u_open s).
Proof. intros y Ei U N. pose proof (yinv_run mp cfg mk l) as I. fold y in I. apply (usable_iff cfg mk y i s c I Ei) in U. destruct (proj1 I i s Ei) as (p & h & Bd & ->). exact (in_use_open cfg (mk i) p h c Bd U N). Qed.
Lemma m_shut_closed K (E : EqDec K) mp cfg mk (l : list (yop K)) i s c : let y := y_run mp cfg mk l in nth_error (y_lives y) i = Some s -> shut s c -> ~ In c (u_open s).
Proof. intros y Ei H. destruct (proj1 (yinv_run mp cfg mk l) i s Ei) as (p & h & Bd & ->). exact (open_not_shut cfg (mk i) p h c Bd H). Qed.
Lemma m_at_once K (E : EqDec K) mp cfg mk (l : list (yop K)) i s c : let y := y_run mp cfg mk l in nth_error (y_lives y) i = Some s -> no_stray_error s -> In c (u_open s) -> usable_of y i s c \/ kept_by_error s c.
Proof.
  intros y Ei N O. pose proof (yinv_run mp cfg mk l) as I. fold y in I. rewrite <- (usable_iff cfg mk y i s c I Ei). destruct (proj1 I i s Ei) as (p & h & Bd & Es). assert (R : refers s) by (rewrite Es; apply refers_from, refers_start).
  destruct (R c O) as [U|(e & He & X)]; [left; exact U|right; exists e; auto].
Qed.
(** ** After a collection *)
Lemma collect_errs cfg mk s : no_stray_error (fst (ustep cfg mk s UCollect)).
Proof. intros e H. cbn [ustep fst tidy u_errs] in H. apply filter_In in H as (H & _). apply filter_In in H as (_ & H). exact H. Qed.
Lemma forget_errs cfg mk s : no_stray_error s -> no_stray_error (fst (ustep cfg mk s UForgetPool)).
Proof. intros N e H. cbn [ustep fst tidy u_errs] in H. apply filter_In in H as (H & _). exact (N e H). Qed.
Lemma m_collected K (E : EqDec K) mp cfg mk (l : list (yop K)) i s c : let y := y_run mp cfg mk (l ++ [YCollect]) in nth_error (y_lives y) i = Some s -> In c (u_open s) -> usable_of y i s c \/ kept_by_error s c.
Proof.
  intros y Ei O. apply (m_at_once K E mp cfg mk (l ++ [YCollect]) i s c Ei); [|exact O]. unfold y in Ei. rewrite y_snoc in Ei. unfold y_step in Ei. cbn [y_do settle y_lives with_lives] in Ei. rewrite !each_nth in Ei.
  destruct (nth_error (y_lives (y_run mp cfg mk l)) i) as [s0|]; cbn [option_map Nat.add] in Ei; [|discriminate]. injection Ei as <-. pose proof (collect_errs cfg (mk i) s0) as X. match goal with |- no_stray_error (if ?b then _ else _) => destruct b end; [exact (forget_errs cfg (mk i) _ X)|exact X].
Qed.
(** ** Nobody has the manager, the pool, its connections or its exceptions *)
Lemma m_gone K (E : EqDec K) mp cfg mk (l : list (yop K)) i s : let y := y_run mp cfg mk l in nth_error (y_lives y) i = Some s -> ~ reachable_pool y i -> u_lent s = [] -> u_errs s = [] -> u_open s = [].
Proof.
  intros y Ei N L R. destruct (u_open s) as [|c o] eqn:O; [reflexivity|]. exfalso. destruct (m_at_once K E mp cfg mk l i s c Ei) as [[H|(H & _)]|(e & H & _)].
  - intros e H. rewrite R in H. destruct H.
  - rewrite O. left. reflexivity.
  - rewrite L in H. destruct H.
  - exact (N H).
  - rewrite R in H. destruct H.
Qed.
(** after clear() the manager keeps no pool, whether or not it closed all of them *)
Lemma m_cleared K (E : EqDec K) mp cfg mk (l : list (yop K)) i : let y := y_run mp cfg mk (l ++ [YClear]) in reachable_pool y i -> In i (y_mine y).
Proof.
  intros y [H|(H & k & Hk)]; [exact H|]. exfalso. unfold y in *. rewrite y_snoc in *. unfold y_step in *. cbn [y_do settle y_lru y_held] in *. destruct (y_held (y_run mp cfg mk l)) eqn:Hy; [|rewrite ?Hy in H; discriminate]. unfold lru_clear in *. destruct (dispose cfg mk _ _). exact Hk.
Qed.
(** ** The manager was let go of *)
Lemma m_let_go K (E : EqDec K) mp cfg mk (l : list (yop K)) i : let y := y_run mp cfg mk (l ++ [YForgetManager]) in reachable_pool y i -> In i (y_mine y).
Proof. intros y [H|(H & _)]; [exact H|]. unfold y in H. rewrite y_snoc in H. discriminate H. Qed.
(** and does not come back *)
Lemma held_once K (E : EqDec K) mp cfg mk (y : mlife K) o : y_held y = false -> y_held (y_step mp cfg mk y o) = false /\ incl (y_mine (y_step mp cfg mk y o)) (y_mine y).
Proof.
  intros H. unfold y_step. cbn [settle y_held y_mine]. destruct o as [k| | |i|i dr|i c|i|i c|i c|i e|]; cbn [y_do]; rewrite ?H; try (split; [exact H|apply incl_refl]); try (destruct (mem_nat i (y_mine y)); split; [exact H|apply incl_refl|exact H|apply incl_refl]).
  all: cbn [y_held y_mine use_of with_lives]; rewrite ?H; split; [reflexivity|]; first [apply incl_refl|intros x X; exact (proj1 (in_remove _ _ _ _ X))].
Qed.
(** ** What the manager stops keeping is closed *)
Lemma close_free cfg mk s : u_held s = true -> closed_pool (fst (ustep cfg mk s UClose)).
Proof. intros H. unfold closed_pool. cbn [ustep]. rewrite H. cbn. unfold pool_close. destruct (p_free (u_pool s)) eqn:F; [reflexivity|exact F]. Qed.
Lemma close_stays cfg mk s : closed_pool s -> closed_pool (fst (ustep cfg mk s UClose)).
Proof. intros H. unfold closed_pool in *. cbn [ustep]. destruct (u_held s); [|exact H]. cbn. unfold pool_close. rewrite H. exact H. Qed.
Lemma dispose_stays cfg mk gone : forall l i s s', nth_error l i = Some s -> closed_pool s -> nth_error (fst (dispose cfg mk l gone)) i = Some s' -> closed_pool s'.
Proof.
  induction gone as [|j r IH]; intros l i s s' E C E'; cbn [dispose fst] in E'; [congruence|]. destruct (nth_error l j) as [sj|]; [|cbn in E'; congruence]. destruct (snd (pool_close (u_pool sj))); [|cbn in E'; congruence].
  refine (IH _ i _ s' _ _ E'); [rewrite at_nth, E; reflexivity|]. cbn beta. destruct (Nat.eqb i j); [apply close_stays|]; exact C.
Qed.
Lemma dispose_closes cfg mk gone : forall l, (forall i s, In i gone -> nth_error l i = Some s -> u_held s = true) -> snd (dispose cfg mk l gone) = Ok tt ->
  forall i s', In i gone -> nth_error (fst (dispose cfg mk l gone)) i = Some s' -> closed_pool s'.
Proof.
  induction gone as [|j r IH]; intros l H R i s' I E'; [destruct I|]. cbn [dispose] in *. destruct (nth_error l j) as [sj|] eqn:Ej; [|discriminate R]. destruct (snd (pool_close (u_pool sj))); [|discriminate R]. destruct I as [<-|I].
  - refine (dispose_stays cfg mk r _ j _ s' _ _ E'); [rewrite at_nth, Ej; reflexivity|]. cbn beta. rewrite Nat.eqb_refl. apply close_free. apply (H j sj); [left; reflexivity|exact Ej].
  - refine (IH _ _ R i s' I E'). intros k s Ik Ek. destruct (at_same cfg mk j UClose l ltac:(discriminate) k s Ek) as (s0 & E0 & ->). apply (H k s0); [right; exact Ik|exact E0].
Qed.
Lemma settle_closed {K} cfg mk (y : mlife K) i s : nth_error (y_lives (settle cfg mk y)) i = Some s -> exists s0, nth_error (y_lives y) i = Some s0 /\ (closed_pool s0 -> closed_pool s).
Proof.
  cbn [settle y_lives]. rewrite each_nth. destruct (nth_error (y_lives y) i) as [s0|]; cbn [option_map Nat.add]; [|discriminate]. intros [= <-]. exists s0. split; [reflexivity|]. intros C. destruct (u_held s0 && _); exact C.
Qed.
Lemma keeps_in {K} (y : mlife K) i : keeps y i <-> In i (map snd (y_lru y)).
Proof. unfold keeps. rewrite in_map_iff. split; [intros (k & H); exists (k, i); auto|intros ((k & j) & <- & H); eauto]. Qed.
Lemma dset_new {K} {E : EqDec K} k (v : nat) (c : dict K nat) x : dget k c = None -> In x (map snd c) \/ x = v -> In x (map snd (dset k v c)).
Proof. induction c as [|(k', v') c IH]; cbn; [intros _ [[]|H]; auto|]. destruct (eq_dec k k'); [discriminate|]. cbn. intros D [[H|H]|H]; auto. Qed.
Lemma ddel_rest {K} {E : EqDec K} k (v : nat) (c : dict K nat) x : dget k c = Some v -> In x (map snd c) -> x = v \/ In x (map snd (ddel k c)).
Proof. induction c as [|(k', v') c IH]; cbn; [discriminate|]. destruct (eq_dec k k'); [intros [= ->] [H|H]; auto|]. cbn. intros D [H|H]; auto. destruct (IH D H); auto. Qed.
Lemma wf_step {K} {E : EqDec K} mp cfg mk (y : mlife K) o : wf_dict (y_lru y) -> wf_dict (y_lru (y_step mp cfg mk y o)).
Proof.
  intros W. unfold y_step. cbn [settle y_lru]. destruct o as [k| | |i|i dr|i c|i|i c|i c|i e|]; cbn [y_do]; try exact W; try (destruct (mem_nat i (y_mine y)); exact W); destruct (y_held y); try exact W.
  - unfold lru_get. destruct (dget k (y_lru y)) as [i|]; [apply wf_dset, wf_ddel, W|]. destruct (build _ _); try exact W. unfold lru_set. pose proof (wf_dset k (List.length (y_lives y)) _ W) as W'. destruct (mp <? _)%Z; [destruct (dset k _ _) as [|(k0, v0) c2]|]; destruct (dispose _ _ _ _); cbn [y_lru]; try exact W'. unfold wf_dict in *. cbn in W'. now inversion W'.
  - unfold lru_clear. destruct (dispose _ _ _ _). constructor.
Qed.
Lemma wf_run {K} {E : EqDec K} mp cfg mk (l : list (yop K)) : wf_dict (y_lru (y_run mp cfg mk l)).
Proof. induction l as [|o l IH] using rev_ind; [constructor|]. rewrite y_snoc. apply wf_step, IH. Qed.
Lemma m_left K (E : EqDec K) mp cfg mk (l : list (yop K)) o i s : let y := y_run mp cfg mk l in let y' := y_run mp cfg mk (l ++ [o]) in
  y_result mp cfg mk y o = Ok tt -> keeps y i -> ~ keeps y' i -> nth_error (y_lives y') i = Some s -> closed_pool s.
Proof.
  intros y y' R Ky Ky' Ei. unfold y' in *. rewrite y_snoc in *. fold y in Ky', Ei. pose proof (yinv_run mp cfg mk l) as (A & B). fold y in A, B. pose proof (wf_run mp cfg mk l) as W. fold y in W. rewrite keeps_in in Ky. unfold y_step in *. rewrite keeps_in in Ky'. change (y_lru (settle cfg mk (y_do mp cfg mk y o))) with (y_lru (y_do mp cfg mk y o)) in Ky'.
  destruct (settle_closed cfg mk _ i s Ei) as (s0 & E0 & C). apply C. clear C Ei.
  assert (H : forall j sj, y_held y = true -> In j (map snd (y_lru y)) -> nth_error (y_lives y) j = Some sj -> u_held sj = true).
  { intros j sj Hy Hj Ej. rewrite (B j sj Ej). apply referred_iff. right. split; [exact Hy|]. apply keeps_in. exact Hj. }
  destruct o as [k| | |j|j dr|j c|j|j c|j c|j e|]; cbn [y_do y_result] in *; try (exfalso; apply Ky'; exact Ky); try (destruct (mem_nat j (y_mine y)); exfalso; apply Ky'; exact Ky); destruct (y_held y) eqn:Hy; try (exfalso; apply Ky'; exact Ky).
  - unfold lru_get in *. destruct (dget k (y_lru y)) as [v|] eqn:D.
    + exfalso. apply Ky'. cbn [y_lru]. apply dset_new; [apply dget_ddel_same, W|]. destruct (ddel_rest k v _ i D Ky); auto.
    + destruct (build cfg (mk (List.length (y_lives y)))) as [p|e|]; try discriminate R. destruct (lru_set mp (y_lru y) k (List.length (y_lives y))) as [c' gone] eqn:Ls. cbn [snd] in R.
      assert (G : In i gone /\ forall j, In j gone -> j = List.length (y_lives y) \/ In j (map snd (y_lru y))).
      { destruct (dispose cfg mk (y_lives y ++ [ustart p]) gone). cbn [y_lru] in Ky'. unfold lru_set in Ls. rewrite D in Ls. pose proof (dset_new k (List.length (y_lives y)) (y_lru y) i D (or_introl Ky)) as N. assert (V : forall j, In j (map snd (dset k (List.length (y_lives y)) (y_lru y))) -> j = List.length (y_lives y) \/ In j (map snd (y_lru y))) by (intros j; apply dset_vals).
        destruct (mp <? _)%Z; [destruct (dset k (List.length (y_lives y)) (y_lru y)) as [|(k0, v0) c2]; [destruct N|]|]; injection Ls as <- <-.
        - cbn in N. destruct N as [N|N]; [|destruct (Ky' N)]. split; [left; exact N|]. intros j [<-|[]]. apply V. left. reflexivity.
        - destruct (Ky' N). }
      destruct G as [G1 G2]. pose proof (dispose_closes cfg mk gone (y_lives y ++ [ustart p])) as Q. destruct (dispose cfg mk (y_lives y ++ [ustart p]) gone) as [lives r]. cbn [fst snd y_lives] in *. refine (Q _ R i s0 G1 E0). intros j sj Gj Ej. destruct (Nat.lt_ge_cases j (List.length (y_lives y))) as [L|L].
      * rewrite nth_error_app1 in Ej by exact L. destruct (G2 j Gj) as [->|X]; [lia|]. exact (H j sj eq_refl X Ej).
      * rewrite nth_error_app2 in Ej by exact L. destruct (j - List.length (y_lives y)) as [|n]; [injection Ej as <-; reflexivity|destruct n; discriminate].
  - unfold lru_clear in *. cbn [snd] in R. pose proof (dispose_closes cfg mk (vals (y_lru y)) (y_lives y)) as Q. destruct (dispose cfg mk (y_lives y) (vals (y_lru y))) as [lives r]. cbn [fst snd y_lives] in *. refine (Q _ R i s0 Ky E0). intros j sj Gj Ej. exact (H j sj eq_refl Gj Ej).
Qed.
Lemma m_let_go_ever K (E : EqDec K) mp cfg mk (l l2 : list (yop K)) i : let y := y_run mp cfg mk (l ++ YForgetManager :: l2) in reachable_pool y i -> In i (y_mine y) /\ In i (y_mine (y_run mp cfg mk l)).
Proof.
  cbv zeta. change (YForgetManager :: l2) with ([YForgetManager] ++ l2). rewrite app_assoc.
  assert (G : y_held (y_run mp cfg mk ((l ++ [YForgetManager]) ++ l2)) = false /\ incl (y_mine (y_run mp cfg mk ((l ++ [YForgetManager]) ++ l2))) (y_mine (y_run mp cfg mk l))).
  { induction l2 as [|o l2 (H & I)] using rev_ind; [rewrite app_nil_r, y_snoc; split; [reflexivity|apply incl_refl]|]. rewrite app_assoc, y_snoc. destruct (held_once K E mp cfg mk _ o H) as (H' & I'). split; [exact H'|]. exact (incl_tran I' I). }
  destruct G as (H & I). intros [X|(X & _)]; [split; [exact X|exact (I i X)]|congruence].
Qed.

(** Lemmas for C120. *)
From Coq Require Import Lia.
From Verif Require Import PyBase L_PyBase PyDict L_PyDict M_Singleton S_Singleton.
Open Scope nat_scope.

Lemma gset_same p l : forall i k, nth_error l i = Some k -> nth_error (gset i p l) i = Some {| g_class := g_class k; g_pc := p |}.
Proof. induction l as [|y l IH]; intros [|i] k; cbn; try discriminate; [congruence|apply IH]. Qed.
Lemma gset_other p l : forall i j, i <> j -> nth_error (gset i p l) j = nth_error l j.
Proof. induction l as [|y l IH]; intros [|i] [|j] H; cbn; try reflexivity; [congruence|apply IH; congruence]. Qed.
Lemma gset_length p l : forall i, List.length (gset i p l) = List.length l.
Proof. induction l as [|y l IH]; intros [|i]; cbn; auto. Qed.
Lemma gset_inv p l i j k' : nth_error (gset i p l) j = Some k' -> (i <> j /\ nth_error l j = Some k') \/ (i = j /\ exists k, nth_error l i = Some k /\ k' = {| g_class := g_class k; g_pc := p |}).
Proof.
  intros H. destruct (Nat.eq_dec i j) as [->|N]; [right|left; rewrite gset_other in H by exact N; auto]. split; [reflexivity|]. destruct (nth_error l j) as [k|] eqn:E; [rewrite (gset_same p l j k E) in H; injection H as <-; eauto|].
  exfalso. apply nth_error_None in E. assert (K : nth_error (gset j p l) j <> None) by congruence. apply nth_error_Some in K. rewrite gset_length in K. lia.
Qed.

(** ** Effects of a step *)
Inductive geff (meta : klass -> metaclass) (s : gst) : gstep -> gst -> Prop :=
| GE_none o : geff meta s o s
| GE_call c : geff meta s (GCall c) {| g_instances := g_instances s; g_made := g_made s; g_calls := g_calls s ++ [{| g_class := c; g_pc := match meta c with TypeMeta => GMake | SingletonMeta => GCheck end |}] |}
| GE_found i c ok x : nth_error (g_calls s) i = Some {| g_class := c; g_pc := GCheck |} -> dget c (g_instances s) = Some x -> geff meta s (GRun i ok) (goto i GLoad s)
| GE_missing i c ok : nth_error (g_calls s) i = Some {| g_class := c; g_pc := GCheck |} -> dget c (g_instances s) = None -> geff meta s (GRun i ok) (goto i GMake s)
| GE_new i c : nth_error (g_calls s) i = Some {| g_class := c; g_pc := GMake |} -> meta c = TypeMeta -> geff meta s (GRun i true) {| g_instances := g_instances s; g_made := S (g_made s); g_calls := gset i (GEnd (Ok (g_made s))) (g_calls s) |}
| GE_made i c : nth_error (g_calls s) i = Some {| g_class := c; g_pc := GMake |} -> meta c = SingletonMeta -> geff meta s (GRun i true) {| g_instances := g_instances s; g_made := S (g_made s); g_calls := gset i (GStore (g_made s)) (g_calls s) |}
| GE_raise i c e ok : nth_error (g_calls s) i = Some {| g_class := c; g_pc := GMake |} \/ (nth_error (g_calls s) i = Some {| g_class := c; g_pc := GLoad |} /\ dget c (g_instances s) = None) -> geff meta s (GRun i ok) (goto i (GEnd (Raise e)) s)
| GE_store i c x ok : nth_error (g_calls s) i = Some {| g_class := c; g_pc := GStore x |} -> geff meta s (GRun i ok) {| g_instances := dset c x (g_instances s); g_made := g_made s; g_calls := gset i GLoad (g_calls s) |}
| GE_load i c x ok : nth_error (g_calls s) i = Some {| g_class := c; g_pc := GLoad |} -> dget c (g_instances s) = Some x -> geff meta s (GRun i ok) (goto i (GEnd (Ok x)) s).
Lemma g_step_eff meta o s : geff meta s o (g_step meta o s).
Proof.
  destruct o as [c|i ok]; cbn [g_step]; [apply GE_call|]. destruct (nth_error (g_calls s) i) as [(c, p)|] eqn:E; [|apply GE_none]. cbn [g_pc g_class]. destruct p as [| |x| |r].
  - unfold dmem. destruct (dget c (g_instances s)) as [x|] eqn:D; [eapply GE_found; eassumption|eapply GE_missing; eassumption].
  - unfold construct. destruct ok; [destruct (meta c) eqn:M; [eapply GE_new; eassumption|eapply GE_made; eassumption]|]. eapply GE_raise. left. exact E.
  - eapply GE_store. exact E.
  - destruct (dget c (g_instances s)) as [x|] eqn:D; [eapply GE_load; eassumption|eapply GE_raise; right; split; [exact E|exact D]].
  - apply GE_none.
Qed.

(** ** Who has which object *)
Definition hold (s : gst) (c : klass) (x : nat) : Prop :=
  dget c (g_instances s) = Some x \/ exists i, nth_error (g_calls s) i = Some {| g_class := c; g_pc := GStore x |} \/ gave s i c x.
Record gok (meta : klass -> metaclass) (s : gst) : Prop := {
  go_old : forall c x, hold s c x -> x < g_made s;
  go_class : forall c c' x, hold s c x -> hold s c' x -> c = c';
  go_plain : forall i k, nth_error (g_calls s) i = Some k -> meta (g_class k) = TypeMeta -> g_pc k = GMake \/ exists r, g_pc k = GEnd r;
  go_once : forall i j c x, meta c = TypeMeta -> gave s i c x -> gave s j c x -> i = j
}.
Lemma nth_snoc {A} (l : list A) y i x : nth_error (l ++ [y]) i = Some x -> nth_error l i = Some x \/ (i = List.length l /\ x = y).
Proof.
  intros H. destruct (Nat.lt_ge_cases i (List.length l)) as [L|L]; [rewrite nth_error_app1 in H by exact L; auto|]. rewrite nth_error_app2 in H by exact L. destruct (i - List.length l) as [|z] eqn:Z; [|destruct z; discriminate]. cbn in H. right. split; [lia|congruence].
Qed.
(** holders after a step that sets the place of call i, which is of class c, to p *)
Lemma hold_set s i c p0 p inst m c' x : nth_error (g_calls s) i = Some {| g_class := c; g_pc := p0 |} -> hold {| g_instances := inst; g_made := m; g_calls := gset i p (g_calls s) |} c' x ->
  dget c' inst = Some x \/ hold s c' x \/ (c' = c /\ (p = GStore x \/ p = GEnd (Ok x))).
Proof.
  intros E [H|(j & [H|H])]; cbn in H; auto; [|unfold gave in H; cbn in H]; apply gset_inv in H as [(N & H)|(-> & k & Ek & H)]; try (right; left; right; exists j; auto; fail); rewrite E in Ek; injection Ek as <-; injection H as -> ->; auto.
Qed.
Lemma gave_set s i p inst m j c x : gave {| g_instances := inst; g_made := m; g_calls := gset i p (g_calls s) |} j c x -> (gave s j c x) \/ (i = j /\ p = GEnd (Ok x)).
Proof. unfold gave. cbn. intros H. apply gset_inv in H as [(N & H)|(-> & k & Ek & H)]; [auto|]. injection H as H1 H2. auto. Qed.
Lemma gok_step meta o s : gok meta s -> gok meta (g_step meta o s).
Proof.
  intros X. pose proof (g_step_eff meta o s) as E. remember (g_step meta o s) as s1 eqn:E1. clear E1.
  assert (Plain : forall i p inst m, (forall k, nth_error (g_calls s) i = Some k -> meta (g_class k) = TypeMeta -> p = GMake \/ exists r, p = GEnd r) ->
    forall j k, nth_error (g_calls {| g_instances := inst; g_made := m; g_calls := gset i p (g_calls s) |}) j = Some k -> meta (g_class k) = TypeMeta -> g_pc k = GMake \/ exists r, g_pc k = GEnd r).
  { intros i p inst m H j k N M. cbn in N. apply gset_inv in N as [(_ & N)|(-> & k0 & Ek & ->)]; [exact (go_plain _ _ X j k N M)|]. cbn in *. exact (H k0 Ek M). }
  assert (Sing : forall i c p, nth_error (g_calls s) i = Some {| g_class := c; g_pc := p |} -> p <> GMake -> (forall r, p <> GEnd r) -> meta c = SingletonMeta).
  { intros i c p N P1 P2. destruct (meta c) eqn:M; [|reflexivity]. exfalso. destruct (go_plain _ _ X i _ N M) as [K|(r & K)]; cbn in K; [contradiction|contradiction (P2 r)]. }
  (* the step gives nobody an object *)
  assert (Quiet : forall i c p0 p, nth_error (g_calls s) i = Some {| g_class := c; g_pc := p0 |} -> (forall x, p <> GStore x) -> (forall x, p <> GEnd (Ok x)) -> (meta c = TypeMeta -> p = GMake \/ exists r, p = GEnd r) -> gok meta (goto i p s)).
  { intros i c p0 p N P1 P2 P3. assert (H : forall c' x, hold (goto i p s) c' x -> hold s c' x).
    { intros c' x H. destruct (hold_set s i c p0 p _ _ c' x N H) as [K|[K|(_ & [K|K])]]; [left; exact K|exact K|contradiction (P1 x)|contradiction (P2 x)]. }
    constructor; [intros c' x K; exact (go_old _ _ X c' x (H c' x K))|intros c1 c2 x K1 K2; exact (go_class _ _ X c1 c2 x (H _ _ K1) (H _ _ K2))|unfold goto; apply Plain; intros k Ek M; rewrite N in Ek; injection Ek as <-; exact (P3 M)|].
    intros j1 j2 c' x M K1 K2. destruct (gave_set s i p _ _ j1 c' x K1) as [G1|(_ & G1)]; [|contradiction (P2 x)]. destruct (gave_set s i p _ _ j2 c' x K2) as [G2|(_ & G2)]; [|contradiction (P2 x)]. exact (go_once _ _ X j1 j2 c' x M G1 G2). }
  destruct E as [o|c|i c ok x N D|i c ok N D|i c N M|i c N M|i c e ok N|i c x ok N|i c x ok N D].
  - exact X.
  - assert (H : forall p c0 x, hold {| g_instances := g_instances s; g_made := g_made s; g_calls := g_calls s ++ [{| g_class := c; g_pc := match p with TypeMeta => GMake | SingletonMeta => GCheck end |}] |} c0 x -> hold s c0 x).
    { intros p c0 x [K|(i & [K|K])]; [left; exact K| |unfold gave in K]; cbn in K; apply nth_snoc in K as [K|(_ & K)]; try (right; exists i; auto; fail); destruct p; discriminate. }
    constructor; [intros c' x K; exact (go_old _ _ X c' x (H _ c' x K))|intros c1 c2 x K1 K2; exact (go_class _ _ X c1 c2 x (H _ _ _ K1) (H _ _ _ K2))| |].
    + cbn. intros i k K M. apply nth_snoc in K as [K|(_ & ->)]; [exact (go_plain _ _ X i k K M)|]. cbn in *. rewrite M. auto.
    + intros i j c' x M K1 K2. unfold gave in K1, K2. cbn in K1, K2. apply nth_snoc in K1 as [K1|(_ & K1)]; [|destruct (meta c); discriminate]. apply nth_snoc in K2 as [K2|(_ & K2)]; [|destruct (meta c); discriminate]. exact (go_once _ _ X i j c' x M K1 K2).
  - apply (Quiet i c GCheck GLoad N); try discriminate. intros M. rewrite (Sing i c GCheck N) in M; discriminate.
  - apply (Quiet i c GCheck GMake N); try discriminate. intros M. auto.
  - assert (H : forall c' x, hold {| g_instances := g_instances s; g_made := S (g_made s); g_calls := gset i (GEnd (Ok (g_made s))) (g_calls s) |} c' x -> hold s c' x \/ (c' = c /\ x = g_made s)).
    { intros c' x K. destruct (hold_set s i c GMake _ _ _ c' x N K) as [K'|[K'|(-> & [K'|K'])]]; [left; left; exact K'|auto|discriminate|injection K' as ->; auto]. }
    constructor.
    + intros c' x K. cbn. destruct (H c' x K) as [K'|(_ & ->)]; [pose proof (go_old _ _ X _ _ K'); lia|lia].
    + intros c1 c2 x K1 K2. destruct (H _ _ K1) as [K1'|(-> & ->)], (H _ _ K2) as [K2'|(-> & E2)]; [exact (go_class _ _ X _ _ _ K1' K2')|subst x; pose proof (go_old _ _ X _ _ K1'); lia|pose proof (go_old _ _ X _ _ K2'); lia|reflexivity].
    + apply Plain. intros. right. eauto.
    + intros j1 j2 c' x Mc K1 K2. destruct (gave_set s i _ _ _ j1 c' x K1) as [G1|(<- & G1)], (gave_set s i _ _ _ j2 c' x K2) as [G2|(<- & G2)]; [exact (go_once _ _ X j1 j2 c' x Mc G1 G2)| | |reflexivity].
      * injection G2 as <-. assert (Hd : hold s c' (g_made s)) by (right; exists j1; auto). pose proof (go_old _ _ X _ _ Hd). lia.
      * injection G1 as <-. assert (Hd : hold s c' (g_made s)) by (right; exists j2; auto). pose proof (go_old _ _ X _ _ Hd). lia.
  - assert (H : forall c' x, hold {| g_instances := g_instances s; g_made := S (g_made s); g_calls := gset i (GStore (g_made s)) (g_calls s) |} c' x -> hold s c' x \/ (c' = c /\ x = g_made s)).
    { intros c' x K. destruct (hold_set s i c GMake _ _ _ c' x N K) as [K'|[K'|(-> & [K'|K'])]]; [left; left; exact K'|auto|injection K' as ->; auto|discriminate]. }
    constructor.
    + intros c' x K. cbn. destruct (H c' x K) as [K'|(_ & ->)]; [pose proof (go_old _ _ X _ _ K'); lia|lia].
    + intros c1 c2 x K1 K2. destruct (H _ _ K1) as [K1'|(-> & ->)], (H _ _ K2) as [K2'|(-> & E2)]; [exact (go_class _ _ X _ _ _ K1' K2')|subst x; pose proof (go_old _ _ X _ _ K1'); lia|pose proof (go_old _ _ X _ _ K2'); lia|reflexivity].
    + apply Plain. intros k Ek Mk. rewrite N in Ek. injection Ek as <-. cbn in Mk. congruence.
    + intros j1 j2 c' x Mc K1 K2. destruct (gave_set s i _ _ _ j1 c' x K1) as [G1|(_ & G1)]; [|discriminate]. destruct (gave_set s i _ _ _ j2 c' x K2) as [G2|(_ & G2)]; [|discriminate]. exact (go_once _ _ X j1 j2 c' x Mc G1 G2).
  - destruct N as [N|(N & _)]; (eapply (Quiet i c _ _ N); [discriminate|discriminate|intros M; eauto]).
  - assert (H : forall c' y, hold {| g_instances := dset c x (g_instances s); g_made := g_made s; g_calls := gset i GLoad (g_calls s) |} c' y -> hold s c' y).
    { intros c' y K. destruct (hold_set s i c _ _ _ _ c' y N K) as [K'|[K'|(_ & [K'|K'])]]; [|exact K'|discriminate|discriminate]. rewrite dget_dset in K'. destruct (eq_dec c' c) as [->|_]; [|left; exact K']. injection K' as <-. right. exists i. left. exact N. }
    constructor; [intros c' y K; exact (go_old _ _ X c' y (H c' y K))|intros c1 c2 y K1 K2; exact (go_class _ _ X c1 c2 y (H _ _ K1) (H _ _ K2))| |].
    + apply Plain. intros k Ek Mk. rewrite N in Ek. injection Ek as <-. cbn in Mk. rewrite (Sing i c _ N) in Mk; discriminate.
    + intros j1 j2 c' y Mc K1 K2. destruct (gave_set s i _ _ _ j1 c' y K1) as [G1|(_ & G1)]; [|discriminate]. destruct (gave_set s i _ _ _ j2 c' y K2) as [G2|(_ & G2)]; [|discriminate]. exact (go_once _ _ X j1 j2 c' y Mc G1 G2).
  - assert (Mc : meta c = SingletonMeta) by (apply (Sing i c GLoad N); discriminate).
    assert (H : forall c' y, hold (goto i (GEnd (Ok x)) s) c' y -> hold s c' y).
    { intros c' y K. destruct (hold_set s i c _ _ _ _ c' y N K) as [K'|[K'|(-> & [K'|K'])]]; [left; exact K'|exact K'|discriminate|]. injection K' as <-. left. exact D. }
    constructor; [intros c' y K; exact (go_old _ _ X c' y (H c' y K))|intros c1 c2 y K1 K2; exact (go_class _ _ X c1 c2 y (H _ _ K1) (H _ _ K2))| |].
    + unfold goto. apply Plain. intros. right. eauto.
    + intros j1 j2 c' y Mc' K1 K2. assert (In1 : forall j, gave (goto i (GEnd (Ok x)) s) j c' y -> gave s j c' y).
      { intros j K. destruct (gave_set s i _ _ _ j c' y K) as [G|(<- & G)]; [exact G|]. exfalso. unfold gave, goto in K. cbn in K. rewrite (gset_same _ _ _ _ N) in K. injection K as -> _. congruence. }
      exact (go_once _ _ X j1 j2 c' y Mc' (In1 _ K1) (In1 _ K2)).
Qed.
Lemma gok_run meta l : gok meta (g_run meta l).
Proof.
  induction l as [|o l IH] using rev_ind; [|unfold g_run in *; rewrite fold_left_app; apply gok_step, IH]. constructor; cbn.
  - intros c x [H|([|i] & [H|H])]; discriminate.
  - intros c c' x [H|([|i] & [H|H])]; discriminate.
  - intros [|i]; discriminate.
  - intros [|i] j c x _ H; discriminate.
Qed.
Lemma new_each_time meta l i j c c' x : meta c = client_class -> gave (g_run meta l) i c x -> gave (g_run meta l) j c' x -> i = j.
Proof.
  intros M H1 H2. pose proof (gok_run meta l) as X. assert (c = c') by (apply (go_class _ _ X c c' x); right; eauto). subst c'. exact (go_once _ _ X i j c x M H1 H2).
Qed.
Lemma own_class meta l i j c c' x : gave (g_run meta l) i c x -> gave (g_run meta l) j c' x -> c = c'.
Proof. intros H1 H2. apply (go_class _ _ (gok_run meta l) c c' x); right; eauto. Qed.

(** ** Calls that do not overlap *)
Record seqok (c : klass) (s : gst) : Prop := {
  so_none : dget c (g_instances s) = None -> (forall i x, ~ gave s i c x) /\ forall i k, nth_error (g_calls s) i = Some k -> g_class k = c -> g_pc k <> GLoad;
  so_some : forall x, dget c (g_instances s) = Some x -> (forall i y, gave s i c y -> y = x) /\ forall i k, nth_error (g_calls s) i = Some k -> g_class k = c -> g_pc k <> GMake /\ forall y, g_pc k <> GStore y;
  so_alone : forall i j k k', nth_error (g_calls s) i = Some k -> nth_error (g_calls s) j = Some k' -> g_class k = c -> g_class k' = c -> (forall r, g_pc k <> GEnd r) -> (forall r, g_pc k' <> GEnd r) -> i = j
}.
Lemma seq_step meta c o s : (forall c, meta c = SingletonMeta) -> (o = GCall c -> calm c s) -> seqok c s -> seqok c (g_step meta o s).
Proof.
  intros Ms Cl X. pose proof (g_step_eff meta o s) as E. remember (g_step meta o s) as s1 eqn:E1. clear E1.
  assert (Alone : forall i p0 c0 p inst m, nth_error (g_calls s) i = Some {| g_class := c0; g_pc := p0 |} -> (forall r, p0 <> GEnd r) ->
    forall i1 j k k', nth_error (g_calls {| g_instances := inst; g_made := m; g_calls := gset i p (g_calls s) |}) i1 = Some k -> nth_error (g_calls {| g_instances := inst; g_made := m; g_calls := gset i p (g_calls s) |}) j = Some k' -> g_class k = c -> g_class k' = c -> (forall r, g_pc k <> GEnd r) -> (forall r, g_pc k' <> GEnd r) -> i1 = j).
  { intros i p0 c0 p inst m N P i1 j k k' N1 N2 C1 C2 P1 P2. cbn in N1, N2. apply gset_inv in N1 as [(_ & N1)|(<- & k0 & Ek & ->)]; apply gset_inv in N2 as [(_ & N2)|(<- & k2 & Ek2 & ->)]; [|rewrite N in Ek2; injection Ek2 as <-|rewrite N in Ek; injection Ek as <-|reflexivity].
    - exact (so_alone _ _ X i1 j k k' N1 N2 C1 C2 P1 P2).
    - exact (so_alone _ _ X i1 i k _ N1 N C1 C2 P1 P).
    - exact (so_alone _ _ X i j _ k' N N2 C1 C2 P P2). }
  (* what a call of another class does *)
  destruct E as [o|c0|i c0 ok x N D|i c0 ok N D|i c0 N M|i c0 N M|i c0 e ok N|i c0 x ok N|i c0 x ok N D].
  - exact X.
  - rewrite (Ms c0). constructor.
    + cbn. intros D. destruct (so_none _ _ X D) as (A & B). split; [intros i x H; unfold gave in H; cbn in H; apply nth_snoc in H as [H|(_ & H)]; [exact (A i x H)|discriminate]|].
      intros i k H C. apply nth_snoc in H as [H|(_ & ->)]; [exact (B i k H C)|discriminate].
    + cbn. intros x D. destruct (so_some _ _ X x D) as (A & B). split; [intros i y H; unfold gave in H; cbn in H; apply nth_snoc in H as [H|(_ & H)]; [exact (A i y H)|discriminate]|].
      intros i k H C. apply nth_snoc in H as [H|(_ & ->)]; [exact (B i k H C)|]. split; discriminate.
    + cbn. intros i j k k' H1 H2 C1 C2 P1 P2.
      assert (No : c0 = c -> forall i k, nth_error (g_calls s) i = Some k -> g_class k = c -> (forall r, g_pc k <> GEnd r) -> False) by (intros -> i0 k0 N0 C0 P0; destruct (Cl eq_refl k0 (nth_error_In _ _ N0) C0) as (r & R); exact (P0 r R)).
      apply nth_snoc in H1 as [H1|(-> & ->)]; apply nth_snoc in H2 as [H2|(-> & ->)]; [exact (so_alone _ _ X i j k k' H1 H2 C1 C2 P1 P2)|contradiction (No C2 i k H1 C1 P1)|contradiction (No C1 j k' H2 C2 P2)|reflexivity].
  - constructor; [| |apply (Alone i GCheck c0 GLoad _ _ N); discriminate].
    + cbn. intros Dn. destruct (so_none _ _ X Dn) as (A & B). split; [intros j y H; destruct (gave_set s i _ _ _ j c y H) as [H'|(_ & H')]; [exact (A j y H')|discriminate]|].
      intros j k H C. apply gset_inv in H as [(_ & H)|(-> & k0 & Ek & ->)]; [exact (B j k H C)|]. rewrite N in Ek. injection Ek as <-. cbn in C. subst c0. congruence.
    + cbn. intros y Dy. destruct (so_some _ _ X y Dy) as (A & B). split; [intros j z H; destruct (gave_set s i _ _ _ j c z H) as [H'|(_ & H')]; [exact (A j z H')|discriminate]|].
      intros j k H C. apply gset_inv in H as [(_ & H)|(-> & k0 & Ek & ->)]; [exact (B j k H C)|]. split; discriminate.
  - constructor; [| |apply (Alone i GCheck c0 GMake _ _ N); discriminate].
    + cbn. intros Dn. destruct (so_none _ _ X Dn) as (A & B). split; [intros j y H; destruct (gave_set s i _ _ _ j c y H) as [H'|(_ & H')]; [exact (A j y H')|discriminate]|].
      intros j k H C. apply gset_inv in H as [(_ & H)|(-> & k0 & Ek & ->)]; [exact (B j k H C)|]. discriminate.
    + cbn. intros y Dy. destruct (so_some _ _ X y Dy) as (A & B). split; [intros j z H; destruct (gave_set s i _ _ _ j c z H) as [H'|(_ & H')]; [exact (A j z H')|discriminate]|].
      intros j k H C. apply gset_inv in H as [(_ & H)|(-> & k0 & Ek & ->)]; [exact (B j k H C)|]. rewrite N in Ek. injection Ek as <-. cbn in C. subst c0. congruence.
  - rewrite Ms in M. discriminate.
  - constructor; [| |apply (Alone i GMake c0 _ _ _ N); discriminate].
    + cbn. intros Dn. destruct (so_none _ _ X Dn) as (A & B). split; [intros j y H; destruct (gave_set s i _ _ _ j c y H) as [H'|(_ & H')]; [exact (A j y H')|discriminate]|].
      intros j k H C. apply gset_inv in H as [(_ & H)|(-> & k0 & Ek & ->)]; [exact (B j k H C)|]. discriminate.
    + cbn. intros y Dy. destruct (so_some _ _ X y Dy) as (A & B). split; [intros j z H; destruct (gave_set s i _ _ _ j c z H) as [H'|(_ & H')]; [exact (A j z H')|discriminate]|].
      intros j k H C. apply gset_inv in H as [(_ & H)|(-> & k0 & Ek & ->)]; [exact (B j k H C)|]. rewrite N in Ek. injection Ek as <-. cbn in C. subst c0. destruct (B j _ N eq_refl) as (Bm & _). contradiction Bm. reflexivity.
  - assert (N' : exists p0, nth_error (g_calls s) i = Some {| g_class := c0; g_pc := p0 |} /\ forall r, p0 <> GEnd r) by (destruct N as [N|(N & _)]; (eexists; split; [exact N|discriminate])). destruct N' as (p0 & N' & P0).
    constructor; [| |apply (Alone i p0 c0 _ _ _ N' P0)].
    + cbn. intros Dn. destruct (so_none _ _ X Dn) as (A & B). split; [intros j y H; destruct (gave_set s i _ _ _ j c y H) as [H'|(_ & H')]; [exact (A j y H')|discriminate]|].
      intros j k H C. apply gset_inv in H as [(_ & H)|(-> & k0 & Ek & ->)]; [exact (B j k H C)|]. discriminate.
    + cbn. intros y Dy. destruct (so_some _ _ X y Dy) as (A & B). split; [intros j z H; destruct (gave_set s i _ _ _ j c z H) as [H'|(_ & H')]; [exact (A j z H')|discriminate]|].
      intros j k H C. apply gset_inv in H as [(_ & H)|(-> & k0 & Ek & ->)]; [exact (B j k H C)|]. split; discriminate.
  - constructor; [| |apply (Alone i (GStore x) c0 _ _ _ N); discriminate].
    + cbn. rewrite dget_dset. destruct (eq_dec c c0) as [->|Nc]; [discriminate|]. intros Dn. destruct (so_none _ _ X Dn) as (A & B). split; [intros j y H; destruct (gave_set s i _ _ _ j c y H) as [H'|(_ & H')]; [exact (A j y H')|discriminate]|].
      intros j k H C. apply gset_inv in H as [(_ & H)|(-> & k0 & Ek & ->)]; [exact (B j k H C)|]. rewrite N in Ek. injection Ek as <-. cbn in C. congruence.
    + cbn. intros y. rewrite dget_dset. destruct (eq_dec c c0) as [->|Nc]; intros Dy.
      * injection Dy as <-. destruct (dget c0 (g_instances s)) as [z|] eqn:Dz; [destruct (so_some _ _ X z Dz) as (_ & B); destruct (B i _ N eq_refl) as (_ & Bs); contradiction (Bs x); reflexivity|]. destruct (so_none _ _ X Dz) as (A & B). split.
        -- intros j z H. destruct (gave_set s i _ _ _ j c0 z H) as [H'|(_ & H')]; [contradiction (A j z)|discriminate].
        -- intros j k H C. apply gset_inv in H as [(Nj & H)|(-> & k0 & Ek & ->)]; [|split; discriminate]. split; [intros P|intros z P]; apply Nj; apply (so_alone _ _ X i j _ k N H eq_refl C); try discriminate; rewrite P; discriminate.
      * destruct (so_some _ _ X y Dy) as (A & B). split; [intros j z H; destruct (gave_set s i _ _ _ j c z H) as [H'|(_ & H')]; [exact (A j z H')|discriminate]|].
        intros j k H C. apply gset_inv in H as [(_ & H)|(-> & k0 & Ek & ->)]; [exact (B j k H C)|]. split; discriminate.
  - constructor; [| |apply (Alone i GLoad c0 _ _ _ N); discriminate].
    + cbn. intros Dn. destruct (so_none _ _ X Dn) as (A & B). assert (Nc : c0 <> c) by congruence. split.
      * intros j y H. unfold gave, goto in H. cbn in H. apply gset_inv in H as [(_ & H)|(-> & k0 & Ek & H)]; [exact (A j y H)|]. rewrite N in Ek. injection Ek as <-. injection H as -> _. congruence.
      * intros j k H C. apply gset_inv in H as [(_ & H)|(-> & k0 & Ek & ->)]; [exact (B j k H C)|]. discriminate.
    + cbn. intros y Dy. destruct (so_some _ _ X y Dy) as (A & B). split.
      * intros j z H. unfold gave, goto in H. cbn in H. apply gset_inv in H as [(_ & H)|(-> & k0 & Ek & H)]; [exact (A j z H)|]. rewrite N in Ek. injection Ek as <-. injection H as -> ->. cbn in D. congruence.
      * intros j k H C. apply gset_inv in H as [(_ & H)|(-> & k0 & Ek & ->)]; [exact (B j k H C)|]. split; discriminate.
Qed.
Lemma seq_run meta c l : (forall c, meta c = SingletonMeta) -> one_by_one meta c l -> seqok c (g_run meta l).
Proof.
  intros Ms. induction l as [|o l IH] using rev_ind; intros H.
  - constructor; cbn; [intros _; split; [intros [|i] x; discriminate|intros [|i]; discriminate]|discriminate|intros [|i]; discriminate].
  - unfold g_run. rewrite fold_left_app. cbn [fold_left]. apply seq_step; [exact Ms| |apply IH].
    + intros ->. exact (H l [] eq_refl).
    + intros l1 l2 ->. apply (H l1 (l2 ++ [o])). rewrite <- app_assoc. reflexivity.
Qed.
Lemma same_object meta c l i j x y : (forall c, meta c = SingletonMeta) -> one_by_one meta c l -> gave (g_run meta l) i c x -> gave (g_run meta l) j c y -> x = y.
Proof.
  intros Ms O H1 H2. pose proof (seq_run meta c l Ms O) as X. destruct (dget c (g_instances (g_run meta l))) as [z|] eqn:D; [destruct (so_some _ _ X z D) as (A & _); rewrite (A i x H1), (A j y H2); reflexivity|].
  destruct (so_none _ _ X D) as (A & _). contradiction (A i x).
Qed.

(** ** After a call has returned and no other is under way *)
Record after_ok (c : klass) (n x : nat) (s : gst) : Prop := {
  ao_inst : dget c (g_instances s) = Some x;
  ao_old : forall i k, i < n -> nth_error (g_calls s) i = Some k -> g_class k = c -> exists r, g_pc k = GEnd r;
  ao_new : forall i k, n <= i -> nth_error (g_calls s) i = Some k -> g_class k = c -> g_pc k = GCheck \/ g_pc k = GLoad \/ g_pc k = GEnd (Ok x)
}.
Lemma after_step meta c n x o s : (forall c, meta c = SingletonMeta) -> n <= List.length (g_calls s) -> after_ok c n x s -> after_ok c n x (g_step meta o s) /\ n <= List.length (g_calls (g_step meta o s)).
Proof.
  intros Ms Ln X. pose proof (g_step_eff meta o s) as E. remember (g_step meta o s) as s1 eqn:E1. clear E1.
  (* a call of another class *)
  assert (Set_ : forall i c0 p0 p inst m, nth_error (g_calls s) i = Some {| g_class := c0; g_pc := p0 |} -> dget c inst = Some x ->
    (c0 = c -> (forall r, p0 <> GEnd r) /\ (n <= i -> p = GCheck \/ p = GLoad \/ p = GEnd (Ok x))) ->
    after_ok c n x {| g_instances := inst; g_made := m; g_calls := gset i p (g_calls s) |} /\ n <= List.length (g_calls {| g_instances := inst; g_made := m; g_calls := gset i p (g_calls s) |})).
  { intros i c0 p0 p inst m N D P. split; [|cbn; rewrite gset_length; exact Ln]. constructor; [exact D| |]; cbn; intros j k Lj H C; apply gset_inv in H as [(_ & H)|(-> & k0 & Ek & ->)]; [exact (ao_old _ _ _ _ X j k Lj H C)| |exact (ao_new _ _ _ _ X j k Lj H C)|];
      rewrite N in Ek; injection Ek as <-; cbn in C; destruct (P C) as (P1 & P2); [exfalso; destruct (ao_old _ _ _ _ X j _ Lj N C) as (r & R); exact (P1 r R)|exact (P2 Lj)]. }
  assert (Pc : forall i p, nth_error (g_calls s) i = Some {| g_class := c; g_pc := p |} -> (exists r, p = GEnd r) \/ p = GCheck \/ p = GLoad).
  { intros i p N. destruct (Nat.lt_ge_cases i n) as [L|L]; [destruct (ao_old _ _ _ _ X i _ L N eq_refl) as (r & R); left; exists r; exact R|]. destruct (ao_new _ _ _ _ X i _ L N eq_refl) as [R|[R|R]]; cbn in R; eauto. }
  destruct E as [o|c0|i c0 ok y N D|i c0 ok N D|i c0 N M|i c0 N M|i c0 e ok N|i c0 y ok N|i c0 y ok N D].
  - auto.
  - rewrite Ms. split; [|cbn; rewrite app_length; cbn; lia]. constructor; [apply X| |]; cbn; intros i k L H C; apply nth_snoc in H as [H|(-> & ->)]; [exact (ao_old _ _ _ _ X i k L H C)|lia|exact (ao_new _ _ _ _ X i k L H C)|left; reflexivity].
  - apply (Set_ i c0 GCheck); [exact N|apply X|]. intros ->. split; [discriminate|auto].
  - apply (Set_ i c0 GCheck); [exact N|apply X|]. intros ->. pose proof (ao_inst _ _ _ _ X). congruence.
  - rewrite Ms in M. discriminate.
  - apply (Set_ i c0 GMake); [exact N|apply X|]. intros ->. destruct (Pc i _ N) as [(r & R)|[R|R]]; discriminate.
  - destruct N as [N|(N & D)].
    + apply (Set_ i c0 GMake); [exact N|apply X|]. intros ->. destruct (Pc i _ N) as [(r & R)|[R|R]]; discriminate.
    + apply (Set_ i c0 GLoad); [exact N|apply X|]. intros ->. pose proof (ao_inst _ _ _ _ X). congruence.
  - apply (Set_ i c0 (GStore y)); [exact N| |]; [rewrite dget_dset; destruct (eq_dec c c0) as [<-|_]; [|apply X]|intros ->]; destruct (Pc i _ N) as [(r & R)|[R|R]]; discriminate.
  - apply (Set_ i c0 GLoad); [exact N|apply X|]. intros ->. split; [discriminate|]. intros _. pose proof (ao_inst _ _ _ _ X). right. right. congruence.
Qed.
Lemma after_from meta c n x l : forall s, (forall c, meta c = SingletonMeta) -> n <= List.length (g_calls s) -> after_ok c n x s -> after_ok c n x (fold_left (fun s o => g_step meta o s) l s).
Proof. induction l as [|o l IH]; intros s Ms Ln X; [exact X|]. cbn [fold_left]. destruct (after_step meta c n x o s Ms Ln X) as (X' & L'). apply IH; assumption. Qed.
(** a class of which a call has returned has its object *)
Lemma has_object meta l c i x : (forall c, meta c = SingletonMeta) -> gave (g_run meta l) i c x -> exists y, dget c (g_instances (g_run meta l)) = Some y.
Proof.
  intros Ms. revert i x. induction l as [|o l IH] using rev_ind; intros i x H; [destruct i; discriminate|]. unfold g_run in *. rewrite fold_left_app in *. cbn [fold_left] in *. set (s := fold_left (fun s o => g_step meta o s) l ginit) in *.
  pose proof (g_step_eff meta o s) as E. remember (g_step meta o s) as s1 eqn:E1. clear E1.
  assert (Old : forall (j y : nat) p m, gave {| g_instances := g_instances s; g_made := m; g_calls := gset j p (g_calls s) |} i c x -> p <> GEnd (Ok x) -> exists z, dget c (g_instances s) = Some z).
  { intros j y p m K P. destruct (gave_set s j p _ _ i c x K) as [K'|(_ & K')]; [exact (IH i x K')|contradiction]. }
  destruct E as [o|c0|j c0 ok y N D|j c0 ok N D|j c0 N M|j c0 N M|j c0 e ok N|j c0 y ok N|j c0 y ok N D]; cbn [g_instances].
  - exact (IH i x H).
  - unfold gave in H. cbn in H. apply nth_snoc in H as [H|(_ & H)]; [exact (IH i x H)|]. rewrite Ms in H. discriminate.
  - eapply (Old j 0); [exact H|discriminate].
  - eapply (Old j 0); [exact H|discriminate].
  - rewrite Ms in M. discriminate.
  - eapply (Old j 0); [exact H|discriminate].
  - eapply (Old j 0); [exact H|discriminate].
  - destruct (gave_set s j _ _ _ i c x H) as [K|(_ & K)]; [|discriminate]. rewrite dget_dset. destruct (eq_dec c c0); [eauto|exact (IH i x K)].
  - unfold gave, goto in H. cbn in H. apply gset_inv in H as [(_ & H)|(-> & k0 & Ek & H)]; [exact (IH i x H)|]. rewrite N in Ek. injection Ek as <-. injection H as -> ->. cbn in *. eauto.
Qed.
Lemma from_then_on meta c l1 l2 i0 x0 i j x y : (forall c, meta c = SingletonMeta) -> calm c (g_run meta l1) -> gave (g_run meta l1) i0 c x0 ->
  let n := List.length (g_calls (g_run meta l1)) in n <= i -> n <= j -> gave (g_run meta (l1 ++ l2)) i c x -> gave (g_run meta (l1 ++ l2)) j c y -> x = y.
Proof.
  intros Ms Cl G n Li Lj H1 H2. destruct (has_object meta l1 c i0 x0 Ms G) as (z & D).
  assert (X : after_ok c n z (g_run meta l1)).
  { constructor; [exact D|intros k kk _ N C; exact (Cl kk (nth_error_In _ _ N) C)|]. intros k kk L N C. exfalso. assert (K : nth_error (g_calls (g_run meta l1)) k <> None) by congruence. apply nth_error_Some in K. unfold n in L. lia. }
  unfold g_run in H1, H2. rewrite fold_left_app in H1, H2. pose proof (after_from meta c n z l2 (g_run meta l1) Ms (le_n _) X) as X2.
  assert (K : forall i x, n <= i -> gave (fold_left (fun s o => g_step meta o s) l2 (g_run meta l1)) i c x -> x = z).
  { intros i1 x1 L1 K. destruct (ao_new _ _ _ _ X2 i1 _ L1 K eq_refl) as [R|[R|R]]; cbn in R; congruence. }
  rewrite (K i x Li H1), (K j y Lj H2). reflexivity.
Qed.

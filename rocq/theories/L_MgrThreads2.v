(** Lemmas for C107: pools that are closed through the manager only. *)
From Coq Require Import Permutation.
From Verif Require Import PyBase L_PyBase PyDict L_PyDict M_Lru L_Lru M_LruThreads S_LruThreads L_LruThreads L_LruThreads2 L_LruThreads3.
From Verif Require Import M_ConnPool M_PoolThreads L_PoolThreads M_MgrThreads L_MgrThreads.

(** ** one pool *)
Definition calm (h : ts) : Prop := forall i t, nth_error (h_threads h) i = Some t -> in_close (t_pc t) = false.
Definition openp (h : ts) : Prop := h_open h = true /\ calm h.
Definition closedp (h : ts) : Prop := h_open h = false /\ calm h.
(** thread i, and no other, is in close() or has just ended it *)
Definition closingp (i : nat) (h : ts) : Prop :=
  (forall k t, nth_error (h_threads h) k = Some t -> k <> i -> in_close (t_pc t) = false) /\
  exists t, nth_error (h_threads h) i = Some t /\
    match t_pc t with CLoad | CStore true => h_open h = true | CDrain true | CShut _ => h_open h = false | Idle => h_open h = false /\ failure i (h_log h) = None | _ => False end.

Definition is_close (o : tstep) : bool := match o with TClose _ => true | _ => false end.
Lemma go_calm cfg i b t s : in_close (t_pc t) = false -> h_open (go cfg i b t s) = h_open s.
Proof.
  unfold go. destruct (t_pc t); try discriminate; intros _; repeat match goal with
    | |- context [if ?x then _ else _] => destruct x eqn:?
    | |- context [match h_queue s with _ => _ end] => destruct (h_queue s)
    | |- context [match ?w with ForCaller => _ | ForRefill _ => _ end] => destruct w
    | k : back |- _ => destruct k
    end; cbn; congruence.
Qed.
Lemma go_calm_pc cfg i b t s t' : in_close (t_pc t) = false -> nth_error (h_threads s) i = Some t -> nth_error (h_threads (go cfg i b t s)) i = Some t' -> in_close (t_pc t') = false.
Proof.
  intros C E. unfold go. destruct (t_pc t) eqn:Ep; try discriminate C; repeat match goal with
    | |- context [if ?x then _ else _] => destruct x
    | |- context [match h_queue s with _ => _ end] => destruct (h_queue s)
    | |- context [match ?w with ForCaller => _ | ForRefill _ => _ end] => destruct w
    | k : back |- _ => destruct k
    end; cbn; rewrite ?(nth_updt_same i _ t _ E); rewrite ?E; intros X; injection X as <-; cbn; rewrite ?Ep; reflexivity.
Qed.
(** what is not close() does not close *)
Lemma step_calm cfg o h : is_close o = false -> (forall i t, actor o = Some i -> nth_error (h_threads h) i = Some t -> in_close (t_pc t) = false) ->
  h_open (t_step cfg o h) = h_open h /\ forall k t, nth_error (h_threads (t_step cfg o h)) k = Some t -> exists u, nth_error (h_threads h) k = Some u /\ (t_pc t = t_pc u \/ in_close (t_pc t) = false).
Proof.
  intros Nc A. destruct (actor o) as [i|] eqn:Ao.
  - pose proof Ao as Ao'.
    destruct (nth_error (h_threads h) i) as [t|] eqn:E.
    2:{ replace (t_step cfg o h) with h by (destruct o; cbn in Ao'; try discriminate; injection Ao' as ->; cbn; rewrite E; reflexivity). split; [reflexivity|]. intros k t T. eauto. }
    specialize (A i t eq_refl E).
    assert (B : forall t2, in_close (t_pc t2) = false -> h_open (set_thr i t2 h) = h_open h /\ forall k u, nth_error (h_threads (set_thr i t2 h)) k = Some u -> exists w, nth_error (h_threads h) k = Some w /\ (t_pc u = t_pc w \/ in_close (t_pc u) = false)).
    { intros t2 C2. split; [reflexivity|]. intros k u T. cbn in T. apply nth_updt in T as [(-> & -> & _)|(_ & T)]; [exists t; auto|exists u; auto]. }
    assert (S : h_open h = h_open h /\ forall k u, nth_error (h_threads h) k = Some u -> exists w, nth_error (h_threads h) k = Some w /\ (t_pc u = t_pc w \/ in_close (t_pc u) = false)) by (split; [reflexivity|eauto]).
    destruct o as [a tmo|a c|a|a b|a k c]; cbn in Ao', Nc; try discriminate; injection Ao' as ->; cbn [t_step]; rewrite E.
    + unfold begin. destruct (t_pc t); try exact S. apply B. reflexivity.
    + destruct (t_pc t); try exact S. destruct (mem_nat c (t_lent t)); [|exact S]. apply B. reflexivity.
    + split; [apply go_calm; exact A|]. intros k u T. destruct (Nat.eq_dec k i) as [-> |N]; [exists t; split; [exact E|]; right; exact (go_calm_pc cfg i b t h u A E T)|].
      destruct (threads_shape cfg i b t h) as [X|(t' & X)]; rewrite X in T; [eauto|]. rewrite nth_updt_other in T by auto. eauto.
  - destruct o as [a tmo|a c|a|a b|a k c]; cbn in Ao, Nc; try discriminate. split.
    + cbn [t_step]. destruct (nth_error (h_threads h) a); [|reflexivity]. destruct (nth_error (h_threads h) k); [|reflexivity]. destruct (mem_nat c (t_lent t) && negb (Nat.eqb a k)); reflexivity.
    + intros x t T. destruct (nth_error (h_threads h) x) as [u|] eqn:Ex.
      * exists u. split; [reflexivity|]. left. destruct (step_other cfg (THand a k c) h x u Ex) as ((t' & E' & P') & _); [discriminate|]. rewrite T in E'. injection E' as ->. exact P'.
      * apply nth_error_None in Ex. apply nth_lt in T. rewrite threads_step in T. lia.
Qed.

Lemma open_step cfg o h : openp h -> is_close o = false -> openp (t_step cfg o h).
Proof.
  intros (O & C) N. destruct (step_calm cfg o h N) as (A & B); [intros i t _ E; exact (C i t E)|]. split; [congruence|]. intros i t E. destruct (B i t E) as (u & F & [-> |X]); [exact (C i u F)|exact X].
Qed.
Lemma closed_step cfg o h : closedp h -> is_close o = false -> closedp (t_step cfg o h).
Proof.
  intros (O & C) N. destruct (step_calm cfg o h N) as (A & B); [intros i t _ E; exact (C i t E)|]. split; [congruence|]. intros i t E. destruct (B i t E) as (u & F & [-> |X]); [exact (C i u F)|exact X].
Qed.
Lemma closing_other cfg o h i : closingp i h -> is_close o = false -> actor o <> Some i -> closingp i (t_step cfg o h).
Proof.
  intros (C & t & E & P) N A. destruct (step_calm cfg o h N) as (O & B); [intros k u Ak F; apply (C k u F); congruence|]. split.
  - intros k u F Nk. destruct (B k u F) as (w & G & [-> |X]); [exact (C k w G Nk)|exact X].
  - destruct (step_other cfg o h i t E A) as ((t' & E' & P') & F). exists t'. split; [exact E'|]. rewrite P', F, O. exact P.
Qed.
Lemma closing_begin cfg h i : openp h -> idle_in i h = true -> closingp i (t_step cfg (TClose i) h).
Proof.
  intros (O & C) Hi. apply idle_spec in Hi as (t & E & P). cbn [t_step]. rewrite E. unfold begin. rewrite P. split.
  - intros k u F Nk. cbn in F. rewrite nth_updt_other in F by auto. exact (C k u F).
  - exists {| t_pc := CLoad; t_lent := t_lent t |}. split; [cbn; apply (nth_updt_same i _ t); exact E|exact O].
Qed.
Lemma closing_step cfg b h i : closingp i h -> closingp i (t_step cfg (TStep i b) h).
Proof.
  intros (C & t & E & P). cbn [t_step]. rewrite E. split.
  - intros k u F Nk. apply (C k u); [|exact Nk]. destruct (threads_shape cfg i b t h) as [X|(t' & X)]; rewrite X in F; [exact F|rewrite nth_updt_other in F by auto; exact F].
  - unfold go. destruct (t_pc t) eqn:Ep; try contradiction.
    + exists t. rewrite Ep. auto.
    + eexists. split; [cbn; apply (nth_updt_same i _ t); exact E|]. cbn. rewrite P. reflexivity.
    + destruct was; [|contradiction]. eexists. split; [cbn; apply (nth_updt_same i _ t); exact E|]. reflexivity.
    + destruct was; [|contradiction]. destruct (h_queue h) as [|c q]; (eexists; split; [cbn; apply (nth_updt_same i _ t); exact E|]); cbn; [|exact P]. split; [exact P|]. rewrite failure_last, Nat.eqb_refl. reflexivity.
    + eexists. split; [cbn; apply (nth_updt_same i _ t); exact E|]. exact P.
Qed.
Lemma closing_over i h : closingp i h -> idle_in i h = true -> closedp h /\ failure i (h_log h) = None.
Proof.
  intros (C & t & E & P) Hi. apply idle_spec in Hi as (t' & E' & P'). rewrite E in E'. injection E' as <-. rewrite P' in P. destruct P as (O & F). split; [|exact F]. split; [exact O|].
  intros k u G. destruct (Nat.eq_dec k i) as [-> |N]; [|exact (C k u G N)]. rewrite E in G. injection G as <-. rewrite P'. reflexivity.
Qed.

(** ** the manager *)
Lemma disposed_tinstr {K} `{EqDec K} bad (s : tstate K) i p : t_disposed (tinstr bad s i p) = t_disposed s ++ match p with Dispose v _ => [(i, v)] | _ => [] end.
Proof.
  destruct p; cbn; rewrite ?app_nil_r; try reflexivity.
  - destruct (t_lock s) as [[j d]|]; [|reflexivity]. destruct (Nat.eqb i j); reflexivity.
  - destruct (t_lock s) as [[j [|[|d]]]|]; reflexivity.
  - destruct (t_c s) as [|[k v] c]; reflexivity.
Qed.
(** no user closes a pool directly *)
Definition no_close {K} (o : gstep K) : Prop := match o with GUse _ o => is_close o = false | _ => True end.
Definition closing_of {K} (s : gs K) (j i v : nat) : Prop := In j (g_closing s) /\ nth_error (g_who s) j = Some i /\ exists o f, nth_error (t_calls (g_m s)) j = Some (o, Dispose v f).
Record cinv {K} `{EqDec K} (m : Z) (cfg : config) (mks : nat -> nat -> bool) (s : gs K) : Prop := {
  cv_lt : forall j v, In (j, v) (t_disposed (g_m s)) -> (v < length (g_pools s))%nat;
  cv_closed : forall j v h, In (j, v) (t_disposed (g_m s)) -> nth_error (g_pools s) v = Some h -> closedp h;
  cv_closing : forall j i v h, closing_of s j i v -> nth_error (g_pools s) v = Some h -> closingp i h;
  cv_open : forall v h, (forall j, ~ In (j, v) (t_disposed (g_m s))) -> (forall j i, ~ closing_of s j i v) -> nth_error (g_pools s) v = Some h -> openp h;
  cv_run : exists l, mgr_only l /\ g_m s = trun m (raises cfg mks) no_exn l
}.
Lemma cinv_init {K} `{EqDec K} m cfg mks : cinv m cfg mks (g_init (K := K)).
Proof. constructor; cbn; try (intros; contradiction); try (intros [|v]; discriminate); [intros j i [|v]; discriminate|exists []; split; [intros o []|reflexivity]]. Qed.

Lemma cinv_call {K} `{EqDec K} m cfg n mks i o s : ginv m cfg n mks s -> cinv m cfg mks (K := K) s -> cinv m cfg mks (g_step m cfg n mks (GCall i o) s).
Proof.
  intros G [Cl Cc Ci Co (l & M & E)]. cbn [g_step]. destruct (Nat.ltb i n && free i s); [|constructor; eauto].
  set (s' := {| g_m := _; g_pools := _; g_who := _; g_closing := _ |}).
  assert (Q : forall j i' v, closing_of s' j i' v <-> closing_of s j i' v).
  { intros j i' v. split; intros (I & W & o' & f & C); cbn in *; destruct (gv_close _ _ _ _ _ G j I) as (i2 & o2 & v2 & f2 & h2 & A1 & A2 & _).
    - rewrite nth_error_app1 in W by (eapply nth_lt; exact A1). rewrite nth_error_app1 in C by (eapply nth_lt; exact A2). split; [exact I|]. eauto.
    - split; [exact I|]. cbn. split; [rewrite nth_error_app1 by (eapply nth_lt; exact A1); exact W|]. exists o', f. rewrite nth_error_app1 by (eapply nth_lt; exact A2). exact C. }
  constructor; cbn; auto.
  - intros j i' v h X. apply Q in X. exact (Ci j i' v h X).
  - intros v h N X F. apply (Co v h N); [|exact F]. intros j i' Y. apply (X j i'), Q, Y.
  - exists (l ++ [TBegin (top_of o)]). split; [|rewrite E; unfold trun; rewrite fold_left_app; reflexivity].
    intros o' I. apply in_app_or in I as [I|[[= <-]|[]]]; [exact (M o' I)|destruct o; reflexivity].
Qed.

Lemma cinv_use {K} `{EqDec K} m cfg n mks v o s : ginv m cfg n mks s -> cinv m cfg mks (K := K) s -> is_close o = false -> cinv m cfg mks (g_step m cfg n mks (GUse v o) s).
Proof.
  intros G [Cl Cc Ci Co Cr] Nc. cbn [g_step]. destruct (nth_error (g_pools s) v) as [h|] eqn:E; [|constructor; eauto]. destruct (may o s) eqn:Ma; [|constructor; eauto].
  assert (Na : forall i, actor o = Some i -> calling i s = false).
  { intros i A. destruct o; cbn in Ma, A; try discriminate A; injection A as <-; try (apply free_spec in Ma; exact (proj1 Ma)). apply negb_true_iff in Ma. exact Ma. }
  constructor; cbn [with_pools g_m g_pools]; auto.
  - intros j w I. rewrite length_updt. eauto.
  - intros j w h' I F. apply nth_updt in F as [(-> & -> & _)|(_ & F)]; [|eauto]. apply closed_step; eauto.
  - intros j i w h' X F. apply nth_updt in F as [(-> & -> & _)|(_ & F)]; [|exact (Ci j i w h' X F)]. apply closing_other; [exact (Ci j i v h X E)|exact Nc|]. intros A. apply Na in A.
    destruct X as (I & W & o' & f & C). assert (calling i s = true) by (apply calling_spec; exists j, o', (Dispose v f); auto). congruence.
  - intros w h' N X F. apply nth_updt in F as [(-> & -> & _)|(_ & F)]; [|exact (Co w h' N X F)]. apply open_step; [exact (Co v h N X E)|exact Nc].
Qed.

(** ** a step of a call *)
Lemma closing_set {K} `{EqDec K} m cfg n mks bad j p (s : gs K) pools cl j' i v : ginv m cfg n mks s -> ~ In j cl -> (forall x, In x cl -> In x (g_closing s)) ->
  closing_of {| g_m := tinstr bad (g_m s) j p; g_pools := pools; g_who := g_who s; g_closing := cl |} j' i v <-> In j' cl /\ closing_of s j' i v.
Proof.
  intros G N Sub. split.
  - intros (I & W & o & f & C). cbn in *. split; [exact I|]. split; [apply Sub; exact I|]. split; [exact W|]. exists o, f. rewrite tinstr_other in C; [exact C|]. intros ->. contradiction.
  - intros (I & I' & W & o & f & C). split; [exact I|]. cbn. split; [exact W|]. exists o, f. rewrite tinstr_other; [exact C|]. intros ->. contradiction.
Qed.

Lemma run_snoc {K} `{EqDec K} m mk bad (l : list (tevent K)) j o p : nth_error (t_calls (trun m mk bad l)) j = Some (o, p) -> tinstr bad (trun m mk bad l) j p = trun m mk bad (l ++ [M_LruThreads.TStep j]).
Proof. intros E. unfold trun in *. rewrite fold_left_app. cbn. rewrite E. reflexivity. Qed.
Lemma mgr_snoc {K} (l : list (tevent K)) j : mgr_only l -> mgr_only (l ++ [M_LruThreads.TStep j]).
Proof. intros M o I. apply in_app_or in I as [I|[I|[]]]; [exact (M o I)|discriminate]. Qed.

Lemma cinv_instr {K} `{EqDec K} m cfg n mks j i b o p (s : gs K) : ginv m cfg n mks s -> cinv m cfg mks s -> nth_error (g_who s) j = Some i -> nth_error (t_calls (g_m s)) j = Some (o, p) ->
  cinv m cfg mks (g_instr cfg n mks j i b p s).
Proof.
  intros G Cv W C. pose proof Cv as [Cl Cc Ci Co (l & M & E)].
  assert (Nc : (forall v f, p <> Dispose v f) -> ~ In j (g_closing s)) by (intros Q I; destruct (closing_at m cfg n mks j o p s G C I) as (v & f & F); exact (Q v f F)).
  assert (Run : exists l', mgr_only l' /\ tinstr no_exn (g_m s) j p = trun m (raises cfg mks) no_exn l').
  { exists (l ++ [M_LruThreads.TStep j]). split; [apply mgr_snoc; exact M|]. rewrite E in C |- *. eapply run_snoc. exact C. }
  assert (Go : (forall v f, p <> Dispose v f) -> cinv m cfg mks (with_m (tinstr no_exn (g_m s) j p) s)).
  { intros Q. specialize (Nc Q).
    assert (D : t_disposed (tinstr no_exn (g_m s) j p) = t_disposed (g_m s)) by (rewrite disposed_tinstr; destruct p; try apply app_nil_r; exfalso; eapply Q; reflexivity).
    assert (X : forall j' i' v, closing_of (with_m (tinstr no_exn (g_m s) j p) s) j' i' v <-> In j' (g_closing s) /\ closing_of s j' i' v).
    { intros j' i' v. apply (closing_set m cfg n mks no_exn j p s (g_pools s) (g_closing s)); auto. }
    constructor; cbn [with_m g_m g_pools]; rewrite ?D; auto.
    - intros j' i' v h Y. apply X in Y as (_ & Y). exact (Ci j' i' v h Y).
    - intros v h N Y. apply (Co v h N). intros j' i' Z. apply (Y j' i'), X. split; [apply Z|exact Z]. }
  destruct p; cbn [g_instr]; try (apply Go; discriminate).
  - destruct (build cfg (mks j)) as [q| |] eqn:B; try exact Cv. specialize (Nc ltac:(discriminate)).
    assert (X : forall j' i' v, closing_of (with_pools (g_pools s ++ [t_init q n]) (with_m (tinstr no_exn (g_m s) j (New f)) s)) j' i' v <-> In j' (g_closing s) /\ closing_of s j' i' v).
    { intros j' i' v. apply (closing_set m cfg n mks no_exn j (New f) s (g_pools s ++ [t_init q n]) (g_closing s)); auto. }
    assert (Old : forall v h, nth_error (g_pools s ++ [t_init q n]) v = Some h -> nth_error (g_pools s) v = Some h \/ (v = length (g_pools s) /\ h = t_init q n)).
    { intros v h F. destruct (Nat.lt_ge_cases v (length (g_pools s))) as [L|L]; [rewrite nth_error_app1 in F by exact L; auto|]. rewrite nth_error_app2 in F by exact L.
      right. destruct (v - length (g_pools s))%nat as [|x] eqn:Ex; cbn in F; [injection F as <-; split; [lia|reflexivity]|destruct x; discriminate]. }
    constructor; cbn [with_m with_pools g_m g_pools].
    + intros j' v I. rewrite disposed_tinstr, app_nil_r in I. rewrite app_length. specialize (Cl j' v I). lia.
    + intros j' v h I F. rewrite disposed_tinstr, app_nil_r in I. apply Old in F as [F|(-> & _)]; [eauto|]. specialize (Cl j' _ I). lia.
    + intros j' i' v h Y F. apply X in Y as (_ & Y). apply Old in F as [F|(-> & _)]; [exact (Ci j' i' v h Y F)|]. exfalso. destruct Y as (I & _ & o' & f' & C').
      destruct (gv_close _ _ _ _ _ G j' I) as (i2 & o2 & v2 & f2 & h2 & _ & A2 & A3 & _). rewrite C' in A2. injection A2 as <- <- <-. apply nth_lt in A3. lia.
    + intros v h N Y F. rewrite disposed_tinstr, app_nil_r in N. apply Old in F as [F|(-> & ->)].
      * apply (Co v h N); [|exact F]. intros j' i' Z. apply (Y j' i'), X. split; [apply Z|exact Z].
      * split; [reflexivity|]. intros k t T. cbn in T. apply nth_error_In, repeat_spec in T. subst t. reflexivity.
    + exact Run.
  - destruct (nth_error (g_pools s) v) as [h|] eqn:Ev; [|exact Cv].
    assert (Fresh : forall j', ~ In (j', v) (t_disposed (g_m s))) by (intros j'; rewrite E in C |- *; eapply dispose_fresh; eassumption).
    assert (Alone : forall j' i', closing_of s j' i' v -> j' = j).
    { intros j' i' (_ & _ & o' & f' & C'). rewrite E in C, C'. eapply (dispose_alone m (raises cfg mks) no_exn l j' j); eassumption. }
    destruct (mem_nat j (g_closing s)) eqn:Mj.
    + apply mem_in in Mj. assert (Me : closing_of s j i v) by (split; [exact Mj|split; [exact W|eauto]]). pose proof (Ci j i v h Me Ev) as Ch. destruct (idle_in i h) eqn:Id.
      * destruct (closing_over i h Ch Id) as (Hc & Hf).
        assert (X : forall j' i' w, closing_of (with_closing (drop j (g_closing s)) (with_m (tinstr (fun _ _ => failure i (h_log h)) (g_m s) j (Dispose v f)) s)) j' i' w <-> In j' (drop j (g_closing s)) /\ closing_of s j' i' w).
        { intros j' i' w. apply (closing_set m cfg n mks (fun _ _ => failure i (h_log h)) j (Dispose v f) s (g_pools s) (drop j (g_closing s))); [exact G| |].
          - intros I. apply drop_in in I as (_ & I). contradiction.
          - intros x I. apply drop_in in I as (I & _). exact I. }
        constructor; cbn [with_m with_closing g_m g_pools].
        -- intros j' w I. rewrite disposed_tinstr in I. apply in_app_or in I as [I|[[= <- <-]|[]]]; [eauto|eapply nth_lt; exact Ev].
        -- intros j' w h' I F. rewrite disposed_tinstr in I. apply in_app_or in I as [I|[[= <- <-]|[]]]; [eauto|]. congruence.
        -- intros j' i' w h' Y F. apply X in Y as (_ & Y). exact (Ci j' i' w h' Y F).
        -- intros w h' N Y F. apply (Co w h'); [| |exact F].
           ++ intros j' I. apply (N j'). rewrite disposed_tinstr. apply in_or_app. left. exact I.
           ++ intros j' i' Z. apply (Y j' i'), X. split; [|exact Z]. apply drop_in. split; [apply Z|]. intros ->. destruct Z as (_ & _ & o' & f' & C'). rewrite C in C'. injection C' as <- <- <-.
              apply (N j). rewrite disposed_tinstr. apply in_or_app. right. left. reflexivity.
        -- rewrite (tinstr_bad no_exn (fun _ _ => failure i (h_log h))); [exact Run|]. intros v' f' _. exact Hf.
      * constructor; cbn [with_pools g_m g_pools]; auto.
        -- intros j' w I. rewrite length_updt. eauto.
        -- intros j' w h' I F. apply nth_updt in F as [(-> & _)|(_ & F)]; [|eauto]. exfalso. exact (Fresh j' I).
        -- intros j' i' w h' Y F. apply nth_updt in F as [(-> & -> & _)|(_ & F)]; [|exact (Ci j' i' w h' Y F)]. assert (j' = j) by (eapply Alone; exact Y). subst j'. destruct Y as (_ & W' & _). cbn in W'. assert (i' = i) by congruence. subst i'. apply closing_step. exact Ch.
        -- intros w h' N Y F. apply nth_updt in F as [(-> & _)|(_ & F)]; [|exact (Co w h' N Y F)]. exfalso. exact (Y j i Me).
        -- eauto.
    + apply mem_out in Mj. assert (Op : openp h).
      { apply (Co v h Fresh); [|exact Ev]. intros j' i' Z. assert (j' = j) by (eapply Alone; exact Z). subst j'. apply Mj, Z. }
      assert (X : forall j' i' w, closing_of (with_closing (j :: g_closing s) (with_pools (updt v (t_step cfg (TClose i) h) (g_pools s)) s)) j' i' w <-> closing_of s j' i' w \/ (j' = j /\ i' = i /\ w = v)).
      { intros j' i' w. split.
        - intros ([<-|I] & W' & o' & f' & C'); cbn in *; [right; split; [reflexivity|]; split; [congruence|]; rewrite C in C'; congruence|left; split; [exact I|eauto]].
        - intros [(I & Z)|(-> & -> & ->)]; [split; [right; exact I|exact Z]|]. split; [left; reflexivity|]. cbn. eauto. }
      constructor; cbn [with_closing with_pools g_m g_pools]; auto.
      * intros j' w I. rewrite length_updt. eauto.
      * intros j' w h' I F. apply nth_updt in F as [(-> & _)|(_ & F)]; [|eauto]. exfalso. exact (Fresh j' I).
      * intros j' i' w h' Y F. apply X in Y as [Y|(-> & -> & ->)].
        -- apply nth_updt in F as [(-> & _)|(_ & F)]; [|exact (Ci j' i' w h' Y F)]. exfalso. assert (j' = j) by (eapply Alone; exact Y). subst j'. apply Mj, Y.
        -- apply nth_updt in F as [(_ & -> & _)|(N & _)]; [|contradiction]. apply closing_begin; [exact Op|]. exact (all_idle m cfg n mks j i o _ s G W C eq_refl Mj v h Ev).
      * intros w h' N Y F. apply nth_updt in F as [(-> & _)|(_ & F)]; [exfalso; apply (Y j i), X; right; auto|]. apply (Co w h' N); [|exact F]. intros j' i' Z. apply (Y j' i'), X. left. exact Z.
      * eauto.
Qed.

Lemma cinv_step {K} `{EqDec K} m cfg n mks (o : gstep K) s : ginv m cfg n mks s -> cinv m cfg mks s -> no_close o -> cinv m cfg mks (g_step m cfg n mks o s).
Proof.
  intros G Cv N. destruct o as [i o|j b|v o]; [apply cinv_call; assumption| |apply cinv_use; assumption]. cbn [g_step].
  destruct (nth_error (t_calls (g_m s)) j) as [[o p]|] eqn:C; [|exact Cv]. destruct (nth_error (g_who s) j) as [i|] eqn:W; [|exact Cv]. eapply cinv_instr; eassumption.
Qed.
Lemma cinv_run {K} `{EqDec K} m cfg n mks (l : list (gstep K)) : (forall o, In o l -> no_close o) -> cinv m cfg mks (g_run m cfg n mks l).
Proof.
  induction l as [|o l IH] using rev_ind; intros N; [apply cinv_init|]. unfold g_run. rewrite fold_left_app. cbn [fold_left]. apply cinv_step; [apply ginv_run| |].
  - apply IH. intros x I. apply N, in_or_app. auto.
  - apply N, in_or_app. right. left. reflexivity.
Qed.

(** ** what holds when all calls have ended *)
Lemma binv_run {K} `{EqDec K} m mk bad (l : list (tevent K)) : binv (trun m mk bad l).
Proof. apply binv_from, binv_init. Qed.
Lemma quiet_lock {K} `{EqDec K} m mk bad (l : list (tevent K)) : S_LruThreads.quiet (trun m mk bad l) -> t_lock (trun m mk bad l) = None.
Proof.
  intros Q. pose proof (binv_run m mk bad l) as B. destruct (t_lock (trun m mk bad l)) as [[i d]|] eqn:L; [|reflexivity]. exfalso. destruct (bi_own _ B i d L) as (P & Li).
  apply nth_error_Some in Li. destruct (nth_error (t_calls (trun m mk bad l)) i) as [[o p]|] eqn:C; [|congruence]. destruct (Q i o p C) as (r & ->). pose proof (bi_call _ B i o _ C) as X. unfold held_by in X. rewrite L, Nat.eqb_refl in X. cbn in X. lia.
Qed.
Lemma attempted_all l : attempted (fun _ => None) l = l.
Proof. induction l as [|v l IH]; cbn; [reflexivity|]. rewrite IH. reflexivity. Qed.
Lemma outcome_all {A} l (r : res A) : S_LruThreads.outcome (fun _ => None) l r = r.
Proof. induction l as [|v l IH]; cbn; [reflexivity|exact IH]. Qed.

Lemma nodup_mid {A} (a b c d : list A) x : NoDup (a ++ x :: b) -> a ++ x :: b = c ++ x :: d -> a = c.
Proof.
  revert c. induction a as [|y a IH]; intros [|z c] N E; cbn in *; try reflexivity.
  - injection E as <- ->. inversion N as [|? ? X _]; subst. exfalso. apply X, in_elt.
  - injection E as -> _. inversion N as [|? ? X _]; subst. exfalso. apply X, in_elt.
  - injection E as <- E. inversion N as [|? ? _ N']; subst. f_equal. exact (IH c N' E).
Qed.
Lemma does_same {K} `{EqDec K} m mk (s : tstate K) pre pre' i x y : NoDup (t_order s) -> does m mk s pre i x -> does m mk s pre' i y -> x = y.
Proof.
  intros N (post & o & c & n & E1 & E2 & E3 & ->) (post' & o' & c' & n' & F1 & F2 & F3 & ->). assert (pre = pre').
  { rewrite E1 in N, F1. exact (nodup_mid _ _ _ _ _ N F1). }
  subst pre'. rewrite E2 in F2. rewrite E3 in F3. congruence.
Qed.

Lemma held_open {K} `{EqDec K} m cfg n mks (l : list (gstep K)) v h : (forall o, In o l -> no_close o) -> let s := g_run m cfg n mks l in
  S_LruThreads.quiet (g_m s) -> nth_error (g_pools s) v = Some h -> calm h /\ (h_open h = true <-> In v (vals (t_c (g_m s)))).
Proof.
  intros N s Q E. pose proof (ginv_run m cfg n mks l) as G. pose proof (cinv_run m cfg n mks l N) as [Cl Cc Ci Co (l' & M & R)]. fold s in G, Cl, Cc, Ci, Co, R.
  assert (Nc : forall j i w, ~ closing_of s j i w) by (intros j i w (_ & _ & o & f & C); destruct (Q _ _ _ C) as (r & [=])).
  pose proof Q as Q'. rewrite R in Q'. pose proof (quiet_lock m _ _ l' Q') as L. pose proof (nth_lt _ _ _ E) as Lv. rewrite (gv_new _ _ _ _ _ G), R in Lv.
  assert (Held : In v (vals (t_c (g_m s))) -> forall j, ~ In (j, v) (t_disposed (g_m s))).
  { rewrite R. intros I j D. destruct (disposed_takes m (raises cfg mks) no_exn l' j v M D) as (out & (pre & c & x & r & Do) & Io). pose proof (does_outs _ _ _ _ _ _ _ _ _ Do) as Eo.
    destruct (all_outs m (raises cfg mks) no_exn l' M) as (c1 & n1 & A & P). pose proof (contents_in_order m (raises cfg mks) no_exn l' (mgr_only_simple l' M) L) as F. rewrite A in F. injection F as F _. rewrite <- F in P.
    pose proof (Permutation_NoDup (Permutation_sym P) (seq_NoDup n1 0)) as Nd. apply nodup_split in Nd as (_ & _ & Nd). apply (Nd v); [|exact I]. apply in_concat. exists out. split; [eapply nth_error_In; exact Eo|exact Io]. }
  assert (Gone : ~ In v (vals (t_c (g_m s))) -> exists j, In (j, v) (t_disposed (g_m s))).
  { rewrite R. intros I. destruct (made_where m (raises cfg mks) no_exn l' v M L Lv) as [X|(j & out & (pre & c & x & r & Do) & Io)]; [contradiction|]. exists j.
    pose proof Do as (post & o & c0 & n0 & E1 & E2 & _). pose proof (trun_inv m (raises cfg mks) no_exn l' (mgr_only_simple l' M)) as T.
    assert (Lj : (j < length (t_calls (trun m (raises cfg mks) no_exn l')))%nat) by (apply (ti_range _ _ _ _ T); rewrite E1; apply in_elt).
    apply nth_error_Some in Lj. destruct (nth_error (t_calls (trun m (raises cfg mks) no_exn l')) j) as [[o' p]|] eqn:C; [|congruence]. destruct (Q' j o' p C) as (r' & ->).
    destruct (ended_result m (raises cfg mks) no_exn l' j r' (mgr_only_simple l' M) (ex_intro _ o' C)) as (pre2 & c2 & n2 & v2 & out2 & Do2 & _ & Db). unfold no_exn at 2 in Db. rewrite attempted_all in Db.
    assert (Eout : out = out2).
    { pose proof (does_same _ _ _ _ _ _ _ _ (ti_nodup _ _ _ _ T) Do Do2) as X. congruence. }
    rewrite Eout, <- Db in Io. unfold disposed_by in Io. apply in_map_iff in Io as ((a & b) & Eb & Ia). cbn in Eb. subst b. apply filter_In in Ia as (Ia & Ea). cbn in Ea. apply Nat.eqb_eq in Ea as <-. exact Ia. }
  destruct (in_dec Nat.eq_dec v (vals (t_c (g_m s)))) as [I|I].
  - destruct (Co v h (Held I) (fun j i => Nc j i v) E) as (O & C). split; [exact C|]. split; auto.
  - destruct (Gone I) as (j & D). destruct (Cc j v h D E) as (O & C). split; [exact C|]. split; [congruence|contradiction].
Qed.
(** a call of the manager raises nothing but what the constructor of a pool raises *)
Lemma only_build_raises {K} `{EqDec K} m cfg n mks (l : list (gstep K)) j e : (forall o, In o l -> no_close o) -> ended (g_m (g_run m cfg n mks l)) j (Raise e) -> build cfg (mks j) = Failed e.
Proof.
  intros N En. destruct (cinv_run m cfg n mks l N) as [_ _ _ _ (l' & M & R)]. rewrite R in En.
  destruct (ended_result m (raises cfg mks) no_exn l' j (Raise e) (mgr_only_simple l' M) En) as (pre & c & x & v & out & Do & Er & _). unfold no_exn at 1 in Er. rewrite outcome_all in Er. subst v.
  destruct Do as (post & o & c0 & n0 & _ & Eo & _ & A). assert (Mo : mgr_top o = true) by (eapply mgr_ops; [exact M|]; eapply nth_error_In; exact Eo).
  assert (Y : raises cfg mks j = Some e).
  { destruct o; try discriminate Mo; cbn in A.
    - unfold lru_clear in A. discriminate A.
    - unfold lru_get in A. destruct (dget k c0); [discriminate A|]. destruct (raises cfg mks j) as [e'|]; [injection A as _ _ -> _; reflexivity|]. destruct (lru_set m c0 k n0). discriminate A. }
  unfold raises in Y. destruct (build cfg (mks j)); [discriminate|congruence|discriminate].
Qed.

(** ** few addresses *)
Lemma g_ops {K} `{EqDec K} m cfg n mks (l : list (gstep K)) o : In o (ops (g_m (g_run m cfg n mks l))) -> exists i o', In (GCall i o') l /\ o = top_of o'.
Proof.
  induction l as [|x l IH] using rev_ind; [intros []|]. unfold g_run. rewrite fold_left_app. cbn [fold_left]. fold (g_run m cfg n mks l). set (s := g_run m cfg n mks l) in *.
  assert (Up : In o (ops (g_m s)) -> exists i o', In (GCall i o') (l ++ [x]) /\ o = top_of o') by (intros I; destruct (IH I) as (i & o' & J & ->); exists i, o'; split; [apply in_or_app; auto|reflexivity]).
  assert (Ti : forall bad j p, ops (tinstr bad (g_m s) j p) = ops (g_m s)).
  { intros bad j p. destruct (tinstr_calls bad (g_m s) j p) as [X|(q & X)]; unfold ops; rewrite X; [reflexivity|]. apply ops_set_prog. }
  destruct x as [i o'|j b|v o']; cbn [g_step].
  - destruct (Nat.ltb i n && free i s); [|exact Up]. unfold ops. cbn. rewrite map_app. intros I. apply in_app_or in I as [I|[I|[]]]; [exact (Up I)|]. cbn in I. exists i, o'. split; [apply in_or_app; right; left; reflexivity|auto].
  - destruct (nth_error (t_calls (g_m s)) j) as [[o1 p]|]; [|exact Up]. destruct (nth_error (g_who s) j) as [i|]; [|exact Up]. destruct p; cbn [g_instr with_m g_m]; try (rewrite Ti; exact Up).
    + destruct (build cfg (mks j)); cbn [with_pools with_m g_m]; try exact Up. rewrite Ti. exact Up.
    + destruct (nth_error (g_pools s) v); [|exact Up]. destruct (mem_nat j (g_closing s)); [|exact Up]. destruct (idle_in i t); [|exact Up]. cbn [with_closing with_m g_m]. rewrite Ti. exact Up.
  - destruct (nth_error (g_pools s) v); [|exact Up]. destruct (may o' s); exact Up.
Qed.

Definition few {K} (m : Z) (ks : list K) (l : list (gstep K)) : Prop := Z.of_nat (length ks) <= m /\ forall x, In x l -> match x with GCall _ o => exists k, o = GLookup k /\ In k ks | GUse _ o => is_close o = false | _ => True end.
Lemma few_no_close {K} m ks (l : list (gstep K)) : few m ks l -> forall o, In o l -> no_close o.
Proof. intros (_ & F) o I. specialize (F o I). destruct o; cbn; auto. Qed.
Lemma few_takes {K} `{EqDec K} m cfg n mks ks (l : list (gstep K)) j out : few m ks l -> takes m (raises cfg mks) (g_m (g_run m cfg n mks l)) j out -> out = [].
Proof.
  intros (L & F) (pre & c & x & r & Do). pose proof Do as (post & o & c0 & n0 & _ & Eo & _).
  refine (few_effects m (raises cfg mks) ks _ _ _ L [] 0%nat (NoDup_nil _) (fun y X => match X with end) _ _ _ (does_effect _ _ _ _ _ _ _ _ _ _ Do Eo)).
  intros o1 I. apply g_ops in I as (i & o' & J & ->). destruct (F _ J) as (k & -> & Ik). exists k. auto.
Qed.
Lemma few_kept {K} `{EqDec K} m cfg n mks ks (l : list (gstep K)) : few m ks l -> let s := g_run m cfg n mks l in
  t_disposed (g_m s) = [] /\ (forall j o v f, nth_error (t_calls (g_m s)) j <> Some (o, Dispose v f)) /\ forall v h, nth_error (g_pools s) v = Some h -> openp h.
Proof.
  intros F s. pose proof (cinv_run m cfg n mks l (few_no_close m ks l F)) as [Cl Cc Ci Co (l' & M & R)]. fold s in Cl, Cc, Ci, Co, R.
  assert (D : forall j v, ~ In (j, v) (t_disposed (g_m s))).
  { intros j v I. rewrite R in I. destruct (disposed_takes m _ _ l' j v M I) as (out & T & Io). rewrite <- R in T. rewrite (few_takes m cfg n mks ks l j out F T) in Io. destruct Io. }
  assert (P : forall j o v f, nth_error (t_calls (g_m s)) j <> Some (o, Dispose v f)).
  { intros j o v f C. rewrite R in C. destruct (dispose_takes m _ _ l' j o v f M C) as (out & rest & T & Eo). rewrite <- R in T. rewrite (few_takes m cfg n mks ks l j out F T) in Eo.
    symmetry in Eo. apply app_eq_nil in Eo as (_ & Eo). discriminate. }
  split; [destruct (t_disposed (g_m s)) as [|[j v] r]; [reflexivity|exfalso; apply (D j v); left; reflexivity]|]. split; [exact P|].
  intros v h E. apply (Co v h (fun j => D j v)); [|exact E]. intros j i (_ & _ & o & f & C). exact (P _ _ _ _ C).
Qed.

Lemma open_log cfg o h i : openp h -> is_close o = false -> In (i, OErr ClosedPoolError) (h_log (t_step cfg o h)) -> In (i, OErr ClosedPoolError) (h_log h).
Proof.
  intros (O & C) N. destruct o as [a tmo|a c|a|a b|a k c]; cbn [t_step]; try discriminate N.
  - destruct (nth_error (h_threads h) a) as [t|]; [|auto]. unfold begin. destruct (t_pc t); auto.
  - destruct (nth_error (h_threads h) a) as [t|]; [|auto]. destruct (t_pc t); auto. destruct (mem_nat c (t_lent t)); auto.
  - destruct (nth_error (h_threads h) a) as [t|] eqn:E; [|auto]. specialize (C a t E). unfold go. destruct (t_pc t); try discriminate C; rewrite ?O; repeat match goal with
    | |- context [if ?x then _ else _] => destruct x
    | |- context [match h_queue h with _ => _ end] => destruct (h_queue h)
    | |- context [match ?w with ForCaller => _ | ForRefill _ => _ end] => destruct w
    | k : back |- _ => destruct k
    end; cbn; intros I; try exact I; apply in_app_or in I as [I|[I|[]]]; try exact I; discriminate I.
  - destruct (nth_error (h_threads h) a) as [t|]; [|auto]. destruct (nth_error (h_threads h) k) as [u|]; [|auto]. destruct (mem_nat c (t_lent t) && negb (Nat.eqb a k)); auto.
Qed.
Lemma few_undisturbed {K} `{EqDec K} m cfg n mks ks (l : list (gstep K)) v h i : few m ks l -> nth_error (g_pools (g_run m cfg n mks l)) v = Some h -> ~ In (i, OErr ClosedPoolError) (h_log h).
Proof.
  revert v h. induction l as [|x l IH] using rev_ind; intros v h F E; [destruct v; discriminate|].
  assert (Fl : few m ks l) by (destruct F as (F1 & F2); split; [exact F1|]; intros y I; apply F2, in_or_app; auto). specialize (fun v h => IH v h Fl).
  assert (Nx : match x with GUse _ o => is_close o = false | _ => True end) by (destruct F as (_ & F); specialize (F x ltac:(apply in_or_app; right; left; reflexivity)); destruct x; auto).
  destruct (few_kept m cfg n mks ks l Fl) as (_ & P & Op). unfold g_run in E. rewrite fold_left_app in E. cbn [fold_left] in E. fold (g_run m cfg n mks l) in E. set (s := g_run m cfg n mks l) in *. destruct x as [a o|j b|w o]; cbn [g_step] in E.
  - destruct (Nat.ltb a n && free a s); exact (IH v h E).
  - destruct (nth_error (t_calls (g_m s)) j) as [[o p]|] eqn:C; [|exact (IH v h E)]. destruct (nth_error (g_who s) j) as [a|]; [|exact (IH v h E)].
    destruct p; cbn [g_instr with_m g_pools] in E; try exact (IH v h E).
    + destruct (build cfg (mks j)) as [q| |]; try exact (IH v h E). cbn [with_pools g_pools] in E. destruct (Nat.lt_ge_cases v (length (g_pools s))) as [L|L]; [rewrite nth_error_app1 in E by exact L; exact (IH v h E)|].
      rewrite nth_error_app2 in E by exact L. destruct (v - length (g_pools s))%nat as [|y]; cbn in E; [injection E as <-; intros []|destruct y; discriminate].
    + exfalso. exact (P _ _ _ _ C).
  - destruct (nth_error (g_pools s) w) as [h0|] eqn:Ew; [|exact (IH v h E)]. destruct (may o s); [|exact (IH v h E)]. cbn in E. apply nth_updt in E as [(-> & -> & _)|(_ & E)]; [|exact (IH v h E)].
    intros I. apply (IH w h0 Ew). apply (open_log cfg o h0 i (Op w h0 Ew) Nx I).
Qed.

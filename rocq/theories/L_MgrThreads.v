(** Lemmas for C107-C109: threads that share a pool manager. *)
From Verif Require Import PyBase L_PyBase PyDict L_PyDict M_Lru L_Lru M_LruThreads S_LruThreads L_LruThreads L_LruThreads2 L_LruThreads3.
From Verif Require Import M_ConnPool M_PoolThreads L_PoolThreads M_MgrThreads.

(** ** the values of programs *)
(** all values that p stores or disposes of are below [N], or come from below the number of pools then made *)
Fixpoint vok {K} (N : nat) (p : prog K) : Prop :=
  match p with
  | Done _ => True
  | Acq q | Rel q | Wipe q => vok N q
  | PopKey _ f | GetKey _ f | PopFirst f => forall M x, (N <= M)%nat -> (forall v, x = Some v -> (v < M)%nat) -> vok M (f x)
  | Store _ v q => (v < N)%nat /\ vok N q
  | Count f => forall M z, (N <= M)%nat -> vok M (f z)
  | Names f => forall M l, (N <= M)%nat -> vok M (f l)
  | Values f => forall M l, (N <= M)%nat -> (forall v, In v l -> (v < M)%nat) -> vok M (f l)
  | New f => forall M, (N <= M)%nat -> vok (S M) (f M)
  | Dispose v f => (v < N)%nat /\ forall x, vok N (f x)
  end.
Lemma vok_le {K} (p : prog K) : forall N M, (N <= M)%nat -> vok N p -> vok M p.
Proof.
  induction p as [r|p IH|p IH|k f IH|k f IH|k v p IH|f IH|f IH|f IH|f IH|p IH|f IH|v f IH]; cbn; intros N M L V; auto.
  - eapply IH; eassumption.
  - eapply IH; eassumption.
  - intros M' x L' B. apply V; [lia|exact B].
  - intros M' x L' B. apply V; [lia|exact B].
  - destruct V as (V1 & V2). split; [lia|eapply IH; eassumption].
  - intros M' z L'. apply V. lia.
  - intros M' z L'. apply V. lia.
  - intros M' x L' B. apply V; [lia|exact B].
  - intros M' l L' B. apply V; [lia|exact B].
  - eapply IH; eassumption.
  - intros M' L'. apply V. lia.
  - destruct V as (V1 & V2). split; [lia|]. intros x. eapply IH; [exact L|apply V2].
Qed.
Lemma vok_setitem {K} m (k : K) v ret N : (v < N)%nat -> (forall M x, (N <= M)%nat -> vok M (ret x)) -> vok N (setitem m k v ret).
Proof.
  intros V R. cbn. intros M x L B. split; [lia|]. intros M' z L'. destruct (m <? z); cbn.
  - intros M2 y L2 B2. destruct y as [w|]; cbn; [split; [apply B2; reflexivity|]; intros [e|]; apply R; lia|apply R; lia].
  - destruct x as [w|]; cbn; [|apply R; lia]. split; [specialize (B w eq_refl); lia|]. intros [e|]; apply R; lia.
Qed.
Lemma vok_dispose_all {K} (l : list nat) N : (forall v, In v l -> (v < N)%nat) -> vok (K := K) N (dispose_all l none_of).
Proof.
  induction l as [|v l IH]; cbn; intros A; [exact I|]. split; [apply A; auto|]. intros [e|]; [exact I|]. apply IH. auto.
Qed.
Lemma vok_prog {K} m mk (o : gop K) : vok 0 (prog_of m mk (top_of o)).
Proof.
  destruct o as [k|]; cbn [top_of prog_of vok clear getitem].
  - intros M x L B. destruct x as [v|]; cbn [vok]; [split; [apply B; reflexivity|exact I]|]. destruct mk as [e|]; cbn [vok]; [exact I|].
    intros M' L'. apply vok_setitem; [lia|]. intros M2 y _. cbn. exact I.
  - intros M l L B. apply vok_dispose_all. exact B.
Qed.

(** ** what a step of the manager does *)
Lemma tinstr_calls {K} `{EqDec K} bad (s : tstate K) i p : tinstr bad s i p = s \/ exists q, t_calls (tinstr bad s i p) = set_prog i q (t_calls s).
Proof. destruct (instr_sub bad s i p) as [A|(q & _ & B)]; eauto. Qed.
Lemma tinstr_length {K} `{EqDec K} bad (s : tstate K) i p : length (t_calls (tinstr bad s i p)) = length (t_calls s).
Proof. destruct (tinstr_calls bad s i p) as [-> |(q & ->)]; [reflexivity|apply length_set_prog]. Qed.
Lemma tinstr_new {K} `{EqDec K} bad (s : tstate K) i p : t_new (tinstr bad s i p) = match p with New _ => S (t_new s) | _ => t_new s end.
Proof.
  destruct p; cbn; try reflexivity.
  - destruct (t_lock s) as [[j d]|]; [destruct (Nat.eqb i j)|]; reflexivity.
  - destruct (t_lock s) as [[j [|[|d]]]|]; reflexivity.
  - destruct (t_c s) as [|[k v] c]; reflexivity.
Qed.
Lemma tinstr_other {K} `{EqDec K} bad (s : tstate K) i p j : i <> j -> nth_error (t_calls (tinstr bad s i p)) j = nth_error (t_calls s) j.
Proof. intros N. destruct (tinstr_calls bad s i p) as [-> |(q & ->)]; [reflexivity|]. rewrite nth_set_prog. apply Nat.eqb_neq in N. rewrite N. reflexivity. Qed.

Definition vals_ok {K} (s : tstate K) : Prop :=
  (forall v, In v (vals (t_c s)) -> (v < t_new s)%nat) /\ forall i o p, nth_error (t_calls s) i = Some (o, p) -> vok (t_new s) p.
Lemma dget_vals {K} `{EqDec K} (k : K) (c : dict K nat) v : dget k c = Some v -> In v (vals c).
Proof. intros G. apply dget_In in G. apply in_map_iff. exists (k, v). auto. Qed.
Lemma vals_dset {K} `{EqDec K} (k : K) v (c : dict K nat) x : In x (vals (dset k v c)) -> x = v \/ In x (vals c).
Proof. induction c as [|[k' v'] c IH]; cbn; [intros [<-|[]]; auto|]. destruct (eq_dec k k'); cbn; intros [<-|I]; auto. destruct (IH I); auto. Qed.
Lemma vals_ddel_sub {K} `{EqDec K} (k : K) (c : dict K nat) x : In x (vals (ddel k c)) -> In x (vals c).
Proof. induction c as [|[k' v'] c IH]; cbn; [auto|]. destruct (eq_dec k k'); cbn; [auto|]. intros [<-|I]; auto. Qed.
Lemma vals_set {K} (s s' : tstate K) i q : vals_ok s -> t_calls s' = set_prog i q (t_calls s) -> (t_new s <= t_new s')%nat -> (forall v, In v (vals (t_c s')) -> (v < t_new s')%nat) -> vok (t_new s') q -> vals_ok s'.
Proof.
  intros (A & B) E L C Q. split; [exact C|]. intros j o p G. rewrite E, nth_set_prog in G. destruct (Nat.eqb i j); [|eapply vok_le; [exact L|eauto]].
  destruct (nth_error (t_calls s) j) as [[o' p']|]; [|discriminate]. injection G as <- <-. exact Q.
Qed.
Lemma vals_tinstr {K} `{EqDec K} bad (s : tstate K) i o p : vals_ok s -> nth_error (t_calls s) i = Some (o, p) -> vals_ok (tinstr bad s i p).
Proof.
  intros V E. pose proof (proj2 V i o p E) as P. pose proof (proj1 V) as C. destruct p; cbn [vok] in P; cbn [tinstr].
  - exact V.
  - destruct (t_lock s) as [[j d]|]; [destruct (Nat.eqb i j)|]; try exact V; (eapply vals_set; [exact V|reflexivity|cbn; lia|exact C|exact P]).
  - destruct (t_lock s) as [[j [|[|d]]]|]; (eapply vals_set; [exact V|reflexivity|cbn; lia|exact C|exact P]).
  - eapply vals_set; [exact V|reflexivity|cbn; lia| |].
    + cbn. intros v I. apply vals_ddel_sub in I. auto.
    + cbn. apply P; [lia|]. intros v G. apply C. eapply dget_vals. exact G.
  - eapply vals_set; [exact V|reflexivity|cbn; lia|exact C|]. cbn. apply P; [lia|]. intros v G. apply C. eapply dget_vals. exact G.
  - destruct P as (P1 & P2). eapply vals_set; [exact V|reflexivity|cbn; lia| |exact P2]. cbn. intros x I. apply vals_dset in I as [-> |I]; auto.
  - eapply vals_set; [exact V|reflexivity|cbn; lia|exact C|]. apply P. cbn. lia.
  - eapply vals_set; [exact V|reflexivity|cbn; lia|exact C|]. apply P. cbn. lia.
  - destruct (t_c s) as [|[k v] c] eqn:Ec.
    + eapply vals_set; [exact V|reflexivity|cbn; lia|cbn; rewrite Ec; exact C|]. cbn. apply P; [lia|discriminate].
    + eapply vals_set; [exact V|reflexivity|cbn; lia|cbn; intros x I; apply C; right; exact I|]. cbn. apply P; [lia|]. intros w [= <-]. apply C. left. reflexivity.
  - eapply vals_set; [exact V|reflexivity|cbn; lia|exact C|]. apply P; [cbn; lia|exact C].
  - eapply vals_set; [exact V|reflexivity|cbn; lia|intros v []|exact P].
  - eapply vals_set; [exact V|reflexivity|cbn; lia| |]; cbn; [intros v I; specialize (C v I); lia|]. apply P. lia.
  - eapply vals_set; [exact V|reflexivity|cbn; lia|exact C|]. apply P.
Qed.

(** ** one thread, one thing *)
Lemma combine_nth {A B} (l : list A) (r : list B) j x y : nth_error l j = Some x -> nth_error r j = Some y -> In (x, y) (combine l r).
Proof. revert l r. induction j; intros [|a l] [|b r] E F; try discriminate; cbn in *; [injection E as ->; injection F as ->; auto|right; eauto]. Qed.
Lemma combine_in {A B} (l : list A) (r : list B) x y : In (x, y) (combine l r) -> exists j, nth_error l j = Some x /\ nth_error r j = Some y.
Proof. revert r. induction l as [|a l IH]; intros [|b r] I; cbn in I; try contradiction. destruct I as [[= -> ->]|I]; [exists 0%nat; auto|]. destruct (IH r I) as (j & E). exists (S j). exact E. Qed.
Lemma calling_spec {K} i (s : gs K) : calling i s = true <-> exists j o p, nth_error (g_who s) j = Some i /\ nth_error (t_calls (g_m s)) j = Some (o, p) /\ over p = false.
Proof.
  unfold calling. rewrite existsb_exists. split.
  - intros ([i' [o p]] & I & E). cbn in E. apply andb_true_iff in E as (E1 & E2). apply Nat.eqb_eq in E1 as <-. apply combine_in in I as (j & A & B). exists j, o, p. split; [exact A|]. split; [exact B|]. destruct (over p); [discriminate|reflexivity].
  - intros (j & o & p & A & B & C). exists (i, (o, p)). split; [eapply combine_nth; eassumption|]. cbn. rewrite Nat.eqb_refl, C. reflexivity.
Qed.

(** ** one pool: what one thread does not do to another *)
Definition actor (o : tstep) : option nat := match o with TGet i _ | TPut i _ | TClose i | TStep i _ => Some i | THand _ _ _ => None end.
Lemma existsb_last {A} (f : A -> bool) l x : existsb f (l ++ [x]) = existsb f l || f x.
Proof. rewrite existsb_app. cbn. rewrite orb_false_r. reflexivity. Qed.
Lemma failure_last i l j o : failure i (l ++ [(j, o)]) = if Nat.eqb i j then match o with OErr e => Some e | _ => None end else failure i l.
Proof.
  induction l as [|[a b] l IH]; cbn [app failure existsb]; [destruct (Nat.eqb i j); reflexivity|]. rewrite existsb_last. cbn [fst]. rewrite IH.
  destruct (Nat.eqb i j); [rewrite orb_true_r; reflexivity|]. rewrite orb_false_r. reflexivity.
Qed.
Lemma go_log cfg i b t s : h_log (go cfg i b t s) = h_log s \/ exists o, h_log (go cfg i b t s) = h_log s ++ [(i, o)].
Proof.
  unfold go. destruct (t_pc t); repeat match goal with
    | |- context [if ?x then _ else _] => destruct x
    | |- context [match h_queue s with _ => _ end] => destruct (h_queue s)
    | |- context [match ?w with ForCaller => _ | ForRefill _ => _ end] => destruct w
    | k : back |- _ => destruct k
    end; cbn; eauto.
Qed.
Lemma go_other cfg i b t s j u : i <> j -> nth_error (h_threads s) j = Some u -> nth_error (h_threads (go cfg i b t s)) j = Some u.
Proof. intros N E. destruct (threads_shape cfg i b t s) as [-> |(t' & ->)]; [exact E|]. rewrite nth_updt_other by exact N. exact E. Qed.
Lemma step_other cfg o s i t : nth_error (h_threads s) i = Some t -> actor o <> Some i ->
  (exists t', nth_error (h_threads (t_step cfg o s)) i = Some t' /\ t_pc t' = t_pc t) /\ failure i (h_log (t_step cfg o s)) = failure i (h_log s).
Proof.
  intros E N. destruct o as [j tmo|j c|j|j b|j k c]; cbn [actor] in N; cbn [t_step].
  - assert (j <> i) by congruence. destruct (nth_error (h_threads s) j) as [u|] eqn:Ej; [|eauto]. unfold begin. destruct (t_pc u); try solve [eauto]. split; [|reflexivity]. cbn. rewrite nth_updt_other by assumption. eauto.
  - assert (j <> i) by congruence. destruct (nth_error (h_threads s) j) as [u|] eqn:Ej; [|eauto]. destruct (t_pc u); try solve [eauto]. destruct (mem_nat c (t_lent u)); [|eauto]. split; [|reflexivity]. cbn. rewrite nth_updt_other by assumption. eauto.
  - assert (j <> i) by congruence. destruct (nth_error (h_threads s) j) as [u|] eqn:Ej; [|eauto]. unfold begin. destruct (t_pc u); try solve [eauto]. split; [|reflexivity]. cbn. rewrite nth_updt_other by assumption. eauto.
  - assert (j <> i) by congruence. destruct (nth_error (h_threads s) j) as [u|] eqn:Ej; [|eauto]. split; [exists t; split; [apply go_other; assumption|reflexivity]|].
    destruct (go_log cfg j b u s) as [-> |(o & ->)]; [reflexivity|]. rewrite failure_last. replace (Nat.eqb i j) with false by (symmetry; apply Nat.eqb_neq; auto). reflexivity.
  - destruct (nth_error (h_threads s) j) as [u|] eqn:Ej; [|eauto]. destruct (nth_error (h_threads s) k) as [w|] eqn:Ek; [|eauto].
    destruct (mem_nat c (t_lent u) && negb (Nat.eqb j k)) eqn:G; [|eauto]. split; [|reflexivity]. apply andb_true_iff in G as (_ & G). apply negb_true_iff, Nat.eqb_neq in G. cbn.
    destruct (Nat.eq_dec k i) as [-> |Nk].
    + rewrite (nth_updt_same i _ w); [|rewrite nth_updt_other by exact G; exact Ek]. eexists. split; [reflexivity|]. cbn. congruence.
    + rewrite nth_updt_other by exact Nk. destruct (Nat.eq_dec j i) as [-> |Nj]; [rewrite (nth_updt_same i _ u) by exact Ej; eexists; split; [reflexivity|]; cbn; congruence|].
      rewrite nth_updt_other by exact Nj. eauto.
Qed.
Lemma idle_spec i h : idle_in i h = true <-> exists t, nth_error (h_threads h) i = Some t /\ t_pc t = Idle.
Proof.
  unfold idle_in. destruct (nth_error (h_threads h) i) as [t|]; [|split; [discriminate|intros (t & [=] & _)]].
  split; [intros E; exists t; split; [reflexivity|]; destruct (t_pc t); congruence|]. intros (t' & [= <-] & ->). reflexivity.
Qed.
Lemma idle_other cfg o h i : idle_in i h = true -> actor o <> Some i -> idle_in i (t_step cfg o h) = true.
Proof.
  rewrite !idle_spec. intros (t & E & P) N. destruct (step_other cfg o h i t E N) as ((t' & E' & P') & _). exists t'. split; [exact E'|congruence].
Qed.

(** close() *)
Definition in_close (p : tpc) : bool := match p with CLoad | CStore _ | CDrain _ | CShut _ => true | _ => false end.
(** thread i is inside close(), or its close() has ended *)
Definition at_close (i : nat) (h : ts) : Prop :=
  exists t, nth_error (h_threads h) i = Some t /\ (in_close (t_pc t) = true \/ (t_pc t = Idle /\ (failure i (h_log h) = None \/ failure i (h_log h) = Some AttributeError))).
Lemma at_close_other cfg o h i : at_close i h -> actor o <> Some i -> at_close i (t_step cfg o h).
Proof.
  intros (t & E & P) N. destruct (step_other cfg o h i t E N) as ((t' & E' & P') & F). exists t'. split; [exact E'|]. rewrite P', F. exact P.
Qed.
Lemma at_close_begin cfg h i : idle_in i h = true -> at_close i (t_step cfg (TClose i) h).
Proof.
  intros Hi. apply idle_spec in Hi as (t & E & P). cbn [t_step]. rewrite E. unfold begin. rewrite P. exists {| t_pc := CLoad; t_lent := t_lent t |}. split; [|left; reflexivity].
  cbn. apply (nth_updt_same i _ t). exact E.
Qed.
Lemma at_close_step cfg b h i : at_close i h -> idle_in i h = false -> at_close i (t_step cfg (TStep i b) h) /\ t_step cfg (TStep i b) h <> h.
Proof.
  intros (t & E & P) Ni. assert (C : in_close (t_pc t) = true).
  { destruct P as [C|(C & _)]; [exact C|]. exfalso. assert (idle_in i h = true) by (apply idle_spec; eauto). congruence. }
  cbn [t_step]. rewrite E. split.
  - unfold go. destruct (t_pc t) eqn:Ep; try discriminate C; clear C P.
    + eexists. split; [cbn; apply (nth_updt_same i _ t); exact E|]. left. reflexivity.
    + eexists. split; [cbn; apply (nth_updt_same i _ t); exact E|]. left. reflexivity.
    + destruct was.
      * destruct (h_queue h) as [|c q].
        -- eexists. split; [cbn; apply (nth_updt_same i _ t); exact E|]. right. split; [reflexivity|]. cbn. rewrite failure_last, Nat.eqb_refl. auto.
        -- eexists. split; [cbn; apply (nth_updt_same i _ t); exact E|]. left. reflexivity.
      * eexists. split; [cbn; apply (nth_updt_same i _ t); exact E|]. right. split; [reflexivity|]. cbn. rewrite failure_last, Nat.eqb_refl. auto.
    + eexists. split; [cbn; apply (nth_updt_same i _ t); exact E|]. left. reflexivity.
  - intros X. assert (S : stuck cfg h b (t_pc t) = false) by (destruct (t_pc t); try discriminate C; reflexivity). apply (moves cfg i b t h E S). cbn [t_step]. rewrite E. exact X.
Qed.

(** ** the invariant *)
Fixpoint nonew {K} (p : prog K) : Prop :=
  match p with
  | Done _ => True
  | Acq q | Rel q | Wipe q | Store _ _ q => nonew q
  | PopKey _ f | GetKey _ f | PopFirst f => forall x, nonew (f x)
  | Count f => forall x, nonew (f x)
  | Names f => forall x, nonew (f x)
  | Values f => forall x, nonew (f x)
  | New f => False
  | Dispose v f => forall x, nonew (f x)
  end.
Lemma nonew_prog {K} m e (o : gop K) : nonew (prog_of m (Some e) (top_of o)).
Proof.
  destruct o as [k|]; cbn; [intros [v|]; exact I|]. intros l. induction l as [|v l IH]; cbn; [exact I|]. intros [x|]; [exact I|exact IH].
Qed.
Lemma nonew_tinstr {K} `{EqDec K} bad (s : tstate K) i o p q : nth_error (t_calls s) i = Some (o, p) -> nonew p -> nth_error (t_calls (tinstr bad s i p)) i = Some q -> nonew (snd q).
Proof.
  intros E N G. destruct (instr_sub bad s i p) as [X|(r & S & X)]; [rewrite X, E in G; injection G as <-; exact N|]. rewrite X, nth_set_prog, Nat.eqb_refl, E in G. injection G as <-. cbn.
  destruct p; cbn in S, N; try contradiction; try (subst; exact N); try (destruct S as [x ->]; apply N).
Qed.
Lemma tinstr_op {K} `{EqDec K} bad (s : tstate K) i o p : nth_error (t_calls s) i = Some (o, p) -> exists q, nth_error (t_calls (tinstr bad s i p)) i = Some (o, q).
Proof.
  intros E. destruct (tinstr_calls bad s i p) as [-> |(q & ->)]; [eauto|]. exists q. apply (nth_set_same i q o p). exact E.
Qed.

Record ginv {K} `{EqDec K} (m : Z) (cfg : config) (n : nat) (mks : nat -> nat -> bool) (s : gs K) : Prop := {
  gv_who : length (g_who s) = length (t_calls (g_m s));
  gv_lt : forall j i, nth_error (g_who s) j = Some i -> (i < n)%nat;
  gv_new : length (g_pools s) = t_new (g_m s);
  gv_pool : forall v h, nth_error (g_pools s) v = Some h -> exists j q l, build cfg (mks j) = Built q /\ h = t_run cfg q n l;
  gv_vals : vals_ok (g_m s);
  gv_nonew : forall j o p e, nth_error (t_calls (g_m s)) j = Some (o, p) -> raises cfg mks j = Some e -> nonew p;
  gv_one : forall j j' i o p o' p', nth_error (g_who s) j = Some i -> nth_error (g_who s) j' = Some i -> nth_error (t_calls (g_m s)) j = Some (o, p) -> nth_error (t_calls (g_m s)) j' = Some (o', p') ->
    over p = false -> over p' = false -> j = j';
  gv_idle : forall j i o p v h, nth_error (g_who s) j = Some i -> nth_error (t_calls (g_m s)) j = Some (o, p) -> over p = false -> nth_error (g_pools s) v = Some h ->
    idle_in i h = true \/ (In j (g_closing s) /\ exists f, p = Dispose v f);
  gv_close : forall j, In j (g_closing s) -> exists i o v f h, nth_error (g_who s) j = Some i /\ nth_error (t_calls (g_m s)) j = Some (o, Dispose v f) /\ nth_error (g_pools s) v = Some h /\ at_close i h;
  gv_nd : NoDup (g_closing s);
  gv_run : exists bad l, mgr_only l /\ g_m s = trun m (raises cfg mks) bad l
}.

Lemma ginv_init {K} `{EqDec K} m cfg n mks : ginv m cfg n mks (g_init (K := K)).
Proof.
  constructor; cbn.
  - reflexivity.
  - intros [|j]; discriminate.
  - reflexivity.
  - intros [|v]; discriminate.
  - split; cbn; [intros v []|intros [|i]; discriminate].
  - intros [|j]; discriminate.
  - intros [|j]; discriminate.
  - intros [|j]; discriminate.
  - intros j [].
  - constructor.
  - exists no_exn, []. split; [intros o []|reflexivity].
Qed.

Lemma over_calling {K} j i (s : gs K) o p : nth_error (g_who s) j = Some i -> nth_error (t_calls (g_m s)) j = Some (o, p) -> over p = false -> calling i s = true.
Proof. intros A B C. apply calling_spec. exists j, o, p. auto. Qed.
Lemma nth_app_one {A} (l : list A) x i y : nth_error (l ++ [x]) i = Some y -> nth_error l i = Some y \/ (i = length l /\ y = x).
Proof.
  intros E. destruct (Nat.lt_ge_cases i (length l)); [rewrite nth_error_app1 in E by assumption; auto|]. rewrite nth_error_app2 in E by assumption. right.
  destruct (i - length l)%nat eqn:D; cbn in E; [injection E as <-; split; [lia|reflexivity]|destruct n; discriminate].
Qed.
Lemma free_spec {K} i (s : gs K) : free i s = true <-> calling i s = false /\ forall v h, nth_error (g_pools s) v = Some h -> idle_in i h = true.
Proof.
  unfold free. rewrite andb_true_iff, negb_true_iff, forallb_forall. split; intros (A & B); (split; [exact A|]).
  - intros v h E. apply B. eapply nth_error_In. exact E.
  - intros h I. apply In_nth_error in I as (v & E). eapply B. exact E.
Qed.

Lemma both_app {A B} (l : list A) (r : list B) x y j a b : length l = length r -> nth_error (l ++ [x]) j = Some a -> nth_error (r ++ [y]) j = Some b ->
  (nth_error l j = Some a /\ nth_error r j = Some b) \/ (j = length l /\ a = x /\ b = y).
Proof.
  intros L E F. apply nth_app_one in E as [E|(E1 & E2)], F as [F|(F1 & F2)]; auto.
  - apply nth_lt in E. lia.
  - apply nth_lt in F. lia.
Qed.
(** a thread calls the manager *)
Lemma ginv_call {K} `{EqDec K} m cfg n mks i (o : gop K) s : ginv m cfg n mks s -> ginv m cfg n mks (g_step m cfg n mks (GCall i o) s).
Proof.
  intros G. cbn [g_step]. destruct (Nat.ltb i n && free i s) eqn:C; [|exact G]. apply andb_true_iff in C as (Ln & F). apply Nat.ltb_lt in Ln. apply free_spec in F as (Nc & Id).
  destruct G as [Gw Gl Gn Gp Gv Gq Go Gi Gc Gd Gr].
  constructor; cbn [g_m g_pools g_who g_closing M_LruThreads.tstep t_calls t_new t_c].
  - rewrite !app_length. cbn. lia.
  - intros j i' E. apply nth_app_one in E as [E|(_ & ->)]; eauto.
  - exact Gn.
  - exact Gp.
  - split; [exact (proj1 Gv)|]. intros j o' p E. apply nth_app_one in E as [E|(_ & [= -> ->])]; [eapply (proj2 Gv); exact E|]. eapply vok_le; [|apply vok_prog]. lia.
  - intros j o' p e E R. apply nth_app_one in E as [E|(-> & [= -> ->])]; [eauto|]. rewrite R. apply nonew_prog.
  - intros j j' i' o1 p1 o2 p2 A B C D P1 P2. destruct (both_app _ _ _ _ _ _ _ Gw A C) as [(A' & C')|(A1 & A2 & A3)], (both_app _ _ _ _ _ _ _ Gw B D) as [(B' & D')|(B1 & B2 & B3)].
    + eapply Go; eassumption.
    + exfalso. subst i'. assert (calling i s = true) by (eapply over_calling; eassumption). congruence.
    + exfalso. subst i'. assert (calling i s = true) by (eapply over_calling; eassumption). congruence.
    + congruence.
  - intros j i' o' p v h A B P E. destruct (both_app _ _ _ _ _ _ _ Gw A B) as [(A' & B')|(_ & -> & _)]; [eapply Gi; eassumption|]. left. eapply Id. exact E.
  - intros j I. destruct (Gc j I) as (i' & o' & v & f & h & A & B & C & D). exists i', o', v, f, h. split; [|split; [|split; assumption]]; (rewrite nth_error_app1; [assumption|eapply nth_lt; eassumption]).
  - exact Gd.
  - destruct Gr as (bad & l & M & E). exists bad, (l ++ [TBegin (top_of o)]). split.
    + intros x I. apply in_app_or in I as [I|[[= <-]|[]]]; [exact (M x I)|]. destruct o; reflexivity.
    + unfold trun. rewrite fold_left_app. cbn [fold_left]. unfold trun in E. rewrite <- E. reflexivity.
Qed.

Lemma nth_updt {A} v (x : A) l w y : nth_error (updt v x l) w = Some y -> (w = v /\ y = x /\ (v < length l)%nat) \/ (w <> v /\ nth_error l w = Some y).
Proof.
  intros E. destruct (Nat.eq_dec v w) as [-> |N]; [|rewrite nth_updt_other in E by exact N; auto]. left.
  assert (L : (w < length l)%nat) by (apply nth_lt in E; rewrite length_updt in E; exact E). destruct (nth_error l w) as [z|] eqn:G; [|apply nth_error_None in G; lia].
  rewrite (nth_updt_same w x z l G) in E. injection E as <-. auto.
Qed.
Lemma t_snoc cfg p n l o : t_run cfg p n (l ++ [o]) = t_step cfg o (t_run cfg p n l).
Proof. unfold t_run. rewrite fold_left_app. reflexivity. Qed.

(** some thread does something in pool v *)
Lemma ginv_pool {K} `{EqDec K} m cfg n mks v h o s : ginv m cfg n mks (K := K) s -> nth_error (g_pools s) v = Some h -> (forall i, actor o = Some i -> calling i s = false) ->
  ginv m cfg n mks (with_pools (updt v (t_step cfg o h) (g_pools s)) s).
Proof.
  intros [Gw Gl Gn Gp Gv Gq Go Gi Gc Gd Gr] E A.
  assert (Na : forall j i o' p, nth_error (g_who s) j = Some i -> nth_error (t_calls (g_m s)) j = Some (o', p) -> over p = false -> actor o <> Some i).
  { intros j i o' p W C P X. pose proof (over_calling j i s o' p W C P). rewrite (A i X) in *. discriminate. }
  constructor; cbn [with_pools g_m g_pools g_who g_closing]; auto.
  - rewrite length_updt. exact Gn.
  - intros w h' F. apply nth_updt in F as [(-> & -> & _)|(_ & F)]; [|eauto]. destruct (Gp v h E) as (j & q & l & B & ->). exists j, q, (l ++ [o]). split; [exact B|]. symmetry. apply t_snoc.
  - intros j i o' p w h' W C P F. apply nth_updt in F as [(-> & -> & _)|(_ & F)]; [|eauto]. destruct (Gi j i o' p v h W C P E) as [I|I]; [|auto]. left. apply idle_other; [exact I|]. eapply Na; eassumption.
  - intros j I. destruct (Gc j I) as (i & o' & w & f & h' & W & C & F & D). exists i, o', w, f. destruct (Nat.eq_dec v w) as [<-|N].
    + assert (h' = h) by congruence. subst h'. exists (t_step cfg o h). split; [exact W|]. split; [exact C|]. split; [apply (nth_updt_same v _ h); exact E|]. apply at_close_other; [exact D|]. eapply Na; [exact W|exact C|reflexivity].
    + exists h'. split; [exact W|]. split; [exact C|]. split; [rewrite nth_updt_other by exact N; exact F|exact D].
Qed.

Lemma drop_in (x j : nat) l : In x (drop j l) <-> In x l /\ x <> j.
Proof. unfold drop. split; [intros I; apply in_remove in I; exact I|intros (I & N); apply in_in_remove; assumption]. Qed.
Lemma drop_not j l : ~ In j l -> drop j l = l.
Proof. intros N. apply notin_remove. exact N. Qed.
Lemma drop_nd j l : NoDup l -> NoDup (drop j l).
Proof.
  unfold drop. induction 1 as [|x l N D IH]; cbn; [constructor|]. destruct (Nat.eq_dec j x); [exact IH|]. constructor; [|exact IH]. intros I. apply in_remove in I. tauto.
Qed.

(** the call j goes on in the manager *)
Lemma ginv_move {K} `{EqDec K} m cfg n mks bad j i o p ext s : ginv m cfg n mks (K := K) s -> nth_error (g_who s) j = Some i -> nth_error (t_calls (g_m s)) j = Some (o, p) -> over p = false ->
  (forall v h, nth_error (g_pools s) v = Some h -> idle_in i h = true) ->
  (ext = [] /\ (forall f, p <> New f) \/ exists q f, ext = [t_init q n] /\ p = New f /\ build cfg (mks j) = Built q) ->
  ginv m cfg n mks {| g_m := tinstr bad (g_m s) j p; g_pools := g_pools s ++ ext; g_who := g_who s; g_closing := drop j (g_closing s) |}.
Proof.
  intros [Gw Gl Gn Gp Gv Gq Go Gi Gc Gd Gr] W C P Id X.
  assert (Ix : forall h i', In h ext -> (i' < n)%nat -> idle_in i' h = true).
  { intros h i' I Li. destruct X as [(-> & _)|(q & f & -> & _)]; [destruct I|]. destruct I as [<-|[]]. apply idle_spec. exists {| t_pc := Idle; t_lent := [] |}. split; [|reflexivity]. cbn.
    apply nth_error_repeat. exact Li. }
  assert (Np : forall v h, nth_error (g_pools s ++ ext) v = Some h -> nth_error (g_pools s) v = Some h \/ In h ext).
  { intros v h E. destruct (Nat.lt_ge_cases v (length (g_pools s))); [rewrite nth_error_app1 in E by assumption; auto|]. rewrite nth_error_app2 in E by assumption. right. eapply nth_error_In. exact E. }
  constructor; cbn [g_m g_pools g_who g_closing].
  - rewrite tinstr_length. exact Gw.
  - exact Gl.
  - rewrite app_length, tinstr_new, Gn. destruct X as [(-> & N)|(q & f & -> & -> & _)]; cbn [length]; [|lia]. destruct p; try lia. exfalso. exact (N f eq_refl).
  - intros v h E. destruct (Np v h E) as [E'|I]; [eauto|]. destruct X as [(-> & _)|(q & f & -> & _ & B)]; [destruct I|]. destruct I as [<-|[]]. exists j, q, []. split; [exact B|reflexivity].
  - eapply vals_tinstr; eassumption.
  - intros j' o' p' e E R. destruct (Nat.eq_dec j j') as [<-|N]; [|rewrite tinstr_other in E by exact N; eauto]. exact (nonew_tinstr bad (g_m s) j o p (o', p') C (Gq j o p e C R) E).
  - intros a b i' o1 p1 o2 p2 A B D F P1 P2.
    assert (T : forall x o' p', nth_error (t_calls (tinstr bad (g_m s) j p)) x = Some (o', p') -> over p' = false -> exists o2 p2, nth_error (t_calls (g_m s)) x = Some (o2, p2) /\ over p2 = false).
    { intros x o' p' Ex Px. destruct (Nat.eq_dec j x) as [<-|N]; [eauto|]. rewrite tinstr_other in Ex by exact N. eauto. }
    destruct (T a o1 p1 D P1) as (? & ? & T1 & T2), (T b o2 p2 F P2) as (? & ? & T3 & T4). eapply Go; eassumption.
  - intros a i' o' p' v h A B Pa E. destruct (Np v h E) as [E'|I]; [|left; eapply Ix; [exact I|eapply Gl; exact A]]. destruct (Nat.eq_dec j a) as [<-|N].
    + left. assert (i' = i) by congruence. subst i'. eapply Id. exact E'.
    + rewrite tinstr_other in B by exact N. destruct (Gi a i' o' p' v h A B Pa E') as [I|(I & f & ->)]; [auto|]. right. split; [apply drop_in; auto|eauto].
  - intros a I. apply drop_in in I as (I & N). destruct (Gc a I) as (i' & o' & v & f & h & A & B & D & F). exists i', o', v, f, h. split; [exact A|]. split; [rewrite tinstr_other by auto; exact B|].
    split; [rewrite nth_error_app1; [exact D|eapply nth_lt; exact D]|exact F].
  - apply drop_nd. exact Gd.
  - destruct Gr as (bad0 & l & M & E).
    assert (Y : exists bad', trun m (raises cfg mks) bad' l = trun m (raises cfg mks) bad0 l /\ forall v f, p = Dispose v f -> bad' j v = bad j v).
    { destruct p; try (exists bad0; split; [reflexivity|discriminate]).
      exists (fun a w => if Nat.eqb a j && Nat.eqb w v then bad j v else bad0 a w). split.
      - apply same_bad. intros a w I. destruct (Nat.eqb a j && Nat.eqb w v) eqn:Q; [|reflexivity]. apply andb_true_iff in Q as (Q1 & Q2). apply Nat.eqb_eq in Q1, Q2. subst a w. exfalso.
        rewrite E in C. exact (dispose_fresh m (raises cfg mks) bad0 l j j o v f M C I).
      - intros w f' [= <- <-]. rewrite !Nat.eqb_refl. reflexivity. }
    destruct Y as (bad' & Y1 & Y2). exists bad', (l ++ [M_LruThreads.TStep j]). split; [intros x I; apply in_app_or in I as [I|[[=]|[]]]; exact (M x I)|].
    unfold trun. rewrite fold_left_app. cbn [fold_left]. change (fold_left (M_LruThreads.tstep m (raises cfg mks) bad') l tinit) with (trun m (raises cfg mks) bad' l). rewrite Y1, <- E. cbn [M_LruThreads.tstep]. rewrite C.
    symmetry. apply tinstr_bad. exact Y2.
Qed.

(** call j works on close() of pool v *)
Lemma ginv_own {K} `{EqDec K} m cfg n mks j i o v f h op cl s : ginv m cfg n mks (K := K) s -> nth_error (g_who s) j = Some i -> nth_error (t_calls (g_m s)) j = Some (o, Dispose v f) ->
  nth_error (g_pools s) v = Some h -> actor op = Some i -> at_close i (t_step cfg op h) -> NoDup cl -> (forall x, In x cl <-> x = j \/ In x (g_closing s)) ->
  ginv m cfg n mks (with_closing cl (with_pools (updt v (t_step cfg op h) (g_pools s)) s)).
Proof.
  intros [Gw Gl Gn Gp Gv Gq Go Gi Gc Gd Gr] W C E A D Nd Cl.
  assert (Na : forall a i' o' p, a <> j -> nth_error (g_who s) a = Some i' -> nth_error (t_calls (g_m s)) a = Some (o', p) -> over p = false -> actor op <> Some i').
  { intros a i' o' p N Wa Ca Pa X. rewrite A in X. injection X as <-. apply N. eapply (Go a j i); try eassumption. reflexivity. }
  constructor; cbn [with_pools with_closing g_m g_pools g_who g_closing]; auto.
  - rewrite length_updt. exact Gn.
  - intros w h' F. apply nth_updt in F as [(-> & -> & _)|(_ & F)]; [|eauto]. destruct (Gp v h E) as (a & q & l & B & ->). exists a, q, (l ++ [op]). split; [exact B|]. symmetry. apply t_snoc.
  - intros a i' o' p w h' Wa Ca P F. destruct (Nat.eq_dec a j) as [-> |N].
    + assert (i' = i) by congruence. subst i'. rewrite C in Ca. injection Ca as <- <-. apply nth_updt in F as [(-> & -> & _)|(Nw & F)]; [right; split; [apply Cl; auto|eauto]|].
      destruct (Gi j i o _ w h' W C P F) as [I|(_ & f' & [= <- _])]; [auto|contradiction].
    + apply nth_updt in F as [(-> & -> & _)|(_ & F)].
      * destruct (Gi a i' o' p v h Wa Ca P E) as [I|(I & Q)]; [left; apply idle_other; [exact I|eapply Na; eassumption]|right; split; [apply Cl; auto|exact Q]].
      * destruct (Gi a i' o' p w h' Wa Ca P F) as [I|(I & Q)]; [auto|right; split; [apply Cl; auto|exact Q]].
  - intros a I. destruct (Nat.eq_dec a j) as [-> |N].
    + exists i, o, v, f, (t_step cfg op h). split; [exact W|]. split; [exact C|]. split; [apply (nth_updt_same v _ h); exact E|exact D].
    + apply Cl in I as [I|I]; [contradiction|]. destruct (Gc a I) as (i' & o' & w & f' & h' & Wa & Ca & F & D'). exists i', o', w, f'. destruct (Nat.eq_dec v w) as [<-|Nw].
      * assert (h' = h) by congruence. subst h'. exists (t_step cfg op h). split; [exact Wa|]. split; [exact Ca|]. split; [apply (nth_updt_same v _ h); exact E|]. apply at_close_other; [exact D'|].
        eapply Na; [exact N|exact Wa|exact Ca|reflexivity].
      * exists h'. split; [exact Wa|]. split; [exact Ca|]. split; [rewrite nth_updt_other by exact Nw; exact F|exact D'].
Qed.

Lemma mem_in j l : mem_nat j l = true <-> In j l.
Proof. unfold mem_nat. rewrite existsb_exists. split; [intros (x & I & E); apply Nat.eqb_eq in E as <-; exact I|intros I; exists j; split; [exact I|apply Nat.eqb_refl]]. Qed.
Lemma mem_out j l : mem_nat j l = false <-> ~ In j l.
Proof. rewrite <- mem_in. destruct (mem_nat j l); split; congruence. Qed.

(** the thread of a call that is not inside close() is idle in all pools *)
Lemma all_idle {K} `{EqDec K} m cfg n mks j i o p (s : gs K) : ginv m cfg n mks s -> nth_error (g_who s) j = Some i -> nth_error (t_calls (g_m s)) j = Some (o, p) -> over p = false -> ~ In j (g_closing s) ->
  forall v h, nth_error (g_pools s) v = Some h -> idle_in i h = true.
Proof. intros G W C P N v h E. destruct (gv_idle _ _ _ _ _ G j i o p v h W C P E) as [I|(I & _)]; [exact I|contradiction]. Qed.
Lemma closing_at {K} `{EqDec K} m cfg n mks j o p (s : gs K) : ginv m cfg n mks s -> nth_error (t_calls (g_m s)) j = Some (o, p) -> In j (g_closing s) -> exists v f, p = Dispose v f.
Proof. intros G C I. destruct (gv_close _ _ _ _ _ G j I) as (i' & o' & v & f & h & _ & B & _). rewrite C in B. injection B as _ ->. eauto. Qed.

Lemma ginv_instr {K} `{EqDec K} m cfg n mks j i b o p (s : gs K) : ginv m cfg n mks s -> nth_error (g_who s) j = Some i -> nth_error (t_calls (g_m s)) j = Some (o, p) ->
  ginv m cfg n mks (g_instr cfg n mks j i b p s).
Proof.
  intros G W C.
  assert (Go : over p = false -> ~ In j (g_closing s) -> (forall f, p <> New f) -> ginv m cfg n mks (with_m (tinstr no_exn (g_m s) j p) s)).
  { intros P N Q. pose proof (ginv_move m cfg n mks no_exn j i o p [] s G W C P (all_idle m cfg n mks j i o p s G W C P N) (or_introl (conj eq_refl Q))) as R. rewrite app_nil_r, drop_not in R by exact N. exact R. }
  assert (Nc : (forall v f, p <> Dispose v f) -> ~ In j (g_closing s)) by (intros Q I; destruct (closing_at m cfg n mks j o p s G C I) as (v & f & E); exact (Q v f E)).
  destruct p; cbn [g_instr]; try (apply Go; [reflexivity|apply Nc; discriminate|discriminate]).
  - destruct s as [gm gp gw gc]. exact G.
  - destruct (build cfg (mks j)) as [q| |] eqn:B; try exact G. assert (N : ~ In j (g_closing s)) by (apply Nc; discriminate).
    pose proof (ginv_move m cfg n mks no_exn j i o (New f) [t_init q n] s G W C eq_refl (all_idle m cfg n mks j i o (New f) s G W C eq_refl N)) as R.
    rewrite (drop_not j _ N) in R. apply R. right. eauto.
  - destruct (nth_error (g_pools s) v) as [h|] eqn:E; [|exact G]. destruct (mem_nat j (g_closing s)) eqn:Mj.
    + apply mem_in in Mj. destruct (gv_close _ _ _ _ _ G j Mj) as (i' & o' & v' & f' & h' & A1 & A2 & A3 & A4). rewrite C in A2. injection A2 as <- <- <-. assert (i' = i) by congruence. assert (h' = h) by congruence. subst i' h'.
      destruct (idle_in i h) eqn:Id.
      * pose proof (ginv_move m cfg n mks (fun _ _ => failure i (h_log h)) j i o (Dispose v f) [] s G W C eq_refl) as R. rewrite app_nil_r in R. apply R; [|left; split; [reflexivity|discriminate]].
        intros w hw F. destruct (gv_idle _ _ _ _ _ G j i o _ w hw W C eq_refl F) as [I|(_ & f2 & [= -> _])]; [exact I|]. congruence.
      * destruct s as [gm gp gw gc]. apply (ginv_own m cfg n mks j i o v f h (TStep i b) gc _ G W C E eq_refl).
        -- apply at_close_step; assumption.
        -- exact (gv_nd _ _ _ _ _ G).
        -- intros x. cbn [g_closing] in *. split; [auto|intros [-> |I]; assumption].
    + apply mem_out in Mj. apply (ginv_own m cfg n mks j i o v f h (TClose i) (j :: g_closing s) s G W C E eq_refl).
      * apply at_close_begin. exact (all_idle m cfg n mks j i o _ s G W C eq_refl Mj v h E).
      * constructor; [exact Mj|exact (gv_nd _ _ _ _ _ G)].
      * intros x. cbn. split; intros [X|X]; auto.
Qed.

Lemma ginv_step {K} `{EqDec K} m cfg n mks (o : gstep K) s : ginv m cfg n mks s -> ginv m cfg n mks (g_step m cfg n mks o s).
Proof.
  intros G. destruct o as [i o|j b|v o]; [apply ginv_call; exact G| |]; cbn [g_step].
  - destruct (nth_error (t_calls (g_m s)) j) as [[o p]|] eqn:C; [|exact G]. destruct (nth_error (g_who s) j) as [i|] eqn:W; [|exact G]. eapply ginv_instr; eassumption.
  - destruct (nth_error (g_pools s) v) as [h|] eqn:E; [|exact G]. destruct (may o s) eqn:M; [|exact G]. apply ginv_pool; [exact G|exact E|].
    intros i A. destruct o; cbn in M, A; try discriminate A; injection A as <-; try (apply free_spec in M; exact (proj1 M)). apply negb_true_iff in M. exact M.
Qed.
Lemma ginv_run {K} `{EqDec K} m cfg n mks (l : list (gstep K)) : ginv m cfg n mks (g_run m cfg n mks l).
Proof.
  unfold g_run. assert (X : forall s, ginv m cfg n mks s -> ginv m cfg n mks (fold_left (fun s o => g_step m cfg n mks o s) l s)); [|apply X, ginv_init].
  induction l as [|o l IH]; intros s G; [exact G|]. cbn. apply IH, ginv_step, G.
Qed.

(** ** no deadlock *)
Lemma with_m_eq {K} (a : tstate K) s : with_m a s = s -> a = g_m s.
Proof. intros E. rewrite <- E. reflexivity. Qed.
Lemma updt_fix {A} v (x y : A) l : nth_error l v = Some y -> updt v x l = l -> x = y.
Proof. intros E F. pose proof (nth_updt_same v x y l E) as G. rewrite F, E in G. congruence. Qed.
Lemma calls_rest {K} `{EqDec K} m cfg n mks (s : gs K) : ginv m cfg n mks s -> (forall j, build cfg (mks j) <> Blocks) -> (forall j b, g_step m cfg n mks (GStep j b) s = s) -> S_LruThreads.quiet (g_m s).
Proof.
  intros G Bl St. destruct (gv_run _ _ _ _ _ G) as (bad & l & M & E). rewrite E. apply not_stuck. rewrite <- E. intros j. cbn [M_LruThreads.tstep].
  destruct (nth_error (t_calls (g_m s)) j) as [[o p]|] eqn:C; [|reflexivity].
  assert (W : exists i, nth_error (g_who s) j = Some i).
  { destruct (nth_error (g_who s) j) as [i|] eqn:W; [eauto|]. apply nth_error_None in W. apply nth_lt in C. rewrite (gv_who _ _ _ _ _ G) in W. lia. }
  destruct W as (i & W). pose proof (fun b => St j b) as Sj. cbn [g_step] in Sj. rewrite C, W in Sj.
  destruct p; cbn [g_instr] in Sj; try (rewrite (tinstr_bad no_exn bad) by discriminate; apply with_m_eq; exact (Sj false)).
  - exfalso. specialize (Sj false). destruct (build cfg (mks j)) as [q|e|] eqn:B.
    + apply (f_equal (fun s => length (g_pools s))) in Sj. cbn in Sj. rewrite app_length in Sj. cbn in Sj. lia.
    + exact (gv_nonew _ _ _ _ _ G j o _ e C ltac:(unfold raises; rewrite B; reflexivity)).
    + exact (Bl j B).
  - exfalso. pose proof (proj1 (proj2 (gv_vals _ _ _ _ _ G) j o _ C)) as V. rewrite <- (gv_new _ _ _ _ _ G) in V. destruct (nth_error (g_pools s) v) as [h|] eqn:Ev; [|apply nth_error_None in Ev; lia].
    destruct (mem_nat j (g_closing s)) eqn:Mj.
    + apply mem_in in Mj. destruct (idle_in i h) eqn:Id.
      * specialize (Sj false). apply (f_equal g_closing) in Sj. cbn in Sj. rewrite <- Sj in Mj. apply drop_in in Mj as (_ & X). contradiction.
      * specialize (Sj false). apply (f_equal g_pools) in Sj. cbn in Sj. apply (updt_fix v _ h _ Ev) in Sj.
        destruct (gv_close _ _ _ _ _ G j Mj) as (i' & o' & v' & f' & h' & A1 & A2 & A3 & A4). rewrite C in A2. injection A2 as <- <- <-. assert (i' = i) by congruence. assert (h' = h) by congruence. subst i' h'.
        exact (proj2 (at_close_step cfg false h i A4 Id) Sj).
    + specialize (Sj false). apply (f_equal (fun s => length (g_closing s))) in Sj. cbn in Sj. lia.
Qed.

Lemma none_calling {K} (s : gs K) i : S_LruThreads.quiet (g_m s) -> calling i s = false.
Proof.
  intros Q. destruct (calling i s) eqn:C; [|reflexivity]. apply calling_spec in C as (j & o & p & _ & E & P). destruct (Q j o p E) as (r & ->). discriminate.
Qed.
Lemma all_rest {K} `{EqDec K} m cfg n mks (l : list (gstep K)) : (forall j, build cfg (mks j) <> Blocks) -> let s := g_run m cfg n mks l in
  (forall j b, g_step m cfg n mks (GStep j b) s = s) -> (forall v i b, g_step m cfg n mks (GUse v (TStep i b)) s = s) ->
  S_LruThreads.quiet (g_m s) /\ forall v h i t, nth_error (g_pools s) v = Some h -> nth_error (h_threads h) i = Some t -> t_pc t = Idle \/ (t_pc t = GTake false /\ block cfg = true /\ h_queue h = []).
Proof.
  intros Bl s S1 S2. pose proof (ginv_run m cfg n mks l) as G. fold s in G. pose proof (calls_rest m cfg n mks s G Bl S1) as Q. split; [exact Q|].
  intros v h i t E F. destruct (gv_pool _ _ _ _ _ G v h E) as (j & q & l' & B & ->). apply (at_rest cfg q n l' i t); [|exact F].
  intros a b. specialize (S2 v a b). cbn [g_step] in S2. rewrite E in S2. cbn [may] in S2. rewrite (none_calling s a Q) in S2. cbn [negb] in S2. apply (f_equal g_pools) in S2. cbn in S2. exact (updt_fix v _ _ _ E S2).
Qed.

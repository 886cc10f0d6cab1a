(** Lemmas behind C127. *)
From Coq Require Import ZifyBool.
From Verif Require Import PyBase L_PyBase M_ConnPool S_Pool L_ConnPool M_PoolThreads S_PoolThreads L_PoolThreads S_PoolLimit L_PoolLimit S_PoolCap.

(** ** How many connections are open *)
Fixpoint opens (cl : list nat) (n : nat) : list nat :=
  match n with O => [] | S m => (if mem_nat m cl then [] else [m]) ++ opens cl m end.
Lemma mem_nat_In c l : mem_nat c l = true <-> In c l.
Proof. unfold mem_nat. rewrite existsb_exists. split; [intros (x & Hx & E); apply Nat.eqb_eq in E; subst x; exact Hx|intros H; exists c; split; [exact H|apply Nat.eqb_refl]]. Qed.
Lemma opens_In cl n c : In c (opens cl n) <-> (c < n)%nat /\ ~ In c cl.
Proof.
  induction n as [|n IH]; cbn [opens]; [split; [intros []|lia]|]. rewrite in_app_iff, IH. pose proof (mem_nat_In n cl) as Q. destruct (mem_nat n cl); cbn [In].
  - split; [intros [[]|(A & B)]; split; [lia|exact B]|]. intros (A & B). right. split; [|exact B]. assert (c <> n) by (intros ->; apply B; apply Q; reflexivity). lia.
  - split; [intros [[<-|[]]|(A & B)]; (split; [lia|]); [|exact B]; intros X; apply Q in X; discriminate|]. intros (A & B). destruct (Nat.eq_dec n c) as [E|E]; [left; left; exact E|right; split; [lia|exact B]].
Qed.
Lemma opens_NoDup cl n : NoDup (opens cl n).
Proof. induction n as [|n IH]; cbn [opens]; [constructor|]. destruct (mem_nat n cl); cbn; [exact IH|]. constructor; [|exact IH]. intros X. apply opens_In in X. lia. Qed.
Lemma mem_nat_app c l d : mem_nat c (l ++ [d]) = mem_nat c l || Nat.eqb c d.
Proof. unfold mem_nat. rewrite existsb_app. cbn. rewrite orb_false_r. reflexivity. Qed.
Lemma opens_far cl n d : (n <= d)%nat -> opens (cl ++ [d]) n = opens cl n.
Proof. induction n as [|n IH]; intros H; cbn [opens]; [reflexivity|]. rewrite mem_nat_app, IH by lia. destruct (Nat.eqb_spec n d); [lia|]. rewrite orb_false_r. reflexivity. Qed.
Lemma opens_shut cl n d : len (opens cl n) <= len (opens (cl ++ [d]) n) + 1.
Proof.
  induction n as [|n IH]; cbn [opens]; [unfold len; cbn; lia|]. rewrite mem_nat_app. destruct (Nat.eqb_spec n d) as [<-|Ne].
  - rewrite opens_far by lia. rewrite orb_true_r. destruct (mem_nat n cl); cbn [app]; rewrite ?len_cons; lia.
  - rewrite orb_false_r. destruct (mem_nat n cl); cbn [app]; rewrite ?len_cons; lia.
Qed.
Definition nopen (s : ts) : Z := len (opens (h_closed s) (h_made s)).
Lemma lists_opens s : lists_open s (opens (h_closed s) (h_made s)).
Proof. split; [apply opens_NoDup|]. intros c. apply opens_In. Qed.
Lemma lists_len s x : lists_open s x -> len x = nopen s.
Proof.
  intros (N & H). unfold nopen, len. f_equal. apply Nat.le_antisymm; apply NoDup_incl_length; [exact N| |apply opens_NoDup|]; intros c X; [apply opens_In; apply H; exact X|apply H; apply opens_In; exact X].
Qed.
Lemma no_socket_app g h : no_socket (g ++ h) = no_socket g + no_socket h.
Proof. induction g as [|(i & o) g IH]; cbn [no_socket app]; [reflexivity|]. destruct o as [c| |e]; try exact IH. destruct e; try exact IH. lia. Qed.

(** ** With care nothing is lost *)
(** counted and not there (yet, or no longer); or there and no longer counted *)
Definition over1 (p : tpc) : Z := match p with NMake _ | GLock _ | GDecLoad _ | GDecStore _ _ => 1 | PClose _ _ => -1 | _ => 0 end.
Fixpoint over (l : list thr) : Z := match l with [] => 0 | t :: r => over1 (t_pc t) + over r end.
Lemma over_updt i t t' l : nth_error l i = Some t -> over (updt i t' l) = over l + over1 (t_pc t') - over1 (t_pc t).
Proof. revert l. induction i; intros [|z l] H; try discriminate; cbn in *; [injection H as ->; lia|]. specialize (IHi l H). lia. Qed.
(** what a thread holds of the number is what is there; and it does not close the pool *)
Definition good (num : Z) (p : tpc) : Prop :=
  match p with NStore _ v => v <= num + 1 | PDecStore _ _ v | GDecStore _ v => v <= num - 1 | CLoad | CStore _ | CDrain _ | CShut _ => False | _ => True end.
Definition kept (s : ts) : Prop :=
  h_open s = true /\ (forall i t, nth_error (h_threads s) i = Some t -> good (h_num s) (t_pc t)) /\ h_num s <= nopen s + over (h_threads s) + no_socket (h_log s).
Lemma good_quiet n m p : good n p -> changing p = false -> good m p.
Proof. destruct p; cbn; intros H; try discriminate; auto. Qed.

(** one thread goes on and the number stays *)
Lemma kept_move s s' i t t' : kept s -> nth_error (h_threads s) i = Some t -> h_threads s' = updt i t' (h_threads s) -> h_open s' = true -> h_num s' = h_num s -> good (h_num s) (t_pc t') ->
  nopen s + over1 (t_pc t) + no_socket (h_log s) <= nopen s' + over1 (t_pc t') + no_socket (h_log s') -> kept s'.
Proof.
  intros (O & G & K) Hi Ht Ho Hn Hg H. split; [exact Ho|]. split; [|rewrite Ht, (over_updt i t t' _ Hi); lia]. rewrite Hn, Ht. intros j u Hj. destruct (Nat.eq_dec i j) as [<-|Ne].
  - rewrite (nth_updt_same _ _ _ _ Hi) in Hj. injection Hj as <-. exact Hg.
  - rewrite nth_updt_other in Hj by exact Ne. exact (G j u Hj).
Qed.
(** the only thread that changes the number stores it *)
Lemma kept_store s s' i t t' d : kept s -> alone s -> nth_error (h_threads s) i = Some t -> changing (t_pc t) = true -> h_threads s' = updt i t' (h_threads s) -> h_open s' = true ->
  h_num s' <= h_num s + d -> (forall m, good m (t_pc t')) -> nopen s' = nopen s -> no_socket (h_log s') = no_socket (h_log s) -> over1 (t_pc t') = over1 (t_pc t) + d -> kept s'.
Proof.
  intros (O & G & K) A Hi Hc Ht Ho Hn Hg No Ns H. split; [exact Ho|]. split; [|rewrite Ht, (over_updt i t t' _ Hi); lia]. rewrite Ht. intros j u Hj. destruct (Nat.eq_dec i j) as [<-|Ne].
  - rewrite (nth_updt_same _ _ _ _ Hi) in Hj. injection Hj as <-. apply Hg.
  - rewrite nth_updt_other in Hj by exact Ne. apply (good_quiet (h_num s)); [exact (G j u Hj)|]. destruct (changing (t_pc u)) eqn:E; [|reflexivity]. destruct (Ne (A i j t u Hi Hj Hc E)).
Qed.
Lemma nopen_shut c s : nopen s <= nopen (shut c s) + 1.
Proof. apply opens_shut. Qed.
Lemma nopen_made s : closed_made s -> nopen (made_one s) = nopen s + 1.
Proof.
  intros C. unfold nopen. cbn [made_one h_closed h_made opens]. assert (E : mem_nat (h_made s) (h_closed s) = false).
  { destruct (mem_nat (h_made s) (h_closed s)) eqn:E; [|reflexivity]. apply mem_nat_In in E. specialize (C _ E). lia. }
  rewrite E. cbn [app]. rewrite len_cons. lia.
Qed.
Lemma go_kept cfg i b t s : alone s -> closed_made s -> kept s -> nth_error (h_threads s) i = Some t -> kept (go cfg i b t s).
Proof.
  intros A C K Hi. pose proof K as (O & G & _). specialize (G i t Hi). unfold go.
  assert (M : forall p s', h_threads s' = updt i {| t_pc := p; t_lent := t_lent t |} (h_threads s) -> h_open s' = true -> h_num s' = h_num s -> h_closed s' = h_closed s -> h_made s' = h_made s ->
    no_socket (h_log s') = no_socket (h_log s) -> over1 p = over1 (t_pc t) -> good (h_num s) p -> kept s').
  { intros p s' H1 H2 H3 H4 H5 H6 H7 H8. apply (kept_move s s' i t {| t_pc := p; t_lent := t_lent t |}); try assumption. unfold nopen. rewrite H4, H5, H6. cbn [t_pc]. lia. }
  assert (Nl : forall o, no_socket [(i, o)] = match o with OErr OSError => 1 | _ => 0 end) by (intros [c| |e]; [reflexivity|reflexivity|destruct e; reflexivity]).
  destruct (t_pc t) eqn:Ep; try exact K; try (destruct G; fail).
  - rewrite O. eapply M; try reflexivity; try assumption.
  - destruct (h_queue s) as [|c q]; [destruct (block cfg); [destruct (tmo && b); [|exact K]|]|]; (eapply M; [reflexivity|exact O|reflexivity|reflexivity|reflexivity| |reflexivity|exact I]); [|reflexivity|reflexivity].
    unfold fails. cbn [log h_log at_ set_thr]. rewrite no_socket_app, Nl. lia.
  - rewrite O. eapply M; try reflexivity; try assumption.
  - destruct (len (h_queue s) <? min_free cfg); (eapply M; [reflexivity|exact O|reflexivity|reflexivity|reflexivity|reflexivity|reflexivity|exact I]).
  - destruct (lock_free s); [|exact K]. destruct (max_connections cfg <=? h_num s); (eapply M; [reflexivity|exact O|reflexivity|reflexivity|reflexivity| |reflexivity|exact I]); [|reflexivity].
    unfold fails. cbn [log h_log at_ set_thr]. rewrite no_socket_app, Nl. lia.
  - eapply M; [reflexivity|exact O|reflexivity|reflexivity|reflexivity|reflexivity|reflexivity|cbn; lia].
  - eapply (kept_store s _ i t _ 1 K A Hi); [rewrite Ep; reflexivity|reflexivity|exact O|exact G|intros m; exact I|reflexivity|reflexivity|rewrite Ep; reflexivity].
  - destruct b.
    + eapply (kept_move s _ i t _ K Hi); [reflexivity|exact O|reflexivity|exact I|]. unfold fails, nopen. cbn [log h_log h_closed h_made at_ set_thr t_pc]. rewrite no_socket_app, Nl, Ep. cbn. lia.
    + pose proof (nopen_made s C) as Q. destruct w.
      * eapply (kept_move s _ i t _ K Hi); [reflexivity|exact O|reflexivity|exact I|]. unfold gives, nopen in *. cbn [log h_log h_closed h_made set_thr made_one t_pc] in *. rewrite no_socket_app, Nl, Ep, Q. cbn. lia.
      * eapply (kept_move s _ i t _ K Hi); [reflexivity|exact O|reflexivity|exact I|]. unfold nopen in *. cbn [at_ h_log h_closed h_made set_thr made_one t_pc] in *. rewrite Ep, Q. cbn. lia.
  - rewrite O. eapply M; try reflexivity; try assumption.
  - destruct (q_full cfg (h_queue s)); [eapply M; [reflexivity|exact O|reflexivity|reflexivity|reflexivity|reflexivity|reflexivity|exact I]|]. destruct k; (eapply M; [reflexivity|exact O|reflexivity|reflexivity|reflexivity| |reflexivity|exact I]); [|reflexivity].
    cbn [put_over log h_log at_ set_thr set_queue]. rewrite no_socket_app, Nl. lia.
  - destruct (lock_free s); [|exact K]. eapply M; [reflexivity|exact O|reflexivity|reflexivity|reflexivity|reflexivity|reflexivity|exact I].
  - eapply M; [reflexivity|exact O|reflexivity|reflexivity|reflexivity|reflexivity|reflexivity|cbn; lia].
  - eapply (kept_store s _ i t _ (-1) K A Hi); [rewrite Ep; reflexivity|reflexivity|exact O|cbn in G |- *; lia|intros m; exact I|reflexivity|reflexivity|rewrite Ep; reflexivity].
  - pose proof (nopen_shut c s) as Q. destruct k; (eapply (kept_move s _ i t _ K Hi); [reflexivity|exact O|reflexivity|exact I|]); unfold nopen in *; cbn [put_over log at_ h_log h_closed h_made set_thr shut t_pc] in *; rewrite ?no_socket_app, ?Nl, Ep; cbn; lia.
  - destruct (b || mem_nat c (h_closed s)); [eapply M; [reflexivity|exact O|reflexivity|reflexivity|reflexivity|reflexivity|reflexivity|exact I]|].
    eapply (kept_move s _ i t _ K Hi); [reflexivity|exact O|reflexivity|exact I|]. unfold gives, nopen. cbn [log h_log h_closed h_made set_thr t_pc]. rewrite no_socket_app, Nl, Ep. cbn. lia.
  - pose proof (nopen_shut c s) as Q. eapply (kept_move s _ i t _ K Hi); [reflexivity|exact O|reflexivity|exact I|]. unfold nopen in *; cbn [at_ h_log h_closed h_made set_thr shut t_pc] in *. rewrite Ep. cbn. lia.
  - destruct (lock_free s); [|exact K]. eapply M; [reflexivity|exact O|reflexivity|reflexivity|reflexivity|reflexivity|reflexivity|exact I].
  - eapply M; [reflexivity|exact O|reflexivity|reflexivity|reflexivity|reflexivity|reflexivity|cbn; lia].
  - eapply (kept_store s _ i t _ (-1) K A Hi); [rewrite Ep; reflexivity|reflexivity|exact O|cbn in G |- *; lia|intros m; exact I|reflexivity| |rewrite Ep; reflexivity].
    unfold gives. cbn [log h_log set_thr set_lock set_num]. rewrite no_socket_app, Nl. lia.
Qed.
Lemma step_kept cfg o s : one_place s -> alone s -> closed_made s -> kept s -> (forall i, o <> TClose i) -> kept (t_step cfg o s) /\ closed_made (t_step cfg o s).
Proof.
  intros P A C K N. assert (U : kept s /\ closed_made s) by (split; assumption). pose proof K as (O & G & Kn). destruct o; cbn [t_step].
  - destruct (nth_error (h_threads s) i) as [t|] eqn:Hi; [|exact U]. unfold begin. destruct (t_pc t) eqn:Ep; try exact U. split; [|exact C].
    eapply (kept_move s _ i t _ K Hi); [reflexivity|exact O|reflexivity|exact I|]. rewrite Ep. cbn. unfold nopen. cbn. lia.
  - destruct (nth_error (h_threads s) i) as [t|] eqn:Hi; [|exact U]. destruct (t_pc t) eqn:Ep; try exact U. destruct (mem_nat c (t_lent t)); [|exact U]. split; [|exact C].
    eapply (kept_move s _ i t _ K Hi); [reflexivity|exact O|reflexivity|exact I|]. rewrite Ep. cbn. unfold nopen. cbn. lia.
  - destruct (N i eq_refl).
  - destruct (nth_error (h_threads s) i) as [t|] eqn:Hi; [|exact U]. split; [apply go_kept; assumption|apply go_closed_made; assumption].
  - destruct (nth_error (h_threads s) i) as [t|] eqn:Hi; [|exact U]. destruct (nth_error (h_threads s) j) as [u|] eqn:Hj; [|exact U]. destruct (mem_nat c (t_lent t)); [|exact U]. destruct (Nat.eqb_spec i j) as [|Ne]; [exact U|]. cbn [andb negb]. split; [|exact C].
    set (t' := {| t_pc := t_pc t; t_lent := drop c (t_lent t) |}). set (u' := {| t_pc := t_pc u; t_lent := c :: t_lent u |}).
    assert (K1 : kept (set_thr i t' s)). { eapply (kept_move s _ i t _ K Hi); [reflexivity|exact O|reflexivity|exact (G i t Hi)|]. unfold nopen. cbn. lia. }
    assert (Hj' : nth_error (h_threads (set_thr i t' s)) j = Some u) by (cbn; rewrite nth_updt_other by exact Ne; exact Hj).
    eapply (kept_move _ _ j u _ K1 Hj'); [reflexivity|exact O|reflexivity|exact (G j u Hj)|]. unfold nopen. cbn. lia.
Qed.
Lemma fill_num cfg mk k : forall p q, p_num p <= Z.of_nat (p_attempts p) -> fill cfg mk k p = Built q -> p_num q <= Z.of_nat (p_attempts q).
Proof.
  induction k as [|k IH]; intros p q H E; cbn [fill] in E; [injection E as <-; exact H|]. unfold new_conn in E. destruct (max_connections cfg <=? p_num p); [discriminate|]. cbn zeta in E.
  destruct (mk (p_attempts p)); [|discriminate]. cbn [p_free] in E. destruct (p_free p) as [x|]; [|discriminate]. destruct (q_full cfg x); [discriminate|]. apply IH in E; [exact E|]. cbn. lia.
Qed.
Lemma opens_all n : len (opens [] n) = Z.of_nat n.
Proof. induction n as [|n IH]; [reflexivity|]. change (opens [] (S n)) with (n :: opens [] n). rewrite len_cons, IH. lia. Qed.
Lemma kept_init cfg mk p n : build cfg mk = Built p -> kept (t_init p n).
Proof.
  intros Bd. assert (H : p_num p <= Z.of_nat (p_attempts p)) by (refine (fill_num cfg mk (initial cfg) {| p_free := Some []; p_num := 0; p_attempts := 0; p_closed := [] |} p _ Bd); cbn; lia). split; [reflexivity|]. split.
  - intros i t Hi. cbn in Hi. apply nth_error_In, repeat_spec in Hi. subst t. exact I.
  - unfold nopen. cbn [t_init h_num h_closed h_made h_threads h_log no_socket]. rewrite opens_all. assert (Pz : forall k, over (repeat {| t_pc := Idle; t_lent := [] |} k) = 0) by (intros k; induction k; cbn; auto). rewrite Pz. lia.
Qed.
Lemma kept_run cfg mk p n l : build cfg mk = Built p -> one_at_a_time cfg p n l -> never_closed l -> kept (t_run cfg p n l) /\ closed_made (t_run cfg p n l).
Proof.
  intros Bd. induction l as [|o l IH] using rev_ind; intros O N; [split; [apply (kept_init cfg mk p n Bd)|intros c []]|]. destruct IH as (L & C).
  - intros l1 l2 ->. apply (O l1 (l2 ++ [o])). rewrite app_assoc. reflexivity.
  - intros i X. apply (N i). apply in_or_app. left. exact X.
  - rewrite run_snoc. apply step_kept; [apply (run_place cfg mk p n l Bd)|apply (O l [o]); reflexivity|exact C|exact L|]. intros i ->. apply (N i). apply in_or_app. right. left. reflexivity.
Qed.
Lemma over_rest l : (forall i t, nth_error l i = Some t -> t_pc t = Idle) -> over l = 0.
Proof. induction l as [|t l IH]; intros H; [reflexivity|]. cbn. rewrite (H 0%nat t eq_refl), IH; [reflexivity|]. intros i u Hi. exact (H (S i) u Hi). Qed.
Lemma nothing_lost cfg mk p n l x : build cfg mk = Built p -> one_at_a_time cfg p n l -> never_closed l -> nothing_runs (t_run cfg p n l) -> lists_open (t_run cfg p n l) x ->
  h_num (t_run cfg p n l) <= len x + no_socket (h_log (t_run cfg p n l)).
Proof. intros Bd O N R X. destruct (kept_run cfg mk p n l Bd O N) as ((_ & _ & K) & _). rewrite (over_rest _ R) in K. rewrite (lists_len _ x X). lia. Qed.

Lemma updt_updt {A} i (x y : A) l : updt i x (updt i y l) = updt i x l.
Proof. revert l. induction i; intros [|z l]; cbn; congruence. Qed.
(** ** get_conn of a thread that has the pool for itself and finds no free connection makes one *)
Lemma lock_at_rest cfg p n l : nothing_runs (t_run cfg p n l) -> h_lock (t_run cfg p n l) = None.
Proof.
  intros R. destruct (run_lock cfg p n l) as (Ok & Th). destruct (h_lock (t_run cfg p n l)) as [i|] eqn:E; [|reflexivity]. destruct (Th i E) as (t & Hi). pose proof (proj2 (Ok i t Hi) E) as H. rewrite (R i t Hi) in H. discriminate.
Qed.
Definition bare (num : Z) (cl : list nat) (m : nat) (th : list thr) (g : list (nat * outcome)) : ts :=
  {| h_open := true; h_queue := []; h_num := num; h_lock := None; h_closed := cl; h_made := m; h_threads := th; h_log := g |}.
Lemma makes cfg s i t tmo : nth_error (h_threads s) i = Some t -> t_pc t = Idle -> h_open s = true -> h_queue s = [] -> block cfg = false -> h_lock s = None -> h_num s < max_connections cfg ->
  h_log (fold_left (fun s o => t_step cfg o s) (TGet i tmo :: plain i 6) s) = h_log s ++ [(i, OGot (h_made s))].
Proof.
  intros Hi Ep Ho Hq Hb Hl Hn. destruct s as [op q num lk cl mk th g]. cbn [h_open h_queue h_num h_lock h_closed h_made h_threads h_log] in *. subst op q lk. change {| h_open := true; h_queue := []; h_num := num; h_lock := None; h_closed := cl; h_made := mk; h_threads := th; h_log := g |} with (bare num cl mk th g).
  destruct t as [pc L]. cbn [t_pc] in Ep. subst pc. set (at' := fun p => updt i {| t_pc := p; t_lent := L |} th).
  assert (N : forall p, nth_error (at' p) i = Some {| t_pc := p; t_lent := L |}) by (intros u; exact (nth_updt_same i _ _ th Hi)).
  assert (W : forall p p', updt i {| t_pc := p'; t_lent := L |} (at' p) = at' p') by (intros; apply updt_updt).
  assert (E0 : t_step cfg (TGet i tmo) (bare num cl mk th g) = bare num cl mk (at' (GLoad tmo)) g) by (cbn [t_step bare h_threads]; rewrite Hi; reflexivity). clearbody at'.
  assert (E1 : t_step cfg (TStep i false) (bare num cl mk (at' (GLoad tmo)) g) = bare num cl mk (at' (GTake tmo)) g) by (cbn [t_step bare h_threads]; rewrite N; rewrite <- (W (GLoad tmo) (GTake tmo)); reflexivity).
  assert (E2 : t_step cfg (TStep i false) (bare num cl mk (at' (GTake tmo)) g) = bare num cl mk (at' (NCheck ForCaller)) g) by (cbn [t_step bare h_threads]; rewrite N; unfold go; cbn [t_pc bare h_queue]; rewrite Hb; rewrite <- (W (GTake tmo) (NCheck ForCaller)); reflexivity).
  assert (E3 : t_step cfg (TStep i false) (bare num cl mk (at' (NCheck ForCaller)) g) = bare num cl mk (at' (NLoad ForCaller)) g).
  { cbn [t_step bare h_threads]; rewrite N; unfold go; cbn [t_pc lock_free bare h_lock h_num]. destruct (max_connections cfg <=? num) eqn:E; [lia|]. rewrite <- (W (NCheck ForCaller) (NLoad ForCaller)). reflexivity. }
  assert (E4 : t_step cfg (TStep i false) (bare num cl mk (at' (NLoad ForCaller)) g) = bare num cl mk (at' (NStore ForCaller (num + 1))) g) by (cbn [t_step bare h_threads]; rewrite N; rewrite <- (W (NLoad ForCaller) (NStore ForCaller (num + 1))); reflexivity).
  assert (E5 : t_step cfg (TStep i false) (bare num cl mk (at' (NStore ForCaller (num + 1))) g) = bare (num + 1) cl mk (at' (NMake ForCaller)) g) by (cbn [t_step bare h_threads]; rewrite N; rewrite <- (W (NStore ForCaller (num + 1)) (NMake ForCaller)); reflexivity).
  assert (E6 : h_log (t_step cfg (TStep i false) (bare (num + 1) cl mk (at' (NMake ForCaller)) g)) = g ++ [(i, OGot mk)]) by (cbn [t_step bare h_threads]; rewrite N; reflexivity).
  cbn [plain repeat fold_left]. rewrite E0, E1, E2, E3, E4, E5. exact E6.
Qed.
Lemma can_still_make cfg mk p n l x i tmo : build cfg mk = Built p -> one_at_a_time cfg p n l -> never_closed l -> nothing_runs (t_run cfg p n l) -> lists_open (t_run cfg p n l) x ->
  len x + no_socket (h_log (t_run cfg p n l)) < max_connections cfg -> block cfg = false -> h_queue (t_run cfg p n l) = [] -> (i < n)%nat ->
  h_log (t_run cfg p n (l ++ TGet i tmo :: plain i 6)) = h_log (t_run cfg p n l) ++ [(i, OGot (h_made (t_run cfg p n l)))].
Proof.
  intros Bd O N R X Hm Hb Hq Hi. pose proof (nothing_lost cfg mk p n l x Bd O N R X) as Q. destruct (kept_run cfg mk p n l Bd O N) as ((Ho & _) & _).
  destruct (nth_error (h_threads (t_run cfg p n l)) i) as [t|] eqn:Ht; [|apply nth_error_None in Ht; rewrite threads_run in Ht; lia].
  rewrite t_app. apply (makes cfg _ i t tmo Ht (R i t Ht) Ho Hq Hb (lock_at_rest cfg p n l R)). lia.
Qed.

(** ** Without care everything can be lost *)
(** nothing is free, the number is at its limit, and what the threads have is closed *)
Definition empty_handed (p : tpc) : Prop := match p with Idle | GLoad _ | GTake _ | NCheck ForCaller | CLoad | CStore _ | CDrain _ => True | _ => False end.
Definition dead (cfg : config) (s : ts) : Prop :=
  h_queue s = [] /\ max_connections cfg <= h_num s /\ forall i t, nth_error (h_threads s) i = Some t -> empty_handed (t_pc t) /\ incl (t_lent t) (h_closed s).
Definition no_more_got (g h : list (nat * outcome)) : Prop := exists k, h = g ++ k /\ forall i c, ~ In (i, OGot c) k.
Lemma dead_move cfg s s' i t t' : dead cfg s -> nth_error (h_threads s) i = Some t -> h_threads s' = updt i t' (h_threads s) -> h_queue s' = [] -> h_num s' = h_num s -> h_closed s' = h_closed s ->
  empty_handed (t_pc t') -> incl (t_lent t') (h_closed s) -> dead cfg s'.
Proof.
  intros (Q & M & T) Hi Ht Hq Hn Hc He Hl. split; [exact Hq|]. split; [lia|]. intros j u Hj. rewrite Ht in Hj. rewrite Hc. destruct (Nat.eq_dec i j) as [<-|Ne].
  - rewrite (nth_updt_same _ _ _ _ Hi) in Hj. injection Hj as <-. split; assumption.
  - rewrite nth_updt_other in Hj by exact Ne. exact (T j u Hj).
Qed.
Lemma ngot_refl g : no_more_got g g.
Proof. exists []. rewrite app_nil_r. split; [reflexivity|intros i c []]. Qed.
Lemma ngot_err g i e : no_more_got g (g ++ [(i, OErr e)]).
Proof. exists [(i, OErr e)]. split; [reflexivity|]. intros j c [X|[]]. discriminate. Qed.
Lemma ngot_done g i : no_more_got g (g ++ [(i, ODone)]).
Proof. exists [(i, ODone)]. split; [reflexivity|]. intros j c [X|[]]. discriminate. Qed.
Lemma dead_step cfg o s : dead cfg s -> (forall i c, o = TPut i c -> ~ In c (h_closed s)) -> dead cfg (t_step cfg o s) /\ no_more_got (h_log s) (h_log (t_step cfg o s)).
Proof.
  intros D N. pose proof D as (Q & M & T). assert (U : dead cfg s /\ no_more_got (h_log s) (h_log s)) by (split; [exact D|apply ngot_refl]). destruct o; cbn [t_step].
  - destruct (nth_error (h_threads s) i) as [t|] eqn:Hi; [|exact U]. unfold begin. destruct (t_pc t) eqn:Ep; try exact U. split; [|apply ngot_refl].
    eapply (dead_move cfg s _ i t _ D Hi); [reflexivity|exact Q|reflexivity|reflexivity|exact I|exact (proj2 (T i t Hi))].
  - destruct (nth_error (h_threads s) i) as [t|] eqn:Hi; [|exact U]. destruct (t_pc t) eqn:Ep; try exact U. destruct (mem_nat c (t_lent t)) eqn:Em; [|exact U].
    destruct (N i c eq_refl). apply (proj2 (T i t Hi)). apply mem_nat_In. exact Em.
  - destruct (nth_error (h_threads s) i) as [t|] eqn:Hi; [|exact U]. unfold begin. destruct (t_pc t) eqn:Ep; try exact U. split; [|apply ngot_refl].
    eapply (dead_move cfg s _ i t _ D Hi); [reflexivity|exact Q|reflexivity|reflexivity|exact I|exact (proj2 (T i t Hi))].
  - destruct (nth_error (h_threads s) i) as [t|] eqn:Hi; [|exact U]. destruct (T i t Hi) as (He & Hl). unfold go. destruct (t_pc t) eqn:Ep; try (destruct He; fail); try exact U.
    + destruct (h_open s); (split; [eapply (dead_move cfg s _ i t _ D Hi); [reflexivity|exact Q|reflexivity|reflexivity|exact I|exact Hl]|]); [apply ngot_refl|apply ngot_err].
    + rewrite Q. destruct (block cfg); [destruct (tmo && b); [|exact U]|]; (split; [eapply (dead_move cfg s _ i t _ D Hi); [reflexivity|exact Q|reflexivity|reflexivity|exact I|exact Hl]|]); [apply ngot_err|apply ngot_refl].
    + destruct (lock_free s); [|exact U]. destruct (max_connections cfg <=? h_num s) eqn:E; [|lia].
      split; [eapply (dead_move cfg s _ i t _ D Hi); [reflexivity|exact Q|reflexivity|reflexivity|exact I|exact Hl]|apply ngot_err].
    + split; [eapply (dead_move cfg s _ i t _ D Hi); [reflexivity|exact Q|reflexivity|reflexivity|exact I|exact Hl]|apply ngot_refl].
    + split; [eapply (dead_move cfg s _ i t _ D Hi); [reflexivity|exact Q|reflexivity|reflexivity|exact I|exact Hl]|apply ngot_refl].
    + rewrite Q. destruct was; (split; [eapply (dead_move cfg s _ i t _ D Hi); [reflexivity|exact Q|reflexivity|reflexivity|exact I|exact Hl]|]); [apply ngot_done|apply ngot_err].
  - destruct (nth_error (h_threads s) i) as [t|] eqn:Hi; [|exact U]. destruct (nth_error (h_threads s) j) as [u|] eqn:Hj; [|exact U]. destruct (mem_nat c (t_lent t)) eqn:Em; [|exact U]. destruct (Nat.eqb_spec i j) as [|Ne]; [exact U|]. cbn [andb negb]. split; [|apply ngot_refl].
    apply mem_nat_In in Em. set (t' := {| t_pc := t_pc t; t_lent := drop c (t_lent t) |}). set (u' := {| t_pc := t_pc u; t_lent := c :: t_lent u |}).
    assert (D1 : dead cfg (set_thr i t' s)).
    { eapply (dead_move cfg s _ i t _ D Hi); [reflexivity|exact Q|reflexivity|reflexivity|exact (proj1 (T i t Hi))|]. intros x X. apply (proj2 (T i t Hi)). cbn in X. unfold drop in X. apply in_remove in X. tauto. }
    assert (Hj' : nth_error (h_threads (set_thr i t' s)) j = Some u) by (cbn; rewrite nth_updt_other by exact Ne; exact Hj).
    eapply (dead_move cfg _ _ j u _ D1 Hj'); [reflexivity|exact Q|reflexivity|reflexivity|exact (proj1 (T j u Hj))|]. intros x [<-|X]; [exact (proj2 (T i t Hi) c Em)|exact (proj2 (T j u Hj) x X)].
Qed.
Lemma dead_for_ever cfg p n l m : dead cfg (t_run cfg p n l) -> no_closed_back cfg p n (l ++ m) -> dead cfg (t_run cfg p n (l ++ m)) /\ no_more_got (h_log (t_run cfg p n l)) (h_log (t_run cfg p n (l ++ m))).
Proof.
  intros D. induction m as [|o m IH] using rev_ind; intros N; [rewrite app_nil_r; split; [exact D|apply ngot_refl]|]. rewrite app_assoc in N |- *. destruct IH as (D1 & k & E & Hk).
  - intros l1 i c l2 El. apply (N l1 i c (l2 ++ [o])). rewrite El, <- app_assoc. reflexivity.
  - rewrite run_snoc. destruct (dead_step cfg o _ D1) as (D2 & k' & E' & Hk'); [intros i c ->; apply (N (l ++ m) i c []); reflexivity|]. split; [exact D2|]. exists (k ++ k'). split; [rewrite E', E, app_assoc; reflexivity|].
    intros i c X. apply in_app_or in X as [X|X]; [exact (Hk i c X)|exact (Hk' i c X)].
Qed.

(** three times the number is lost *)
Definition three_built : pool := {| p_free := Some [0%nat]; p_num := 1; p_attempts := 1; p_closed := [] |}.
Definition drops (i : nat) : list tstep := TGet i false :: until_dropped i 4.
Definition first_two : list tstep := (TGet 1 false :: plain 1 5) ++ (TGet 1 false :: plain 1 6).
Definition first_loss : list tstep := (TGet 0 false :: plain 0 3) ++ (TPut 1 0 :: plain 1 2) ++ (TPut 1 1 :: plain 1 4) ++ plain 0 1 ++ plain 1 1 ++ plain 0 1 ++ plain 1 1 ++ plain 0 1 ++ (TPut 0 2 :: plain 0 6).
Definition second_loss : list tstep :=
  (TGet 1 false :: plain 1 2) ++ (TGet 0 false :: plain 0 3) ++ until_dropped 1 2 ++ plain 1 3 ++ plain 0 1 ++ plain 1 1 ++ plain 0 2 ++ (TPut 0 3 :: plain 0 2) ++ drops 0 ++ plain 0 4.
Definition third_loss : list tstep :=
  (TGet 0 false :: plain 0 3) ++ (TGet 1 false :: plain 1 3) ++ plain 0 3 ++ (TPut 0 4 :: plain 0 2) ++ drops 0 ++ plain 0 3 ++ plain 1 1 ++ plain 0 1 ++ plain 1 2 ++ (TPut 1 5 :: plain 1 2) ++ drops 1 ++ plain 1 4.
Definition all_lost : list tstep := first_two ++ first_loss ++ second_loss ++ third_loss.
Lemma three_is mk p : build three mk = Built p -> p = three_built.
Proof. unfold build, three. cbn. destruct (mk 0%nat); cbn; intros H; [injection H as <-; reflexivity|discriminate]. Qed.
(** does no step of the list give back a closed connection? *)
Fixpoint careful (cfg : config) (s : ts) (l : list tstep) : bool :=
  match l with [] => true | o :: r => match o with TPut _ c => negb (mem_nat c (h_closed s)) | _ => true end && careful cfg (t_step cfg o s) r end.
Lemma careful_ok cfg : forall l s l1 i c l2, careful cfg s l = true -> l = l1 ++ TPut i c :: l2 -> ~ In c (h_closed (fold_left (fun s o => t_step cfg o s) l1 s)).
Proof.
  induction l as [|o l IH]; intros s [|o1 l1] i c l2 H E; try discriminate; cbn [app] in E; injection E as -> ->; cbn [careful] in H; apply andb_true_iff in H as (H1 & H2).
  - intros X. apply mem_nat_In in X. cbn in X. rewrite X in H1. discriminate.
  - cbn [fold_left]. exact (IH _ l1 i c l2 H2 eq_refl).
Qed.
Definition lost_state : ts :=
  {| h_open := true; h_queue := []; h_num := 3; h_lock := None; h_closed := [1; 2; 0; 3; 4; 5]%nat; h_made := 6;
     h_threads := [{| t_pc := Idle; t_lent := [4; 3]%nat |}; {| t_pc := Idle; t_lent := [5; 0]%nat |}];
     h_log := [(1, OGot 0); (1, OGot 1); (1, ODone); (1, ODone); (0, OGot 2); (0, ODone); (1, OGot 0); (0, OGot 3); (0, ODone); (0, OGot 3); (0, OGot 4); (0, ODone); (0, OGot 4); (1, OGot 5); (1, ODone); (1, OGot 5)]%nat |}.
Lemma lost_is : t_run three three_built 2 all_lost = lost_state.
Proof. vm_compute. reflexivity. Qed.
Lemma lost_dead : dead three lost_state.
Proof.
  split; [reflexivity|]. split; [cbn; lia|]. intros [|[|[|i]]] t H; try discriminate; injection H as <-; (split; [exact I|]); intros x [<-|[<-|[]]]; cbn; tauto.
Qed.
Definition closes (o : tstep) : bool := match o with TClose _ => true | _ => false end.
Lemma lost_for_ever mk p : build three mk = Built p -> exists l, never_closed l /\ no_closed_back three p 2 l /\ nothing_runs (t_run three p 2 l) /\ no_socket (h_log (t_run three p 2 l)) = 0 /\
  (forall c, ~ open_now (t_run three p 2 l) c) /\
  forall m, no_closed_back three p 2 (l ++ m) -> exists k, h_log (t_run three p 2 (l ++ m)) = h_log (t_run three p 2 l) ++ k /\ forall i c, ~ In (i, OGot c) k.
Proof.
  intros Bd. rewrite (three_is mk p Bd). exists all_lost. split.
  - intros i X. assert (H : existsb closes all_lost = true) by (apply existsb_exists; exists (TClose i); split; [exact X|reflexivity]). vm_compute in H. discriminate.
  - split.
    + intros l1 i c l2 E. apply (careful_ok three all_lost (t_init three_built 2) l1 i c l2); [vm_compute; reflexivity|exact E].
    + rewrite lost_is. split; [intros [|[|[|i]]] t H; try discriminate; injection H as <-; reflexivity|]. split; [reflexivity|]. split.
      * intros c (A & B). apply B. cbn in A |- *. lia.
      * intros m N. pose proof lost_dead as D. rewrite <- lost_is in D. rewrite <- lost_is. exact (proj2 (dead_for_ever three three_built 2 all_lost m D N)).
Qed.

(** ** Checking a run *)
Fixpoint busy1 (l : list thr) : nat := match l with [] => O | t :: r => if changing (t_pc t) then S (busy1 r) else busy1 r end.
Lemma busy1_in l : forall i t, nth_error l i = Some t -> changing (t_pc t) = true -> (1 <= busy1 l)%nat.
Proof. induction l as [|x l IH]; intros [|i] t H C; try discriminate; cbn in *; [injection H as <-; rewrite C; lia|]. specialize (IH i t H C). destruct (changing (t_pc x)); lia. Qed.
Lemma busy1_alone l : (busy1 l <= 1)%nat -> forall i j t u, nth_error l i = Some t -> nth_error l j = Some u -> changing (t_pc t) = true -> changing (t_pc u) = true -> i = j.
Proof.
  induction l as [|x l IH]; intros H [|i] [|j] t u Hi Hj A B; try discriminate; cbn in *; [reflexivity| | |].
  - injection Hi as ->. rewrite A in H. pose proof (busy1_in l j u Hj B). lia.
  - injection Hj as ->. rewrite B in H. pose proof (busy1_in l i t Hi A). lia.
  - f_equal. apply (IH ltac:(destruct (changing (t_pc x)); lia) i j t u Hi Hj A B).
Qed.
Fixpoint takes_turns (cfg : config) (s : ts) (l : list tstep) : bool :=
  Nat.leb (busy1 (h_threads s)) 1 && match l with [] => true | o :: r => takes_turns cfg (t_step cfg o s) r end.
Lemma takes_turns_ok cfg p n l : takes_turns cfg (t_init p n) l = true -> one_at_a_time cfg p n l.
Proof.
  intros H l1 l2 ->. unfold t_run. generalize dependent (t_init p n). induction l1 as [|o l1 IH]; intros s H; cbn [app takes_turns] in H; [|apply andb_true_iff in H as (_ & H); exact (IH _ H)].
  assert (Q : Nat.leb (busy1 (h_threads s)) 1 = true) by (destruct l2; cbn [takes_turns] in H; apply andb_true_iff in H; tauto). apply Nat.leb_le in Q. intros i j t u. exact (busy1_alone _ Q i j t u).
Qed.

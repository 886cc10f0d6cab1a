(** Lemmas behind C131. *)
From Coq Require Import Lia ZifyBool Strings.String.
From Verif Require Import PyBase L_PyBase PyDict L_PyDict PyInt M_SofaHeader L_SofaHeader M_Package M_RpcId M_Trace S_Wire
  M_AioServer S_Server L_AioServer L_AioServer2 L_AioServer3 L_AioServer4 L_AioServer5 L_AioServer6 L_AioServer7 L_AioServer8 L_AioServer9 M_SockServer S_SockServer L_SockServer M_Service S_Service.
Open Scope Z_scope.

Lemma has_iff m l : has m l = true <-> In m l.
Proof. unfold has. rewrite existsb_exists. split; [intros (x & H & E); apply pystr_eqb_eq in E; subst; exact H|intros H; exists m; split; [exact H|apply pystr_eqb_refl]]. Qed.
Lemma has_not m l : has m l = false <-> ~ In m l.
Proof. rewrite <- has_iff. destruct (has m l); split; congruence. Qed.
Lemma eqb_not a b : pystr_eqb a b = false <-> a <> b.
Proof. rewrite <- pystr_eqb_eq. destruct (pystr_eqb a b); split; congruence. Qed.

(** ** What a name finds *)
Lemma getattr_published k m : published k m -> getattr k m = Some AMethod.
Proof. intros (A & B & C). unfold getattr. assert (E : has m (str "ctx" :: k_variables k) = false) by (apply has_not; intros [H|H]; congruence). rewrite E. apply has_iff in A. rewrite A. reflexivity. Qed.
Lemma getattr_names k m : (exists a, getattr k m = Some a) <-> published k m \/ incidental k m.
Proof.
  unfold getattr, published, incidental. destruct (has m (str "ctx" :: k_variables k)) eqn:E1.
  { apply has_iff in E1 as [<-|H]; (split; [intros _; right|intros _; exists AVariable]; auto). }
  apply has_not in E1. assert (N1 : m <> str "ctx") by (intros ->; apply E1; left; reflexivity). assert (N2 : ~ In m (k_variables k)) by (intros H; apply E1; right; exact H).
  destruct (has m (k_methods k)) eqn:E2; [apply has_iff in E2; split; [auto|eauto]|]. apply has_not in E2.
  destruct (pystr_eqb m (str "__init__")) eqn:E3; [apply pystr_eqb_eq in E3; split; [auto 6|eauto]|]. apply eqb_not in E3.
  destruct (has m object_names) eqn:E4; [apply has_iff in E4; split; [auto 6|eauto]|]. apply has_not in E4. split; [intros (a & H); discriminate|]. intros [(H & _)|[H|[H|(_ & [H|H])]]]; contradiction.
Qed.
Lemma getattr_none k m : getattr k m = None <-> ~ published k m /\ ~ incidental k m.
Proof. pose proof (getattr_names k m) as G. destruct (getattr k m) as [a|]; split; intros H; [discriminate| |split; intros K; destruct (proj2 G ltac:(auto)); discriminate|reflexivity]. destruct (proj1 G ltac:(eauto)); destruct H; contradiction. Qed.
Lemma incidental_called k m body c : incidental k m -> (exists a, getattr k m = Some a) /\ (called k m body c = Some (Raise TypeError) \/ silent k m).
Proof.
  intros I. split; [apply getattr_names; auto|]. unfold called, getattr, silent. destruct (has m (str "ctx" :: k_variables k)) eqn:E1; [auto|]. apply has_not in E1.
  assert (N1 : m <> str "ctx") by (intros ->; apply E1; left; reflexivity). assert (N2 : ~ In m (k_variables k)) by (intros H; apply E1; right; exact H).
  destruct I as [I|[I|(N3 & I)]]; [contradiction..|]. apply has_not in N3. rewrite N3. apply has_not in N3. destruct (pystr_eqb m (str "__init__")) eqn:E3; [apply pystr_eqb_eq in E3; right; subst m; split; [exact N1|]; split; [exact N2|]; split; [exact N3|left; reflexivity]|].
  apply eqb_not in E3. destruct I as [I|I]; [contradiction|]. apply has_iff in I. rewrite I. destruct (pystr_eqb m (str "__class__")) eqn:E4; [apply pystr_eqb_eq in E4; right; subst m; split; [exact N1|]; split; [exact N2|]; split; [exact N3|right; left; reflexivity]|].
  destruct (has m not_implemented) eqn:E5; [|auto]. apply has_iff in E5. right. split; [exact N1|]. split; [exact N2|]. split; [exact N3|]. right. right. exact E5.
Qed.
Lemma silent_called k m body c : silent k m -> exists v, called k m body c = Some (Ok v) /\ forall b, v <> PBytes b.
Proof.
  intros (N1 & N2 & N3 & H). unfold called, getattr. assert (E : has m (str "ctx" :: k_variables k) = false) by (apply has_not; intros [K|K]; congruence). rewrite E. apply has_not in N3. rewrite N3. clear - H.
  repeat (destruct H as [<-|H]; [eexists; split; [vm_compute; reflexivity|]; discriminate|]). destruct H.
Qed.
Lemma silent_incidental k m : silent k m -> incidental k m.
Proof.
  intros (N1 & N2 & N3 & H). right. right. split; [exact N3|]. destruct H as [<-|H]; [left; reflexivity|right]. apply has_iff. clear - H.
  repeat (destruct H as [<-|H]; [vm_compute; reflexivity|]). destruct H.
Qed.
Lemma offers_class reg sv k m : dget sv reg = Some (service_of k) -> k_raises k = None -> published k m \/ incidental k m -> offers reg sv m.
Proof. intros D R P. exists (service_of k). split; [exact D|]. split; [exact R|]. apply getattr_names in P as (a & Ha). cbn. rewrite Ha. reflexivity. Qed.
Lemma unknown_class reg sv k m : dget sv reg = Some (service_of k) -> k_raises k = None -> ~ published k m -> ~ incidental k m -> unknown reg sv m.
Proof. intros D R P I. right. exists (service_of k). split; [exact D|]. split; [exact R|]. cbn. rewrite (proj2 (getattr_none k m) (conj P I)). reflexivity. Qed.

(** ** The asyncio listener *)
Lemma reg_step U o s : v_reg (srun_step U o s) = v_reg s \/ exists n x, o = Register n x /\ v_reg (srun_step U o s) = dset n x (v_reg s).
Proof.
  assert (Tf : forall i id st s, v_reg (tfail i id st s) = v_reg s) by (intros; unfold tfail; destruct (fail_bytes _ _); reflexivity).
  destruct o as [name sv|bs| | | |ok|i fresh|i ok|j|j r|i|i]; cbn [srun_step]; try (left; reflexivity); [right; eauto|left..].
  - unfold sread, starved, found, rfail. destruct (v_rd s); cbv zeta; repeat match goal with |- context[match ?x with _ => _ end] => destruct x end; reflexivity.
  - unfold sdrain, swrite, swrite_eof. destruct (v_rd s) as [|h|h c|h c sofa|bs| |st| | |]; try reflexivity; [destruct ok; [destruct (v_closed s)|]; reflexivity|].
    cbv zeta. destruct ok; [|reflexivity]. destruct (last_id s) as [id|]; [|reflexivity]. destruct (fail_bytes id st); [|reflexivity]. destruct (v_closed s); reflexivity.
  - destruct (nth_error (v_tasks s) i) as [t|]; [|reflexivity]. destruct (a_pc t); try reflexivity. destruct (a_req t) as [q|]; [|reflexivity]. unfold dispatch.
    destruct (service_name (q_header q)); [|apply Tf]. destruct (method_name (q_header q)); [|apply Tf].
    destruct (extract U (v_trace s) (q_header q) fresh) as (tr, x) eqn:Ex.
    destruct x as [c|e]; [|reflexivity]. cbv zeta. destruct (find_method _ _ _) as [y|e]; [destruct (q_type q =? PTYPE_ONEWAY); reflexivity|]. destruct e; first [reflexivity|rewrite Tf; reflexivity].
  - unfold swrite. destruct (nth_error (v_tasks s) i) as [t|]; [|reflexivity]. destruct (a_pc t); try reflexivity; [destruct ok; [destruct (v_closed s); reflexivity|reflexivity]].
  - destruct (nth_error (v_jobs s) j) as [b|]; [|reflexivity]. destruct (j_state b); reflexivity.
  - destruct (nth_error (v_jobs s) j) as [b|]; [|reflexivity]. destruct (j_state b); reflexivity.
  - destruct (nth_error (v_tasks s) i) as [t|]; [|reflexivity]. destruct (a_pc t); try reflexivity. destruct (a_req t) as [q|]; [|reflexivity]. destruct (nth_error (v_jobs s) j) as [b|]; [|reflexivity].
    destruct (j_state b); try reflexivity. unfold conclude. destruct r as [v|e]; [destruct (truthy v); [destruct (result_bytes v (q_id q))|]; reflexivity|destruct e; apply Tf].
  - destruct (nth_error (v_tasks s) i) as [t|]; [|reflexivity]. destruct (a_pc t); try reflexivity. destruct (a_req t) as [q|]; [|reflexivity]. destruct (0 <? q_timeout q); [|reflexivity]. rewrite Tf.
    destruct (nth_error (v_jobs s) j) as [b|]; [|reflexivity]. destruct (j_state b); reflexivity.
Qed.
Definition reg_from (ks : list pyclass) (s : sst) : Prop := forall n x, dget n (v_reg s) = Some x -> exists k, In k ks /\ x = service_of k.
Definition jobs_from_classes (ks : list pyclass) (s : sst) : Prop := forall j b, nth_error (v_jobs s) j = Some b -> exists k, In k ks /\ (published k (j_method b) \/ incidental k (j_method b)).
Lemma classes_step U ks o s : stream_ok s -> tasks_ok s -> (forall n x, o = Register n x -> exists k, In k ks /\ x = service_of k) -> reg_from ks s -> jobs_from_classes ks s ->
  reg_from ks (srun_step U o s) /\ jobs_from_classes ks (srun_step U o s).
Proof.
  intros I T O R C. split.
  - destruct (reg_step U o s) as [E|(n & x & Eo & E)]; intros n' x' H; rewrite E in H; [exact (R n' x' H)|]. destruct (eq_dec n' n) as [->|N]; [rewrite dget_dset_same in H; injection H as <-; exact (O n x Eo)|]. rewrite dget_dset_other in H by congruence. exact (R n' x' H).
  - pose proof (step_eff U o s I T) as E. remember (srun_step U o s) as s1 eqn:E1. clear E1.
    assert (K : forall s', map jid (v_jobs s') = map jid (v_jobs s) -> jobs_from_classes ks s').
    { intros s' J j b N. destruct (jids_nth s s' j b J N) as (b0 & N0 & Eb). unfold jid in Eb. injection Eb as Eb1 Eb2 Eb3 Eb4 Eb5. rewrite Eb3. exact (C j b0 N0). }
    destruct E as [o|name sv|bs| | |s' E|ok s' E|o i s' E Eo|o s' E Eo]; try (apply K; reflexivity).
    + apply K. pose proof (rstep_same _ _ E) as (_ & _ & _ & Hj & _). rewrite Hj. reflexivity.
    + apply K. apply deff_same in E as (_ & _ & _ & _ & _ & _ & _ & Hj & _). rewrite Hj. reflexivity.
    + destruct (teff_jobs U s i s' E) as [(H & _)|(t & q & sv & m & c & Nt & Rq & Pt & N1 & N2 & Of & Hj & Ht)]; [apply K; exact H|].
      intros j b N. rewrite Hj in N. destruct (Nat.lt_ge_cases j (List.length (v_jobs s))) as [L|L]; [rewrite nth_error_app1 in N by exact L; exact (C j b N)|].
      rewrite nth_error_app2 in N by exact L. destruct (j - List.length (v_jobs s))%nat as [|j0]; cbn in N; [injection N as <-|destruct j0; discriminate]. cbn [new_job j_method].
      destruct Of as (x & Dx & Rx & Mx). destruct (R sv x Dx) as (k & Hk & ->). exists k. split; [exact Hk|]. apply getattr_names. cbn in Mx. destruct (getattr k m) as [a|]; [eauto|discriminate].
    + apply K. destruct E; apply set_jstate_jids.
Qed.
Lemma classes_run U ks reg tr l : only_classes ks reg l -> reg_from ks (srun U reg tr l) /\ jobs_from_classes ks (srun U reg tr l).
Proof.
  induction l as [|o l IH] using rev_ind; intros (A & B); [split; [exact A|intros j b H; destruct j; discriminate]|]. rewrite srun_app. cbn [sfrom fold_left]. destruct (good_run U reg tr l) as ((I & T & _) & _).
  destruct IH as (R & C); [split; [exact A|intros n x H; apply (B n x); apply in_or_app; left; exact H]|]. apply classes_step; auto. intros n x E. apply (B n x). apply in_or_app. right. left. exact E.
Qed.
Lemma executed_names U ks reg tr l : only_classes ks reg l -> forall n sv m b, In (n, sv, m, b) (executions U (sinit reg tr) l) -> exists k, In k ks /\ (published k m \/ incidental k m).
Proof.
  intros O n sv m b H. destruct (executions_job U l _ n sv m b (good_init reg tr) H) as (j & x & Nx & _ & _ & E & _). change (sfrom U (sinit reg tr) l) with (srun U reg tr l) in Nx.
  destruct (proj2 (classes_run U ks reg tr l O) j x Nx) as (k & Hk & P). exists k. rewrite E in P. auto.
Qed.
(** a name that objects have anyway is looked up, called, and what comes of it is not NO_PROCESSOR *)
Lemma incidental_runs U reg tr l1 l2 i n q fresh sv m k : let l := l1 ++ Dispatch i fresh :: l2 in answering (srun U reg tr l1) i n (Some q) TStart -> traceable U (srun U reg tr l1) q fresh ->
  names_service (q_header q) sv -> names_method (q_header q) m -> dget sv (v_reg (srun U reg tr l1)) = Some (service_of k) -> k_raises k = None -> incidental k m ->
  v_closed (srun U reg tr l) = false ->
  (exists b, In b (v_jobs (srun U reg tr l)) /\ j_frame b = n /\ j_service b = sv /\ j_method b = m /\ j_body b = q_body q) /\
  (q_type q <> 2 -> ~ In (Expire i) l2 -> ~ In (Drain i false) l2 -> forall c r, called k m (q_body q) c = Some r -> ended_with (srun U reg tr l) n r ->
   (silent k m /\ answers n (srun U reg tr l) = []) \/
   (exists bs, response bs (q_id q) 2 3 [] /\ (answers n (srun U reg tr l) = [] \/ answers n (srun U reg tr l) = [bs]) /\ answers n (srun U reg tr (l ++ [Result i; Drain i true])) = [bs])).
Proof.
  intros l An Tr Ns Nm D R I Cl. pose proof (offers_class _ sv k m D R (or_intror I)) as Of. pose proof (good_run U reg tr l1) as G1. pose proof (closed_prefix U reg tr l1 _ Cl) as Cl1. split.
  - destruct Tr as (tr' & c & Ex). destruct (dispatch_submits U _ i n q fresh sv m G1 Cl1 An Ns Nm Of tr' c Ex) as (J & _). pose proof (good_step U (Dispatch i fresh) _ G1) as G2.
    assert (N1 : nth_error (v_jobs (srun_step U (Dispatch i fresh) (srun U reg tr l1))) (List.length (v_jobs (srun U reg tr l1))) = Some (new_job n q sv m c)) by (rewrite J, nth_error_app2, Nat.sub_diag by lia; reflexivity).
    destruct (jobs_from U l2 _ G2 _ _ N1) as (b' & N' & Ej & _). apply jid_inv in Ej as (J1 & J2 & J3 & J4 & J5). exists b'. split; [|auto 6].
    unfold l. rewrite srun_app. cbn [sfrom fold_left] in *. exact (nth_error_In _ _ N').
  - intros Ty Ne Nd c r Ca En. assert (Sb : submitted U (srun U reg tr l1) i n q fresh) by (split; [exact An|]; split; [exact Tr|]; exists sv, m; auto).
    destruct (incidental_called k m (q_body q) c I) as (_ & [E|Si]).
    + right. rewrite E in Ca. injection Ca as <-. exact (exception_answer U reg tr l1 l2 i n q fresh TypeError Sb Ty Cl Ne Nd En).
    + left. split; [exact Si|]. destruct (silent_called k m (q_body q) c Si) as (v & E & T); rewrite E in Ca; injection Ca as <-. destruct (truthy v) eqn:Tv; [|exact (empty_unanswered U reg tr l1 l2 i n q fresh v Sb Ty Cl Ne Nd En Tv)].
      destruct (result_answer U reg tr l1 l2 i n q fresh _ Sb Ty Cl Ne Nd En) as [(bs & C & _)|(_ & A)]; [|exact A]. unfold concluded in C. rewrite Tv in C. destruct C as [(b & bs' & Ev & _)|(_ & C)]; [destruct (T b Ev)|discriminate].
Qed.

(** ** The threaded listener *)
Lemma dget_map_class sv l : dget sv (registry_of l) = option_map service_of (dget sv l).
Proof. induction l as [|(n, k) l IH]; [reflexivity|]. cbn [registry_of map dget fst snd]. destruct (eq_dec sv n); [reflexivity|exact IH]. Qed.
Lemma incidental_thread fuel U ks tr fresh w net q sv m k tr' c : (1 <= fuel)%nat -> begins (received net) (IRequest q) -> names_service (q_header q) sv -> names_method (q_header q) m ->
  extract U tr (q_header q) fresh = (tr', Ok c) -> dget sv ks = Some k -> k_raises k = None -> incidental k m ->
  let o := handle fuel U (registry_of ks) tr fresh (methods_of ks) w net in o_calls o = [(sv, m, q_body q, c)] /\ o_sent o = [].
Proof.
  intros F B Ns Nm Ex D R I. pose proof (begins_reacts fuel U (registry_of ks) tr fresh (methods_of ks) w net _ F B) as E. cbn [reacts] in E. cbv zeta. rewrite E. clear E. unfold rest_of.
  apply service_name_iff in Ns. apply method_name_iff in Nm. assert (Of : offers (registry_of ks) sv m) by (apply (offers_class _ _ k); [rewrite dget_map_class, D; reflexivity|exact R|right; exact I]).
  rewrite Ns, Nm, Ex, (find_method_offers _ _ _ Of). assert (Em : methods_of ks sv m (q_body q) c = called k m (q_body q) c) by (unfold methods_of; rewrite D; reflexivity). rewrite Em.
  destruct (incidental_called k m (q_body q) c I) as (_ & [E|Si]); [rewrite E; split; reflexivity|]. destruct (silent_called k m (q_body q) c Si) as (v & E & T). rewrite E.
  destruct (result_bytes v (q_id q)) as [bs|e] eqn:Er; [|split; reflexivity]. apply result_bytes_inv in Er as (x & Ev & _). destruct (T x Ev).
Qed.
Lemma unknown_thread fuel U ks tr fresh w net q sv m k tr' c : (1 <= fuel)%nat -> begins (received net) (IRequest q) -> names_service (q_header q) sv -> names_method (q_header q) m ->
  extract U tr (q_header q) fresh = (tr', Ok c) -> dget sv ks = Some k -> k_raises k = None -> ~ published k m -> ~ incidental k m ->
  o_calls (handle fuel U (registry_of ks) tr fresh (methods_of ks) w net) = [].
Proof.
  intros F B Ns Nm Ex D R P I. rewrite (proj1 (sock_failures fuel U (registry_of ks) tr fresh (methods_of ks) w net q F B sv m tr' c Ns Nm Ex)); [reflexivity|].
  apply (unknown_class _ _ k); [rewrite dget_map_class, D; reflexivity|exact R|exact P|exact I].
Qed.
Lemma refused_name U reg tr l1 l2 i n q fresh sv m k : let s1 := srun U reg tr l1 in answering s1 i n (Some q) TStart ->
  v_closed (srun U reg tr (l1 ++ Dispatch i fresh :: l2)) = false -> ~ In (Drain i false) l2 ->
  names_service (q_header q) sv -> names_method (q_header q) m -> traceable U s1 q fresh -> dget sv (v_reg s1) = Some (service_of k) -> k_raises k = None -> ~ published k m -> ~ incidental k m ->
  exists bs, response bs (q_id q) 2 6 [] /\ answered_by U reg tr (l1 ++ Dispatch i fresh :: l2) i n bs.
Proof. intros s1 A Cl Nd Ns Nm Tr D R P I. apply (unknown_answer U reg tr l1 l2 i n q fresh sv m A Cl Nd Ns Nm Tr). left. exact (unknown_class _ sv k m D R P I). Qed.

(** Lemmas behind C132. *)
From Coq Require Import Lia Strings.String.
From Verif Require Import PyBase L_PyBase PyDict L_PyDict M_AioServer L_AioServer2 M_Service L_Service M_Objects S_Objects.
Open Scope nat_scope.

Lemma o_snoc l o : o_run (l ++ [o]) = o_step o (o_run l).
Proof. unfold o_run. rewrite fold_left_app. reflexivity. Qed.

(** ** Registration *)
Definition fac (k : pycls) (a : list value) (kw : dict pystr value) : factory := if negb (is_empty a) || negb (is_empty kw) then FWrapped k a kw else FClass k.
Lemma fac_arguments k a kw ctx : arguments (fac k a kw) ctx = (k, ctx :: a, kw).
Proof. unfold fac. destruct a; [destruct kw|]; reflexivity. Qed.
Lemma acceptable_iff kw : existsb (fun x => has x own_parameters) (keys kw) = false <-> acceptable kw.
Proof.
  unfold acceptable. split.
  - intros E x Hx. assert (N : ~ In x own_parameters) by (intros K; apply has_iff in K; rewrite <- not_true_iff_false in E; apply E, existsb_exists; exists x; auto).
    split; [|split]; intros ->; apply N; [left|right; left|right; right; left]; reflexivity.
  - intros A. apply not_true_iff_false. rewrite existsb_exists. intros (x & Hx & K). apply has_iff in K. destruct (A x Hx) as (N1 & N2 & N3). destruct K as [K|[K|[K|[]]]]; congruence.
Qed.
Lemma register_ok i k a kw m : acceptable kw -> register_interface i k a kw m = Ok (dset i (fac k a kw) m).
Proof. intros A. unfold register_interface. rewrite (proj2 (acceptable_iff kw) A). reflexivity. Qed.
Lemma register_bad i k a kw m : ~ acceptable kw -> register_interface i k a kw m = Raise TypeError.
Proof. intros A. unfold register_interface. destruct (existsb _ _) eqn:E; [reflexivity|]. apply acceptable_iff in E. contradiction. Qed.
Lemma acceptable_dec kw : acceptable kw \/ ~ acceptable kw.
Proof. rewrite <- acceptable_iff. destruct (existsb _ _); [right|left]; congruence. Qed.
Lemma map_step o s : (forall i k a kw, o = ORegister i k a kw -> ~ acceptable kw) -> o_map (o_step o s) = o_map s.
Proof.
  intros N. destruct o as [i k a kw|sv ctx|r|r|r x v]; cbn [o_step].
  - rewrite register_bad; [reflexivity|exact (N _ _ _ _ eq_refl)].
  - reflexivity.
  - destruct (nth_error (o_reqs s) r) as [q|]; [|reflexivity]. destruct (q_pc q); try reflexivity. destruct (dget _ _); reflexivity.
  - destruct (nth_error (o_reqs s) r) as [q|]; [|reflexivity]. destruct (q_pc q); try reflexivity. destruct (arguments _ _) as ((k, a), kw). destruct (c_make k a kw); reflexivity.
  - destruct (nth_error (o_reqs s) r) as [q|]; [|reflexivity]. destruct (q_pc q); reflexivity.
Qed.
Lemma force_snoc sv l o k a kw : (forall k' a' kw', o = ORegister sv k' a' kw' -> ~ acceptable kw') -> in_force sv (l ++ [o]) k a kw <-> in_force sv l k a kw.
Proof.
  intros N. split.
  - intros (l1 & l2 & E & A & H). destruct l2 as [|y l2] using rev_ind; [apply app_inj_tail in E as (_ & ->); destruct (N _ _ _ eq_refl A)|]. clear IHl2.
    rewrite app_comm_cons, app_assoc in E. apply app_inj_tail in E as (-> & ->). exists l1, l2. split; [reflexivity|]. split; [exact A|]. intros k' a' kw' K. apply (H k' a' kw'). apply in_or_app. left. exact K.
  - intros (l1 & l2 & -> & A & H). exists l1, (l2 ++ [o]). rewrite <- app_assoc. split; [reflexivity|]. split; [exact A|]. intros k' a' kw' K. apply in_app_or in K as [K|[K|[]]]; [exact (H _ _ _ K)|exact (N _ _ _ K)].
Qed.
Lemma force_new sv l k a kw k' a' kw' : acceptable kw -> in_force sv (l ++ [ORegister sv k a kw]) k' a' kw' -> (k', a', kw') = (k, a, kw).
Proof.
  intros A (l1 & l2 & E & _ & H). destruct l2 as [|y l2] using rev_ind; [apply app_inj_tail in E as (_ & E); congruence|]. clear IHl2.
  rewrite app_comm_cons, app_assoc in E. apply app_inj_tail in E as (_ & <-). destruct (H k a kw); [apply in_or_app; right; left; reflexivity|exact A].
Qed.
Definition registered_as (sv : pystr) (l : list ostep) (x : option factory) : Prop :=
  match x with
  | Some f => exists k a kw, in_force sv l k a kw /\ f = fac k a kw
  | None => forall k a kw, In (ORegister sv k a kw) l -> ~ acceptable kw
  end.
Lemma map_force sv l : registered_as sv l (dget sv (o_map (o_run l))).
Proof.
  induction l as [|o l IH] using rev_ind; [intros k a kw []|]. rewrite o_snoc.
  assert (C : (exists k a kw, o = ORegister sv k a kw /\ acceptable kw) \/ (forall k a kw, o = ORegister sv k a kw -> ~ acceptable kw)).
  { destruct o as [i k a kw|sv' ctx|r|r|r x v]; try (right; intros; discriminate). destruct (acceptable_dec kw) as [A|A]; [|right; intros k' a' kw' E; injection E as _ _ _ <-; exact A].
    destruct (eq_dec i sv) as [->|Ne]; [left; eauto 6|right; intros k' a' kw' E; congruence]. }
  destruct C as [(k & a & kw & -> & A)|C].
  - cbn [o_step]. rewrite (register_ok _ _ _ _ _ A). cbn [o_map]. rewrite dget_dset_same. exists k, a, kw. split; [|reflexivity]. exists l, []. split; [reflexivity|]. split; [exact A|intros ? ? ? []].
  - assert (E : dget sv (o_map (o_step o (o_run l))) = dget sv (o_map (o_run l))).
    { destruct o as [i k a kw|sv' ctx|r|r|r x v]; try (rewrite map_step; [reflexivity|intros; discriminate]). destruct (acceptable_dec kw) as [A|A]; [|rewrite map_step; [reflexivity|intros i' k' a' kw' E; injection E as _ _ _ <-; exact A]].
      cbn [o_step]. rewrite (register_ok _ _ _ _ _ A). cbn [o_map]. apply dget_dset_other. intros ->. exact (C _ _ _ eq_refl A). }
    rewrite E. unfold registered_as in *. destruct (dget sv (o_map (o_run l))) as [f|].
    + destruct IH as (k & a & kw & F & Ef). exists k, a, kw. split; [apply force_snoc; [exact C|exact F]|exact Ef].
    + intros k a kw K. apply in_app_or in K as [K|[K|[]]]; [exact (IH k a kw K)|exact (C k a kw K)].
Qed.

(** ** Requests *)
Lemma goto_reqs r p s : o_reqs (goto r p s) = upd r (fun q => {| q_name := q_name q; q_ctx := q_ctx q; q_pc := p |}) (o_reqs s).
Proof. reflexivity. Qed.
Lemma reqs_run l : map (fun q => (q_name q, q_ctx q)) (o_reqs (o_run l)) = requests l.
Proof.
  induction l as [|o l IH] using rev_ind; [reflexivity|]. rewrite o_snoc. unfold requests in *. rewrite flat_map_app, <- IH. cbn [flat_map]. rewrite app_nil_r. generalize (o_run l). intros s.
  assert (G : forall r p s, map (fun q => (q_name q, q_ctx q)) (o_reqs (goto r p s)) = map (fun q => (q_name q, q_ctx q)) (o_reqs s)) by (intros; rewrite goto_reqs; apply map_upd; reflexivity).
  destruct o as [i k a kw|sv ctx|r|r|r x v]; cbn [o_step]; rewrite ?app_nil_r.
  - destruct (register_interface _ _ _ _ _); reflexivity.
  - cbn [o_reqs]. rewrite map_app. reflexivity.
  - destruct (nth_error (o_reqs s) r) as [q|]; [|reflexivity]. destruct (q_pc q); try reflexivity. destruct (dget _ _); apply G.
  - destruct (nth_error (o_reqs s) r) as [q|]; [|reflexivity]. destruct (q_pc q); try reflexivity. destruct (arguments _ _) as ((k, a), kw). destruct (c_make k a kw); cbn [o_reqs]; rewrite G; reflexivity.
  - destruct (nth_error (o_reqs s) r) as [q|]; [|reflexivity]. destruct (q_pc q); reflexivity.
Qed.

(** what the position of request r says about the steps l *)
Definition found_by (l : list ostep) (r : nat) (q : oreq) (f : factory) : Prop := exists l1 l2 k a kw, l = l1 ++ OFind r :: l2 /\ in_force (q_name q) l1 k a kw /\ f = fac k a kw.
Definition made_by (l : list ostep) (r : nat) (q : oreq) (l2 : list ostep) (k : pycls) (a : list value) (kw : dict pystr value) : Prop :=
  exists l1 l0, l = l1 ++ OFind r :: l0 ++ OMake r :: l2 /\ in_force (q_name q) l1 k a kw.
Definition log_of (s : ost) (r : nat) : list (nat * nat * list value * dict pystr value) := filter (fun x => Nat.eqb (fst (fst (fst x))) r) (o_made s).
Definition history (l : list ostep) (s : ost) (r : nat) (q : oreq) : Prop :=
  match q_pc q with
  | QFind => log_of s r = []
  | QMake f => log_of s r = [] /\ found_by l r q f
  | QCall o => exists l2 k a kw vars d, made_by l r q l2 k a kw /\ log_of s r = [(r, c_id k, q_ctx q :: a, kw)] /\ c_make k (q_ctx q :: a) kw = Ok vars /\ nth_error (o_objects s) o = Some d /\
      forall x, dget x d = match assigned r x l2 with Some v => Some v | None => dget x vars end
  | QEnd e => (log_of s r = [] /\ e = NoProcessorError /\ exists l1 l2, l = l1 ++ OFind r :: l2 /\ forall k a kw, In (ORegister (q_name q) k a kw) l1 -> ~ acceptable kw) \/
      (exists l2 k a kw, made_by l r q l2 k a kw /\ log_of s r = [(r, c_id k, q_ctx q :: a, kw)] /\ c_make k (q_ctx q :: a) kw = Raise e)
  end.
Definition sound_at (l : list ostep) (s : ost) : Prop :=
  (forall r q, nth_error (o_reqs s) r = Some q -> history l s r q) /\
  (forall r q r' q' o, nth_error (o_reqs s) r = Some q -> nth_error (o_reqs s) r' = Some q' -> q_pc q = QCall o -> q_pc q' = QCall o -> r = r') /\
  (forall x, In x (o_made s) -> fst (fst (fst x)) < List.length (o_reqs s)).
Lemma found_snoc l r q f o : found_by l r q f -> found_by (l ++ [o]) r q f.
Proof. intros (l1 & l2 & k & a & kw & -> & F & E). exists l1, (l2 ++ [o]), k, a, kw. rewrite <- app_assoc. auto. Qed.
Lemma made_snoc l r q l2 k a kw o : made_by l r q l2 k a kw -> made_by (l ++ [o]) r q (l2 ++ [o]) k a kw.
Proof. intros (l1 & l0 & -> & F). exists l1, l0. rewrite <- !app_assoc. cbn. rewrite <- app_assoc. auto. Qed.
Lemma assigned_snoc r x l o : assigned r x (l ++ [o]) = match o with OSet r' x' v => if Nat.eqb r' r && pystr_eqb x' x then Some v else assigned r x l | _ => assigned r x l end.
Proof.
  induction l as [|y l IH]; cbn [app assigned].
  - reflexivity.
  - rewrite IH. destruct o as [| | | |r' x' v]; try reflexivity. destruct (Nat.eqb r' r && pystr_eqb x' x); reflexivity.
Qed.
(** a step that does nothing to request r keeps its history *)
Definition quiet (r : nat) (o : ostep) : Prop := forall x v, o <> OSet r x v.
Lemma history_keep l s s' r q o : history l s r q -> log_of s' r = log_of s r -> quiet r o -> (forall b d, q_pc q = QCall b -> nth_error (o_objects s) b = Some d -> nth_error (o_objects s') b = Some d) -> history (l ++ [o]) s' r q.
Proof.
  intros H L Q Ob. unfold history in *. rewrite L. destruct (q_pc q) as [|f|b|e].
  - exact H.
  - destruct H as (H & F). split; [exact H|apply found_snoc; exact F].
  - destruct H as (l2 & k & a & kw & vars & d & M & G & V & D & X). exists (l2 ++ [o]), k, a, kw, vars, d. split; [apply made_snoc; exact M|]. split; [exact G|]. split; [exact V|]. split; [exact (Ob b d eq_refl D)|].
    intros x. rewrite X, assigned_snoc. destruct o as [| | | |r' x' v]; try reflexivity. destruct (Nat.eqb_spec r' r) as [->|]; [destruct (Q x' v eq_refl)|reflexivity].
  - destruct H as [(G & E & l1 & l2 & El & N)|(l2 & k & a & kw & M & G & V)]; [left; split; [exact G|]; split; [exact E|]; exists l1, (l2 ++ [o]); rewrite El, <- app_assoc; auto|].
    right. exists (l2 ++ [o]), k, a, kw. split; [apply made_snoc; exact M|auto].
Qed.
Lemma same_sound l s s' o : sound_at l s -> o_reqs s' = o_reqs s -> o_made s' = o_made s -> o_objects s' = o_objects s -> (forall r, (exists q, nth_error (o_reqs s) r = Some q /\ exists b, q_pc q = QCall b) -> quiet r o) -> sound_at (l ++ [o]) s'.
Proof.
  intros (H & D & B) R M O Q. split; [|split; [rewrite R; exact D|rewrite R, M; exact B]]. intros r q N. rewrite R in N. pose proof (H r q N) as K.
  assert (L : log_of s' r = log_of s r) by (unfold log_of; rewrite M; reflexivity).
  destruct (q_pc q) as [|f|b|e] eqn:P.
  1,2,4: unfold history in *; rewrite P, L in *.
  - exact K.
  - destruct K as (K & F). split; [exact K|apply found_snoc; exact F].
  - destruct K as [(G & E & l1 & l2 & El & Nf)|(l2 & k & a & kw & Mk & G & V)]; [left; split; [exact G|]; split; [exact E|]; exists l1, (l2 ++ [o]); rewrite El, <- app_assoc; auto|].
    right. exists (l2 ++ [o]), k, a, kw. split; [apply made_snoc; exact Mk|auto].
  - apply history_keep with (s := s); [exact K|exact L|apply Q; eauto|rewrite O; auto].
Qed.
Lemma log_above s n : (forall x, In x (o_made s) -> fst (fst (fst x)) < n) -> log_of s n = [].
Proof. intros B. unfold log_of. induction (o_made s) as [|x m IH]; [reflexivity|]. cbn [filter]. pose proof (B x (or_introl eq_refl)). destruct (Nat.eqb_spec (fst (fst (fst x))) n); [lia|]. apply IH. intros y Hy. apply B. right. exact Hy. Qed.
Lemma goto_sound l s o r q p : sound_at l s -> nth_error (o_reqs s) r = Some q -> (forall b, p <> QCall b) -> quiet r o -> (forall r', quiet r' o) ->
  history (l ++ [o]) (goto r p s) r {| q_name := q_name q; q_ctx := q_ctx q; q_pc := p |} -> sound_at (l ++ [o]) (goto r p s).
Proof.
  intros (H & D & B) N Np Qr Q Hr. split; [|split].
  - intros r' q' N'. rewrite goto_reqs in N'. apply nth_upd_inv in N' as [(<- & q1 & N1 & ->)|(Ne & N1)]; [rewrite N in N1; injection N1 as <-; exact Hr|].
    apply history_keep with (s := s); [exact (H r' q' N1)|reflexivity|apply Q|auto].
  - intros r1 q1 r2 q2 b N1 N2 P1 P2. rewrite goto_reqs in N1, N2. apply nth_upd_inv in N1 as [(<- & y1 & N1 & ->)|(Ne1 & N1)]; [destruct (Np b P1)|]. apply nth_upd_inv in N2 as [(<- & y2 & N2 & ->)|(Ne2 & N2)]; [destruct (Np b P2)|]. exact (D _ _ _ _ _ N1 N2 P1 P2).
  - intros x Hx. rewrite goto_reqs, length_upd. exact (B x Hx).
Qed.
Lemma objects_bound l s r q b : sound_at l s -> nth_error (o_reqs s) r = Some q -> q_pc q = QCall b -> b < List.length (o_objects s).
Proof. intros (H & _) N P. pose proof (H r q N) as K. unfold history in K. rewrite P in K. destruct K as (l2 & k & a & kw & vars & d & _ & _ & _ & Nd & _). apply nth_error_Some. congruence. Qed.
Lemma sound_step l o : sound_at l (o_run l) -> sound_at (l ++ [o]) (o_run (l ++ [o])).
Proof.
  intros S0. rewrite o_snoc. pose proof S0 as (H & D & B). set (s := o_run l) in *. pose proof (map_force) as MF. destruct o as [i k a kw|sv ctx|r|r|r x v]; cbn [o_step].
  - destruct (register_interface _ _ _ _ _); (apply same_sound with (s := s); [exact S0|reflexivity..|intros r _ x v E; discriminate]).
  - split; [|split]; cbn [o_reqs].
    + intros r q N. destruct (Nat.lt_ge_cases r (List.length (o_reqs s))) as [L|L].
      * rewrite nth_error_app1 in N by exact L. apply history_keep with (s := s); [exact (H r q N)|reflexivity|intros x v E; discriminate|auto].
      * rewrite nth_error_app2 in N by exact L. destruct (r - List.length (o_reqs s)) as [|n] eqn:En; cbn in N; [injection N as <-|destruct n; discriminate]. unfold history. cbn [q_pc].
        change (log_of s r = []). apply log_above. intros y Hy. specialize (B y Hy). lia.
    + assert (Old : forall r q b, nth_error (o_reqs s ++ [{| q_name := sv; q_ctx := ctx; q_pc := QFind |}]) r = Some q -> q_pc q = QCall b -> nth_error (o_reqs s) r = Some q).
      { intros r q b N P. destruct (Nat.lt_ge_cases r (List.length (o_reqs s))) as [L|L]; [rewrite nth_error_app1 in N by exact L; exact N|]. rewrite nth_error_app2 in N by exact L.
        destruct (r - List.length (o_reqs s)) as [|n]; cbn in N; [injection N as <-; discriminate|destruct n; discriminate]. }
      intros r q r' q' b N N' P P'. exact (D r q r' q' b (Old _ _ _ N P) (Old _ _ _ N' P') P P').
    + intros x Hx. rewrite app_length. cbn. specialize (B x Hx). lia.
  - destruct (nth_error (o_reqs s) r) as [q|] eqn:N; [|apply same_sound with (s := s); [exact S0|reflexivity..|intros ? _ ? ? E; discriminate]].
    pose proof (H r q N) as K. unfold history in K. destruct (q_pc q) eqn:P; try (apply same_sound with (s := s); [exact S0|reflexivity..|intros ? _ ? ? E; discriminate]).
    specialize (MF (q_name q) l). fold s in MF. unfold registered_as in MF. destruct (dget (q_name q) (o_map s)) as [f|].
    + apply goto_sound with (q := q); auto; [intros b E; discriminate|intros ? ? E; discriminate|intros ? ? ? E; discriminate|]. unfold history. cbn [q_pc q_name]. split; [exact K|]. destruct MF as (k & a & kw & F & ->). exists l, [], k, a, kw. auto.
    + apply goto_sound with (q := q); auto; [intros b E; discriminate|intros ? ? E; discriminate|intros ? ? ? E; discriminate|]. unfold history. cbn [q_pc q_name]. left. split; [exact K|]. split; [reflexivity|]. exists l, []. auto.
  - destruct (nth_error (o_reqs s) r) as [q|] eqn:N; [|apply same_sound with (s := s); [exact S0|reflexivity..|intros ? _ ? ? E; discriminate]].
    pose proof (H r q N) as K. unfold history in K. destruct (q_pc q) as [|f|b|e] eqn:P; try (apply same_sound with (s := s); [exact S0|reflexivity..|intros ? _ ? ? E; discriminate]).
    destruct K as (Lg & l1 & l2 & k & a & kw & El & F & ->). rewrite fac_arguments.
    set (s1 := {| o_map := o_map s; o_objects := o_objects s; o_reqs := o_reqs s; o_made := o_made s ++ [(r, c_id k, q_ctx q :: a, kw)] |}).
    assert (Lr : log_of s1 r = [(r, c_id k, q_ctx q :: a, kw)]) by (unfold log_of, s1 in *; cbn [o_made]; rewrite filter_app, Lg; cbn; rewrite Nat.eqb_refl; reflexivity).
    assert (Lo : forall r', r' <> r -> log_of s1 r' = log_of s r') by (intros r' Ne; unfold log_of, s1; cbn [o_made]; rewrite filter_app; cbn; destruct (Nat.eqb_spec r r'); [congruence|apply app_nil_r]).
    assert (Mk : made_by (l ++ [OMake r]) r q [] k a kw) by (exists l1, l2; rewrite El, <- app_assoc; split; [reflexivity|exact F]).
    assert (Bd : forall x, In x (o_made s1) -> fst (fst (fst x)) < List.length (o_reqs s)).
    { intros x Hx. unfold s1 in Hx. cbn [o_made] in Hx. apply in_app_or in Hx as [Hx|[<-|[]]]; [exact (B x Hx)|]. cbn. apply nth_error_Some. congruence. }
    destruct (c_make k (q_ctx q :: a) kw) as [vars|e] eqn:Ec.
    + split; [|split]; cbn [o_reqs].
      * intros r' q' N'. rewrite goto_reqs in N'. apply nth_upd_inv in N' as [(<- & q1 & N1 & ->)|(Ne & N1)].
        -- cbn [s1 o_reqs] in N1. rewrite N in N1. injection N1 as <-. unfold history. cbn [q_pc q_name q_ctx o_objects]. exists [], k, a, kw, vars, vars. split; [exact Mk|]. split; [exact Lr|]. split; [exact Ec|].
           split; [rewrite nth_error_app2, Nat.sub_diag by (cbn; lia); reflexivity|reflexivity].
        -- apply history_keep with (s := s); [exact (H r' q' N1)|exact (Lo r' (not_eq_sym Ne))|intros x v E; discriminate|]. intros b d _ Hd. cbn [o_objects]. rewrite nth_error_app1; [exact Hd|]. apply nth_error_Some. cbn. congruence.
      * assert (Old : forall r1 q1 b, nth_error (o_reqs s) r1 = Some q1 -> q_pc q1 = QCall b -> b <> List.length (o_objects s)) by (intros r1 q1 b N1 P1; pose proof (objects_bound l s r1 q1 b S0 N1 P1); lia).
        intros r1 q1 r2 q2 b N1 N2 P1 P2. rewrite goto_reqs in N1, N2. apply nth_upd_inv in N1 as [(<- & y1 & N1 & ->)|(Ne1 & N1)]; apply nth_upd_inv in N2 as [(<- & y2 & N2 & ->)|(Ne2 & N2)].
        -- reflexivity.
        -- cbn in P1. injection P1 as <-. destruct (Old _ _ _ N2 P2 eq_refl).
        -- cbn in P2. injection P2 as <-. destruct (Old _ _ _ N1 P1 eq_refl).
        -- exact (D _ _ _ _ _ N1 N2 P1 P2).
      * intros x Hx. rewrite goto_reqs, length_upd. exact (Bd x Hx).
    + split; [|split].
      * intros r' q' N'. rewrite goto_reqs in N'. apply nth_upd_inv in N' as [(<- & q1 & N1 & ->)|(Ne & N1)].
        -- cbn [s1 o_reqs] in N1. rewrite N in N1. injection N1 as <-. unfold history. cbn [q_pc q_name q_ctx]. right. exists [], k, a, kw. auto.
        -- apply history_keep with (s := s); [exact (H r' q' N1)|exact (Lo r' (not_eq_sym Ne))|intros x v E; discriminate|auto].
      * intros r1 q1 r2 q2 b N1 N2 P1 P2. rewrite goto_reqs in N1, N2. apply nth_upd_inv in N1 as [(<- & y1 & N1 & ->)|(Ne1 & N1)]; [discriminate|]. apply nth_upd_inv in N2 as [(<- & y2 & N2 & ->)|(Ne2 & N2)]; [discriminate|]. exact (D _ _ _ _ _ N1 N2 P1 P2).
      * intros x Hx. rewrite goto_reqs, length_upd. exact (Bd x Hx).
  - destruct (nth_error (o_reqs s) r) as [q|] eqn:N; [|apply same_sound with (s := s); [exact S0|reflexivity..|intros r' (q' & N' & _) x' v' E; injection E as -> _ _; congruence]].
    pose proof (H r q N) as K. unfold history in K. destruct (q_pc q) as [|f|b|e] eqn:P; try (apply same_sound with (s := s); [exact S0|reflexivity..|intros r' (q' & N' & b' & P') x' v' E; injection E as -> _ _; congruence]).
    split; [|split; [exact D|exact B]]. intros r' q' N'. cbn [o_reqs] in N'. destruct (Nat.eq_dec r' r) as [->|Ne].
    + rewrite N in N'. injection N' as <-. destruct K as (l2 & k & a & kw & vars & d & M & G & V & Nd & X). unfold history. rewrite P. exists (l2 ++ [OSet r x v]), k, a, kw, vars, (dset x v d).
      split; [apply made_snoc; exact M|]. split; [exact G|]. split; [exact V|]. split; [cbn [o_objects]; apply nth_upd_same; exact Nd|]. intros y. rewrite assigned_snoc, Nat.eqb_refl. cbn [andb].
      destruct (pystr_eqb x y) eqn:Exy; [apply pystr_eqb_eq in Exy; subst y; apply dget_dset_same|]. rewrite dget_dset_other; [apply X|]. intros ->. rewrite pystr_eqb_refl in Exy. discriminate.
    + apply history_keep with (s := s); [exact (H r' q' N')|reflexivity|intros x' v' E; congruence|]. intros b' d' P' Nd'. cbn [o_objects]. rewrite nth_upd_other; [exact Nd'|]. intros <-. apply Ne. exact (D _ _ _ _ _ N' N P' P).
Qed.
Lemma sound_run l : sound_at l (o_run l).
Proof. induction l as [|o l IH] using rev_ind; [split; [|split]; [intros r q N; destruct r; discriminate|intros r q r' q' o N; destruct r; discriminate|intros x []]|]. apply sound_step. exact IH. Qed.

(** ** The properties *)
Lemma name_of_request l r q : nth_error (o_reqs (o_run l)) r = Some q -> nth_error (requests l) r = Some (q_name q, q_ctx q).
Proof. intros N. rewrite <- reqs_run, nth_error_map, N. reflexivity. Qed.
Lemma made_with l r c args kw : In (r, c, args, kw) (o_made (o_run l)) ->
  exists l1 l2 l3 sv ctx k a, l = l1 ++ OFind r :: l2 ++ OMake r :: l3 /\ nth_error (requests l) r = Some (sv, ctx) /\ in_force sv l1 k a kw /\ c = c_id k /\ args = ctx :: a.
Proof.
  intros I. destruct (sound_run l) as (H & _ & B). pose proof (B _ I) as L. cbn in L. destruct (nth_error (o_reqs (o_run l)) r) as [q|] eqn:N; [|apply nth_error_None in N; lia]. pose proof (H r q N) as K.
  assert (Lg : In (r, c, args, kw) (log_of (o_run l) r)) by (apply filter_In; split; [exact I|cbn; apply Nat.eqb_refl]).
  assert (G : exists l3 k a kw', made_by l r q l3 k a kw' /\ log_of (o_run l) r = [(r, c_id k, q_ctx q :: a, kw')]).
  { unfold history in K. destruct (q_pc q) as [|f|b|e]; [rewrite K in Lg; destruct Lg|destruct K as (K & _); rewrite K in Lg; destruct Lg| |].
    - destruct K as (l3 & k & a & kw' & vars & d & M & G & _). eauto 6.
    - destruct K as [(K & _)|(l3 & k & a & kw' & M & G & _)]; [rewrite K in Lg; destruct Lg|eauto 6]. }
  destruct G as (l3 & k & a & kw' & (l1 & l2 & El & F) & G). rewrite G in Lg. destruct Lg as [E|[]]. injection E as <- <- <-. exists l1, l2, l3, (q_name q), (q_ctx q), k, a. pose proof (name_of_request l r q N). auto.
Qed.
Lemma count_log s r : List.length (filter (fun x => Nat.eqb (fst (fst (fst x))) r) (o_made s)) = List.length (log_of s r).
Proof. reflexivity. Qed.
Lemma made_once l r : List.length (filter (fun x => Nat.eqb (fst (fst (fst x))) r) (o_made (o_run l))) <= 1.
Proof.
  rewrite count_log. destruct (sound_run l) as (H & _ & B). destruct (nth_error (o_reqs (o_run l)) r) as [q|] eqn:N.
  - pose proof (H r q N) as K. unfold history in K. destruct (q_pc q) as [|f|b|e]; [rewrite K; cbn; lia|destruct K as (-> & _); cbn; lia| |].
    + destruct K as (l3 & k & a & kw' & vars & d & M & -> & _). cbn. lia.
    + destruct K as [(-> & _)|(l3 & k & a & kw' & M & -> & _)]; cbn; lia.
  - apply nth_error_None in N. unfold log_of. assert (E : filter (fun x : nat * nat * list value * dict pystr value => Nat.eqb (fst (fst (fst x))) r) (o_made (o_run l)) = []); [|rewrite E; cbn; lia].
    apply log_above. intros x Hx. specialize (B x Hx). lia.
Qed.
Lemma own_object l r r' o : object_of (o_run l) r o -> object_of (o_run l) r' o -> r = r'.
Proof. intros (q & N & P) (q' & N' & P'). destruct (sound_run l) as (_ & D & _). exact (D _ _ _ _ _ N N' P P'). Qed.
Lemma own_variables l r o : object_of (o_run l) r o -> exists l1 l2 k args kw vars, l = l1 ++ OMake r :: l2 /\ In (r, c_id k, args, kw) (o_made (o_run l)) /\ c_make k args kw = Ok vars /\
  forall x, seen (o_run l) r x = match assigned r x l2 with Some v => Some v | None => dget x vars end.
Proof.
  intros (q & N & P). destruct (sound_run l) as (H & _). pose proof (H r q N) as K. unfold history in K. rewrite P in K. destruct K as (l2 & k & a & kw & vars & d & (l1 & l0 & El & F) & G & V & Nd & X).
  exists (l1 ++ OFind r :: l0), l2, k, (q_ctx q :: a), kw, vars. split; [rewrite El, <- app_assoc; reflexivity|]. split; [|split; [exact V|]].
  - assert (I : In (r, c_id k, q_ctx q :: a, kw) (log_of (o_run l) r)) by (rewrite G; left; reflexivity). apply filter_In in I as (I & _). exact I.
  - intros x. unfold seen. rewrite N, P, Nd. apply X.
Qed.
Lemma refused l r q : nth_error (o_reqs (o_run l)) r = Some q -> q_pc q = QEnd NoProcessorError -> (forall i k a kw args kwargs, In (ORegister i k a kw) l -> c_make k args kwargs <> Raise NoProcessorError) ->
  exists l1 l2, l = l1 ++ OFind r :: l2 /\ forall k a kw, In (ORegister (q_name q) k a kw) l1 -> ~ acceptable kw.
Proof.
  intros N P Nm. destruct (sound_run l) as (H & _). pose proof (H r q N) as K. unfold history in K. rewrite P in K. destruct K as [(_ & _ & K)|(l2 & k & a & kw & (l1 & l0 & El & l3 & l4 & E3 & _) & _ & V)]; [exact K|].
  destruct (Nm (q_name q) k a kw (q_ctx q :: a) kw); [|exact V]. rewrite El, E3, <- app_assoc. apply in_or_app. right. left. reflexivity.
Qed.
Lemma registration i k a kw m : acceptable kw -> exists f, register_interface i k a kw m = Ok (dset i f m) /\ forall ctx, arguments f ctx = (k, ctx :: a, kw).
Proof. intros A. exists (fac k a kw). split; [exact (register_ok i k a kw m A)|intros ctx; apply fac_arguments]. Qed.
Lemma taken_names i k a kw m : (exists x, In x (keys kw) /\ In x own_parameters) -> register_interface i k a kw m = Raise TypeError.
Proof. intros (x & Hx & K). apply register_bad. intros A. destruct (A x Hx) as (N1 & N2 & N3). destruct K as [K|[K|[K|[]]]]; congruence. Qed.

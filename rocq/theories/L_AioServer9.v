(** Lemmas about the asyncio server: the properties. *)
From Coq Require Import ZifyBool Strings.String.
From Verif Require Import PyBase L_PyBase PyDict L_PyDict PyInt Struct M_SofaHeader L_SofaHeader M_Package L_Package L_Codec M_RpcId M_Trace S_Wire M_AioServer S_Server L_AioServer L_AioServer2 L_AioServer3 L_AioServer4 L_AioServer5 L_AioServer6 L_AioServer7 L_AioServer8.
Open Scope Z_scope.

(** ** C49, C57 *)
Lemma flags_step U o s : good s -> (v_eof (srun_step U o s) = true -> v_eof s = true \/ o = Eof) /\ (v_exn (srun_step U o s) = true -> v_exn s = true \/ o = Reset).
Proof.
  intros ((I & T & J) & _). pose proof (step_eff U o s I T) as E. remember (srun_step U o s) as s1 eqn:E1. clear E1.
  destruct E as [o|name sv|bs| | |s' E|ok s' E|o i s' E O|o s' E O]; cbn; auto.
  - apply rstep_same in E as (_ & _ & _ & _ & E1 & E2 & _). rewrite E1, E2. auto.
  - apply deff_same in E as (_ & _ & E1 & E2 & _). rewrite E1, E2. auto.
  - apply teff_same in E as ((_ & _ & _ & E1 & E2 & _) & _). rewrite E1, E2. auto.
  - apply jeff_same in E as ((_ & _ & _ & E1 & E2 & _) & _). rewrite E1, E2. auto.
Qed.
Lemma flags_run U reg tr l : (v_eof (srun U reg tr l) = true -> In Eof l) /\ (v_exn (srun U reg tr l) = true -> In Reset l).
Proof.
  induction l as [|o l (IH1 & IH2)] using rev_ind; [split; discriminate|]. rewrite srun_app. cbn [sfrom fold_left]. destruct (flags_step U o _ (good_run U reg tr l)) as (A & B).
  split; intros H; apply in_or_app; [destruct (A H) as [K| ->]|destruct (B H) as [K| ->]]; auto; right; left; reflexivity.
Qed.
Lemma answer_response s n x bs : answer_to s n x bs -> exists cmd st c, response bs (item_id x) cmd st c.
Proof. destruct x; cbn; intros H; try contradiction; eauto. destruct H as (st & c & R & _). eauto. Qed.
Lemma Forall2_map_pair {A B} (R : A -> B -> Prop) (l : list (A * B)) : (forall a b, In (a, b) l -> R a b) -> Forall2 R (map fst l) (map snd l).
Proof. induction l as [|(a & b) l IH]; intros H; constructor; [apply H; left; reflexivity|apply IH; intros; apply H; right; assumption]. Qed.
Lemma nth_last {A} (l : list A) x : nth_error (rev l) 0 = Some x -> nth_error l (List.length l - 1) = Some x.
Proof. intros H. destruct l as [|y l] using rev_ind; [discriminate|]. rewrite rev_app_distr in H. cbn in H. rewrite app_length. cbn [List.length]. rewrite Nat.add_sub, nth_error_app2, Nat.sub_diag by lia. exact H. Qed.
Lemma once_open U reg tr l : ~ In Eof l -> ~ In Reset l -> let s := srun U reg tr l in
  exists items rest ns, cuts (fed l) items rest /\ NoDup ns /\ Forall2 (replies items) ns (map snd (v_out s)).
Proof.
  intros N1 N2 s. destruct (run_cuts U reg tr l) as (rest & C). fold s in C. exists (v_items s), rest, (map fst (v_out s)). split; [exact C|].
  destruct (good_run U reg tr l) as (V & r & f & O). fold s in V, O. destruct (flags_run U reg tr l) as (F1 & F2). fold s in F1, F2.
  rewrite (oo_split _ _ _ O). rewrite !map_app.
  assert (R : Forall2 (replies (v_items s)) (map fst r) (map snd r)).
  { apply Forall2_map_pair. intros n bs H. destruct (oo_answers _ _ _ O n bs H) as (x & Nx & An). destruct (answer_response _ _ _ _ An) as (cmd & st & c & Rs). exists x, cmd, st, c. auto. }
  destruct (oo_fin _ _ _ O) as [->|(Cl & id & st & bs & -> & La & Rs & [[-> [E|(id' & E)]]|[-> E]])]; [rewrite !app_nil_r; split; [exact (oo_once _ _ _ O)|exact R]|contradiction (N2 (F2 E))| |contradiction (N1 (F1 E))].
  cbn [map fst snd]. split.
  - apply NoDup_snoc; [exact (oo_once _ _ _ O)|]. intros K. apply in_map_iff in K as ((k & b) & Ek & K). cbn in Ek. subst k. destruct (oo_answers _ _ _ O _ _ K) as (x & Nx & An). assert (x = IFatal id') by congruence. subst x. exact An.
  - apply Forall2_app; [exact R|]. constructor; [|constructor]. exists (IFatal id'), 2, 3, []. split; [exact E|].
    assert (id' = id); [|subst; exact Rs]. unfold last_id in La. apply nth_last in La. destruct V as (I & _). pose proof (so_heads _ I) as H.
    assert (X : exists x, v_heads s = map item_id (v_items s) ++ x) by (destruct (v_rd s); cbn in H; eauto; exists []; now rewrite app_nil_r).
    destruct X as (x & Hx). pose proof (nth_app_some (map item_id (v_items s)) x _ id' (map_nth_error item_id _ _ E)) as K. rewrite <- Hx in K. rewrite K in La. injection La as ->. reflexivity.
Qed.
(** whatever happens: regular answers, at most one per frame, then at most one last frame *)
Lemma once_any U reg tr l : let s := srun U reg tr l in
  exists items rest ns r last, cuts (fed l) items rest /\ map snd (v_out s) = r ++ last /\ NoDup ns /\ Forall2 (replies items) ns r /\
    (last = [] \/ exists bs id st, last = [bs] /\ response bs id 2 st [] /\ In id (v_heads s) /\ v_closed s = true /\ ((st = 16 /\ In Eof l) \/ (st = 3 /\ (In Reset l \/ exists x, In x items /\ fatal x)))).
Proof.
  intros s. destruct (run_cuts U reg tr l) as (rest & C). fold s in C. destruct (good_run U reg tr l) as (V & r & f & O). fold s in V, O. destruct (flags_run U reg tr l) as (F1 & F2). fold s in F1, F2.
  exists (v_items s), rest, (map fst r), (map snd r), (map snd f). split; [exact C|]. rewrite (oo_split _ _ _ O), map_app. split; [reflexivity|]. split; [exact (oo_once _ _ _ O)|]. split.
  - apply Forall2_map_pair. intros n bs H. destruct (oo_answers _ _ _ O n bs H) as (x & Nx & An). destruct (answer_response _ _ _ _ An) as (cmd & st & c & Rs). exists x, cmd, st, c. auto.
  - destruct (oo_fin _ _ _ O) as [->|(Cl & id & st & bs & -> & La & Rs & Ca)]; [left; reflexivity|right]. exists bs, id, st. split; [reflexivity|]. split; [exact Rs|]. split; [apply nth_last in La; eapply nth_error_In; exact La|]. split; [exact Cl|].
    destruct Ca as [[-> [E|(id' & E)]]|[-> E]]; [right; auto| |left; auto]. right. split; [reflexivity|]. right. exists (IFatal id'). split; [eapply nth_error_In; exact E|exact Logic.I].
Qed.
(** nothing is written after the server has closed its side *)
Lemma closed_out U l : forall s, good s -> v_closed s = true -> v_out (sfrom U s l) = v_out s /\ v_closed (sfrom U s l) = true.
Proof.
  induction l as [|o l IH]; intros s G Cl; [auto|]. change (sfrom U s (o :: l)) with (sfrom U (srun_step U o s) l). pose proof (good_step U o s G) as G'.
  assert (K : v_out (srun_step U o s) = v_out s /\ v_closed (srun_step U o s) = true).
  { destruct G as ((I & T & J) & reg & fin & O). pose proof (step_eff U o s I T) as E. clear G'. remember (srun_step U o s) as s1 eqn:E1. clear E1. destruct E as [o|name sv|bs| | |s' E|ok s' E|o i s' E Oo|o s' E Oo]; auto.
    - apply rstep_same in E as (E1 & E2 & _). split; congruence.
    - destruct (oo_closed _ _ _ O Cl) as [K|K]; inversion E; subst; try congruence; [destruct H as [(bs & H)|H]; congruence|auto|destruct H as [(bs & H)|H]; congruence].
    - split; [|apply teff_same in E as (_ & E & _); congruence]. inversion E; subst; try reflexivity; [apply expire_out|congruence].
    - apply jeff_same in E as (_ & E1 & _ & _ & E2). split; congruence. }
  destruct K as (K1 & K2). destruct (IH _ G' K2) as (E1 & E2). split; congruence.
Qed.

Lemma fate_calm s i n r bs : answering s i n r (TDrain1 bs) -> forall e, ~ answering s i n r (TRaised e).
Proof. unfold answering. intros A e B. congruence. Qed.
Lemma fate_answers s i n r bs : fate s i n r bs -> answers n s = [] \/ answers n s = [bs].
Proof. intros [(_ & B)|[(_ & B)|(_ & B)]]; auto. Qed.
Lemma promised U reg tr l1 o l2 i n r bs : let s1 := srun U reg tr (l1 ++ [o]) in hand s1 i n r bs ->
  v_closed (srun U reg tr (l1 ++ o :: l2)) = false -> ~ In (Drain i false) l2 -> answered_by U reg tr (l1 ++ o :: l2) i n bs.
Proof.
  intros s1 Hd Cl No. pose proof (or_introl Hd : fate s1 i n r bs) as F. destruct Hd as (A & _). assert (E : l1 ++ o :: l2 = (l1 ++ [o]) ++ l2) by (rewrite <- app_assoc; reflexivity). rewrite E in *. rewrite srun_app in Cl. fold s1 in Cl.
  pose proof (good_run U reg tr (l1 ++ [o])) as G. fold s1 in G. pose proof (fate_from U l2 i n r bs s1 G Cl F) as F2. pose proof (calm_from U l2 i n r bs s1 G Cl F (fate_calm _ _ _ _ _ A) No) as Nr.
  split; [rewrite srun_app; exact (fate_answers _ _ _ _ _ F2)|]. rewrite srun_app. cbn [sfrom fold_left]. apply (fate_write U _ i n r bs); [apply good_run|rewrite srun_app; exact Cl|rewrite srun_app; exact F2|rewrite srun_app; exact Nr].
Qed.
Lemma srun_snoc U reg tr l o : srun U reg tr (l ++ [o]) = srun_step U o (srun U reg tr l).
Proof. rewrite srun_app. reflexivity. Qed.
Lemma closed_prefix U reg tr l1 l2 : v_closed (srun U reg tr (l1 ++ l2)) = false -> v_closed (srun U reg tr l1) = false.
Proof. rewrite srun_app. apply closed_from. apply good_run. Qed.
Lemma fate_in_hand s i n r bs : fate s i n r bs -> answers n s = [] -> (forall e, ~ answering s i n r (TRaised e)) -> answering s i n r (TDrain1 bs).
Proof. intros [(A & _)|[(_ & B)|((e & A) & _)]] E N; [exact A|congruence|contradiction (N e A)]. Qed.


(** the event [o] at the end of l1 gives request q at place n, answered by coroutine i, the answer [status] *)
Lemma event_answer U reg tr l1 o l2 i n q st : (exists bs, response bs (q_id q) 2 st [] /\ hand (srun_step U o (srun U reg tr l1)) i n (Some q) bs) ->
  v_closed (srun U reg tr (l1 ++ o :: l2)) = false -> ~ In (Drain i false) l2 -> exists bs, response bs (q_id q) 2 st [] /\ answered_by U reg tr (l1 ++ o :: l2) i n bs.
Proof. intros (bs & R & H) Cl No. exists bs. split; [exact R|]. apply (promised U reg tr l1 o l2 i n (Some q) bs); auto. rewrite srun_snoc. exact H. Qed.

Lemma unnamed_answer U reg tr l1 l2 i n q fresh : let s1 := srun U reg tr l1 in answering s1 i n (Some q) TStart ->
  v_closed (srun U reg tr (l1 ++ Dispatch i fresh :: l2)) = false -> ~ In (Drain i false) l2 ->
  (~ exists sv, names_service (q_header q) sv) \/ (~ exists m, names_method (q_header q) m) ->
  exists bs, response bs (q_id q) 2 8 [] /\ answered_by U reg tr (l1 ++ Dispatch i fresh :: l2) i n bs.
Proof. intros s1 A Cl No H. apply event_answer with (q := q); auto. apply dispatch_unnamed; auto; [apply good_run|exact (closed_prefix U reg tr l1 _ Cl)]. Qed.
Lemma unknown_answer U reg tr l1 l2 i n q fresh sv m : let s1 := srun U reg tr l1 in answering s1 i n (Some q) TStart ->
  v_closed (srun U reg tr (l1 ++ Dispatch i fresh :: l2)) = false -> ~ In (Drain i false) l2 ->
  names_service (q_header q) sv -> names_method (q_header q) m -> traceable U s1 q fresh -> not_found (v_reg s1) sv m ->
  exists bs, response bs (q_id q) 2 6 [] /\ answered_by U reg tr (l1 ++ Dispatch i fresh :: l2) i n bs.
Proof. intros s1 A Cl No Ns Nm Tr H. apply event_answer with (q := q); auto. apply (dispatch_unknown U _ i n q fresh sv m); auto; [apply good_run|exact (closed_prefix U reg tr l1 _ Cl)]. Qed.
Lemma broken_answer U reg tr l1 l2 i n q fresh sv m e : let s1 := srun U reg tr l1 in answering s1 i n (Some q) TStart ->
  v_closed (srun U reg tr (l1 ++ Dispatch i fresh :: l2)) = false -> ~ In (Drain i false) l2 ->
  names_service (q_header q) sv -> names_method (q_header q) m -> traceable U s1 q fresh -> broken (v_reg s1) sv e -> e <> AttributeError -> e <> NoProcessorError -> e <> CancelledError ->
  exists bs, response bs (q_id q) 2 2 [] /\ answered_by U reg tr (l1 ++ Dispatch i fresh :: l2) i n bs.
Proof. intros s1 A Cl No Ns Nm Tr H N1 N2 N3. apply event_answer with (q := q); auto. apply (dispatch_broken U _ i n q fresh sv m e); auto; [apply good_run|exact (closed_prefix U reg tr l1 _ Cl)]. Qed.

Lemma submitted_waits U s i n q fresh : good s -> v_closed s = false -> submitted U s i n q fresh -> q_type q <> 2 ->
  exists b, nth_error (v_jobs (srun_step U (Dispatch i fresh) s)) (List.length (v_jobs s)) = Some b /\ j_frame b = n /\ waits (srun_step U (Dispatch i fresh) s) i n q (List.length (v_jobs s)).
Proof.
  intros G Cl (A & (tr & c & Ex) & sv & m & Ns & Nm & Of) Ty. destruct (dispatch_submits U s i n q fresh sv m G Cl A Ns Nm Of tr c Ex) as (J & W). destruct (Z.eqb_spec (q_type q) 2); [contradiction|].
  exists (new_job n q sv m c). rewrite J, nth_error_app2, Nat.sub_diag by lia. auto.
Qed.
Lemma result_answer U reg tr l1 l2 i n q fresh r : let s1 := srun U reg tr l1 in let l := l1 ++ Dispatch i fresh :: l2 in submitted U s1 i n q fresh -> q_type q <> 2 ->
  v_closed (srun U reg tr l) = false -> ~ In (Expire i) l2 -> ~ In (Drain i false) l2 -> ended_with (srun U reg tr l) n r ->
  (exists bs, concluded q r (TDrain1 bs) /\ (answers n (srun U reg tr l) = [] \/ answers n (srun U reg tr l) = [bs]) /\ answers n (srun U reg tr (l ++ [Result i; Drain i true])) = [bs]) \/
  (concluded q r TDone /\ answers n (srun U reg tr l) = []).
Proof.
  intros s1 l Sb Ty Cl Ne Nd (b & Hb & Fb & Sb'). pose proof (closed_prefix U reg tr l1 _ Cl) as Cl1. fold s1 in Cl1. pose proof (good_run U reg tr l1) as G1. fold s1 in G1.
  destruct (submitted_waits U s1 i n q fresh G1 Cl1 Sb Ty) as (b1 & N1 & F1 & W). set (s2 := srun_step U (Dispatch i fresh) s1) in *. set (j := List.length (v_jobs s1)) in *.
  assert (Es : srun U reg tr l = sfrom U s2 l2) by (unfold l; rewrite srun_app; reflexivity).
  pose proof (good_run U reg tr l) as G. pose proof (good_step U (Dispatch i fresh) s1 G1) as G2. fold s2 in G2. rewrite Es in *. set (s := sfrom U s2 l2) in *.
  (* the job that ended is the one submitted *)
  destruct (jobs_from U l2 s2 G2 j b1 N1) as (b' & N' & Ej & _). fold s in N'. apply jid_inv in Ej as (Ef & _). apply In_nth_error in Hb as (k & Nk).
  assert (k = j) by (destruct G as ((_ & _ & J) & _); apply (NoDup_nth_map j_frame (v_jobs s) k j b b' (jo_frames _ J)); congruence). subst k. assert (b' = b) by congruence. subst b'.
  assert (Tail : forall l, srun U reg tr (l1 ++ Dispatch i fresh :: l2 ++ l) = sfrom U s l) by (intros l0; rewrite srun_app; change (sfrom U s2 (l2 ++ l0) = sfrom U s l0); apply sfrom_app).
  assert (Tl : srun U reg tr (l ++ [Result i; Drain i true]) = sfrom U s [Result i; Drain i true]) by (unfold l; rewrite <- app_assoc; exact (Tail _)). rewrite Tl. cbn [sfrom fold_left].
  destruct (waits_from U l2 i n q j s2 G2 Cl Ne Nd W) as [W2|(b2 & r2 & N2 & S2 & Ld)].
  - fold s in W2. pose proof (waits_result U s i n q j b r G Cl W2 N' Sb') as Ld. pose proof (good_step U (Result i) s G) as G3.
    assert (Cl3 : v_closed (srun_step U (Result i) s) = false).
    { pose proof G as ((I & T & J) & _). pose proof (step_eff U (Result i) s I T) as E. remember (srun_step U (Result i) s) as s3 eqn:E3. clear E3 Ld G3. remember (Result i) as o eqn:Eo. destruct E as [o|? ?|?| | |s' E|? s' E|o k s' E O|o s' E O]; try discriminate; auto.
      - apply teff_same in E as (_ & E & _). congruence.
      - apply jeff_same in E as (_ & E & _). congruence. }
    destruct Ld as [(bs & C & F & Nr)|(C & F)]; [left; exists bs; split; [exact C|]; split; [left; exact (proj2 W2)|exact (fate_write U _ i n _ bs G3 Cl3 F Nr)]|right; split; [exact C|exact (proj2 W2)]].
  - fold s in N2, Ld. assert (b2 = b) by congruence. subst b2. assert (r2 = r) by congruence. subst r2. destruct Ld as [(bs & C & F & Nr)|(C & F)]; [|right; split; [exact C|exact (proj2 F)]].
    left. exists bs. split; [exact C|]. split; [exact (fate_answers _ _ _ _ _ F)|].
    assert (R : srun_step U (Result i) s = s).
    { destruct F as [(A & _)|[([A|[A|(e & A)]] & _)|((e & A) & _)]]; cbn [srun_step]; unfold answering in A; rewrite A; reflexivity. }
    rewrite R. exact (fate_write U s i n _ bs G Cl F Nr).
Qed.
Lemma expired_answer U reg tr l1 l2 i n q j : let s1 := srun U reg tr l1 in answering s1 i n (Some q) (TWait j) -> 0 < q_timeout q ->
  v_closed (srun U reg tr (l1 ++ Expire i :: l2)) = false -> ~ In (Drain i false) l2 ->
  exists bs, response bs (q_id q) 2 7 [] /\ answered_by U reg tr (l1 ++ Expire i :: l2) i n bs.
Proof.
  intros s1 A L Cl No. pose proof (closed_prefix U reg tr l1 _ Cl) as Cl1. fold s1 in Cl1. pose proof (good_run U reg tr l1) as G1. fold s1 in G1.
  apply event_answer with (q := q); auto. apply (expire_fate U s1 i n q j); auto. split; [exact A|]. exact (unanswered s1 i n _ _ G1 Cl1 A Logic.I).
Qed.

(** ** C50 *)
Lemma success_answer U reg tr l1 l2 i n q fresh c : let s1 := srun U reg tr l1 in let l := l1 ++ Dispatch i fresh :: l2 in submitted U s1 i n q fresh -> q_type q <> 2 ->
  v_closed (srun U reg tr l) = false -> ~ In (Expire i) l2 -> ~ In (Drain i false) l2 -> ended_with (srun U reg tr l) n (Ok (PBytes c)) -> c <> [] -> len c <= 4294967295 ->
  exists bs, response bs (q_id q) 2 0 c /\ (answers n (srun U reg tr l) = [] \/ answers n (srun U reg tr l) = [bs]) /\ answers n (srun U reg tr (l ++ [Result i; Drain i true])) = [bs].
Proof.
  intros s1 l Sb Ty Cl Ne Nd En N0 Lc. pose proof (answering_id s1 i n q _ (good_run U reg tr l1) (proj1 Sb)) as Hid. destruct (result_bytes_Ok c (q_id q) Hid Lc) as (b0 & Eb & Rb).
  assert (Tc : truthy (PBytes c) = true) by (destruct c; [contradiction|reflexivity]).
  destruct (result_answer U reg tr l1 l2 i n q fresh _ Sb Ty Cl Ne Nd En) as [(bs & C & A & B)|(C & A)]; unfold concluded in C; rewrite Tc in C.
  - destruct C as [(c' & bs' & Ec & Er & Ep)|(_ & Ep)]; [|discriminate]. injection Ep as <-. exists bs. split; [|auto]. rewrite Eb in Er. injection Er as <-. exact Rb.
  - destruct C as [(c' & bs' & Ec & Er & Ep)|(K & _)]; [discriminate|]. contradiction (K b0 Eb).
Qed.
(** an empty result leads to no answer *)
Lemma empty_unanswered U reg tr l1 l2 i n q fresh v : let s1 := srun U reg tr l1 in let l := l1 ++ Dispatch i fresh :: l2 in submitted U s1 i n q fresh -> q_type q <> 2 ->
  v_closed (srun U reg tr l) = false -> ~ In (Expire i) l2 -> ~ In (Drain i false) l2 -> ended_with (srun U reg tr l) n (Ok v) -> truthy v = false -> answers n (srun U reg tr l) = [].
Proof.
  intros s1 l Sb Ty Cl Ne Nd En Tv. destruct (result_answer U reg tr l1 l2 i n q fresh _ Sb Ty Cl Ne Nd En) as [(bs & C & A & B)|(C & A)]; [|exact A]. unfold concluded in C. rewrite Tv in C. discriminate.
Qed.
Lemma taken U reg tr l items rest n q : let s := srun U reg tr l in waiting s -> cuts (fed l) items rest -> nth_error items n = Some (IRequest q) -> exists i p, answering s i n (Some q) p.
Proof. intros s W C N. pose proof (waiting_item U reg tr l items rest n _ W C N) as Ni. destruct (answering_exists s n _ (good_run U reg tr l) Ni) as (K & _). exact (K q eq_refl). Qed.

(** ** C51 *)
Lemma oneway_answers U reg tr l i n q p : let s := srun U reg tr l in v_closed s = false -> answering s i n (Some q) p -> q_type q = 2 ->
  (forall bs, In bs (answers n s) -> exists st, response bs (q_id q) 2 st [] /\ (st = 2 \/ st = 6 \/ st = 8)) /\ ((exists b, In b (v_jobs s) /\ j_frame b = n) -> answers n s = []).
Proof.
  intros s Cl A Ty. pose proof (good_run U reg tr l) as G. fold s in G. split.
  - intros bs H. apply answers_in in H. destruct (oo_answers _ _ _ (open_out s G Cl) n bs H) as (x & Nx & An). destruct (answering_item s i n _ _ G A) as (y & Ny & Fy). cbn in Fy. assert (x = IRequest q) by congruence. subst x.
    destruct An as (st & c & R & [(_ & _ & _ & K)|([K|(_ & K)] & ->)]); [contradiction| |contradiction]. exists st. split; [exact R|]. cbn in K. intuition.
  - intros (b & Hb & Fb). assert (H : In n (map j_frame (v_jobs s))) by (rewrite <- Fb; apply in_map; exact Hb). exact (proj2 (oneways_run U reg tr l Cl i n q p A Ty H)).
Qed.

(** ** C52 *)
Lemma heartbeat_answer U reg tr l items rest n id : let s := srun U reg tr l in waiting s -> cuts (fed l) items rest -> nth_error items n = Some (IHeartbeat id) ->
  exists i p bs, answering s i n None p /\ response bs id 0 0 [] /\ (answers n s = [] \/ answers n s = [bs]) /\ (~ In (Drain i false) l -> answers n (srun U reg tr (l ++ [Drain i true])) = [bs]) /\
    (p = TDone -> answers n s = [bs]) /\ forall b, In b (v_jobs s) -> j_frame b <> n.
Proof.
  intros s W C N. pose proof (good_run U reg tr l) as G. fold s in G. pose proof (waiting_open s G W) as Cl. pose proof (waiting_item U reg tr l items rest n _ W C N) as Ni. fold s in Ni. destruct (answering_exists s n _ G Ni) as (_ & K). destruct (K id eq_refl) as (i & p & A).
  destruct (beats_run U reg tr l Cl i n p A) as (id' & bs & Ni' & R & F). fold s in Ni', F. assert (id' = id) by congruence. subst id'. exists i, p, bs. split; [exact A|]. split; [exact R|]. split; [exact (fate_answers _ _ _ _ _ F)|]. split; [|split].
  - intros No. rewrite srun_snoc. apply (fate_write U s i n None bs G Cl F). intros e. exact (beat_raised U reg tr l i n e Cl No).
  - intros ->. unfold answering in *. destruct F as [(A' & _)|[(_ & B)|((e & A') & _)]]; unfold answering in *; congruence.
  - intros b Hb Fb. apply In_nth_error in Hb as (j & Nj). destruct G as ((_ & _ & J) & _). destruct (jo_named _ J j b Nj) as (q & Nq & _). congruence.
Qed.
Lemma executions_named U reg tr l n sv m b : let s := srun U reg tr l in In (n, sv, m, b) (executions U (sinit reg tr) l) ->
  exists items rest q, cuts (fed l) items rest /\ nth_error items n = Some (IRequest q) /\ names_service (q_header q) sv /\ names_method (q_header q) m /\ b = q_body q.
Proof.
  intros s H. destruct (executions_job U l _ n sv m b (good_init reg tr) H) as (j & x & Nx & <- & <- & <- & <- & _). destruct (good_run U reg tr l) as ((_ & _ & J) & _). destruct (jo_named _ J j x Nx) as (q & Nq & A & B & D).
  destruct (run_cuts U reg tr l) as (rest & C). exists (v_items (srun U reg tr l)), rest, q. auto.
Qed.
Lemma success_executed U reg tr l n bs id c : let s := srun U reg tr l in v_closed s = false -> In bs (answers n s) -> response bs id 2 0 c ->
  exists sv m b, In (n, sv, m, b) (executions U (sinit reg tr) l) /\ ended_with s n (Ok (PBytes c)).
Proof.
  intros s Cl H R. pose proof (good_run U reg tr l) as G. fold s in G. apply answers_in in H. destruct (oo_answers _ _ _ (open_out s G Cl) n bs H) as (x & Nx & An).
  assert (K : backed s n c).
  { destruct x as [q|id'|id' st'|id']; cbn in An.
    - destruct An as (st & c' & R' & D). destruct (response_fun _ _ _ _ _ _ _ _ _ R R') as (_ & _ & <- & <-). destruct D as [(_ & B & _)|([D|(D & _)] & _)]; [exact B|cbn in D; lia..].
    - destruct (response_fun _ _ _ _ _ _ _ _ _ R An) as (_ & K & _). discriminate.
    - destruct (response_fun _ _ _ _ _ _ _ _ _ R An) as (_ & _ & K & _). subst st'. destruct G as ((I & _) & _). pose proof (so_cuts _ I) as (rest & C & _). exfalso.
      assert (Z : forall bs l r, cuts bs l r -> ~ In (IBad id' 0) l) by (clear; induction 1 as [bs|a i r O F|a i bs l r O F C IH]; intros H; [destruct H|destruct H as [->|[]]; destruct F|destruct H as [->|H]; [inversion O|exact (IH H)]]).
      apply nth_error_In in Nx. exact (Z _ _ _ C Nx).
    - destruct An. }
  destruct K as (j & b & Nj & Fj & Sj). destruct (started_executed U l (sinit reg tr) j b (good_init reg tr) Nj (or_intror (ex_intro _ _ Sj))) as [E|(y & Ny & _)]; [|destruct j; discriminate].
  unfold call in E. rewrite Fj in E. exists (j_service b), (j_method b), (j_body b). split; [exact E|]. exists b. split; [eapply nth_error_In; exact Nj|auto].
Qed.

(** ** C54, C55 *)
Fixpoint taken_items (l : list item) : list (option request) := match l with [] => [] | IRequest q :: r => Some q :: taken_items r | IHeartbeat _ :: r => None :: taken_items r | _ :: r => taken_items r end.
Lemma accepted_taken l : forall n, map snd (accepted n l) = taken_items l.
Proof. induction l as [|[q|id|id st|id] l IH]; intros n; cbn; rewrite ?IH; reflexivity. Qed.
Lemma handed_items s : good s -> handed s = taken_items (v_items s).
Proof. intros G. rewrite <- (accepted_taken _ 0), <- (handed_accepted s G), map_map. reflexivity. Qed.
Lemma taken_app l m : taken_items (l ++ m) = taken_items l ++ taken_items m.
Proof. induction l as [|[q|id|id st|id] l IH]; cbn; rewrite ?IH; reflexivity. Qed.
(** the stream of a waiting server, from the units *)
Lemma waiting_cut s items rest : good s -> waiting s -> cuts (v_in s) items rest -> Forall nonfatal items -> unit_of rest = None -> v_items s = items.
Proof.
  intros G W C Nf E. destruct (waiting_all s items rest G W C) as (m & Hm). destruct m as [|i m]; [now rewrite app_nil_r in Hm|]. exfalso. pose proof G as ((I & _) & _). destruct (so_cuts _ I) as (r & C0 & _). rewrite Hm in C0.
  pose proof (cuts_tail _ _ _ _ _ C Nf C0) as K. destruct (cuts_head _ _ _ _ K) as (a & y & -> & O). apply one_unit in O. apply (unit_more _ y) in O. congruence.
Qed.
Lemma cuts_join a la b lb r : cuts a la [] -> Forall nonfatal la -> cuts b lb r -> cuts (a ++ b) (la ++ lb) r.
Proof.
  intros C. remember [] as e eqn:Ee. induction C as [bs|a i r0 O F|a i bs l r0 O F C IH]; intros Nf Cb.
  - subst. exact Cb.
  - inversion Nf; subst. contradiction.
  - inversion Nf; subst. rewrite <- app_assoc. cbn [app]. apply Cuts_cons; auto.
Qed.
Lemma cuts_split a la b l r : cuts a la [] -> Forall nonfatal la -> cuts (a ++ b) l r -> (exists m, l = la ++ m /\ cuts b m r) \/ exists m, la = l ++ m.
Proof.
  intros C Nf C'. pose proof (cuts_join a la b [] b C Nf (Cuts_nil b)) as C1. rewrite app_nil_r in C1. destruct (cuts_comparable _ _ _ _ _ C1 C') as [(m & ->)|(m & E)]; [|eauto]. left. exists m. split; [reflexivity|].
  exact (cuts_tail _ _ _ _ _ C1 Nf C').
Qed.
(** a bad frame between good ones *)
Lemma bad_skipped U reg tr reg' tr' l l' x lx a id st y : cuts x lx [] -> Forall nonfatal lx -> one a (IBad id st) -> fed l = x ++ a ++ y -> fed l' = x ++ y ->
  waiting (srun U reg tr l) -> waiting (srun U reg' tr' l') ->
  exists m, v_items (srun U reg tr l) = lx ++ IBad id st :: m /\ v_items (srun U reg' tr' l') = lx ++ m.
Proof.
  intros Cx Nf O E E' W W'. set (s := srun U reg tr l) in *. set (s' := srun U reg' tr' l') in *. pose proof (good_run U reg tr l) as G. pose proof (good_run U reg' tr' l') as G'. fold s in G. fold s' in G'.
  assert (In1 : v_in s = x ++ a ++ y) by (unfold s; rewrite in_run; exact E). assert (In2 : v_in s' = x ++ y) by (unfold s'; rewrite in_run; exact E').
  assert (Nb : nonfatal (IBad id st)) by (intros K; exact K).
  assert (C1 : cuts (x ++ a) (lx ++ [IBad id st]) []) by (apply cuts_join; auto; rewrite <- (app_nil_r a); apply Cuts_cons; auto; constructor).
  assert (Nf1 : Forall nonfatal (lx ++ [IBad id st])) by (apply Forall_app; split; auto).
  pose proof (cuts_join _ _ y [] y C1 Nf1 (Cuts_nil y)) as C2. rewrite app_nil_r in C2. rewrite <- app_assoc, <- In1 in C2.
  destruct (waiting_all s _ _ G W C2) as (m & Hm). exists m. rewrite <- app_assoc in Hm. split; [exact Hm|].
  pose proof G as ((I & _) & _). destruct (so_cuts _ I) as (r & C & A). pose proof (so_live _ I (waiting_going s W)) as Nm. rewrite Hm, app_assoc in C, Nm.
  pose proof (cuts_tail _ _ _ _ _ C2 Nf1 C) as Cy. apply Forall_app in Nm as (_ & Nm).
  apply (waiting_cut s' (lx ++ m) r G' W'); [rewrite In2; apply cuts_join; assumption|apply Forall_app; split; assumption|exact (waiting_rest s r W A)].
Qed.
Lemma bad_handed U reg tr reg' tr' l l' x lx a id st y : cuts x lx [] -> Forall nonfatal lx -> one a (IBad id st) -> fed l = x ++ a ++ y -> fed l' = x ++ y ->
  waiting (srun U reg tr l) -> waiting (srun U reg' tr' l') -> handed (srun U reg tr l) = handed (srun U reg' tr' l').
Proof.
  intros Cx Nf O E E' W W'. destruct (bad_skipped U reg tr reg' tr' l l' x lx a id st y Cx Nf O E E' W W') as (m & H & H'). rewrite !handed_items, H, H' by apply good_run. rewrite !taken_app. reflexivity.
Qed.
(** a frame with a malformed header part: its content is taken for what follows *)
Lemma codec_content a f : request_layout a f -> (~ exists kvs, header_pairs (fr_header f) kvs) -> ~ bad_text (fr_header f) -> exists h, a = h ++ fr_content f /\ one h (IBad (fr_request_id f) 9).
Proof.
  intros L N B. destruct (layout_parts a f L) as (fx & -> & Lx & C & H & Ct & T1 & T2 & T3 & T4). exists (fx ++ fr_class f ++ fr_header f). split; [now rewrite <- !app_assoc|]. apply (One_codec _ _ (fr_header f)); auto.
  exists (fr_class f). rewrite !(field_fixed fx) by (auto; lia). pose proof (len_nonneg (fr_class f)). pose proof (len_nonneg (fr_header f)). rewrite !len_app. split; [lia|]. repeat (split; [auto|]). apply skipn_app_len. unfold len in Lx. lia.
Qed.
Lemma chunking U reg tr reg' tr' l l' : fed l = fed l' -> waiting (srun U reg tr l) -> waiting (srun U reg' tr' l') -> v_items (srun U reg tr l) = v_items (srun U reg' tr' l').
Proof. intros E W W'. apply waiting_same; auto; try apply good_run. rewrite !in_run. exact E. Qed.
Lemma chunking_prefix U reg tr reg' tr' l l' : fed l = fed l' -> (exists m, v_items (srun U reg' tr' l') = v_items (srun U reg tr l) ++ m) \/ (exists m, v_items (srun U reg tr l) = v_items (srun U reg' tr' l') ++ m).
Proof. intros E. destruct (run_cuts U reg tr l) as (r & C). destruct (run_cuts U reg' tr' l') as (r' & C'). rewrite <- E in C'. exact (cuts_comparable _ _ _ _ _ C C'). Qed.

(** a method that raises *)
Lemma exception_answer U reg tr l1 l2 i n q fresh e : let s1 := srun U reg tr l1 in let l := l1 ++ Dispatch i fresh :: l2 in submitted U s1 i n q fresh -> q_type q <> 2 ->
  v_closed (srun U reg tr l) = false -> ~ In (Expire i) l2 -> ~ In (Drain i false) l2 -> ended_with (srun U reg tr l) n (Raise e) ->
  exists bs, response bs (q_id q) 2 (match e with CancelledError | TimeoutError => 7 | _ => 3 end) [] /\ (answers n (srun U reg tr l) = [] \/ answers n (srun U reg tr l) = [bs]) /\ answers n (srun U reg tr (l ++ [Result i; Drain i true])) = [bs].
Proof.
  intros s1 l Sb Ty Cl Ne Nd En. pose proof Sb as (A0 & _). pose proof (answering_id _ _ _ _ _ (good_run U reg tr l1) A0) as Io.
  destruct (result_answer U reg tr l1 l2 i n q fresh _ Sb Ty Cl Ne Nd En) as [(bs & C & A & B)|(C & _)]; unfold concluded in C.
  - destruct C as (b & F & Ep). injection Ep as <-. exists bs. split; [|auto]. eapply fail_bytes_inv; eassumption.
  - destruct C as (b & _ & Ep). discriminate.
Qed.

(** a coroutine ended by an exception before it wrote anything *)
Definition lost (s : sst) (i n : nat) (r : option request) : Prop := (exists e, answering s i n r (TRaised e)) /\ answers n s = [].
Lemma lost_step U o s i n r : good s -> v_closed (srun_step U o s) = false -> lost s i n r -> lost (srun_step U o s) i n r.
Proof.
  intros G Cl ((e & A) & B). destruct (step_task U o s i _ G A Cl) as [(N & An)|(E & _)]; [split; [exists e; exact N|cbn in An; congruence]|]. exfalso.
  remember (srun_step U o s) as s1 eqn:E1. clear E1. inversion E; subst; unfold answering in A; congruence || (rewrite A in *; match goal with H : Some _ = Some _ |- _ => injection H as <- end; discriminate).
Qed.
Lemma lost_from U l i n r : forall s, good s -> v_closed (sfrom U s l) = false -> lost s i n r -> lost (sfrom U s l) i n r.
Proof.
  induction l as [|o l IH]; intros s G Cl F; [exact F|]. change (sfrom U s (o :: l)) with (sfrom U (srun_step U o s) l) in *. pose proof (good_step U o s G) as G'.
  apply IH; auto. apply lost_step; auto. exact (closed_from U l _ G' Cl).
Qed.
Lemma untraceable_unanswered U reg tr l1 l2 i n q fresh : let s1 := srun U reg tr l1 in answering s1 i n (Some q) TStart -> ~ traceable U s1 q fresh ->
  (exists sv, names_service (q_header q) sv) -> (exists m, names_method (q_header q) m) ->
  v_closed (srun U reg tr (l1 ++ Dispatch i fresh :: l2)) = false -> answers n (srun U reg tr (l1 ++ Dispatch i fresh :: l2)) = [].
Proof.
  intros s1 A Nt (sv & Ns) (m & Nm) Cl. pose proof (good_run U reg tr l1) as G1. fold s1 in G1. pose proof (closed_prefix U reg tr l1 _ Cl) as Cl1.
  assert (Cl2 : v_closed (srun_step U (Dispatch i fresh) s1) = false). { unfold s1. rewrite <- srun_snoc. apply (closed_prefix U reg tr (l1 ++ [Dispatch i fresh]) l2). rewrite <- app_assoc. exact Cl. }
  assert (L : lost (srun_step U (Dispatch i fresh) s1) i n (Some q)).
  { cbn [srun_step] in *. pose proof A as A'. unfold answering in A'. rewrite A'. cbn [a_pc a_req a_frame]. unfold dispatch.
    apply service_name_iff in Ns. apply method_name_iff in Nm. rewrite Ns, Nm.
    destruct (extract U (v_trace s1) (q_header q) fresh) as (tr' & [c|e]) eqn:Ex; [exfalso; apply Nt; exists tr', c; exact Ex|].
    split; [exists e; eapply answering_tgoto; [exact A|reflexivity]|]. exact (unanswered s1 i n _ _ G1 Cl1 A Logic.I). }
  rewrite srun_app in *. exact (proj2 (lost_from U l2 i n (Some q) _ (good_step U _ _ G1) Cl L)).
Qed.

(** ** C57: the peer half-closes when all its frames have been taken *)
Lemma half_close U reg tr l items x : let s := srun U reg tr l in waiting s -> cuts (fed l) (items ++ [x]) [] -> nonfatal x ->
  exists n bs, v_out (srun U reg tr (l ++ [Eof; Read; DrainR true])) = v_out s ++ [(n, bs)] /\ response bs (item_id x) 2 16 [].
Proof.
  intros s W C Nx. pose proof (good_run U reg tr l) as G. fold s in G. pose proof (waiting_open s G W) as Cl. rewrite <- (in_run U reg tr l) in C. fold s in C.
  destruct (waiting_all s _ _ G W C) as (m & Em). pose proof G as ((I & _) & _). destruct (so_cuts _ I) as (r & C0 & A). pose proof (so_live _ I (waiting_going s W)) as Nf. rewrite Em in C0, Nf.
  apply Forall_app in Nf as (Nf & _). pose proof (cuts_tail _ _ _ _ _ C Nf C0) as K.
  assert (Em0 : m = []). { destruct m as [|i m]; [reflexivity|]. destruct (cuts_head _ _ _ _ K) as (a & y & E & O). symmetry in E. apply app_eq_nil in E as (-> & _). apply one_unit in O. discriminate. }
  subst m. rewrite app_nil_r in Em. inversion K; subst. clear K. pose proof (so_heads _ I) as Hd. pose proof (so_ids _ I) as Io. destruct W as (R & E & X & Sr).
  assert (Rd : v_rd s = RFixed). { destruct (v_rd s) as [|h|h c|h c sofa|b| |st| | |] eqn:Er; try contradiction; try reflexivity; exfalso; cbn [ahead] in A; destruct A as (fx & A); repeat match goal with H : exists _, _ |- _ => destruct H | H : _ /\ _ |- _ => destruct H end; match goal with H : [] = fx ++ _ |- _ => symmetry in H; apply app_eq_nil in H as (-> & _) end; discriminate. }
  rewrite Rd in Hd. cbn in Hd. rewrite Em, map_app in Hd. cbn [map] in Hd. rewrite Hd in Io. apply Forall_app in Io as (_ & Io). inversion Io as [|? ? Ix _]; subst.
  rewrite Rd in A. cbn [ahead] in A. symmetry in A.
  destruct (fail_bytes_Ok (item_id x) 16 Ix) as (bs & Fb & Rb); [unfold legal_status; lia|].
  assert (E1 : srun_step U Read (srun_step U Eof s) = set_rd (set_stream s (v_buf s) true (v_exn s) (v_in s)) (RLast1 16)).
  { cbn [srun_step]. unfold sread. cbn [set_stream v_rd]. rewrite Rd. change (bolt_header_size BoltRequest) with 22. unfold ready. cbn [set_stream v_exn v_buf]. rewrite X, A. change (negb false && (22 <=? len [])) with false. cbv iota. unfold starved. cbn [set_stream v_exn v_eof]. reflexivity. }
  eexists _, bs. split; [|exact Rb]. rewrite srun_app. unfold sfrom. cbn [fold_left]. fold s. rewrite E1. cbn [srun_step]. unfold sdrain. cbn [set_rd set_stream v_rd]. unfold last_id. cbn [set_rd set_stream v_heads]. rewrite Hd, rev_app_distr. cbn [rev app nth_error]. rewrite Fb.
  unfold swrite. cbn [set_rd set_stream v_closed]. rewrite Cl. cbn. reflexivity.
Qed.

(** ** C55 *)
Lemma chunked U reg tr reg' tr' l l' : let s := srun U reg tr l in let s' := srun U reg' tr' l' in fed l = fed l' -> waiting s -> waiting s' ->
  handed s = handed s' /\ forall items rest n id st, cuts (fed l) items rest -> nth_error items n = Some (IBad id st) ->
    exists bs bs', answers n s = [bs] /\ answers n s' = [bs'] /\ response bs id 2 st [] /\ response bs' id 2 st [].
Proof.
  intros s s' E W W'. split; [rewrite !handed_items by apply good_run; f_equal; apply chunking; auto|]. intros items rest n id st C N.
  destruct (waiting_bad U reg tr l items rest n id st W C N) as (bs & A & R). rewrite E in C. destruct (waiting_bad U reg' tr' l' items rest n id st W' C N) as (bs' & A' & R'). exists bs, bs'. auto.
Qed.
Lemma chunked_prefix U reg tr reg' tr' l l' : fed l = fed l' ->
  (exists m, handed (srun U reg' tr' l') = handed (srun U reg tr l) ++ m) \/ (exists m, handed (srun U reg tr l) = handed (srun U reg' tr' l') ++ m).
Proof.
  intros E. rewrite !handed_items by apply good_run. destruct (chunking_prefix U reg tr reg' tr' l l' E) as [(m & ->)|(m & ->)]; [left|right]; exists (taken_items m); apply taken_app.
Qed.

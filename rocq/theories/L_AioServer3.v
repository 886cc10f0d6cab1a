(** Lemmas about the asyncio server: the effects of every step, and the invariant of the tasks. *)
From Coq Require Import ZifyBool Strings.String.
From Verif Require Import PyBase L_PyBase PyDict L_PyDict PyInt Struct M_SofaHeader L_SofaHeader M_Package L_Package L_Codec M_RpcId M_Trace S_Wire M_AioServer S_Server L_AioServer L_AioServer2.
Open Scope Z_scope.

(** ** Names and registries *)
Lemma nonempty_Some o x : nonempty_str o = Some x <-> o = Some x /\ x <> [].
Proof.
  destruct o as [[|c r]|]; cbn; split.
  - discriminate.
  - intros [H N]. congruence.
  - intros H. split; [exact H|]. intros ->. discriminate.
  - intros [H N]. exact H.
  - discriminate.
  - intros [H N]. exact H.
Qed.
Lemma nonempty_None o : nonempty_str o = None <-> o = None \/ o = Some [].
Proof. destruct o as [[|c r]|]; cbn; split; auto; try discriminate. intros [H|H]; discriminate. Qed.
Lemma service_name_iff h sv : service_name h = Some sv <-> names_service h sv.
Proof.
  unfold service_name, names_service. destruct (nonempty_str (dget (str "sofa_head_target_service") h)) as [x|] eqn:E.
  - apply nonempty_Some in E as [E N]. rewrite E. split; [intros [= <-]; auto|]. intros (N2 & [H|([H|H] & _)]); congruence.
  - apply nonempty_None in E. rewrite nonempty_Some. split; [intros [H N]; auto|]. intros (N2 & [H|(_ & H)]); [|auto]. rewrite H in E. destruct E; congruence.
Qed.
Lemma method_name_iff h m : method_name h = Some m <-> names_method h m.
Proof. unfold method_name, names_method. rewrite nonempty_Some. tauto. Qed.
Lemma no_service h : service_name h = None <-> ~ exists sv, names_service h sv.
Proof.
  destruct (service_name h) as [sv|] eqn:E; split; try discriminate.
  - intros H. exfalso. apply H. exists sv. apply service_name_iff. exact E.
  - intros _ (sv & H). apply service_name_iff in H. congruence.
  - reflexivity.
Qed.
Lemma no_method h : method_name h = None <-> ~ exists m, names_method h m.
Proof.
  destruct (method_name h) as [sv|] eqn:E; split; try discriminate.
  - intros H. exfalso. apply H. exists sv. apply method_name_iff. exact E.
  - intros _ (sv & H). apply method_name_iff in H. congruence.
  - reflexivity.
Qed.
Definition not_found (reg : registry) (sv m : pystr) : Prop := unknown reg sv m \/ broken reg sv AttributeError \/ broken reg sv NoProcessorError.
Lemma find_method_Ok reg sv m x : find_method reg sv m = Ok x -> offers reg sv m.
Proof.
  unfold find_method. destruct (dget sv reg) as [y|] eqn:E; [|discriminate]. destruct (sv_raises y) as [e|] eqn:R; [destruct e; discriminate|].
  destruct (sv_methods y m) eqn:M; [|discriminate]. intros _. exists y. auto.
Qed.
Lemma find_method_offers reg sv m : offers reg sv m -> find_method reg sv m = Ok tt.
Proof. intros (y & E & R & M). unfold find_method. rewrite E, R, M. reflexivity. Qed.
Lemma find_method_Raise reg sv m e : find_method reg sv m = Raise e -> (e = NoProcessorError /\ not_found reg sv m) \/ (e <> NoProcessorError /\ e <> AttributeError /\ broken reg sv e).
Proof.
  unfold find_method, not_found, unknown, broken. destruct (dget sv reg) as [y|] eqn:E; [|intros [= <-]; left; auto].
  destruct (sv_raises y) as [e'|] eqn:R.
  - destruct e'; intros H; injection H as <-; try (right; split; [discriminate|split; [discriminate|eauto]]); left; split; auto; right; eauto.
  - destruct (sv_methods y m) eqn:M; [discriminate|]. intros [= <-]. left. split; [reflexivity|]. left. right. eauto.
Qed.
Lemma find_method_not_found reg sv m : not_found reg sv m -> find_method reg sv m = Raise NoProcessorError.
Proof.
  unfold find_method. intros [[E|(y & E & R & M)]|[(y & E & R)|(y & E & R)]]; rewrite E; [reflexivity|rewrite R, M; reflexivity|rewrite R; reflexivity..].
Qed.
Lemma find_method_broken reg sv m e : broken reg sv e -> e <> AttributeError -> find_method reg sv m = Raise e.
Proof. intros (y & E & R) N. unfold find_method. rewrite E, R. destruct e; try reflexivity. congruence. Qed.

(** ** Frames handed on *)
Lemma accepted_ge l : forall n k r, In (k, r) (accepted n l) -> (n <= k)%nat.
Proof. induction l as [|i l IH]; intros n k r H; [destruct H|]. destruct i; cbn [accepted In] in H; try (destruct H as [H|H]; [injection H; intros; lia|]); apply IH in H; lia. Qed.
Lemma accepted_NoDup l : forall n, NoDup (map fst (accepted n l)).
Proof.
  induction l as [|i l IH]; intros n; [constructor|]. destruct i; cbn [accepted map]; try apply IH; constructor; try apply IH; cbn [fst]; intros H; apply in_map_iff in H as ((k & r) & E & H); cbn in E; subst k; apply accepted_ge in H; lia.
Qed.
Definition item_for (r : option request) (i : item) : Prop := match r with Some q => i = IRequest q | None => exists id, i = IHeartbeat id end.
Lemma accepted_nth l : forall n k r, In (k, r) (accepted n l) <-> exists i, (n <= k)%nat /\ nth_error l (k - n) = Some i /\ item_for r i.
Proof.
  induction l as [|i l IH]; intros n k r.
  - cbn. split; [tauto|]. intros (i & _ & H & _). destruct (k - n)%nat; discriminate.
  - assert (T : In (k, r) (accepted (S n) l) <-> exists j, (S n <= k)%nat /\ nth_error (i :: l) (k - n) = Some j /\ item_for r j).
    { rewrite IH. split; intros (j & L & H & F); exists j; (split; [exact L|]); (split; [|exact F]); replace (k - n)%nat with (S (k - S n)) in * by lia; exact H. }
    assert (Z0 : forall r', item_for r' i -> ((k, r) = (n, r') <-> (k = n /\ r = r'))) by (intros; split; [intros [= ]; auto|intros [-> ->]; reflexivity]).
    assert (D : (exists j, (n <= k)%nat /\ nth_error (i :: l) (k - n) = Some j /\ item_for r j) <-> (k = n /\ item_for r i) \/ In (k, r) (accepted (S n) l)).
    { rewrite T. split.
      - intros (j & L & H & F). destruct (Nat.eq_dec k n) as [->|N]; [left; rewrite Nat.sub_diag in H; injection H as <-; auto|right; exists j; split; [lia|auto]].
      - intros [[-> F]|(j & L & H & F)]; [exists i; rewrite Nat.sub_diag; auto|exists j; split; [lia|auto]]. }
    rewrite D. destruct i as [q|id|id st|id]; cbn [accepted In].
    + split; [intros [H|H]; [left; injection H; intros; subst; cbn; auto|auto]|]. intros [[-> F]|H]; [left; destruct r as [q'|]; cbn in F; [congruence|destruct F; discriminate]|auto].
    + split; [intros [H|H]; [left; injection H; intros; subst; cbn; eauto|auto]|]. intros [[-> F]|H]; [left; destruct r as [q'|]; cbn in F; [discriminate|reflexivity]|auto].
    + split; [auto|]. intros [[-> F]|H]; [destruct r as [q'|]; cbn in F; [discriminate|destruct F; discriminate]|auto].
    + split; [auto|]. intros [[-> F]|H]; [destruct r as [q'|]; cbn in F; [discriminate|destruct F; discriminate]|auto].
Qed.
Lemma accepted_app l l' : forall n, accepted n (l ++ l') = accepted n l ++ accepted (n + List.length l) l'.
Proof.
  induction l as [|i l IH]; intros n; cbn [app List.length]; [now rewrite Nat.add_0_r|]. replace (n + S (List.length l))%nat with (S n + List.length l)%nat by lia.
  destruct i; cbn [accepted app]; rewrite IH; reflexivity.
Qed.

Definition tid (t : atask) : nat * option request := (a_frame t, a_req t).
Record tasks_ok (s : sst) : Prop := {
  to_ids : map tid (v_tasks s) = accepted 0 (v_items s);
  to_beats : forall i t, nth_error (v_tasks s) i = Some t -> a_req t = None -> exists id, nth_error (v_items s) (a_frame t) = Some (IHeartbeat id) /\
    match a_pc t with TDrain1 bs => beat_bytes id = Ok bs | TDrain2 | TDone | TRaised _ => True | _ => False end
}.
Lemma task_item s i t : tasks_ok s -> nth_error (v_tasks s) i = Some t -> exists x, nth_error (v_items s) (a_frame t) = Some x /\ item_for (a_req t) x.
Proof.
  intros [T _] H. assert (X : In (tid t) (accepted 0 (v_items s))) by (rewrite <- T; apply in_map; eapply nth_error_In; exact H).
  apply accepted_nth in X as (x & _ & E & F). rewrite Nat.sub_0_r in E. eauto.
Qed.
Lemma task_request s i t q : tasks_ok s -> nth_error (v_tasks s) i = Some t -> a_req t = Some q -> nth_error (v_items s) (a_frame t) = Some (IRequest q).
Proof. intros T H R. destruct (task_item s i t T H) as (x & E & F). rewrite R in F. cbn in F. congruence. Qed.
Lemma NoDup_nth_map {A B} (g : A -> B) l i j x y : NoDup (map g l) -> nth_error l i = Some x -> nth_error l j = Some y -> g x = g y -> i = j.
Proof.
  intros N X Y E. apply (proj1 (NoDup_nth_error (map g l)) N); [rewrite map_length; apply nth_error_Some; congruence|].
  rewrite !nth_error_map, X, Y. cbn. congruence.
Qed.
Lemma task_unique s i j t u : tasks_ok s -> nth_error (v_tasks s) i = Some t -> nth_error (v_tasks s) j = Some u -> a_frame t = a_frame u -> i = j.
Proof.
  intros [T _] A B E. apply (NoDup_nth_map (fun t => fst (tid t)) (v_tasks s) i j t u); auto. rewrite <- map_map, T. apply accepted_NoDup.
Qed.

(** ** The effects of the steps *)
(** why a request is refused at once *)
Definition refused (reg : registry) (q : request) (st : Z) : Prop :=
  (st = 8 /\ ((~ exists sv, names_service (q_header q) sv) \/ (~ exists m, names_method (q_header q) m))) \/
  (exists sv m, names_service (q_header q) sv /\ names_method (q_header q) m /\
     ((st = 6 /\ not_found reg sv m) \/ (st = 2 /\ exists e, broken reg sv e /\ e <> AttributeError /\ e <> NoProcessorError /\ e <> CancelledError))).
Definition new_job (n : nat) (q : request) (sv m : pystr) (c : nat) : job :=
  {| j_frame := n; j_service := sv; j_method := m; j_body := q_body q; j_ctx := c; j_state := JQueued |}.
(** what the end of a job leads to *)
Definition concluded (q : request) (r : res pyobj) (p : tpc) : Prop :=
  match r with
  | Ok v => if truthy v then (exists c bs, v = PBytes c /\ result_bytes v (q_id q) = Ok bs /\ p = TDrain1 bs) \/ ((forall bs, result_bytes v (q_id q) <> Ok bs) /\ p = TDone) else p = TDone
  | Raise e => exists bs, fail_bytes (q_id q) (match e with CancelledError | TimeoutError => 7 | _ => 3 end) = Ok bs /\ p = TDrain1 bs
  end.
Definition expire_job (j : nat) (s : sst) : sst :=
  match nth_error (v_jobs s) j with Some b => match j_state b with JQueued => set_jstate j JCancelled s | _ => s end | None => s end.
Inductive teff (U : tables) (s : sst) : nat -> sst -> Prop :=
| X_refused i t q st bs tr : nth_error (v_tasks s) i = Some t -> a_req t = Some q -> a_pc t = TStart -> refused (v_reg s) q st ->
    fail_bytes (q_id q) st = Ok bs -> teff U s i (tgoto i (TDrain1 bs) (set_trace s tr))
| X_raised i t q e tr : nth_error (v_tasks s) i = Some t -> a_req t = Some q -> a_pc t = TStart ->
    ((exists fresh, extract U (v_trace s) (q_header q) fresh = (tr, Raise e)) \/ e = CancelledError) -> teff U s i (tgoto i (TRaised e) (set_trace s tr))
| X_submit i t q sv m c tr fresh : nth_error (v_tasks s) i = Some t -> a_req t = Some q -> a_pc t = TStart ->
    names_service (q_header q) sv -> names_method (q_header q) m -> offers (v_reg s) sv m -> extract U (v_trace s) (q_header q) fresh = (tr, Ok c) ->
    teff U s i (tgoto i (if q_type q =? 2 then TDone else TWait (List.length (v_jobs s))) (set_jobs (set_trace s tr) (v_jobs s ++ [new_job (a_frame t) q sv m c])))
| X_conclude i t q j b r p : nth_error (v_tasks s) i = Some t -> a_req t = Some q -> a_pc t = TWait j -> nth_error (v_jobs s) j = Some b -> j_state b = JEnded r ->
    concluded q r p -> teff U s i (tgoto i p s)
| X_expire i t q j bs : nth_error (v_tasks s) i = Some t -> a_req t = Some q -> a_pc t = TWait j -> 0 < q_timeout q -> fail_bytes (q_id q) 7 = Ok bs ->
    teff U s i (tgoto i (TDrain1 bs) (expire_job j s))
| X_write i t bs : nth_error (v_tasks s) i = Some t -> a_pc t = TDrain1 bs -> v_closed s = false ->
    teff U s i (tgoto i TDrain2 (set_out s (v_out s ++ [(a_frame t, bs)]) (v_closed s)))
| X_lost i t bs e : nth_error (v_tasks s) i = Some t -> a_pc t = TDrain1 bs -> teff U s i (tgoto i (TRaised e) s)
| X_end i t p : nth_error (v_tasks s) i = Some t -> a_pc t = TDrain2 -> (p = TDone \/ exists e, p = TRaised e) -> teff U s i (tgoto i p s).
Inductive jeff (s : sst) : sst -> Prop :=
| J_run j b : nth_error (v_jobs s) j = Some b -> j_state b = JQueued -> jeff s (set_jstate j JRunning s)
| J_end j b r : nth_error (v_jobs s) j = Some b -> j_state b = JRunning -> jeff s (set_jstate j (JEnded r) s).
Inductive deff (s : sst) : sst -> Prop :=
| D_write bs : v_rd s = RFail1 bs -> v_closed s = false -> deff s (set_rd (set_out s (v_out s ++ [(List.length (v_heads s) - 1, bs)%nat]) (v_closed s)) RFail2)
| D_died : (exists bs, v_rd s = RFail1 bs) \/ v_rd s = RFail2 -> deff s (set_rd s RDied)
| D_next : v_rd s = RFail2 -> deff s (set_rd s RFixed)
| D_last st fin : v_rd s = RLast1 st -> (fin = [] \/ v_closed s = false /\ exists id bs, last_id s = Some id /\ fail_bytes id st = Ok bs /\ fin = [(List.length (v_heads s) - 1, bs)%nat]) ->
    deff s (set_rd (set_out s (v_out s ++ fin) true) RLast2)
| D_end : v_rd s = RLast2 -> deff s (set_rd s REnd).
Inductive eff (U : tables) (s : sst) : sstep -> sst -> Prop :=
| E_none o : eff U s o s
| E_reg name sv : eff U s (Register name sv) (set_reg s (dset name sv (v_reg s)))
| E_feed bs : eff U s (Feed bs) (set_stream s (v_buf s ++ bs) (v_eof s) (v_exn s) (v_in s ++ bs))
| E_eof : eff U s Eof (set_stream s (v_buf s) true (v_exn s) (v_in s))
| E_reset : eff U s Reset (set_stream s (v_buf s) (v_eof s) true (v_in s))
| E_read s' : rstep s s' -> eff U s Read s'
| E_drain ok s' : deff s s' -> eff U s (DrainR ok) s'
| E_task o i s' : teff U s i s' -> (o = Result i \/ o = Expire i \/ (exists f, o = Dispatch i f) \/ (exists ok, o = Drain i ok)) -> eff U s o s'
| E_job o s' : jeff s s' -> (exists j, o = JobRun j \/ exists r, o = JobEnd j r) -> eff U s o s'.

Lemma set_out_id s : set_out s (v_out s) (v_closed s) = s. Proof. destruct s; reflexivity. Qed.
Lemma set_trace_id s : set_trace s (v_trace s) = s. Proof. destruct s; reflexivity. Qed.
Lemma legal_statuses : legal_status 2 /\ legal_status 3 /\ legal_status 6 /\ legal_status 7 /\ legal_status 8 /\ legal_status 9 /\ legal_status 16.
Proof. unfold legal_status. lia. Qed.

Lemma request_id_ok s i t q : stream_ok s -> tasks_ok s -> nth_error (v_tasks s) i = Some t -> a_req t = Some q -> id_ok (q_id q).
Proof.
  intros I T H R. pose proof (so_ids_items _ I) as F. rewrite Forall_forall in F. apply (F (IRequest q)). apply (nth_error_In _ (a_frame t)). exact (task_request s i t q T H R).
Qed.

Lemma step_eff U o s : stream_ok s -> tasks_ok s -> eff U s o (srun_step U o s).
Proof.
  intros I T. destruct legal_statuses as (S2 & S3 & S6 & S7 & S8 & S9 & S16). destruct o as [name sv|bs| | | |ok|i fresh|i ok|j|j r|i|i]; cbn [srun_step].
  - apply E_reg.
  - apply E_feed.
  - apply E_eof.
  - apply E_reset.
  - apply E_read. apply sread_ok. exact I.
  - unfold sdrain, swrite, swrite_eof. destruct (v_rd s) as [|h|h c|h c sofa|bs| |st| | |] eqn:Er; try apply E_none.
    + destruct ok; [|apply E_drain, D_died; eauto]. destruct (v_closed s) eqn:Ec; apply E_drain; [apply D_died; eauto|].
      pose proof (D_write s bs Er Ec) as D. rewrite Ec in D. exact D.
    + destruct ok; apply E_drain; [apply D_next|apply D_died]; auto.
    + apply E_drain.
      assert (D0 : deff s (set_rd (set_out s (v_out s) true) RLast2)) by (rewrite <- (app_nil_r (v_out s)); apply (D_last s st); auto).
      destruct ok; [|exact D0].
      destruct (last_id s) as [id|] eqn:El; [|exact D0]. destruct (fail_bytes id st) as [bs|e] eqn:Ef; [|exact D0]. destruct (v_closed s) eqn:Ec; cbn [fst]; [exact D0|].
      pose proof (D_last s st [(List.length (v_heads s) - 1, bs)%nat] Er (or_intror (conj Ec (ex_intro _ id (ex_intro _ bs (conj El (conj Ef eq_refl))))))) as D. exact D.
    + apply E_drain, D_end. exact Er.
  - destruct (nth_error (v_tasks s) i) as [t|] eqn:Et; [|apply E_none]. destruct (a_pc t) eqn:Ep; try apply E_none. destruct (a_req t) as [q|] eqn:Eq; [|apply E_none].
    pose proof (request_id_ok s i t q I T Et Eq) as Hid.
    assert (Rf : forall st tr, refused (v_reg s) q st -> legal_status st -> eff U s (Dispatch i fresh) (tfail i (q_id q) st (set_trace s tr))).
    { intros st tr R L. destruct (fail_bytes_Ok (q_id q) st Hid L) as (bs & Eb & _). unfold tfail. rewrite Eb. apply (E_task U s _ i); [exact (X_refused U s i t q st bs tr Et Eq Ep R Eb)|eauto]. }
    unfold dispatch. destruct (service_name (q_header q)) as [sv|] eqn:Es.
    2:{ rewrite <- (set_trace_id s) at 2. apply Rf; [|exact S8]. left. split; [reflexivity|]. left. apply no_service. exact Es. }
    destruct (method_name (q_header q)) as [m|] eqn:Em.
    2:{ rewrite <- (set_trace_id s) at 2. apply Rf; [|exact S8]. left. split; [reflexivity|]. right. apply no_method. exact Em. }
    apply service_name_iff in Es. apply method_name_iff in Em.
    destruct (extract U (v_trace s) (q_header q) fresh) as [tr [c|e]] eqn:Ex.
    2:{ apply (E_task U s _ i); [|eauto]. apply (X_raised U s i t q e tr Et Eq Ep). left. eauto. }
    cbv zeta. change (v_reg (set_trace s tr)) with (v_reg s). destruct (find_method (v_reg s) sv m) as [[]|e] eqn:Ef.
    + apply find_method_Ok in Ef. pose proof (X_submit U s i t q sv m c tr fresh Et Eq Ep Es Em Ef Ex) as X. change PTYPE_ONEWAY with 2. destruct (q_type q =? 2); (apply (E_task U s _ i); [exact X|eauto]).
    + pose proof (find_method_Raise _ _ _ _ Ef) as F.
      assert (R2 : e <> NoProcessorError -> e <> CancelledError -> refused (v_reg s) q 2).
      { intros N1 N2. destruct F as [[F _]|(F1 & F2 & F3)]; [contradiction|]. right. exists sv, m. split; [exact Es|]. split; [exact Em|]. right. split; [reflexivity|]. exists e. auto. }
      destruct e; try (apply Rf; [apply R2; discriminate|exact S2]).
      * apply Rf; [|exact S6]. destruct F as [[_ F]|(F & _)]; [|congruence]. right. exists sv, m. auto.
      * apply (E_task U s _ i); [|eauto]. apply (X_raised U s i t q CancelledError tr Et Eq Ep). auto.
  - destruct (nth_error (v_tasks s) i) as [t|] eqn:Et; [|apply E_none]. destruct (a_pc t) as [|j|bs| | |e] eqn:Ep; try apply E_none.
    + destruct ok; [|apply (E_task U s _ i); [eapply X_lost; eauto|eauto 6]]. unfold swrite. destruct (v_closed s) eqn:Ec; [apply (E_task U s _ i); [eapply X_lost; eauto|eauto 6]|].
      pose proof (X_write U s i t bs Et Ep Ec) as X. rewrite Ec in X. apply (E_task U s _ i); [exact X|eauto 6].
    + apply (E_task U s _ i); [|eauto 6]. apply (X_end U s i t); auto. destruct ok; eauto.
  - destruct (nth_error (v_jobs s) j) as [b|] eqn:Ej; [|apply E_none]. destruct (j_state b) eqn:Es; try apply E_none. apply E_job; [eapply J_run; eauto|eauto].
  - destruct (nth_error (v_jobs s) j) as [b|] eqn:Ej; [|apply E_none]. destruct (j_state b) eqn:Es; try apply E_none. apply E_job; [eapply J_end; eauto|eauto].
  - destruct (nth_error (v_tasks s) i) as [t|] eqn:Et; [|apply E_none]. destruct (a_pc t) as [|j|bs| | |e] eqn:Ep; try apply E_none. destruct (a_req t) as [q|] eqn:Eq; [|apply E_none].
    destruct (nth_error (v_jobs s) j) as [b|] eqn:Ej; [|apply E_none]. destruct (j_state b) as [| |r|] eqn:Es; try apply E_none.
    pose proof (request_id_ok s i t q I T Et Eq) as Hid.
    assert (Rf : forall p, concluded q r p -> conclude i q r s = tgoto i p s -> eff U s (Result i) (conclude i q r s)).
    { intros p Hp E. rewrite E. apply (E_task U s _ i); [|auto]. exact (X_conclude U s i t q j b r p Et Eq Ep Ej Es Hp). }
    unfold conclude, tfail in *. destruct r as [v|e].
    + unfold concluded in Rf. destruct (truthy v) eqn:Tv; [|apply (Rf TDone); auto].
      destruct (result_bytes v (q_id q)) as [bs|e] eqn:Er; [|apply (Rf TDone); [right; split; [discriminate|]|]; reflexivity].
      destruct (result_bytes_inv _ _ _ Er) as (c & -> & _). apply (Rf (TDrain1 bs)); [|reflexivity]. left. eauto.
    + destruct (fail_bytes_Ok (q_id q) 7 Hid S7) as (b7 & E7 & _). destruct (fail_bytes_Ok (q_id q) 3 Hid S3) as (b3 & E3 & _).
      destruct e; ((apply (Rf (TDrain1 b3)); [exists b3; auto|]; change ST_UNKNOWN with 3; rewrite E3; reflexivity) ||
                   (apply (Rf (TDrain1 b7)); [exists b7; auto|]; change ST_TIMEOUT with 7; rewrite E7; reflexivity)).
  - destruct (nth_error (v_tasks s) i) as [t|] eqn:Et; [|apply E_none]. destruct (a_pc t) as [|j|bs| | |e] eqn:Ep; try apply E_none. destruct (a_req t) as [q|] eqn:Eq; [|apply E_none].
    destruct (Z.ltb_spec 0 (q_timeout q)) as [L|L]; [|apply E_none].
    pose proof (request_id_ok s i t q I T Et Eq) as Hid. destruct (fail_bytes_Ok (q_id q) 7 Hid S7) as (b7 & E7 & _).
    pose proof (X_expire U s i t q j b7 Et Eq Ep L E7) as X. unfold tfail. change ST_TIMEOUT with 7. rewrite E7. apply (E_task U s _ i); [exact X|auto].
Qed.

(** Lemmas about the asyncio server: from what happens to a request to its answer. *)
From Coq Require Import ZifyBool Strings.String.
From Verif Require Import PyBase L_PyBase PyDict L_PyDict PyInt Struct M_SofaHeader L_SofaHeader M_Package L_Package L_Codec M_RpcId M_Trace S_Wire M_AioServer S_Server L_AioServer L_AioServer2 L_AioServer3 L_AioServer4 L_AioServer5 L_AioServer6.
Open Scope Z_scope.

Lemma answers_none n s : ~ In n (map fst (v_out s)) -> answers n s = [].
Proof.
  unfold answers. induction (v_out s) as [|(k & bs) l IH]; [reflexivity|]. intros H. cbn [map fst In filter] in *. destruct (Nat.eqb_spec k n); [exfalso; auto|]. apply IH. tauto.
Qed.
Lemma answers_in n s bs : In bs (answers n s) <-> In (n, bs) (v_out s).
Proof.
  unfold answers. rewrite in_map_iff. split.
  - intros ((k & b) & E & H). apply filter_In in H as (H & K). cbn in E, K. apply Nat.eqb_eq in K. congruence.
  - intros H. exists (n, bs). split; [reflexivity|]. apply filter_In. split; [exact H|]. cbn. apply Nat.eqb_refl.
Qed.
Lemma answers_once n s : NoDup (map fst (v_out s)) -> (List.length (answers n s) <= 1)%nat.
Proof.
  unfold answers. induction (v_out s) as [|(k & bs) l IH]; intros H; [cbn; lia|]. cbn [map fst filter] in *. inversion H; subst. destruct (Nat.eqb_spec k n) as [->|]; [|auto].
  cbn [map List.length snd]. pose proof (answers_none n {| v_reg := v_reg s; v_trace := v_trace s; v_rd := v_rd s; v_heads := v_heads s; v_buf := v_buf s; v_eof := v_eof s; v_exn := v_exn s; v_tasks := v_tasks s; v_jobs := v_jobs s; v_out := l; v_closed := v_closed s; v_items := v_items s; v_in := v_in s |} H2) as K.
  unfold answers in K. cbn [v_out] in K. rewrite K. cbn. lia.
Qed.
Lemma open_out s : good s -> v_closed s = false -> out_ok s (v_out s) [].
Proof.
  intros (V & reg & fin & O) Cl. assert (E : fin = []) by (destruct (oo_fin _ _ _ O) as [K|(K & _)]; [exact K|congruence]). subst fin.
  pose proof (oo_split _ _ _ O) as S. rewrite app_nil_r in S. rewrite S. exact O.
Qed.
Lemma unanswered s i n r p : good s -> v_closed s = false -> answering s i n r p -> unwritten p -> answers n s = [].
Proof. intros G Cl A W. apply answers_none. exact (oo_tasks _ _ _ (open_out s G Cl) i _ A W). Qed.
Lemma answering_id s i n q p : good s -> answering s i n (Some q) p -> id_ok (q_id q).
Proof. intros ((I & T & _) & _) A. exact (request_id_ok s i _ q I T A eq_refl). Qed.

(** it has its answer and has not written it *)
Definition hand (s : sst) (i n : nat) (r : option request) (bs : bytes) : Prop := answering s i n r (TDrain1 bs) /\ answers n s = [].
(** the request is refused by its dispatch *)
Lemma dispatch_refused U s i n q fresh st : good s -> v_closed s = false -> answering s i n (Some q) TStart -> legal_status st -> srun_step U (Dispatch i fresh) s = tfail i (q_id q) st s \/ (exists tr, srun_step U (Dispatch i fresh) s = tfail i (q_id q) st (set_trace s tr)) ->
  exists bs, response bs (q_id q) 2 st [] /\ hand (srun_step U (Dispatch i fresh) s) i n (Some q) bs.
Proof.
  intros G Cl A L E. destruct (fail_bytes_Ok (q_id q) st (answering_id s i n q _ G A) L) as (bs & Fb & R). exists bs. split; [exact R|].
  pose proof (unanswered s i n _ _ G Cl A Logic.I) as B. unfold tfail in E. rewrite Fb in E. destruct E as [E|(tr & E)]; rewrite E; (split; [eapply answering_tgoto; [exact A|reflexivity]|exact B]).
Qed.
Lemma dispatch_unnamed U s i n q fresh : good s -> v_closed s = false -> answering s i n (Some q) TStart ->
  (~ exists sv, names_service (q_header q) sv) \/ (~ exists m, names_method (q_header q) m) ->
  exists bs, response bs (q_id q) 2 8 [] /\ hand (srun_step U (Dispatch i fresh) s) i n (Some q) bs.
Proof.
  intros G Cl A H. apply dispatch_refused; [assumption..|apply legal_statuses|]. left. cbn [srun_step]. pose proof A as A'. unfold answering in A'. rewrite A'. cbn [a_pc a_req a_frame]. unfold dispatch.
  destruct H as [H|H]; [apply no_service in H; rewrite H; reflexivity|]. destruct (service_name (q_header q)); [|reflexivity]. apply no_method in H. rewrite H. reflexivity.
Qed.
Lemma dispatch_named U s i n q fresh sv m : answering s i n (Some q) TStart -> names_service (q_header q) sv -> names_method (q_header q) m ->
  srun_step U (Dispatch i fresh) s = match extract U (v_trace s) (q_header q) fresh with
          | (tr, Raise e) => tgoto i (TRaised e) (set_trace s tr)
          | (tr, Ok c) =>
              match find_method (v_reg s) sv m with
              | Raise NoProcessorError => tfail i (q_id q) 6 (set_trace s tr)
              | Raise CancelledError => tgoto i (TRaised CancelledError) (set_trace s tr)
              | Raise _ => tfail i (q_id q) 2 (set_trace s tr)
              | Ok _ => tgoto i (if q_type q =? 2 then TDone else TWait (List.length (v_jobs s))) (set_jobs (set_trace s tr) (v_jobs s ++ [new_job n q sv m c]))
              end
          end.
Proof.
  intros A Ns Nm. cbn [srun_step]. unfold answering in A. rewrite A. cbn [a_pc a_req a_frame]. unfold dispatch. apply service_name_iff in Ns. apply method_name_iff in Nm. rewrite Ns, Nm.
  destruct (extract U (v_trace s) (q_header q) fresh) as [tr [c|e]]; [|reflexivity]. cbv zeta. change (v_reg (set_trace s tr)) with (v_reg s). change PTYPE_ONEWAY with 2. destruct (find_method (v_reg s) sv m) as [[]|e]; [destruct (q_type q =? 2); reflexivity|destruct e; reflexivity].
Qed.
Lemma dispatch_unknown U s i n q fresh sv m : good s -> v_closed s = false -> answering s i n (Some q) TStart -> names_service (q_header q) sv -> names_method (q_header q) m -> traceable U s q fresh ->
  not_found (v_reg s) sv m -> exists bs, response bs (q_id q) 2 6 [] /\ hand (srun_step U (Dispatch i fresh) s) i n (Some q) bs.
Proof.
  intros G Cl A Ns Nm (tr & c & Ex) H. apply dispatch_refused; [assumption..|apply legal_statuses|]. right. exists tr. rewrite (dispatch_named U s i n q fresh sv m A Ns Nm), Ex, (find_method_not_found _ _ _ H). reflexivity.
Qed.
Lemma dispatch_broken U s i n q fresh sv m e : good s -> v_closed s = false -> answering s i n (Some q) TStart -> names_service (q_header q) sv -> names_method (q_header q) m -> traceable U s q fresh ->
  broken (v_reg s) sv e -> e <> AttributeError -> e <> NoProcessorError -> e <> CancelledError -> exists bs, response bs (q_id q) 2 2 [] /\ hand (srun_step U (Dispatch i fresh) s) i n (Some q) bs.
Proof.
  intros G Cl A Ns Nm (tr & c & Ex) H N1 N2 N3. apply dispatch_refused; [assumption..|apply legal_statuses|]. right. exists tr. rewrite (dispatch_named U s i n q fresh sv m A Ns Nm), Ex, (find_method_broken _ _ _ e H N1). destruct e; congruence || reflexivity.
Qed.

(** the request is handed to the executor *)
Definition waits (s : sst) (i n : nat) (q : request) (j : nat) : Prop := answering s i n (Some q) (TWait j) /\ answers n s = [].
Lemma dispatch_submits U s i n q fresh sv m : good s -> v_closed s = false -> answering s i n (Some q) TStart -> names_service (q_header q) sv -> names_method (q_header q) m ->
  offers (v_reg s) sv m -> forall tr c, extract U (v_trace s) (q_header q) fresh = (tr, Ok c) ->
  let s' := srun_step U (Dispatch i fresh) s in
  v_jobs s' = v_jobs s ++ [new_job n q sv m c] /\ if q_type q =? 2 then over s' i n (Some q) else waits s' i n q (List.length (v_jobs s)).
Proof.
  intros G Cl A Ns Nm H tr c Ex s'. unfold s'. pose proof (dispatch_named U s i n q fresh sv m A Ns Nm) as D. rewrite Ex, (find_method_offers _ _ _ H) in D. rewrite D. split; [reflexivity|].
  pose proof (unanswered s i n _ _ G Cl A Logic.I) as B. destruct (q_type q =? 2); (split; [eapply answering_tgoto; [exact A|reflexivity]|exact B]).
Qed.

Lemma expire_fate U s i n q j : good s -> v_closed s = false -> waits s i n q j -> 0 < q_timeout q ->
  exists bs, response bs (q_id q) 2 7 [] /\ hand (srun_step U (Expire i) s) i n (Some q) bs.
Proof.
  intros G Cl (A & B) L. destruct (fail_bytes_Ok (q_id q) 7 (answering_id s i n q _ G A)) as (bs & Fb & R); [apply legal_statuses|]. exists bs. split; [exact R|].
  cbn [srun_step]. pose proof A as A'. unfold answering in A'. rewrite A'. cbn [a_pc a_req]. destruct (Z.ltb_spec 0 (q_timeout q)); [|lia]. change ST_TIMEOUT with 7. unfold tfail. rewrite Fb.
  destruct (expire_job_same j s) as (_ & E1 & E2 & _). fold (expire_job j s). split; [eapply answering_tgoto; [exact A|exact E1]|]. erewrite answers_eq; [exact B|]. cbn [tgoto set_tasks v_out]. exact E2.
Qed.

(** where the end of the job leads *)
Definition led (s : sst) (i n : nat) (q : request) (r : res pyobj) : Prop :=
  (exists bs, concluded q r (TDrain1 bs) /\ fate s i n (Some q) bs /\ forall e, ~ answering s i n (Some q) (TRaised e)) \/ (concluded q r TDone /\ over s i n (Some q)).
Lemma concluded_shape q r p : concluded q r p -> p = TDone \/ exists bs, p = TDrain1 bs.
Proof. unfold concluded. destruct r as [v|e]; [destruct (truthy v)|]; intros H; [destruct H as [(c & bs & _ & _ & ->)|(_ & ->)]; eauto|auto|destruct H as (bs & _ & ->); eauto]. Qed.
Lemma conclude_concluded i q r s : id_ok (q_id q) -> exists p, conclude i q r s = tgoto i p s /\ concluded q r p.
Proof.
  intros Hid. unfold conclude, tfail, concluded. destruct r as [v|e].
  - destruct (truthy v) eqn:Tv; [|eauto]. destruct (result_bytes v (q_id q)) as [bs|e] eqn:Er.
    + destruct (result_bytes_inv _ _ _ Er) as (c & -> & _). eexists. split; [reflexivity|]. left. eauto.
    + eexists. split; [reflexivity|]. right. split; [discriminate|reflexivity].
  - destruct (fail_bytes_Ok (q_id q) 7 Hid) as (b7 & E7 & _); [apply legal_statuses|]. destruct (fail_bytes_Ok (q_id q) 3 Hid) as (b3 & E3 & _); [apply legal_statuses|].
    change ST_TIMEOUT with 7. change ST_UNKNOWN with 3. rewrite E3, E7. destruct e; (eexists; split; [reflexivity|]; eauto).
Qed.
Lemma waits_result U s i n q j b r : good s -> v_closed s = false -> waits s i n q j -> nth_error (v_jobs s) j = Some b -> j_state b = JEnded r -> led (srun_step U (Result i) s) i n q r.
Proof.
  intros G Cl (A & B) Nj Sj. cbn [srun_step]. pose proof A as A'. unfold answering in A'. rewrite A'. cbn [a_pc a_req]. rewrite Nj, Sj.
  destruct (conclude_concluded i q r s (answering_id s i n q _ G A)) as (p & -> & Co). pose proof (answering_tgoto s i n (Some q) _ p s A eq_refl) as K.
  destruct (concluded_shape _ _ _ Co) as [->|(bs & ->)]; [right; split; [exact Co|split; [exact K|exact B]]|left; exists bs; split; [exact Co|]; split; [left; split; [exact K|exact B]|unfold answering in *; congruence]].
Qed.
Lemma waits_step U o s i n q j : good s -> v_closed (srun_step U o s) = false -> o <> Expire i -> waits s i n q j ->
  waits (srun_step U o s) i n q j \/ exists b r, nth_error (v_jobs s) j = Some b /\ j_state b = JEnded r /\ led (srun_step U o s) i n q r.
Proof.
  intros G Cl No (A & B). pose proof (closed_step U o s G Cl) as Cl0. destruct (step_task U o s i _ G A Cl) as [(N & An)|(_ & Op)]; [left; split; [exact N|cbn in An; congruence]|].
  pose proof A as A'. unfold answering in A'. destruct Op as [->|[->|[(f & ->)|(ok & ->)]]].
  - destruct (nth_error (v_jobs s) j) as [b|] eqn:Nj.
    2:{ left. cbn [srun_step]. rewrite A'. cbn [a_pc a_req]. rewrite Nj. split; assumption. }
    destruct (j_state b) as [| |r|] eqn:Sj; try (left; cbn [srun_step]; rewrite A'; cbn [a_pc a_req]; rewrite Nj, Sj; split; assumption).
    right. exists b, r. split; [reflexivity|]. split; [exact Sj|]. exact (waits_result U s i n q j b r G Cl0 (conj A B) Nj Sj).
  - congruence.
  - left. cbn [srun_step]. rewrite A'. cbn [a_pc a_req]. split; assumption.
  - left. cbn [srun_step]. rewrite A'. cbn [a_pc a_req]. split; assumption.
Qed.
(** a coroutine that has its answer raises only if a drain fails *)
Lemma calm_from U l i n r bs : forall s, good s -> v_closed (sfrom U s l) = false -> fate s i n r bs -> (forall e, ~ answering s i n r (TRaised e)) -> ~ In (Drain i false) l -> forall e, ~ answering (sfrom U s l) i n r (TRaised e).
Proof.
  induction l as [|o l IH]; intros s G Cl F Nr No; [exact Nr|]. change (sfrom U s (o :: l)) with (sfrom U (srun_step U o s) l) in *. pose proof (good_step U o s G) as G'. cbn [In] in No.
  pose proof (closed_from U l _ G' Cl) as Cl1. apply IH; auto; [apply fate_step; assumption|]. intros e H. apply No. left. exact (raised_step U o s i n r e bs G Cl1 F Nr H).
Qed.
Lemma led_from U l i n q r s : good s -> v_closed (sfrom U s l) = false -> ~ In (Drain i false) l -> led s i n q r -> led (sfrom U s l) i n q r.
Proof. intros G Cl No [(bs & C & F & Nr)|(C & F)]; [left; exists bs; split; [exact C|]; split; [apply fate_from; assumption|eapply calm_from; eassumption]|right; split; [exact C|apply over_from; assumption]]. Qed.
Lemma waits_from U l i n q j : forall s, good s -> v_closed (sfrom U s l) = false -> ~ In (Expire i) l -> ~ In (Drain i false) l -> waits s i n q j ->
  waits (sfrom U s l) i n q j \/ exists b r, nth_error (v_jobs (sfrom U s l)) j = Some b /\ j_state b = JEnded r /\ led (sfrom U s l) i n q r.
Proof.
  induction l as [|o l IH]; intros s G Cl No Nd W; [left; exact W|]. change (sfrom U s (o :: l)) with (sfrom U (srun_step U o s) l) in *. pose proof (good_step U o s G) as G'. cbn [In] in No, Nd.
  pose proof (closed_from U l _ G' Cl) as Cl1. destruct (waits_step U o s i n q j G Cl1 ltac:(tauto) W) as [W'|(b & r & Nj & Sj & Ld)]; [apply IH; auto; tauto|].
  right. destruct (jobs_from U (o :: l) s G j b Nj) as (b' & N' & _ & K & _). exists b', r. split; [exact N'|]. split; [apply K; exact Sj|]. apply led_from; auto.
Qed.
(** the frame at a place of the stream and its coroutine *)
Lemma same_place s i n r p k r' p' : answering s i n r p -> answering s k n r' p' -> good s -> i = k.
Proof. intros A B ((I & T & J) & _). exact (task_unique s i k _ _ T A B eq_refl). Qed.

(** Lemmas behind C130: the context with which a listener calls a method, whatever else its tracer has done. *)
From Coq Require Import Lia ZifyBool Strings.String.
From Verif Require Import PyBase L_PyBase PyDict L_PyDict PyInt M_SofaHeader L_SofaHeader M_Package L_Package L_Codec M_RpcId S_Rpc L_RpcId M_Trace L_Trace L_Trace2 L_Trace3 S_Wire M_SyncClient
  M_AioServer S_Server L_AioServer L_AioServer2 L_AioServer3 L_AioServer4 L_AioServer5 L_AioServer6 L_AioServer7 L_AioServer8 L_AioServer9 M_SockServer S_SockServer L_SockServer S_EndToEnd L_EndToEnd.
Open Scope nat_scope.

(** ** A context once extracted *)
Definition more (st st' : tstate) : Prop := (exists x, t_rpcs st' = t_rpcs st ++ x) /\ exists y, t_ctxs st' = t_ctxs st ++ y.
Lemma more_refl st : more st st. Proof. split; exists []; rewrite app_nil_r; reflexivity. Qed.
Lemma more_trans a b c : more a b -> more b c -> more a c.
Proof. intros ((x & A) & y & B) ((x' & A') & y' & B'). split; [exists (x ++ x')|exists (y ++ y')]; rewrite ?A', ?A, ?B', ?B, app_assoc; reflexivity. Qed.
Lemma extract_more U st h f : more st (fst (extract U st h f)).
Proof.
  unfold extract. destruct (dmem _ _ || dmem _ _); [apply more_refl|]. unfold context_root. destruct (mk_rpcid _ _); cbn [fst]; [|apply more_refl]. split; eexists; reflexivity.
Qed.
(** what extraction makes of a carrier *)
Definition texts (h : list rpcobj) (d : dict pystr bval) : dict pystr pystr := map (fun kv => (fst kv, bval_str h (snd kv))) d.
Lemma texts_dset h k v d : texts h (dset k v d) = dset k (bval_str h v) (texts h d).
Proof. induction d as [|(k', v') d IH]; [reflexivity|]. cbn [dset texts map fst snd]. destruct (eq_dec k k'); [reflexivity|]. cbn [map fst snd]. f_equal. exact IH. Qed.
Lemma texts_ddel h k d : texts h (ddel k d) = ddel k (texts h d).
Proof. induction d as [|(k', v') d IH]; [reflexivity|]. cbn [ddel texts map fst snd]. destruct (eq_dec k k'); [reflexivity|]. cbn [map fst snd]. f_equal. exact IH. Qed.
Lemma texts_strs h (d : dict pystr pystr) : texts h (map (fun kv => (fst kv, BStr (snd kv))) d) = d.
Proof. induction d as [|(k, v) d IH]; [reflexivity|]. cbn. f_equal. exact IH. Qed.
Definition arrives (U : tables) (h : dict pystr pystr) (f : pystr) : option (dict pystr pystr) :=
  let d := extract_args h in
  if dmem (str "self") d || dmem (str "reference") d then None
  else match mk_rpcid U (map SStr (split_dot (match dget K_rpc d with Some s => s | None => str "1" end))) with
       | Raise _ => None
       | Ok ids => Some (dset K_rpc (rpcid_str ids) (ddel K_rpc (dset K_trace (match dget K_trace d with Some s => s | None => f end) (ddel K_trace d))))
       end.
Lemma extract_text U st h f st' c : extract U st h f = (st', Ok c) -> forall st2, more st' st2 -> baggage_text st2 c = arrives U h f.
Proof.
  intros E st2 ((x & M1) & y & M2). unfold extract in E. unfold arrives. cbv zeta. destruct (dmem _ _ || dmem _ _); [discriminate|]. unfold context_root in E. destruct (mk_rpcid _ _) as [ids|e]; [|discriminate].
  injection E as <- <-. cbn [t_rpcs t_ctxs] in *. unfold baggage_text. rewrite M2, <- app_assoc, nth_error_app2, Nat.sub_diag by lia. cbn [nth_error app option_map].
  change (Some (texts (t_rpcs st2) (dset K_rpc (BRpc (List.length (t_rpcs st))) (ddel K_rpc (dset K_trace (BTrace (match dget K_trace (extract_args h) with Some s => s | None => f end)) (ddel K_trace (map (fun kv => (fst kv, BStr (snd kv))) (extract_args h))))))) =
    Some (dset K_rpc (rpcid_str ids) (ddel K_rpc (dset K_trace (match dget K_trace (extract_args h) with Some s => s | None => f end) (ddel K_trace (extract_args h)))))).
  rewrite texts_dset, texts_ddel, texts_dset, texts_ddel, texts_strs. cbn [bval_str]. rewrite M1, <- app_assoc, nth_error_app2, Nat.sub_diag by lia. reflexivity.
Qed.

(** ** The asyncio listener *)
Definition contexts_ok (U : tables) (s : sst) : Prop := forall j b, nth_error (v_jobs s) j = Some b ->
  exists q tr0 tr1 f, nth_error (v_items s) (j_frame b) = Some (IRequest q) /\ extract U tr0 (q_header q) f = (tr1, Ok (j_ctx b)) /\ more tr1 (v_trace s).
Lemma step_more U o s : more (v_trace s) (v_trace (srun_step U o s)).
Proof. destruct (trace_step U o s) as [E|(h & f & E)]; rewrite E; [apply more_refl|apply extract_more]. Qed.

Lemma teff_contexts U s i s' : teff U s i s' -> map jid (v_jobs s') = map jid (v_jobs s) \/
  exists t q c f sv m, nth_error (v_tasks s) i = Some t /\ a_req t = Some q /\ v_jobs s' = v_jobs s ++ [new_job (a_frame t) q sv m c] /\ extract U (v_trace s) (q_header q) f = (v_trace s', Ok c).
Proof.
  destruct 1 as [i t q st bs tr|i t q e tr|i t q sv m c tr fresh Ht Hq Hp N1 N2 Of Ex|i t q j b r p|i t q j bs|i t bs|i t bs e|i t p]; try (left; reflexivity); [|left; exact (expire_jids j s)].
  right. exists t, q, c, fresh, sv, m. auto.
Qed.
Lemma contexts_step U o s : stream_ok s -> tasks_ok s -> contexts_ok U s -> contexts_ok U (srun_step U o s).
Proof.
  intros I T C. pose proof (step_eff U o s I T) as E. pose proof (step_more U o s) as M. remember (srun_step U o s) as s1 eqn:E1. clear E1.
  assert (K : forall s', more (v_trace s) (v_trace s') -> map jid (v_jobs s') = map jid (v_jobs s) -> (exists l, v_items s' = v_items s ++ l) -> contexts_ok U s').
  { intros s' M' J (l & Hi) j b N. destruct (jids_nth s s' j b J N) as (b0 & N0 & Eb). unfold jid in Eb. injection Eb as Eb1 Eb2 Eb3 Eb4 Eb5. destruct (C j b0 N0) as (q & tr0 & tr1 & f & A & B & D).
    exists q, tr0, tr1, f. rewrite Eb1, Eb5, Hi. split; [apply nth_app_some; exact A|]. split; [exact B|exact (more_trans _ _ _ D M')]. }
  destruct E as [o|name sv|bs| | |s' E|ok s' E|o i s' E O|o s' E O]; try (apply K; [exact M|reflexivity|exists []; rewrite app_nil_r; reflexivity]).
  - apply K; [exact M| |exact (rstep_items _ _ E)]. pose proof (rstep_same _ _ E) as (_ & _ & _ & Hj & _). rewrite Hj. reflexivity.
  - apply deff_same in E as (_ & _ & _ & _ & Hi & _ & _ & Hj & _). apply K; [exact M|rewrite Hj; reflexivity|exists []; rewrite app_nil_r; exact Hi].
  - pose proof (teff_same U s i s' E) as ((_ & _ & _ & _ & _ & Hi & _) & _). destruct (teff_contexts U s i s' E) as [J|(t & q & c & f & sv & m & Nt & Rq & Hj & Ex)]; [apply K; [exact M|exact J|exists []; rewrite app_nil_r; exact Hi]|].
    intros j b N. rewrite Hj in N. destruct (Nat.lt_ge_cases j (List.length (v_jobs s))) as [L|L].
    + rewrite nth_error_app1 in N by exact L. destruct (C j b N) as (q0 & tr0 & tr1 & f0 & A & B & D). exists q0, tr0, tr1, f0. rewrite Hi. split; [exact A|]. split; [exact B|exact (more_trans _ _ _ D M)].
    + rewrite nth_error_app2 in N by exact L. destruct (j - List.length (v_jobs s)) as [|j0]; cbn in N; [injection N as <-|destruct j0; discriminate].
      exists q, (v_trace s), (v_trace s'), f. rewrite Hi. cbn [new_job j_frame j_ctx]. split; [exact (task_request s i t q T Nt Rq)|]. split; [exact Ex|apply more_refl].
  - apply K; [exact M| |destruct E; exists []; rewrite app_nil_r; reflexivity]. destruct E; apply set_jstate_jids.
Qed.
Lemma contexts_run U reg tr l : contexts_ok U (srun U reg tr l).
Proof.
  induction l as [|o l IH] using rev_ind; [intros j b H; destruct j; discriminate|]. rewrite srun_app. cbn [sfrom fold_left]. destruct (good_run U reg tr l) as ((I & T & _) & _). apply contexts_step; assumption.
Qed.
(** a job is run in the context that its request carries *)
Lemma job_context U reg tr l j b q : let s := srun U reg tr l in nth_error (v_jobs s) j = Some b -> nth_error (v_items s) (j_frame b) = Some (IRequest q) ->
  exists f d, arrives U (q_header q) f = Some d /\ baggage_text (v_trace s) (j_ctx b) = Some d.
Proof.
  intros s H Hq. destruct (contexts_run U reg tr l j b H) as (q' & tr0 & tr1 & f & A & B & D). fold s in A, D. assert (q' = q) by congruence. subst q'. exists f. rewrite (extract_text U tr0 (q_header q) f tr1 (j_ctx b) B _ D).
  pose proof (extract_text U tr0 (q_header q) f tr1 (j_ctx b) B tr1 (more_refl _)) as E. destruct (arrives U (q_header q) f) as [d|] eqn:Ea; [exists d; auto|]. exfalso.
  unfold extract in B. unfold arrives in Ea. cbv zeta in Ea. destruct (dmem _ _ || dmem _ _); [discriminate|]. unfold context_root in B. destruct (mk_rpcid _ _); discriminate.
Qed.

(** ** The threaded listener *)
Lemma thread_context fuel U reg tr fresh call w net q j sm c : let o := handle fuel U reg tr fresh call w net in nth_error (o_calls o) j = Some (sm, c) -> begins (received net) (IRequest q) ->
  extract U tr (q_header q) fresh = (o_trace o, Ok c).
Proof.
  cbv zeta. intros H B. destruct fuel as [|f]; [rewrite handle_0 in H; destruct j; discriminate|]. pose proof (handle_spec (S f) U reg tr fresh call w net ltac:(lia)) as R. revert R H. generalize (handle (S f) U reg tr fresh call w net). intros o R H.
  assert (B' := B). apply begins_unit in B' as (k & Eu). rewrite Eu in R. cbn [reacts] in R. unfold rest_of in R.
  assert (W : forall cs t r, o_trace (wfile_write cs t w r) = t) by (intros cs t r; unfold wfile_write; destruct r as [bs|e]; [destruct w as [[k' e]|]|]; reflexivity).
  assert (N : forall t r, o_calls (wfile_write [] t w r) = []) by (intros t r; apply wfile_inv).
  destruct (service_name (q_header q)) as [sv|]; [|rewrite R, N in H; destruct j; discriminate]. destruct (method_name (q_header q)) as [m|]; [|rewrite R, N in H; destruct j; discriminate].
  destruct (extract U tr (q_header q) fresh) as [tr' [c'|e]] eqn:Ex; [|rewrite R in H; destruct j; discriminate]. destruct (find_method reg sv m) as [u|e]; [|rewrite R in H; destruct j; discriminate].
  assert (K : o_calls o = [(sv, m, q_body q, c')] /\ o_trace o = tr') by (destruct (call sv m (q_body q) c') as [[v|e]|]; rewrite R; [split; [apply wfile_inv|apply W]|split; [apply wfile_inv|apply W]|split; reflexivity]).
  destruct K as (K1 & ->). rewrite K1 in H. destruct j as [|j]; [|destruct j; discriminate]. injection H as _ <-. reflexivity.
Qed.

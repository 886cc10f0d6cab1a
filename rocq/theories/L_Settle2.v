(** Lemmas about the asyncio server when nothing fails: the connection stays, no drain fails and no wait for a method
    times out. *)
From Coq Require Import ZifyBool Strings.String.
From Verif Require Import PyBase L_PyBase PyDict L_PyDict PyInt Struct M_SofaHeader L_SofaHeader M_Package L_Package L_Codec M_RpcId M_Trace S_Wire M_AioServer S_Server
  L_AioServer L_AioServer2 L_AioServer3 L_AioServer4 L_AioServer5 L_AioServer6 L_AioServer7 L_AioServer8 L_AioServer9.
Open Scope Z_scope.

Definition scalm (o : sstep) : Prop := match o with Eof | Reset | DrainR false | Drain _ false | Expire _ => False | _ => True end.
Definition taken_item (x : item) : Prop := match x with IRequest _ | IHeartbeat _ => True | _ => False end.

Lemma scalm_flags U reg tr l : Forall scalm l -> v_eof (srun U reg tr l) = false /\ v_exn (srun U reg tr l) = false.
Proof.
  intros H. destruct (flags_run U reg tr l) as (A & B). rewrite Forall_forall in H.
  split; [destruct (v_eof _); [destruct (H _ (A eq_refl))|reflexivity]|destruct (v_exn _); [destruct (H _ (B eq_refl))|reflexivity]].
Qed.
Lemma reading_run U reg tr l : Forall scalm l -> Forall taken_item (v_items (srun U reg tr l)) -> reading (v_rd (srun U reg tr l)).
Proof.
  induction l as [|o l IH] using rev_ind; intros H F; [exact Logic.I|]. apply Forall_app in H as (H & _). rewrite srun_snoc in *. pose proof (good_run U reg tr l) as G. destruct (scalm_flags U reg tr l H) as (Fe & Fx).
  destruct (items_step U o _ G) as (m & E). assert (R : reading (v_rd (srun U reg tr l))) by (apply IH; [exact H|rewrite E in F; apply Forall_app in F; tauto]).
  set (s := srun U reg tr l) in *. destruct G as ((G1 & G2 & _) & _). pose proof (step_eff U o s G1 G2) as X. clear E m IH.
  assert (D : forall s', deff s s' -> reading (v_rd s')). { intros s' D. destruct D as [bs Hr| [(bs & Hr)|Hr] |Hr|st fin Hr|Hr]; rewrite Hr in R; destruct R. }
  remember (srun_step U o s) as s' eqn:Es. destruct X as [o|name sv|bs| | |s' X|ok s' X|o i s' X _|o s' X _]; try exact R.
  - destruct X as [|st Hr Hc|n h Hr|n pc Hm Hp|n i s' Hh Hr X].
    + exact R.
    + exfalso. destruct Hc as [(Hc & _)|(_ & Hc & _)]; congruence.
    + exact Logic.I.
    + cbn. destruct pc; cbn in *; try exact Logic.I; congruence.
    + clear Es. inversion X; subst; cbn; try exact Logic.I; cbn in F; rewrite Forall_app in F; destruct F as (_ & F); apply Forall_inv in F; destruct F.
  - exact (D _ X).
  - destruct (teff_same _ _ _ _ X) as ((E & _) & _). rewrite E. exact R.
  - destruct (jeff_same _ _ X) as ((E & _) & _). rewrite E. exact R.
Qed.
Lemma reading_open s : good s -> reading (v_rd s) -> v_closed s = false.
Proof. intros (_ & reg & fin & O) R. destruct (v_closed s) eqn:E; [|reflexivity]. destruct (oo_closed _ _ _ O E) as [H|H]; rewrite H in R; destruct R. Qed.

(** ** Jobs and the coroutines that wait for them *)
Lemma uncancelled U o s : scalm o -> (forall j b, nth_error (v_jobs s) j = Some b -> j_state b <> JCancelled) -> forall j b, nth_error (v_jobs (srun_step U o s)) j = Some b -> j_state b <> JCancelled.
Proof.
  intros C H. assert (Z : forall s', v_jobs s' = v_jobs s -> forall j b, nth_error (v_jobs s') j = Some b -> j_state b <> JCancelled) by (intros s' ->; exact H).
  assert (W : forall j x s', v_jobs s' = v_jobs (set_jstate j x s) -> x <> JCancelled -> forall j b, nth_error (v_jobs s') j = Some b -> j_state b <> JCancelled).
  { intros j x s' E N j' b G. rewrite E, set_jstate_jobs in G. apply nth_upd_inv in G as [(_ & y & _ & ->)|(_ & G)]; [exact N|exact (H _ _ G)]. }
  assert (Tf : forall i id st s', v_jobs s' = v_jobs s -> v_jobs (tfail i id st s') = v_jobs s) by (intros; unfold tfail; destruct (fail_bytes _ _); assumption).
  destruct o as [name sv|bs| | | |ok|i f|i ok|j|j r|i|i]; cbn [srun_step scalm] in *; try contradiction; try (apply Z; reflexivity).
  - apply Z. unfold sread. pose proof (good_init) as _. destruct (v_rd s) as [|h|h c|h c sofa| | | | | |]; try reflexivity.
    + destruct (ready _ _); [|unfold starved; destruct (v_exn s), (v_eof s); reflexivity]. destruct (bolt_header_from_stream _ _); [reflexivity|]. destruct (last_id s); [unfold rfail; destruct (fail_bytes _ _)|]; reflexivity.
    + destruct (ready _ _); [reflexivity|unfold starved; destruct (v_exn s), (v_eof s); reflexivity].
    + destruct (ready _ _); [|unfold starved; destruct (v_exn s), (v_eof s); reflexivity]. destruct (from_bytes _) as [|[]]; try reflexivity; unfold rfail; destruct (fail_bytes _ _); reflexivity.
    + destruct (ready _ _); [|unfold starved; destruct (v_exn s), (v_eof s); reflexivity]. unfold found. cbv zeta. destruct (_ =? _); [destruct (beat_bytes _); reflexivity|]. destruct (_ =? _); [unfold rfail; destruct (fail_bytes _ _); reflexivity|].
      destruct (negb _); [unfold rfail; destruct (fail_bytes _ _); reflexivity|reflexivity].
  - apply Z. unfold sdrain, swrite, swrite_eof. destruct (v_rd s), ok; try reflexivity; try (destruct (v_closed s); reflexivity). destruct (last_id s); [|reflexivity]. destruct (fail_bytes _ _); [|reflexivity]. destruct (v_closed s); reflexivity.
  - destruct (nth_error (v_tasks s) i) as [t|]; [|exact H]. destruct (a_pc t), (a_req t) as [q|]; try exact H. unfold dispatch. destruct (service_name _) as [sv|]; [|apply Z; apply Tf; reflexivity].
    destruct (method_name _) as [m|]; [|apply Z; apply Tf; reflexivity]. destruct (extract _ _ _ _) as (tr, [c|e]); [|apply Z; reflexivity]. cbv zeta. destruct (find_method _ _ _) as [|e]; [|destruct e; apply Z; try apply Tf; reflexivity].
    intros j b G. assert (G' : nth_error (v_jobs s ++ [{| j_frame := a_frame t; j_service := sv; j_method := m; j_body := q_body q; j_ctx := c; j_state := JQueued |}]) j = Some b) by (destruct (_ =? _); exact G).
    destruct (Nat.lt_ge_cases j (List.length (v_jobs s))) as [L|L]; [rewrite nth_error_app1 in G' by exact L; exact (H _ _ G')|]. rewrite nth_error_app2 in G' by exact L. destruct (j - List.length (v_jobs s))%nat as [|[|]]; [|discriminate..]. injection G' as <-. discriminate.
  - apply Z. destruct (nth_error (v_tasks s) i) as [t|]; [|reflexivity]. unfold swrite. destruct (a_pc t), ok; try reflexivity. destruct (v_closed s); reflexivity.
  - destruct (nth_error (v_jobs s) j) as [b|]; [|exact H]. destruct (j_state b); try exact H. eapply W; [reflexivity|discriminate].
  - destruct (nth_error (v_jobs s) j) as [b|]; [|exact H]. destruct (j_state b); try exact H. eapply W; [reflexivity|discriminate].
  - apply Z. destruct (nth_error (v_tasks s) i) as [t|]; [|reflexivity]. destruct (a_pc t), (a_req t) as [q|]; try reflexivity. destruct (nth_error (v_jobs s) j) as [b|]; [|reflexivity]. destruct (j_state b) as [| |r|]; try reflexivity.
    unfold conclude. destruct r as [v|[]]; try (apply Tf; reflexivity). destruct (truthy v); [destruct (result_bytes _ _); reflexivity|reflexivity].
Qed.

Definition tracked (s : sst) : Prop := forall j b, nth_error (v_jobs s) j = Some b -> exists i q p, answering s i (j_frame b) (Some q) p /\
  (q_type q = 2 \/ (q_type q <> 2 /\ (waits s i (j_frame b) q j \/ exists r, j_state b = JEnded r /\ led s i (j_frame b) q r))).
Lemma answering_next U o s i n r p : good s -> v_closed (srun_step U o s) = false -> answering s i n r p -> exists p', answering (srun_step U o s) i n r p'.
Proof.
  intros G O A. destruct (step_task U o s i _ G A O) as [(T & _)|(T & _)]; [exists p; exact T|]. destruct (teff_tasks _ _ _ _ T) as (p' & E). exists p'. unfold answering. rewrite E, (nth_upd_same _ _ _ _ A). reflexivity.
Qed.
Lemma tracked_step U o s : good s -> scalm o -> v_closed (srun_step U o s) = false -> tracked s -> tracked (srun_step U o s).
Proof.
  intros G C O T j b Hj. pose proof (closed_step U o s G O) as O0. destruct (frames_step U o s G) as [E|(i & t & q & sv & m & c & tr & fresh & Ht & Hq & Hp & Es & Eo & Ns & Nm & Of & Ex)].
  - assert (L : (j < List.length (v_jobs s))%nat) by (rewrite <- (map_length j_frame), <- E, map_length; apply nth_error_Some; congruence).
    destruct (nth_error (v_jobs s) j) as [b0|] eqn:Hb; [|apply nth_error_None in Hb; lia]. destruct G as (G & GG). assert (G0 : good s) by (split; assumption). destruct G as (G1 & G2 & G3).
    destruct (jgrow_step U o s _ (step_eff U o s G1 G2) j b0 Hb) as (b' & Hb' & Ej & Je & _). assert (b' = b) by congruence. subst b'. apply jid_inv in Ej as (Ef & _). rewrite Ef.
    destruct (T j b0 Hb) as (i & q & p & A & D). destruct (answering_next U o s i _ _ _ G0 O A) as (p' & A'). exists i, q, p'. split; [exact A'|]. destruct D as [D|(N & [D|(r & Er & D)])]; [left; exact D| |].
    + right. split; [exact N|]. destruct (waits_step U o s i (j_frame b0) q j G0 O) as [K|(b1 & r & Hb1 & Er & K)]; [intros ->; exact C|exact D|left; exact K|]. assert (b1 = b0) by congruence. subst b1. right. exists r. split; [exact (Je _ Er)|exact K].
    + right. split; [exact N|]. right. exists r. split; [exact (Je _ Er)|]. apply (led_from U [o] i (j_frame b0) q r s G0 O); [intros [->|[]]; exact C|exact D].
  - assert (A : answering s i (a_frame t) (Some q) TStart) by (unfold answering; rewrite Ht; destruct t; cbn in *; congruence).
    destruct (dispatch_submits U s i (a_frame t) q fresh sv m G O0 A Ns Nm Of tr c Ex) as (Ej & Ew). rewrite <- Eo in Ej, Ew. rewrite Ej in Hj.
    destruct (Nat.lt_ge_cases j (List.length (v_jobs s))) as [L|L].
    + rewrite nth_error_app1 in Hj by exact L. destruct (T j b Hj) as (i' & q' & p & A' & D). destruct (answering_next U o s i' _ _ _ G O A') as (p' & A2). exists i', q', p'. split; [exact A2|]. destruct D as [D|(N & [D|(r & Er & D)])]; [left; exact D| |].
      * right. split; [exact N|]. destruct (waits_step U o s i' (j_frame b) q' j G O) as [K|(b1 & r & Hb1 & Er & K)]; [intros ->; exact C|exact D|left; exact K|]. assert (b1 = b) by congruence. subst b1. right. exists r. split; [exact Er|exact K].
      * right. split; [exact N|]. right. exists r. split; [exact Er|]. apply (led_from U [o] i' (j_frame b) q' r s G O); [intros [->|[]]; exact C|exact D].
    + rewrite nth_error_app2 in Hj by exact L. destruct (j - List.length (v_jobs s))%nat as [|[|]] eqn:Ed; [|discriminate..]. injection Hj as <-. cbn [new_job j_frame j_state]. assert (j = List.length (v_jobs s)) by lia. subst j.
      destruct (q_type q =? 2) eqn:Et; [destruct Ew as (Ew & _)|destruct Ew as (Ew & Ew')]; exists i, q; eexists; (split; [exact Ew|]); [left; lia|right; split; [lia|]; left; split; assumption].
Qed.
Lemma calm_jobs U reg tr l : Forall scalm l -> v_closed (srun U reg tr l) = false -> tracked (srun U reg tr l) /\ forall j b, nth_error (v_jobs (srun U reg tr l)) j = Some b -> j_state b <> JCancelled.
Proof.
  induction l as [|o l IH] using rev_ind; intros H O; [split; intros [|j] b G; discriminate|]. apply Forall_app in H as (H & Ho). apply Forall_inv in Ho as Q. rewrite srun_snoc in *.
  pose proof (good_run U reg tr l) as G. destruct (IH H (closed_step U o _ G O)) as (T & N). split; [apply tracked_step; assumption|apply uncancelled; assumption].
Qed.

(** ** When nothing is left to do *)
Definition schores (o : sstep) : Prop := match o with Read | DrainR true | Dispatch _ _ | Drain _ true | Result _ | JobRun _ | JobEnd _ _ => True | _ => False end.
Definition sidle (U : tables) (s : sst) : Prop := forall o, schores o -> srun_step U o s = s.
Lemma tgoto_away i p s0 s t : tgoto i p s0 = s -> nth_error (v_tasks s) i = Some t -> v_tasks s0 = v_tasks s -> a_pc t = p.
Proof. intros E Ht E0. apply (f_equal v_tasks) in E. cbn in E. rewrite E0 in E. pose proof (nth_upd_same (with_pc p) _ _ _ Ht) as H. rewrite E, Ht in H. injection H as H. rewrite H. reflexivity. Qed.
Lemma tfail_away i id st s0 s t : tfail i id st s0 = s -> nth_error (v_tasks s) i = Some t -> v_tasks s0 = v_tasks s -> (exists bs, a_pc t = TDrain1 bs) \/ exists e, a_pc t = TRaised e.
Proof. unfold tfail. destruct (fail_bytes id st); intros E H E0; pose proof (tgoto_away _ _ _ _ _ E H E0); eauto. Qed.
Lemma jstate_away j x s b : set_jstate j x s = s -> nth_error (v_jobs s) j = Some b -> j_state b = x.
Proof. intros E H. apply (f_equal v_jobs) in E. rewrite set_jstate_jobs in E. pose proof (nth_upd_same (fun b => {| j_frame := j_frame b; j_service := j_service b; j_method := j_method b; j_body := j_body b; j_ctx := j_ctx b; j_state := x |}) _ _ _ H) as G. rewrite E, H in G. injection G as G. rewrite G. reflexivity. Qed.
Lemma sidle_jobs U s : (forall j b, nth_error (v_jobs s) j = Some b -> j_state b <> JCancelled) -> sidle U s -> forall j b, nth_error (v_jobs s) j = Some b -> exists r, j_state b = JEnded r.
Proof.
  intros N I j b H. pose proof (I (JobRun j) Logic.I) as A. pose proof (I (JobEnd j (Ok PNone)) Logic.I) as B. cbn [srun_step] in A, B. rewrite H in A, B. destruct (j_state b) as [| |r|] eqn:E.
  - pose proof (jstate_away _ _ _ _ A H). congruence.
  - pose proof (jstate_away _ _ _ _ B H). congruence.
  - exists r. reflexivity.
  - destruct (N j b H E).
Qed.
Lemma sidle_tasks U s : good s -> (forall j b, nth_error (v_jobs s) j = Some b -> j_state b <> JCancelled) -> sidle U s -> forall i n r p, answering s i n r p -> p = TDone \/ exists e, p = TRaised e.
Proof.
  intros ((G1 & G2 & G3) & _) N I i n r p A. unfold answering in A. destruct p as [|j|bs| | |e].
  - exfalso. destruct r as [q|].
    + pose proof (I (Dispatch i []) Logic.I) as E. cbn [srun_step] in E. rewrite A in E. cbn [a_pc a_req a_frame] in E. unfold dispatch in E.
      assert (F : forall id st s0, tfail i id st s0 = s -> v_tasks s0 = v_tasks s -> False) by (intros id st s0 E1 E0; destruct (tfail_away _ _ _ _ _ _ E1 A E0) as [(bs & H)|(e & H)]; cbn in H; discriminate H).
      assert (K : forall p s0, tgoto i p s0 = s -> p <> TStart -> v_tasks s0 = v_tasks s -> False) by (intros p s0 E1 Np E0; pose proof (tgoto_away _ _ _ _ _ E1 A E0) as H; cbn in H; congruence).
      destruct (service_name _) as [sv|]; [|exact (F _ _ s E eq_refl)]. destruct (method_name _) as [m|]; [|exact (F _ _ s E eq_refl)]. destruct (extract _ _ _ _) as (tr, [c|e]); [|eapply K; [exact E|discriminate|reflexivity]].
      cbv zeta in E. destruct (find_method _ _ _) as [|e]; [destruct (_ =? _); (eapply K; [exact E|discriminate|reflexivity])|].
      destruct e; first [eapply F; [exact E|reflexivity] | eapply K; [exact E|discriminate|reflexivity]].
    + destruct (to_beats _ G2 i _ A eq_refl) as (id & _ & H). exact H.
  - exfalso. destruct (jo_wait _ G3 i _ j A eq_refl) as (b & q & Hb & _ & Hq & _). cbn in Hq. destruct (sidle_jobs U s N I j b Hb) as (x & Ex). pose proof (I (Result i) Logic.I) as E. cbn [srun_step] in E. rewrite A in E. cbn [a_pc a_req] in E. rewrite Hq, Hb, Ex in E.
    unfold conclude in E. assert (F : forall id st, tfail i id st s = s -> False) by (intros id st E1; destruct (tfail_away _ _ _ _ _ _ E1 A eq_refl) as [(bs & H)|(e & H)]; cbn in H; discriminate H).
    assert (K : forall p, p <> TWait j -> tgoto i p s = s -> False) by (intros p Np E1; pose proof (tgoto_away _ _ _ _ _ E1 A eq_refl) as H; cbn in H; congruence).
    destruct x as [v|e]; [destruct (truthy v); [destruct (result_bytes _ _)|]; (eapply K; [|exact E]; discriminate)|destruct e; exact (F _ _ E)].
  - exfalso. pose proof (I (Drain i true) Logic.I) as E. cbn [srun_step] in E. rewrite A in E. cbn [a_pc a_frame] in E. unfold swrite in E. destruct (v_closed s); pose proof (tgoto_away _ _ _ _ _ E A eq_refl) as H; cbn in H; discriminate H.
  - exfalso. pose proof (I (Drain i true) Logic.I) as E. cbn [srun_step] in E. rewrite A in E. cbn [a_pc a_frame] in E. pose proof (tgoto_away _ _ _ _ _ E A eq_refl) as H; cbn in H; discriminate H.
  - left. reflexivity.
  - right. exists e. reflexivity.
Qed.
Lemma sidle_answer U s j b r q : good s -> tracked s -> (forall j b, nth_error (v_jobs s) j = Some b -> j_state b <> JCancelled) -> sidle U s ->
  nth_error (v_jobs s) j = Some b -> j_state b = JEnded r -> nth_error (v_items s) (j_frame b) = Some (IRequest q) -> q_type q <> 2 ->
  (exists bs, concluded q r (TDrain1 bs) /\ answers (j_frame b) s = [bs]) \/ (concluded q r TDone /\ answers (j_frame b) s = []).
Proof.
  intros G T N I Hj Hr Hq Nq. destruct (T j b Hj) as (i & q' & p & A & D). destruct (answering_item s i _ _ _ G A) as (x & Hx & Ex). cbn in Ex. subst x. assert (q' = q) by congruence. subst q'.
  destruct D as [D|(_ & [(D & _)|(r' & Er & D)])]; [congruence| |].
  - exfalso. destruct (sidle_tasks U s G N I i _ _ _ D) as [H|(e & H)]; discriminate.
  - assert (r' = r) by congruence. subst r'. destruct D as [(bs & Cn & F & Nr)|(Cn & (_ & An))]; [left|right; auto]. exists bs. split; [exact Cn|]. destruct F as [(K & _)|[(_ & K)|((e & K) & _)]]; [|exact K|destruct (Nr e K)].
    destruct (sidle_tasks U s G N I i _ _ _ K) as [H|(e & H)]; discriminate.
Qed.

(** ** Requests for methods that are there *)
Lemma reg_kept U reg tr l name : (forall sv, ~ In (Register name sv) l) -> dget name (v_reg (srun U reg tr l)) = dget name reg.
Proof.
  induction l as [|o l IH] using rev_ind; intros H; [reflexivity|]. rewrite srun_snoc. pose proof (good_run U reg tr l) as G. destruct G as ((G1 & G2 & _) & _).
  assert (E : dget name (v_reg (srun U reg tr l)) = dget name reg) by (apply IH; intros sv K; apply (H sv); apply in_or_app; left; exact K). rewrite <- E. set (s := srun U reg tr l) in *.
  pose proof (step_eff U o s G1 G2) as X. remember (srun_step U o s) as s' eqn:Es. destruct X as [o|name' sv|bs| | |s' X|ok s' X|o i s' X _|o s' X _]; try reflexivity.
  - cbn. apply dget_dset_other. intros <-. apply (H sv). apply in_or_app. right. left. reflexivity.
  - destruct (rstep_same _ _ X) as (_ & _ & -> & _). reflexivity.
  - destruct (deff_same _ _ X) as (_ & _ & _ & _ & _ & _ & _ & _ & ->). reflexivity.
  - destruct (teff_same _ _ _ _ X) as (_ & _ & ->). reflexivity.
  - destruct (jeff_same _ _ X) as (_ & _ & -> & _). reflexivity.
Qed.
Definition clear (U : tables) (h : sofa_header) : Prop := exists c, snd (extract U t_init h []) = Ok c.
Lemma clear_any U h tr fresh : clear U h -> exists tr' c, extract U tr h fresh = (tr', Ok c).
Proof.
  intros (c & H). unfold extract in *. destruct (_ || _); [discriminate|]. unfold context_root in *. destruct (mk_rpcid _ _) as [ids|]; [|discriminate]. eexists _, _. reflexivity.
Qed.
Lemma executed_any U reg tr l i n q p sv m : v_closed (srun U reg tr l) = false -> (forall x, ~ In (Register sv x) l) -> offers reg sv m -> names_service (q_header q) sv -> names_method (q_header q) m -> clear U (q_header q) ->
  answering (srun U reg tr l) i n (Some q) p -> p <> TStart -> In n (map j_frame (v_jobs (srun U reg tr l))).
Proof.
  intros O R Of Ns Nm Cl. revert p. induction l as [|o l IH] using rev_ind; intros p A Np; [unfold answering in A; destruct i; discriminate|]. rewrite srun_snoc in *. pose proof (good_run U reg tr l) as G. pose proof (closed_step U o _ G O) as O0.
  assert (R0 : forall x, ~ In (Register sv x) l) by (intros x K; apply (R x); apply in_or_app; left; exact K). specialize (IH O0 R0). pose proof (reg_kept U reg tr l sv R0) as Rk. set (s := srun U reg tr l) in *.
  assert (Mono : In n (map j_frame (v_jobs s)) -> In n (map j_frame (v_jobs (srun_step U o s)))).
  { intros K. apply in_map_iff in K as (b & Eb & Kb). apply In_nth_error in Kb as (j & Kb). destruct G as ((G1 & G2 & _) & _). destruct (jgrow_step U o s _ (step_eff U o s G1 G2) j b Kb) as (b' & Hb' & Ej & _). apply jid_inv in Ej as (Ej & _). apply in_map_iff. exists b'. split; [congruence|]. eapply nth_error_In. exact Hb'. }
  destruct (answering_before U o s i n _ p G O A) as [(p0 & A0)|(_ & [(q0 & _ & ->)|(H & _)])]; [|congruence|discriminate].
  assert (D : p0 = TStart \/ p0 <> TStart) by (destruct p0; auto; right; discriminate). destruct D as [->|D]; [|apply Mono; exact (IH _ A0 D)].
  destruct (step_task U o s i _ G A0 O) as [(T & _)|(_ & [->|[->|[(f & ->)|(ok & ->)]]])].
  - exfalso. unfold answering in A. rewrite A in T. injection T as ->. congruence.
  - exfalso. unfold answering in A, A0. cbn [srun_step] in A. rewrite A0 in A. cbn [a_pc] in A. rewrite A0 in A. injection A as <-. congruence.
  - exfalso. unfold answering in A, A0. cbn [srun_step] in A. rewrite A0 in A. cbn [a_pc] in A. rewrite A0 in A. injection A as <-. congruence.
  - destruct (clear_any U _ (v_trace s) f Cl) as (tr' & c & Ex). assert (Of' : offers (v_reg s) sv m) by (destruct Of as (x & Ox & O1); exists x; split; [rewrite Rk; exact Ox|exact O1]).
    destruct (dispatch_submits U s i n q f sv m G O0 A0 Ns Nm Of' tr' c Ex) as (Ej & _). rewrite Ej, map_app. apply in_or_app. right. left. reflexivity.
  - exfalso. unfold answering in A, A0. cbn [srun_step] in A. rewrite A0 in A. cbn [a_pc] in A. rewrite A0 in A. injection A as <-. congruence.
Qed.

(** Lemmas about the asyncio server: what it writes. *)
From Coq Require Import ZifyBool Strings.String.
From Verif Require Import PyBase L_PyBase PyDict L_PyDict PyInt Struct M_SofaHeader L_SofaHeader M_Package L_Package L_Codec M_RpcId M_Trace S_Wire M_AioServer S_Server L_AioServer L_AioServer2 L_AioServer3 L_AioServer4.
Open Scope Z_scope.

Lemma mk_response_inv n c content cmd rid status p bs : c = resp_class n ->
  mk_package c empty_header (PBytes content) (PInt PROTO_BOLT) (PInt PTYPE_RESPONSE) (PInt cmd) (PInt VER2_REMOTING) (PInt rid) (PInt CODEC_PROTOBUF) PNone (PInt status) = Ok p ->
  to_stream p = Ok bs -> response bs rid cmd status content.
Proof.
  intros Hc M T. apply mk_package_Ok in M as (M1 & M2 & M3 & M4 & M5 & M6 & M7 & M8 & M9 & M10 & M11 & L).
  assert (M1' : p_cls p = resp_class n) by congruence.
  destruct (resp_layout_of p n _ M1' L T) as (r & ct & F1 & F2 & Lay). rewrite M4 in F1. injection F1 as <-. rewrite M3 in F2. injection F2 as <-.
  eexists. split; [exact Lay|]. pose proof L as (L1 & L2 & L3 & L4 & L5 & L6 & L7). split; [repeat split; assumption|].
  injection M7 as M7. injection M8 as M8. injection M11 as M11. rewrite M2 in L7. injection L7 as L7. rewrite <- M11 in L6. repeat split; solve [symmetry; assumption|assumption].
Qed.
Lemma fail_bytes_inv id st bs : fail_bytes id st = Ok bs -> response bs id 2 st [].
Proof. unfold fail_bytes, fail_response_to. intros H. apply bind_Ok in H as (p & M & T). exact (mk_response_inv (cls_name FailResponse) FailResponse [] 2 id st p bs eq_refl M T). Qed.
Lemma beat_bytes_inv id bs : beat_bytes id = Ok bs -> response bs id 0 0 [].
Proof. unfold beat_bytes, heartbeat_response_to. intros H. apply bind_Ok in H as (p & M & T). exact (mk_response_inv (cls_name HeartbeatResponse) HeartbeatResponse [] 0 id 0 p bs eq_refl M T). Qed.

(** jobs keep what they are, and an ended job stays ended *)
Definition jgrow (s s' : sst) : Prop := forall j b, nth_error (v_jobs s) j = Some b -> exists b', nth_error (v_jobs s') j = Some b' /\ jid b' = jid b /\
  (forall r, j_state b = JEnded r -> j_state b' = JEnded r) /\ (j_state b = JCancelled -> j_state b' = JCancelled) /\ (j_state b' = JQueued -> j_state b = JQueued) /\
  (j_state b = JRunning -> j_state b' = JRunning \/ exists r, j_state b' = JEnded r).
Lemma jgrow_same s s' : v_jobs s' = v_jobs s -> jgrow s s'.
Proof. intros H j b N. exists b. rewrite H. auto 10. Qed.
Lemma jgrow_set s s' j b x : nth_error (v_jobs s) j = Some b -> (forall r, j_state b <> JEnded r) -> j_state b <> JCancelled -> x <> JQueued -> (j_state b = JRunning -> exists r, x = JEnded r) -> v_jobs s' = v_jobs (set_jstate j x s) -> jgrow s s'.
Proof.
  intros N E1 E2 Q Rn H k y Ny. rewrite H, set_jstate_jobs. destruct (Nat.eq_dec j k) as [<-|D].
  - assert (y = b) by congruence. subst y. eexists. split; [apply nth_upd_same; exact N|]. cbn. split; [reflexivity|]. split; [intros r Hr; exfalso; exact (E1 r Hr)|]. split; [intros Hr; contradiction|]. split; [intros Hr; contradiction|]. intros Hr. right. destruct (Rn Hr) as (r & ->). eauto.
  - exists y. rewrite nth_upd_other by exact D. auto 10.
Qed.
Lemma jgrow_step U o s s' : eff U s o s' -> jgrow s s'.
Proof.
  destruct 1 as [o|name sv|bs| | |s' E|ok s' E|o i s' E O|o s' E O]; try (apply jgrow_same; reflexivity).
  - apply rstep_same in E as (_ & _ & _ & E & _). apply jgrow_same. exact E.
  - apply deff_same in E as (_ & _ & _ & _ & _ & _ & _ & E & _). apply jgrow_same. exact E.
  - inversion E; subst; try (apply jgrow_same; reflexivity).
    + intros k y Ny. exists y. cbn [tgoto set_tasks set_jobs v_jobs]. split; [apply nth_app_some; exact Ny|auto 10].
    + unfold expire_job. destruct (nth_error (v_jobs s) j) as [b|] eqn:Nj; [|apply jgrow_same; reflexivity]. destruct (j_state b) eqn:Sb; try (apply jgrow_same; reflexivity).
      apply (jgrow_set s _ j b JCancelled Nj); try congruence; try reflexivity.
  - inversion E; subst.
    + apply (jgrow_set s _ j b JRunning H); try congruence; try reflexivity.
    + apply (jgrow_set s _ j b (JEnded r) H); try congruence; try reflexivity; eauto.
Qed.
Lemma backed_grow s s' n c : jgrow s s' -> backed s n c -> backed s' n c.
Proof. intros G (j & b & N & F & S). destruct (G j b N) as (b' & N' & E & K & _). exists j, b'. split; [exact N'|]. split; [injection E; congruence|]. apply K. exact S. Qed.
Lemma answer_grow s s' n x bs : jgrow s s' -> answer_to s n x bs -> answer_to s' n x bs.
Proof. intros G. destruct x; cbn; auto. intros (st & c & R & [(A & B & C)|K]); exists st, c; split; auto. left. split; [exact A|]. split; [exact (backed_grow s s' n c G B)|exact C]. Qed.
Definition igrow (s s' : sst) : Prop := forall n x, nth_error (v_items s) n = Some x -> nth_error (v_items s') n = Some x.
Lemma answers_grow s s' (P : nat -> item -> bytes -> Prop) n bs : jgrow s s' -> igrow s s' ->
  (exists x, nth_error (v_items s) n = Some x /\ answer_to s n x bs) -> exists x, nth_error (v_items s') n = Some x /\ answer_to s' n x bs.
Proof. intros G I (x & N & A). exists x. split; [apply I; exact N|exact (answer_grow s s' n x bs G A)]. Qed.

Lemma concluded_answer s n q r p j b bs : nth_error (v_jobs s) j = Some b -> j_frame b = n -> j_state b = JEnded r -> q_type q <> 2 -> concluded q r p -> p = TDrain1 bs -> answer_to s n (IRequest q) bs.
Proof.
  intros Nj Fj Sj Ty C ->. unfold concluded in C. destruct r as [v|e].
  - destruct (truthy v) eqn:Tv; [|discriminate]. destruct C as [(c & b0 & -> & Rb & E)|(_ & E)]; [|discriminate]. injection E as <-.
    destruct (result_bytes_inv _ _ _ Rb) as (c' & Ec & _ & R). injection Ec as <-. exists 0, c. split; [exact R|]. left. split; [reflexivity|]. split; [exists j, b; auto|]. split; [|exact Ty]. intros ->. discriminate.
  - destruct C as (b0 & Fb & E). injection E as <-. apply fail_bytes_inv in Fb. eexists _, _. split; [exact Fb|]. right. split; [|reflexivity]. right. split; [|exact Ty]. destruct e; cbn; auto 10.
Qed.
Lemma refused_status reg q st : refused reg q st -> In st [2; 6; 8].
Proof. intros [[-> _]|(sv & m & _ & _ & [[-> _]|[-> _]])]; cbn; auto 10. Qed.

Definition sinv (s : sst) : Prop := stream_ok s /\ tasks_ok s /\ jobs_ok s.

Lemma cause_grow s s' st : last_cause s st -> igrow s s' -> v_heads s' = v_heads s -> (v_exn s = true -> v_exn s' = true) -> (v_eof s = true -> v_eof s' = true) -> last_cause s' st.
Proof. intros [[-> [E|(id & E)]]|[-> E]] I H X Y; [left; auto|left; split; [reflexivity|right; exists id; rewrite H; apply I; exact E]|right; auto]. Qed.

(** a step that writes nothing and moves no reader *)
Lemma out_quiet s s' reg fin : out_ok s reg fin -> jgrow s s' -> igrow s s' -> v_rd s' = v_rd s -> v_heads s' = v_heads s -> v_out s' = v_out s -> v_closed s' = v_closed s ->
  (v_exn s = true -> v_exn s' = true) -> (v_eof s = true -> v_eof s' = true) ->
  (forall i t, nth_error (v_tasks s') i = Some t -> unwritten (a_pc t) -> ~ In (a_frame t) (map fst reg)) ->
  (forall i t bs, nth_error (v_tasks s') i = Some t -> a_pc t = TDrain1 bs -> exists x, nth_error (v_items s') (a_frame t) = Some x /\ answer_to s' (a_frame t) x bs) -> out_ok s' reg fin.
Proof.
  intros [A B C D E F G H I] Gj Gi Hr Hh Ho Hc X Y T1 T2. constructor.
  - congruence.
  - exact B.
  - intros n bs Hn. destruct (C n bs Hn) as (x & N & An). exists x. split; [apply Gi; exact N|exact (answer_grow s s' n x bs Gj An)].
  - exact T1.
  - exact T2.
  - intros bs Hb. rewrite Hr in Hb. rewrite Hh. destruct (F bs Hb) as (N & id & st & Nx & An). split; [exact N|]. exists id, st. split; [apply Gi; exact Nx|exact An].
  - rewrite Hc, Hr. exact G.
  - intros st Hs. rewrite Hr in Hs. exact (cause_grow s s' st (H st Hs) Gi Hh X Y).
  - destruct I as [I|(Cl & id & st & bs & E1 & E2 & E3 & E4)]; [left; exact I|right]. rewrite Hc. split; [exact Cl|]. exists id, st, bs. unfold last_id in *. rewrite Hh. split; [exact E1|]. split; [exact E2|]. split; [exact E3|].
    exact (cause_grow s s' st E4 Gi Hh X Y).
Qed.
Lemma igrow_same s s' : v_items s' = v_items s -> igrow s s'. Proof. intros H n x N. congruence. Qed.

(** a step of one task that writes nothing *)
Lemma out_task s s' reg fin i t p : sinv s -> out_ok s reg fin -> jgrow s s' -> same_stream s s' -> v_out s' = v_out s -> v_closed s' = v_closed s -> nth_error (v_tasks s) i = Some t ->
  v_tasks s' = upd i (with_pc p) (v_tasks s) -> (unwritten p -> unwritten (a_pc t)) ->
  (forall bs, p = TDrain1 bs -> exists x, nth_error (v_items s) (a_frame t) = Some x /\ answer_to s (a_frame t) x bs) -> out_ok s' reg fin.
Proof.
  intros V O Gj (S1 & S2 & S3 & S4 & S5 & S6 & S7) Ho Hc Nt Ht Up Dp. apply (out_quiet s); auto; try congruence.
  - intros k u N Uw. rewrite Ht in N. apply nth_upd_inv in N as [(<- & t0 & N & ->)|(_ & N)]; [|exact (oo_tasks _ _ _ O k u N Uw)].
    assert (t0 = t) by congruence. subst t0. cbn [with_pc a_frame a_pc] in *. exact (oo_tasks _ _ _ O i t Nt (Up Uw)).
  - intros k u bs N Pc. rewrite Ht in N. apply (answers_grow s s' (fun _ _ _ => True)); [exact Gj|apply igrow_same; exact S6|]. apply nth_upd_inv in N as [(<- & t0 & N & ->)|(_ & N)]; [|exact (oo_pending _ _ _ O k u bs N Pc)].
    assert (t0 = t) by congruence. subst t0. cbn [with_pc a_frame a_pc] in *. exact (Dp bs Pc).
Qed.

Lemma reg_below s reg fin n : out_ok s reg fin -> In n (map fst reg) -> (n < List.length (v_items s))%nat.
Proof. intros O H. apply in_map_iff in H as ((k & bs) & E & H). cbn in E. subst k. destruct (oo_answers _ _ _ O n bs H) as (x & N & _). apply nth_error_Some. congruence. Qed.

Lemma out_read s s' reg fin : sinv s -> out_ok s reg fin -> rstep s s' -> out_ok s' reg fin.
Proof.
  intros V O E. pose proof (rstep_same _ _ E) as (So & Sc & Sr & Sj & Se & Sx & Si). pose proof (jgrow_same s s' Sj) as Gj.
  destruct (rstep_items _ _ E) as (l & Hi). assert (Gi : igrow s s') by (intros n x N; rewrite Hi; apply nth_app_some; exact N).
  inversion E as [E0|st R C E0|n h R E0|n pc R M E0|n i s0 H R A E0]; subst; [exact O| | | |];
    (assert (Cl : v_closed s = false) by (destruct (v_closed s) eqn:Ec; [|reflexivity]; destruct (oo_closed _ _ _ O Ec) as [K|K]; rewrite K in R; cbn in R; congruence || contradiction));
    (assert (Fi : fin = []) by (destruct (oo_fin _ _ _ O) as [K|(K & _)]; [exact K|congruence])).
  - destruct O as [O1 O2 O3 O4 O5 O6 O7 O8 O9]. constructor; try assumption; cbn [set_rd v_rd v_closed]; try discriminate; try congruence.
    + intros st0 Es. injection Es as <-. change ST_UNKNOWN with 3 in C. change ST_CONNECTION_CLOSED with 16 in C. destruct C as [[C ->]|(_ & C & ->)]; [left|right]; auto.
  - destruct O as [O1 O2 O3 O4 O5 O6 O7 O8 O9]. constructor; try assumption; cbn [set_rd set_heads take set_stream v_rd v_closed]; try discriminate; try congruence. left. exact Fi.
  - destruct O as [O1 O2 O3 O4 O5 O6 O7 O8 O9]. constructor; try assumption; cbn [set_rd set_heads take set_stream v_rd v_closed].
    + intros bs Hb. subst pc. cbn in M. congruence.
    + congruence.
    + intros st Hb. subst pc. cbn in M. congruence.
  - pose proof (heads_length s i H) as HL.
    assert (Fr : ~ In (List.length (v_items s)) (map fst reg)) by (intros K; apply (reg_below s reg fin _ O) in K; lia).
    assert (Ni : nth_error (v_items s ++ [i]) (List.length (v_items s)) = Some i) by (rewrite nth_error_app2, Nat.sub_diag by lia; reflexivity).
    assert (Hs : v_heads s' = v_heads s) by (inversion A; subst; reflexivity).
    assert (Hit : v_items s' = v_items s ++ [i]) by (inversion A; subst; reflexivity).
    pose proof O as [O1 O2 O3 O4 O5 O6 O7 O8 O9]. constructor.
    + congruence.
    + exact O2.
    + intros k bs Hk. exact (answers_grow s s' (fun _ _ _ => True) k bs Gj Gi (O3 k bs Hk)).
    + intros k t N Uw. destruct (rstep_tasks _ _ E) as [Ht|(q & p & Ht & K)]; rewrite Ht in N; [exact (O4 k t N Uw)|]. destruct (Nat.lt_ge_cases k (List.length (v_tasks s))) as [L|L].
      * rewrite nth_error_app1 in N by exact L. exact (O4 k t N Uw).
      * rewrite nth_error_app2 in N by exact L. destruct (k - List.length (v_tasks s))%nat as [|k0]; cbn in N; [injection N as <-|destruct k0; discriminate]. exact Fr.
    + intros k t bs N Pc. destruct (Nat.lt_ge_cases k (List.length (v_tasks s))) as [L|L].
      * assert (N' : nth_error (v_tasks s) k = Some t) by (destruct (rstep_tasks _ _ E) as [Ht|(q & p & Ht & K)]; rewrite Ht in N; [exact N|rewrite nth_error_app1 in N by exact L; exact N]).
        exact (answers_grow s s' (fun _ _ _ => True) _ bs Gj Gi (O5 k t bs N' Pc)).
      * inversion A; subst; unfold spawn in N; cbn [set_rd set_tasks set_items take set_stream v_tasks v_heads] in N; try (rewrite (proj2 (nth_error_None _ _) L) in N; discriminate);
          rewrite nth_error_app2 in N by exact L; destruct (k - List.length (v_tasks s))%nat as [|k0]; cbn in N; try (destruct k0; discriminate); injection N as <-; cbn [a_pc a_frame] in *; [discriminate|].
        injection Pc as <-. rewrite HL. eexists. split; [exact Ni|]. cbn. apply beat_bytes_inv. assumption.
    + intros bs Hb. rewrite Hs, HL. split; [exact Fr|]. inversion A; subst; cbn [set_rd v_rd] in Hb; try discriminate. injection Hb as <-. eexists _, _. split; [exact Ni|]. apply fail_bytes_inv. assumption.
    + congruence.
    + intros st Hb. inversion A; subst; cbn [set_rd v_rd] in Hb; try discriminate. injection Hb as <-. left. split; [reflexivity|]. right. exists id. rewrite Hs, HL, Hit. exact Ni.
    + left. exact Fi.
Qed.

Lemma out_drain s s' reg fin : sinv s -> out_ok s reg fin -> deff s s' -> exists reg' fin', out_ok s' reg' fin' /\ exists x, reg' = reg ++ x.
Proof.
  intros V O E. pose proof (deff_same _ _ E) as (Sh & Sb & Se & Sx & Si & Sn & St & Sj & Sr).
  inversion E as [bs R Cl E0|R E0|R E0|st fi R Fi E0|R E0]; subst.
  - exists (reg ++ [(List.length (v_heads s) - 1, bs)%nat]), []. split; [|eauto]. destruct (oo_reader _ _ _ O bs R) as (N & id & st & Nx & An).
    assert (Fi : fin = []) by (destruct (oo_fin _ _ _ O) as [K|(K & _)]; [exact K|congruence]). subst fin.
    pose proof O as [O1 O2 O3 O4 O5 O6 O7 O8 O9]. rewrite app_nil_r in O1. constructor; cbn [set_rd set_out v_out v_rd v_closed v_tasks]; try discriminate; try assumption.
    + rewrite app_nil_r, O1. reflexivity.
    + rewrite map_app. apply NoDup_snoc; assumption.
    + intros n b0 Hn. apply in_app_or in Hn as [Hn|[Hn|[]]]; [exact (O3 n b0 Hn)|]. injection Hn as <- <-. exists (IBad id st). auto.
    + intros i t Nt Uw K. rewrite map_app in K. apply in_app_or in K as [K|[K|[]]]; [exact (O4 i t Nt Uw K)|]. cbn [fst] in K.
      (* the reader's frame is not handed to a task *)
      destruct V as (_ & T & _). destruct (task_item s i t T Nt) as (y & Ny & Fy). rewrite <- K, Nx in Ny. injection Ny as <-.
      destruct (a_req t); cbn in Fy; [discriminate|]. destruct Fy; discriminate.
    + congruence.
  - exists reg, fin. split; [|exists []; now rewrite app_nil_r]. destruct O as [O1 O2 O3 O4 O5 O6 O7 O8 O9].
    assert (Cl : v_closed s = false) by (destruct (v_closed s) eqn:Ec; [|reflexivity]; destruct R as [(bs & R)|R]; destruct (O7 eq_refl) as [K|K]; congruence).
    constructor; cbn [set_rd v_out v_rd v_closed v_tasks]; try discriminate; try assumption. congruence.
  - exists reg, fin. split; [|exists []; now rewrite app_nil_r]. destruct O as [O1 O2 O3 O4 O5 O6 O7 O8 O9].
    assert (Cl : v_closed s = false) by (destruct (v_closed s) eqn:Ec; [|reflexivity]; destruct (O7 eq_refl) as [K|K]; congruence).
    constructor; cbn [set_rd v_out v_rd v_closed v_tasks]; try discriminate; try assumption. congruence.
  - exists reg, fi. split; [|exists []; now rewrite app_nil_r]. destruct O as [O1 O2 O3 O4 O5 O6 O7 O8 O9].
    assert (Cl : v_closed s = false) by (destruct (v_closed s) eqn:Ec; [|reflexivity]; destruct (O7 eq_refl) as [K|K]; congruence).
    assert (Fi0 : fin = []) by (destruct O9 as [K|(K & _)]; [exact K|congruence]). subst fin. rewrite app_nil_r in O1.
    constructor; cbn [set_rd set_out v_out v_rd v_closed v_tasks]; try discriminate; try assumption; auto; [congruence|].
    destruct Fi as [->|(_ & id & bs & L & F & ->)]; [left; reflexivity|right]. split; [reflexivity|]. exists id, st, bs. split; [reflexivity|]. split; [exact L|]. split; [apply fail_bytes_inv; exact F|]. exact (O8 st R).
  - exists reg, fin. split; [|exists []; now rewrite app_nil_r]. destruct O as [O1 O2 O3 O4 O5 O6 O7 O8 O9].
    constructor; cbn [set_rd v_out v_rd v_closed v_tasks]; try discriminate; try assumption. auto.
Qed.

Lemma expire_out j s p i : v_out (tgoto i p (expire_job j s)) = v_out s /\ v_closed (tgoto i p (expire_job j s)) = v_closed s /\ v_tasks (tgoto i p (expire_job j s)) = upd i (with_pc p) (v_tasks s).
Proof. destruct (expire_job_same j s) as (_ & A & B & C & _). unfold tgoto. cbn [set_tasks v_out v_closed v_tasks]. rewrite A, B, C. auto. Qed.
Lemma out_teff U s s' i reg fin : sinv s -> out_ok s reg fin -> teff U s i s' -> jgrow s s' -> exists reg' fin', out_ok s' reg' fin' /\ exists x, reg' = reg ++ x.
Proof.
  intros V O E Gj. pose proof (teff_same _ _ _ _ E) as (SS & Sc & Sr). pose proof V as (Is & It & Ij).
  assert (keep : forall p t, nth_error (v_tasks s) i = Some t -> v_out s' = v_out s -> v_tasks s' = upd i (with_pc p) (v_tasks s) -> (unwritten p -> unwritten (a_pc t)) ->
    (forall bs, p = TDrain1 bs -> exists x, nth_error (v_items s) (a_frame t) = Some x /\ answer_to s (a_frame t) x bs) -> exists reg' fin', out_ok s' reg' fin' /\ exists x, reg' = reg ++ x).
  { intros p t Nt Ho Ht Up Dp. exists reg, fin. split; [exact (out_task s s' reg fin i t p V O Gj SS Ho Sc Nt Ht Up Dp)|exists []; now rewrite app_nil_r]. }
  inversion E as [i0 t q st bs tr Nt Rq Pc Rf Fb|i0 t q e tr Nt Rq Pc Ex|i0 t q sv m c tr fresh Nt Rq Pc Ns Nm Of Ex|i0 t q j b r p Nt Rq Pc Nj Sj Co|i0 t q j bs Nt Rq Pc To Fb|i0 t bs Nt Pc Cl|i0 t bs e Nt Pc|i0 t p Nt Pc Hp]; subst.
  - apply (keep (TDrain1 bs) t); auto; [rewrite Pc; exact (fun x => x)|]. intros b0 E0. injection E0 as <-. exists (IRequest q). split; [exact (task_request s i t q It Nt Rq)|]. exists st, []. split; [apply fail_bytes_inv; exact Fb|].
    right. split; [left; exact (refused_status _ _ _ Rf)|reflexivity].
  - apply (keep (TRaised e) t); auto; [cbn; tauto|discriminate].
  - apply (keep (if q_type q =? 2 then TDone else TWait (List.length (v_jobs s))) t); auto; [rewrite Pc; destruct (q_type q =? 2); cbn; tauto|destruct (q_type q =? 2); discriminate].
  - destruct (jo_wait s Ij i t j Nt Pc) as (b' & q' & Nb & Fb & Rq' & Ty). assert (b' = b) by congruence. subst b'. assert (q' = q) by congruence. subst q'.
    apply (keep p t); auto; [rewrite Pc; cbn; tauto|]. intros bs Eb. exists (IRequest q). split; [exact (task_request s i t q It Nt Rq)|]. exact (concluded_answer s (a_frame t) q r p j b bs Nb Fb Sj Ty Co Eb).
  - destruct (jo_wait s Ij i t j Nt Pc) as (b' & q' & Nb & Fb0 & Rq' & Ty). assert (q' = q) by congruence. subst q'. destruct (expire_out j s (TDrain1 bs) i) as (X1 & X2 & X3).
    apply (keep (TDrain1 bs) t); auto; [rewrite Pc; cbn; tauto|]. intros b0 Eb. injection Eb as <-. exists (IRequest q). split; [exact (task_request s i t q It Nt Rq)|]. exists 7, []. split; [apply fail_bytes_inv; exact Fb|].
    right. split; [right; split; [cbn; auto|exact Ty]|reflexivity].
  - assert (Fi : fin = []) by (destruct (oo_fin _ _ _ O) as [K|(K & _)]; [exact K|congruence]). subst fin.
    exists (reg ++ [(a_frame t, bs)]), []. split; [|eauto].
    assert (Uw : unwritten (a_pc t)) by (rewrite Pc; exact Logic.I). pose proof (oo_tasks _ _ _ O i t Nt Uw) as Fr. destruct (oo_pending _ _ _ O i t bs Nt Pc) as (x & Nx & An).
    pose proof O as [O1 O2 O3 O4 O5 O6 O7 O8 O9]. rewrite app_nil_r in O1. constructor; unfold tgoto; cbn [set_rd set_tasks set_out v_out v_rd v_closed v_tasks v_heads]; try assumption.
    + rewrite app_nil_r, O1. reflexivity.
    + rewrite map_app. apply NoDup_snoc; assumption.
    + intros n b0 Hn. apply in_app_or in Hn as [Hn|[Hn|[]]]; [exact (O3 n b0 Hn)|]. injection Hn as <- <-. exists x. auto.
    + intros k u Nu Uu K. apply nth_upd_inv in Nu as [(<- & t0 & N & ->)|(D & Nu)]; [destruct Uu|]. rewrite map_app in K. apply in_app_or in K as [K|[K|[]]]; [exact (O4 k u Nu Uu K)|]. cbn [fst] in K.
      apply D. exact (task_unique s i k t u It Nt Nu K).
    + intros k u b0 Nu Pu. apply nth_upd_inv in Nu as [(<- & t0 & N & ->)|(D & Nu)]; [discriminate|]. exact (O5 k u b0 Nu Pu).
    + intros b0 R. destruct (O6 b0 R) as (N & id & st & Nx' & An'). split; [|eauto]. intros K. rewrite map_app in K. apply in_app_or in K as [K|[K|[]]]; [exact (N K)|]. cbn [fst] in K.
      destruct (task_item s i t It Nt) as (y & Ny & Fy). rewrite K, Nx' in Ny. injection Ny as <-. destruct (a_req t); cbn in Fy; [discriminate|]. destruct Fy; discriminate.
  - apply (keep (TRaised e) t); auto; [cbn; tauto|discriminate].
  - apply (keep p t); auto; destruct Hp as [->|(e & ->)]; try discriminate; cbn; tauto.
Qed.

Lemma out_step U o s reg fin : sinv s -> out_ok s reg fin -> exists reg' fin', out_ok (srun_step U o s) reg' fin' /\ exists x, reg' = reg ++ x.
Proof.
  intros V O. pose proof (step_eff U o s (proj1 V) (proj1 (proj2 V))) as E. pose proof (jgrow_step U o s _ E) as Gj. remember (srun_step U o s) as s1 eqn:E1. clear E1.
  assert (same : forall s', out_ok s' reg fin -> exists reg' fin', out_ok s' reg' fin' /\ exists x, reg' = reg ++ x) by (intros s' H; exists reg, fin; split; [exact H|exists []; now rewrite app_nil_r]).
  destruct E as [o|name sv|bs| | |s' E|ok s' E|o i s' E Oo|o s' E Oo].
  - apply same. exact O.
  - apply same. apply (out_quiet s); auto; try (intros ? ? ?; assumption); apply O.
  - apply same. apply (out_quiet s); auto; try (intros ? ? ?; assumption); apply O.
  - apply same. apply (out_quiet s); auto; try (intros ? ? ?; assumption); apply O.
  - apply same. apply (out_quiet s); auto; try (intros ? ? ?; assumption); apply O.
  - apply same. exact (out_read s s' reg fin V O E).
  - exact (out_drain s s' reg fin V O E).
  - exact (out_teff U s s' i reg fin V O E Gj).
  - apply same. pose proof (jeff_same _ _ E) as ((S1 & S2 & S3 & S4 & S5 & S6 & S7) & Sc & Sr & St & So). apply (out_quiet s); auto; try congruence. 
    + rewrite St. apply O.
    + intros k u bs N P. rewrite St in N. apply (answers_grow s s' (fun _ _ _ => True)); [exact Gj|apply igrow_same; exact S6|exact (oo_pending _ _ _ O k u bs N P)].
Qed.

(** ** The combined invariant *)
Lemma sinv_step U o s : sinv s -> sinv (srun_step U o s).
Proof. intros (A & B & C). split; [exact (stream_step U o s A B)|]. split; [exact (tasks_step U o s A B)|exact (jobs_step U o s A B C)]. Qed.

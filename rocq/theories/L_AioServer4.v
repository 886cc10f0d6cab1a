(** Lemmas about the asyncio server: the invariants. *)
From Coq Require Import ZifyBool Strings.String.
From Verif Require Import PyBase L_PyBase PyDict L_PyDict PyInt Struct M_SofaHeader L_SofaHeader M_Package L_Package L_Codec M_RpcId M_Trace S_Wire M_AioServer S_Server L_AioServer L_AioServer2 L_AioServer3.
Open Scope Z_scope.

(** ** What the steps leave alone *)
Definition same_stream (s s' : sst) : Prop :=
  v_rd s' = v_rd s /\ v_heads s' = v_heads s /\ v_buf s' = v_buf s /\ v_eof s' = v_eof s /\ v_exn s' = v_exn s /\ v_items s' = v_items s /\ v_in s' = v_in s.
Lemma expire_job_same j s : same_stream s (expire_job j s) /\ v_tasks (expire_job j s) = v_tasks s /\ v_out (expire_job j s) = v_out s /\ v_closed (expire_job j s) = v_closed s /\ v_reg (expire_job j s) = v_reg s.
Proof. unfold expire_job. destruct (nth_error (v_jobs s) j) as [b|]; [destruct (j_state b)|]; repeat split. Qed.
Lemma teff_same U s i s' : teff U s i s' -> same_stream s s' /\ v_closed s' = v_closed s /\ v_reg s' = v_reg s.
Proof. destruct 1; try (repeat split; fail). destruct (expire_job_same j s) as ((? & ? & ? & ? & ? & ? & ?) & ? & ? & ? & ?). repeat split; assumption. Qed.
Lemma teff_tasks U s i s' : teff U s i s' -> exists p, v_tasks s' = upd i (with_pc p) (v_tasks s).
Proof. destruct 1; try (eexists; reflexivity). destruct (expire_job_same j s) as (_ & E & _). exists (TDrain1 bs). unfold tgoto. cbn [set_tasks v_tasks]. now rewrite E. Qed.
Lemma jeff_same s s' : jeff s s' -> same_stream s s' /\ v_closed s' = v_closed s /\ v_reg s' = v_reg s /\ v_tasks s' = v_tasks s /\ v_out s' = v_out s.
Proof. destruct 1; repeat split. Qed.
Lemma deff_same s s' : deff s s' -> v_heads s' = v_heads s /\ v_buf s' = v_buf s /\ v_eof s' = v_eof s /\ v_exn s' = v_exn s /\ v_items s' = v_items s /\ v_in s' = v_in s /\
  v_tasks s' = v_tasks s /\ v_jobs s' = v_jobs s /\ v_reg s' = v_reg s.
Proof. destruct 1; repeat split. Qed.
Lemma rstep_same s s' : rstep s s' -> v_out s' = v_out s /\ v_closed s' = v_closed s /\ v_reg s' = v_reg s /\ v_jobs s' = v_jobs s /\ v_eof s' = v_eof s /\ v_exn s' = v_exn s /\ v_in s' = v_in s.
Proof. destruct 1 as [|st R C|n h R|n pc R M|n i s' H R A]; try (repeat split; fail). inversion A; subst; repeat split. Qed.

Lemma stream_same s s' : same_stream s s' -> stream_ok s -> stream_ok s'.
Proof. intros (A & B & C & _ & _ & F & G) [H1 H2 H3 H4 H5]. constructor; rewrite ?A, ?B, ?C, ?F, ?G; assumption. Qed.
Lemma ahead_more r buf rest x : ahead r buf rest -> ahead r (buf ++ x) (rest ++ x).
Proof.
  destruct r; cbn [ahead]; try (intros ->; reflexivity); auto.
  - intros (fx & A & B & ->). exists fx. rewrite <- app_assoc. auto.
  - intros (fx & A & B & C & ->). exists fx. rewrite <- !app_assoc. auto.
  - intros (fx & hb & A & B & C & D & E & ->). exists fx, hb. rewrite <- !app_assoc. auto 8.
Qed.
Lemma stream_step U o s : stream_ok s -> tasks_ok s -> stream_ok (srun_step U o s).
Proof.
  intros I T. assert (D : o = Read \/ o <> Read) by (destruct o; auto; right; discriminate). destruct D as [->|N]; [apply sread_ok; exact I|].
  pose proof (step_eff U o s I T) as E. remember (srun_step U o s) as s1 eqn:E1. clear E1.
  destruct E as [o|name sv|bs| | |s' E|ok s' E|o i s' E O|o s' E O]; try (destruct I; constructor; assumption).
  - destruct I as [(rest & A & B) C D F G]. constructor; try assumption. cbn [set_stream v_in v_items v_rd v_buf]. exists (rest ++ bs). split; [apply cuts_more; exact A|apply ahead_more; exact B].
  - congruence.
  - destruct I as [(rest & A & B) C H F G].
    inversion E as [bs R Cl|R|R|st fin R Fi|R]; subst; constructor; cbn [set_rd set_out v_in v_items v_rd v_buf v_heads]; try assumption; try rewrite R in *;
      try (exists rest; split; [exact A|first [exact Logic.I|exact B]]); try exact C; try exact H; try solve [intros []].
    destruct R as [(bs & R)|R]; rewrite R in H; cbn in *; exists []; now rewrite app_nil_r.
  - apply teff_same in E as [E _]. exact (stream_same _ _ E I).
  - apply jeff_same in E as [E _]. exact (stream_same _ _ E I).
Qed.

Lemma heads_length s i : v_heads s = map item_id (v_items s) ++ [item_id i] -> (List.length (v_heads s) - 1 = List.length (v_items s))%nat.
Proof. intros H. rewrite H, app_length, map_length. cbn. lia. Qed.

Lemma tasks_step U o s : stream_ok s -> tasks_ok s -> tasks_ok (srun_step U o s).
Proof.
  intros I T. pose proof (step_eff U o s I T) as E. remember (srun_step U o s) as s1 eqn:E1. clear E1.
  destruct E as [o|name sv|bs| | |s' E|ok s' E|o i s' E O|o s' E O]; try (destruct T; constructor; assumption).
  - inversion E as [E0|st R C E0|n h R E0|n pc R M E0|n i s0 H R A E0]; subst; try (destruct T; constructor; assumption).
    assert (old : forall j t, nth_error (v_tasks s) j = Some t -> a_req t = None -> exists id, nth_error (v_items s ++ [i]) (a_frame t) = Some (IHeartbeat id) /\
       match a_pc t with TDrain1 bs => beat_bytes id = Ok bs | TDrain2 | TDone | TRaised _ => True | _ => False end).
    { intros j t Hj Hq. destruct (to_beats _ T j t Hj Hq) as (id & F & P). exists id. split; [|exact P]. rewrite nth_error_app1; [exact F|]. apply nth_error_Some. congruence. }
    pose proof (heads_length s i H) as HL. pose proof (to_ids _ T) as TI.
    inversion A as [q E1 E2|id bs Eb E1 E2|id st bs Eb E1 E2|id E1 E2]; subst; constructor; cbn [set_rd spawn set_tasks v_tasks v_items] in *; try exact old;
      cbn [set_items v_tasks v_items take set_stream v_heads] in *; rewrite ?accepted_app; cbn [accepted app]; rewrite ?app_nil_r; try exact TI.
    + rewrite map_app, TI. f_equal. cbn [map]. unfold tid. cbn [a_frame a_req]. rewrite HL. reflexivity.
    + intros j t Hj Hq. destruct (Nat.lt_ge_cases j (List.length (v_tasks s))) as [L|L].
      * rewrite nth_error_app1 in Hj by exact L. exact (old j t Hj Hq).
      * rewrite nth_error_app2 in Hj by exact L. destruct (j - List.length (v_tasks s))%nat as [|k]; cbn in Hj; [injection Hj as <-; discriminate|destruct k; discriminate].
    + rewrite map_app, TI. f_equal. cbn [map]. unfold tid. cbn [a_frame a_req]. rewrite HL. reflexivity.
    + intros j t Hj Hq. destruct (Nat.lt_ge_cases j (List.length (v_tasks s))) as [L|L].
      * rewrite nth_error_app1 in Hj by exact L. exact (old j t Hj Hq).
      * rewrite nth_error_app2 in Hj by exact L. destruct (j - List.length (v_tasks s))%nat as [|k]; cbn in Hj; [injection Hj as <-|destruct k; discriminate].
        exists id. cbn [a_frame a_pc]. rewrite HL, nth_error_app2, Nat.sub_diag by lia. split; [reflexivity|exact Eb].
  - apply deff_same in E as (_ & _ & _ & _ & Hi & _ & Ht & _). destruct T as [T1 T2]. constructor; rewrite Ht, Hi; assumption.
  - pose proof (teff_same U s i s' E) as ((_ & _ & _ & _ & _ & Hi & _) & _). pose proof (teff_tasks U s i s' E) as (p & Ht).
    destruct T as [T1 T2]. constructor.
    + rewrite Ht, Hi, map_upd by reflexivity. exact T1.
    + intros k t Hk Hq. rewrite Ht in Hk. rewrite Hi. apply nth_upd_inv in Hk as [(<- & t0 & Hk & ->)|(N & Hk)]; [|exact (T2 k t Hk Hq)].
      destruct (T2 i t0 Hk Hq) as (id & F & P). cbn [with_pc a_frame a_pc]. exists id. split; [exact F|].
      assert (pc : a_pc (with_pc p t0) = match nth_error (v_tasks s') i with Some u => a_pc u | None => TStart end) by (rewrite Ht, (nth_upd_same _ _ _ _ Hk); reflexivity).
      cbn [with_pc a_pc] in pc. rewrite pc.
      inversion E; subst; match goal with H : nth_error (v_tasks s) i = Some ?t |- _ => assert (t = t0) by congruence; subst end; cbn [with_pc a_req] in Hq; try congruence;
        unfold tgoto; cbn [set_tasks set_out v_tasks]; rewrite (nth_upd_same _ _ _ _ Hk); cbn [with_pc a_pc]; try exact Logic.I.
      destruct H1 as [->|(e & ->)]; exact Logic.I.
  - apply jeff_same in E as ((_ & _ & _ & _ & _ & Hi & _) & _ & _ & Ht & _). destruct T as [T1 T2]. constructor; rewrite Ht, Hi; assumption.
Qed.

Lemma NoDup_snoc {A} (l : list A) x : NoDup l -> ~ In x l -> NoDup (l ++ [x]).
Proof.
  intros N H. induction N as [|y l Hy N IH]; cbn; [repeat constructor; intros []|]. constructor; [|apply IH; intros K; apply H; right; exact K].
  intros K. apply in_app_or in K as [K|[K|[]]]; [contradiction|]. subst. apply H. left. reflexivity.
Qed.

(** ** Jobs *)
Record jobs_ok (s : sst) : Prop := {
  jo_frames : NoDup (map j_frame (v_jobs s));
  jo_named : forall j b, nth_error (v_jobs s) j = Some b -> exists q, nth_error (v_items s) (j_frame b) = Some (IRequest q) /\
    names_service (q_header q) (j_service b) /\ names_method (q_header q) (j_method b) /\ j_body b = q_body q;
  jo_start : forall i t, nth_error (v_tasks s) i = Some t -> a_pc t = TStart -> ~ In (a_frame t) (map j_frame (v_jobs s));
  jo_wait : forall i t j, nth_error (v_tasks s) i = Some t -> a_pc t = TWait j -> exists b q, nth_error (v_jobs s) j = Some b /\ j_frame b = a_frame t /\
    a_req t = Some q /\ q_type q <> 2
}.
Definition jid (b : job) := (j_frame b, j_service b, j_method b, j_body b, j_ctx b).
Lemma set_jstate_jobs j x s : v_jobs (set_jstate j x s) = upd j (fun b => {| j_frame := j_frame b; j_service := j_service b; j_method := j_method b; j_body := j_body b; j_ctx := j_ctx b; j_state := x |}) (v_jobs s).
Proof. reflexivity. Qed.
Lemma set_jstate_jids j x s : map jid (v_jobs (set_jstate j x s)) = map jid (v_jobs s).
Proof. rewrite set_jstate_jobs. apply map_upd. reflexivity. Qed.
Lemma expire_jids j s : map jid (v_jobs (expire_job j s)) = map jid (v_jobs s).
Proof. unfold expire_job. destruct (nth_error (v_jobs s) j) as [b|]; [destruct (j_state b)|]; try reflexivity. apply set_jstate_jids. Qed.
Lemma teff_jobs U s i s' : teff U s i s' ->
  (map jid (v_jobs s') = map jid (v_jobs s) /\ exists p, v_tasks s' = upd i (with_pc p) (v_tasks s) /\ p <> TStart /\ forall j, p <> TWait j) \/
  exists t q sv m c, nth_error (v_tasks s) i = Some t /\ a_req t = Some q /\ a_pc t = TStart /\ names_service (q_header q) sv /\ names_method (q_header q) m /\ offers (v_reg s) sv m /\
    v_jobs s' = v_jobs s ++ [new_job (a_frame t) q sv m c] /\ v_tasks s' = upd i (with_pc (if q_type q =? 2 then TDone else TWait (List.length (v_jobs s)))) (v_tasks s).
Proof.
  destruct 1 as [i t q st bs tr|i t q e tr|i t q sv m c tr fresh|i t q j b r p Ht Hq Hp Hj Hs Hc|i t q j bs|i t bs|i t bs e|i t p Ht Hp Hc];
    try (left; split; [reflexivity|]; eexists; split; [reflexivity|]; split; [|intros]; discriminate).
  - right. exists t, q, sv, m, c. auto 10.
  - left. split; [reflexivity|]. exists p. split; [reflexivity|]. unfold concluded in Hc. destruct r as [v|e]; [destruct (truthy v); [destruct Hc as [(? & ? & _ & _ & ->)|(_ & ->)]|subst p]|destruct Hc as (? & _ & ->)]; split; try (intros; discriminate).
  - left. split; [exact (expire_jids j s)|]. exists (TDrain1 bs). destruct (expire_job_same j s) as (_ & E & _). unfold tgoto. cbn [set_tasks v_tasks]. rewrite E. split; [reflexivity|]. split; [|intros]; discriminate.
  - left. split; [reflexivity|]. exists p. split; [reflexivity|]. destruct Hc as [->|(? & ->)]; split; intros; discriminate.
Qed.
Lemma jids_frames s s' : map jid (v_jobs s') = map jid (v_jobs s) -> map j_frame (v_jobs s') = map j_frame (v_jobs s).
Proof. intros H. assert (E : forall l, map j_frame l = map (fun x => fst (fst (fst (fst x)))) (map jid l)) by (intros; rewrite map_map; reflexivity). rewrite !E, H. reflexivity. Qed.
Lemma jids_nth s s' j b : map jid (v_jobs s') = map jid (v_jobs s) -> nth_error (v_jobs s') j = Some b -> exists b0, nth_error (v_jobs s) j = Some b0 /\ jid b = jid b0.
Proof.
  intros H N. assert (E : nth_error (map jid (v_jobs s)) j = Some (jid b)) by (rewrite <- H, nth_error_map, N; reflexivity).
  rewrite nth_error_map in E. destruct (nth_error (v_jobs s) j) as [b0|]; [|discriminate]. injection E as E. exists b0. split; [reflexivity|]. unfold jid. congruence.
Qed.
Lemma jids_ok s s' : jobs_ok s -> map jid (v_jobs s') = map jid (v_jobs s) -> (forall n q, nth_error (v_items s) n = Some (IRequest q) -> nth_error (v_items s') n = Some (IRequest q)) ->
  (forall i t, nth_error (v_tasks s') i = Some t -> a_pc t = TStart -> nth_error (v_tasks s) i = Some t \/ ~ In (a_frame t) (map j_frame (v_jobs s))) ->
  (forall i t j, nth_error (v_tasks s') i = Some t -> a_pc t = TWait j -> nth_error (v_tasks s) i = Some t) -> jobs_ok s'.
Proof.
  intros [A B C D] J X Y Z. pose proof (jids_frames s s' J) as F. constructor.
  - rewrite F. exact A.
  - intros j b N. destruct (jids_nth s s' j b J N) as (b0 & N0 & E). unfold jid in E. injection E as E1 E2 E3 E4 E5. destruct (B j b0 N0) as (q & Q1 & Q2 & Q3 & Q4).
    exists q. rewrite E1, E2, E3, E4. auto.
  - intros i t N P. rewrite F. destruct (Y i t N P) as [N0|N0]; [exact (C i t N0 P)|exact N0].
  - intros i t j N P. destruct (D i t j (Z i t j N P) P) as (b & q & N0 & E & R).
    assert (N1 : nth_error (map jid (v_jobs s')) j = Some (jid b)) by (rewrite J, nth_error_map, N0; reflexivity). rewrite nth_error_map in N1. destruct (nth_error (v_jobs s') j) as [b'|] eqn:Eb; [|discriminate].
    exists b', q. split; [reflexivity|]. split; [|exact R]. rewrite <- E. cbn in N1. injection N1. auto.
Qed.
Lemma rstep_items s s' : rstep s s' -> exists l, v_items s' = v_items s ++ l.
Proof. destruct 1 as [|st R C|n h R|n pc R M|n i s' H R A]; try (exists []; cbn; now rewrite app_nil_r). exists [i]. inversion A; subst; reflexivity. Qed.
Lemma rstep_tasks s s' : rstep s s' -> v_tasks s' = v_tasks s \/ exists q p, v_tasks s' = v_tasks s ++ [{| a_frame := List.length (v_items s); a_req := q; a_pc := p |}] /\
  ((exists r, q = Some r /\ p = TStart) \/ q = None /\ exists bs, p = TDrain1 bs).
Proof.
  destruct 1 as [|st R C|n h R|n pc R M|n i s' H R A]; auto. pose proof (heads_length s i H) as HL. inversion A; subst; auto; right; eexists _, _; unfold spawn; cbn [set_rd set_tasks v_tasks set_items take set_stream v_heads]; rewrite HL; split; try reflexivity; eauto.
Qed.
Lemma nth_app_some {A} (l l' : list A) n x : nth_error l n = Some x -> nth_error (l ++ l') n = Some x.
Proof. intros H. rewrite nth_error_app1; [exact H|]. apply nth_error_Some. congruence. Qed.
Lemma jobs_below s n : jobs_ok s -> In n (map j_frame (v_jobs s)) -> (n < List.length (v_items s))%nat.
Proof. intros [_ B _ _] H. apply in_map_iff in H as (b & <- & H). apply In_nth_error in H as (j & H). destruct (B j b H) as (q & Q & _). apply nth_error_Some. congruence. Qed.

Lemma jobs_step U o s : stream_ok s -> tasks_ok s -> jobs_ok s -> jobs_ok (srun_step U o s).
Proof.
  intros I T J. pose proof (step_eff U o s I T) as E. remember (srun_step U o s) as s1 eqn:E1. clear E1.
  destruct E as [o|name sv|bs| | |s' E|ok s' E|o i s' E O|o s' E O]; try (destruct J; constructor; assumption).
  - pose proof (rstep_same _ _ E) as (_ & _ & _ & Hj & _). destruct (rstep_items _ _ E) as (l & Hi). apply (jids_ok s); [exact J|now rewrite Hj|intros n q H; rewrite Hi; apply nth_app_some; exact H| |].
    + intros k t N P. destruct (rstep_tasks _ _ E) as [Ht|(q & p & Ht & K)]; rewrite Ht in N; [auto|]. destruct (Nat.lt_ge_cases k (List.length (v_tasks s))) as [L|L].
      * rewrite nth_error_app1 in N by exact L. auto.
      * rewrite nth_error_app2 in N by exact L. destruct (k - List.length (v_tasks s))%nat as [|k0]; cbn in N; [injection N as <-|destruct k0; discriminate].
        right. cbn [a_frame]. intros H. apply jobs_below in H; [lia|exact J].
    + intros k t j N P. destruct (rstep_tasks _ _ E) as [Ht|(q & p & Ht & K)]; rewrite Ht in N; [auto|]. destruct (Nat.lt_ge_cases k (List.length (v_tasks s))) as [L|L].
      * rewrite nth_error_app1 in N by exact L. auto.
      * rewrite nth_error_app2 in N by exact L. destruct (k - List.length (v_tasks s))%nat as [|k0]; cbn in N; [injection N as <-|destruct k0; discriminate].
        cbn [a_pc] in P. destruct K as [(r & _ & ->)|(_ & bs & ->)]; discriminate.
  - apply deff_same in E as (_ & _ & _ & _ & Hi & _ & Ht & Hj & _). destruct J. constructor; rewrite ?Hi, ?Ht, ?Hj; assumption.
  - pose proof (teff_same U s i s' E) as ((_ & _ & _ & _ & _ & Hi & _) & _).
    destruct (teff_jobs U s i s' E) as [(H & p & Ht & P1 & P2)|(t & q & sv & m & c & Nt & Rq & Pt & N1 & N2 & Of & Hj & Ht)].
    + apply (jids_ok s); [exact J|exact H|intros; rewrite Hi; assumption| |].
      * intros k t N P. left. rewrite Ht in N. apply nth_upd_inv in N as [(<- & t0 & N & ->)|(_ & N)]; [contradiction|exact N].
      * intros k t j N P. rewrite Ht in N. apply nth_upd_inv in N as [(<- & t0 & N & ->)|(_ & N)]; [|exact N]. exfalso. exact (P2 j P).
    + destruct J as [A B C D]. constructor.
      * rewrite Hj, map_app. cbn [map]. apply NoDup_snoc; [exact A|]. exact (C i t Nt Pt).
      * intros j b N. rewrite Hi. rewrite Hj in N. destruct (Nat.lt_ge_cases j (List.length (v_jobs s))) as [L|L]; [rewrite nth_error_app1 in N by exact L; exact (B j b N)|].
        rewrite nth_error_app2 in N by exact L. destruct (j - List.length (v_jobs s))%nat as [|k0]; cbn in N; [injection N as <-|destruct k0; discriminate].
        exists q. cbn [new_job j_frame j_service j_method j_body]. split; [exact (task_request s i t q T Nt Rq)|auto].
      * intros k u N P. rewrite Ht in N. apply nth_upd_inv in N as [(<- & t0 & N & ->)|(Nk & N)]; [cbn [with_pc a_pc] in P; destruct (q_type q =? 2); discriminate|].
        rewrite Hj, map_app. intros H. apply in_app_or in H as [H|[H|[]]]; [exact (C k u N P H)|]. cbn [new_job j_frame] in H. apply Nk. exact (task_unique s i k t u T Nt N H).
      * intros k u j N P. rewrite Ht in N. rewrite Hj. apply nth_upd_inv in N as [(<- & t0 & N & ->)|(Nk & N)].
        -- cbn [with_pc a_pc a_frame a_req] in *. assert (t0 = t) by congruence. subst t0. destruct (Z.eqb_spec (q_type q) 2); [discriminate|]. injection P as <-.
           exists (new_job (a_frame t) q sv m c), q. rewrite nth_error_app2, Nat.sub_diag by lia. auto.
        -- destruct (D k u j N P) as (b & q' & Nb & R). exists b, q'. split; [apply nth_app_some; exact Nb|exact R].
  - pose proof (jeff_same _ _ E) as ((_ & _ & _ & _ & _ & Hi & _) & _ & _ & Ht & _). apply (jids_ok s); [exact J| |rewrite Hi; auto|rewrite Ht; auto|rewrite Ht; auto].
    inversion E; subst; apply set_jstate_jids.
Qed.

(** ** What is written *)
Definition unwritten (p : tpc) : Prop := match p with TStart | TWait _ | TDrain1 _ => True | _ => False end.
(** a SUCCESS answer carries the value returned by the job of the frame *)
Definition backed (s : sst) (n : nat) (c : bytes) : Prop := exists j b, nth_error (v_jobs s) j = Some b /\ j_frame b = n /\ j_state b = JEnded (Ok (PBytes c)).
Definition answer_to (s : sst) (n : nat) (x : item) (bs : bytes) : Prop :=
  match x with
  | IHeartbeat id => response bs id 0 0 []
  | IBad id st => response bs id 2 st []
  | IRequest q => exists st c, response bs (q_id q) 2 st c /\ ((st = 0 /\ backed s n c /\ c <> [] /\ q_type q <> 2) \/ ((In st [2; 6; 8] \/ (In st [3; 7] /\ q_type q <> 2)) /\ c = []))
  | IFatal _ => False
  end.
Definition last_cause (s : sst) (st : Z) : Prop :=
  (st = 3 /\ (v_exn s = true \/ exists id, nth_error (v_items s) (List.length (v_heads s) - 1) = Some (IFatal id))) \/ (st = 16 /\ v_eof s = true).
Record out_ok (s : sst) (reg fin : list (nat * bytes)) : Prop := {
  oo_split : v_out s = reg ++ fin;
  oo_once : NoDup (map fst reg);
  oo_answers : forall n bs, In (n, bs) reg -> exists x, nth_error (v_items s) n = Some x /\ answer_to s n x bs;
  oo_tasks : forall i t, nth_error (v_tasks s) i = Some t -> unwritten (a_pc t) -> ~ In (a_frame t) (map fst reg);
  oo_pending : forall i t bs, nth_error (v_tasks s) i = Some t -> a_pc t = TDrain1 bs -> exists x, nth_error (v_items s) (a_frame t) = Some x /\ answer_to s (a_frame t) x bs;
  oo_reader : forall bs, v_rd s = RFail1 bs -> ~ In (List.length (v_heads s) - 1)%nat (map fst reg) /\
    exists id st, nth_error (v_items s) (List.length (v_heads s) - 1) = Some (IBad id st) /\ response bs id 2 st [];
  oo_closed : v_closed s = true -> v_rd s = RLast2 \/ v_rd s = REnd;
  oo_last : forall st, v_rd s = RLast1 st -> last_cause s st;
  oo_fin : fin = [] \/ (v_closed s = true /\ exists id st bs, fin = [(List.length (v_heads s) - 1, bs)%nat] /\ last_id s = Some id /\ response bs id 2 st [] /\ last_cause s st)
}.

(** Lemmas for C87: the same for a server (M_AioServer). *)
From Coq Require Import ZifyBool.
From Verif Require Import PyBase L_PyBase PyDict PyInt M_SofaHeader M_Package M_RpcId M_Trace M_AioServer.
From Verif Require L_Rest1.
Import L_Rest1 (total, total_app).
Open Scope nat_scope.

Lemma total_upd {A} (f : A -> nat) g l : forall i x, nth_error l i = Some x -> total f (upd i g l) + f x = total f l + f (g x).
Proof. unfold total, list_sum. induction l as [|y l IH]; intros [|i] x H; cbn in *; try discriminate; [injection H as ->; lia|]. specialize (IH i x H). lia. Qed.

Definition rrank (r : rpc) : nat := match r with REnd | RDied => 0 | RLast2 => 1 | RLast1 _ => 2 | RFixed => 3 | RFail2 => 4 | RFail1 _ => 5 | RBody _ _ _ => 6 | RHead _ _ => 7 | RClass _ => 8 end.
Definition unparsed (s : sst) : nat := List.length (v_buf s) + rrank (v_rd s) + (if v_eof s then 0 else 1) + (if v_exn s then 0 else 1).
Definition trank (p : tpc) : nat := match p with TStart => 10 | TWait _ => 5 | TDrain1 _ => 3 | TDrain2 => 1 | TDone | TRaised _ => 0 end.
Definition jrank (x : jstate) : nat := match x with JQueued => 2 | JRunning => 1 | JEnded _ | JCancelled => 0 end.
Definition undone (s : sst) : nat := total (fun t => trank (a_pc t)) (v_tasks s) + total (fun b => jrank (j_state b)) (v_jobs s).

Lemma tgoto_undone i p s s' t : nth_error (v_tasks s) i = Some t -> v_tasks s' = v_tasks s -> v_jobs s' = v_jobs s -> unparsed s' = unparsed s -> trank p < trank (a_pc t) -> unparsed (tgoto i p s') = unparsed s /\ undone (tgoto i p s') < undone s.
Proof.
  intros Hi E1 E2 E3 L. split; [exact E3|]. unfold undone, tgoto. cbn [set_tasks v_tasks v_jobs]. rewrite E1, E2. pose proof (total_upd (fun t => trank (a_pc t)) (with_pc p) (v_tasks s) i t Hi) as U. cbn [with_pc a_pc] in U. lia.
Qed.
Lemma tfail_undone i id x s s' t : nth_error (v_tasks s) i = Some t -> v_tasks s' = v_tasks s -> v_jobs s' = v_jobs s -> unparsed s' = unparsed s -> 3 < trank (a_pc t) -> unparsed (tfail i id x s') = unparsed s /\ undone (tfail i id x s') < undone s.
Proof. intros Hi E1 E2 E3 L. unfold tfail. destruct (fail_bytes id x); apply (tgoto_undone i _ s _ t Hi); auto; cbn [trank]; lia. Qed.
Lemma dispatch_undone U i n q f s t : nth_error (v_tasks s) i = Some t -> a_pc t = TStart -> unparsed (dispatch U i n q f s) = unparsed s /\ undone (dispatch U i n q f s) < undone s.
Proof.
  intros Hi Hp. assert (T : trank (a_pc t) = 10) by (rewrite Hp; reflexivity). unfold dispatch. destruct (service_name (q_header q)) as [sv|]; [|apply (tfail_undone i _ _ s _ t Hi); auto; lia]. destruct (method_name (q_header q)) as [m|]; [|apply (tfail_undone i _ _ s _ t Hi); auto; lia].
  destruct (extract U (v_trace s) (q_header q) f) as (tr & [c|e]); [|apply (tgoto_undone i _ s _ t Hi); auto; cbn [trank]; lia]. cbv zeta.
  destruct (find_method (v_reg (set_trace s tr)) sv m) as [x|e].
  - assert (K : forall p, trank p <= 5 -> unparsed (tgoto i p (set_jobs (set_trace s tr) (v_jobs (set_trace s tr) ++ [{| j_frame := n; j_service := sv; j_method := m; j_body := q_body q; j_ctx := c; j_state := JQueued |}]))) = unparsed s /\
      undone (tgoto i p (set_jobs (set_trace s tr) (v_jobs (set_trace s tr) ++ [{| j_frame := n; j_service := sv; j_method := m; j_body := q_body q; j_ctx := c; j_state := JQueued |}]))) < undone s).
    { intros p L. split; [reflexivity|]. unfold undone, tgoto. cbn [set_tasks set_jobs set_trace v_tasks v_jobs]. rewrite total_app. pose proof (total_upd (fun t => trank (a_pc t)) (with_pc p) (v_tasks s) i t Hi) as V. cbn [with_pc a_pc] in V.
      change (total (fun b => jrank (j_state b)) [{| j_frame := n; j_service := sv; j_method := m; j_body := q_body q; j_ctx := c; j_state := JQueued |}]) with 2. lia. }
    destruct (q_type q =? PTYPE_ONEWAY)%Z; apply K; cbn; lia.
  - destruct e; try (apply (tfail_undone i _ _ s _ t Hi); auto; lia). apply (tgoto_undone i _ s _ t Hi); auto; cbn [trank]; lia.
Qed.
Lemma jstate_undone j x s b : nth_error (v_jobs s) j = Some b -> jrank x < jrank (j_state b) -> unparsed (set_jstate j x s) = unparsed s /\ undone (set_jstate j x s) < undone s.
Proof.
  intros Hj L. split; [reflexivity|]. unfold undone, set_jstate. cbn [set_jobs v_tasks v_jobs].
  pose proof (total_upd (fun b => jrank (j_state b)) (fun b => {| j_frame := j_frame b; j_service := j_service b; j_method := j_method b; j_body := j_body b; j_ctx := j_ctx b; j_state := x |}) (v_jobs s) j b Hj) as U. cbn [j_state] in U. lia.
Qed.

(** ** the handler *)
Lemma rd_unparsed s s' r : v_buf s' = v_buf s -> v_eof s' = v_eof s -> v_exn s' = v_exn s -> rrank r < rrank (v_rd s) -> unparsed (set_rd s' r) < unparsed s.
Proof. intros E1 E2 E3 L. unfold unparsed. cbn [set_rd v_buf v_rd v_eof v_exn]. rewrite E1, E2, E3. lia. Qed.
Lemma take_unparsed n s s' r : v_buf s' = py_drop n (v_buf s) -> v_eof s' = v_eof s -> v_exn s' = v_exn s -> rrank r < rrank (v_rd s) -> unparsed (set_rd s' r) < unparsed s.
Proof. intros E1 E2 E3 L. unfold unparsed. cbn [set_rd v_buf v_rd v_eof v_exn]. rewrite E1, E2, E3. pose proof (L_Rest1.drop_length n (v_buf s)). lia. Qed.
Lemma head_unparsed s s' r : ready 22 s = true -> v_buf s' = py_drop 22 (v_buf s) -> v_eof s' = v_eof s -> v_exn s' = v_exn s -> rrank r <= 8 -> unparsed (set_rd s' r) < unparsed s.
Proof.
  intros R E1 E2 E3 L. unfold unparsed. cbn [set_rd v_buf v_rd v_eof v_exn]. rewrite E1, E2, E3. unfold ready in R. apply andb_prop in R as (_ & R). apply Z.leb_le in R. pose proof (len_py_drop 22 (v_buf s) ltac:(lia) R) as Ld. unfold len in *. lia.
Qed.
Lemma starved_unparsed s : 2 < rrank (v_rd s) -> starved s = s \/ unparsed (starved s) < unparsed s.
Proof. intros L. unfold starved. destruct (v_exn s); [right; apply rd_unparsed; auto|]. destruct (v_eof s); [right; apply rd_unparsed; auto|auto]. Qed.
Lemma read_unparsed s : sread s = s \/ unparsed (sread s) < unparsed s.
Proof.
  unfold sread. destruct (v_rd s) as [|h|h c|h c so|bs| |x| | |] eqn:Hr; auto; cbv zeta.
  - change (bolt_header_size BoltRequest) with 22%Z. destruct (ready 22 s) eqn:R; [right|apply starved_unparsed; rewrite Hr; cbn; lia].
    destruct (bolt_header_from_stream BoltRequest (py_take 22 (v_buf s))); [apply (head_unparsed s _ _ R); auto|]. destruct (last_id s); [|apply (head_unparsed s _ _ R); auto; cbn; lia]. unfold rfail. destruct (fail_bytes z ST_CODEC_EXCEPTION); apply (head_unparsed s _ _ R); auto; cbn; lia.
  - destruct (ready _ s); [right|apply starved_unparsed; rewrite Hr; cbn; lia]. apply (take_unparsed (int_of f_class_len h) s); auto. rewrite Hr. cbn. lia.
  - destruct (ready _ s); [right|apply starved_unparsed; rewrite Hr; cbn; lia].
    assert (K : forall s' r, v_buf s' = py_drop (int_of f_header_len h) (v_buf s) -> v_eof s' = v_eof s -> v_exn s' = v_exn s -> rrank r <= 6 -> unparsed (set_rd s' r) < unparsed s) by (intros s' r A B C D; apply (take_unparsed (int_of f_header_len h) s s' r A B C); rewrite Hr; cbn [rrank]; lia).
    destruct (from_bytes (py_take (int_of f_header_len h) (v_buf s))) as [x|e]; [apply K; auto|]. destruct e; try (apply K; auto; cbn; lia); unfold rfail; destruct (fail_bytes _ _); apply K; auto; cbn; lia.
  - destruct (ready _ s); [right|apply starved_unparsed; rewrite Hr; cbn; lia].
    assert (K : forall s' r, v_buf s' = py_drop (int_of f_content_len h) (v_buf s) -> v_eof s' = v_eof s -> v_exn s' = v_exn s -> rrank r <= 5 -> unparsed (set_rd s' r) < unparsed s) by (intros s' r A B C D; apply (take_unparsed (int_of f_content_len h) s s' r A B C); rewrite Hr; cbn [rrank]; lia).
    unfold found. cbv zeta. destruct (int_of f_cmdcode h =? CMDCODE_HEARTBEAT)%Z; [destruct (beat_bytes (int_of f_request_id h)); apply K; auto; cbn; lia|].
    destruct (int_of f_cmdcode h =? CMDCODE_RESPONSE)%Z; [unfold rfail; destruct (fail_bytes _ _); apply K; auto; cbn; lia|]. destruct (negb (bytes_eqb c SofaRequest_name)); [unfold rfail; destruct (fail_bytes _ _); apply K; auto; cbn; lia|apply K; auto; cbn; lia].
Qed.
Lemma swrite_stream n bs s : let s' := fst (swrite n bs s) in v_buf s' = v_buf s /\ v_eof s' = v_eof s /\ v_exn s' = v_exn s /\ v_rd s' = v_rd s /\ v_tasks s' = v_tasks s /\ v_jobs s' = v_jobs s.
Proof. unfold swrite. destruct (v_closed s); cbn; auto 10. Qed.
Lemma drain_unparsed ok s : sdrain ok s = s \/ unparsed (sdrain ok s) < unparsed s.
Proof.
  unfold sdrain. destruct (v_rd s) as [|h|h c|h c so|bs| |x| | |] eqn:Hr; auto; right.
  - destruct ok; [|apply rd_unparsed; auto; rewrite Hr; cbn; lia]. destruct (swrite_stream (List.length (v_heads s) - 1) bs s) as (A & B & C & _). destruct (swrite (List.length (v_heads s) - 1) bs s) as (s' & w). cbn [fst] in *. apply rd_unparsed; auto. rewrite Hr. destruct w; cbn; lia.
  - apply rd_unparsed; auto. rewrite Hr. destruct ok; cbn; lia.
  - cbv zeta. match goal with |- unparsed (set_rd (swrite_eof ?y) _) < _ => assert (K : v_buf y = v_buf s /\ v_eof y = v_eof s /\ v_exn y = v_exn s) end.
    { destruct ok; [|auto]. destruct (last_id s); [|auto]. destruct (fail_bytes z x) as [bs|]; [|auto]. destruct (swrite_stream (List.length (v_heads s) - 1) bs s) as (A & B & C & _). auto. }
    destruct K as (A & B & C). apply rd_unparsed; auto. rewrite Hr. cbn. lia.
  - apply rd_unparsed; auto. rewrite Hr. cbn. lia.
Qed.
Lemma same_stream s : set_stream s (v_buf s) (v_eof s) (v_exn s) (v_in s) = s.
Proof. destruct s. reflexivity. Qed.

(** ** all steps *)
Definition own_sstep (o : sstep) : Prop := match o with Feed _ | Register _ _ => False | _ => True end.
Lemma server_lowers U o s : own_sstep o -> srun_step U o s = s \/ unparsed (srun_step U o s) < unparsed s \/ (unparsed (srun_step U o s) = unparsed s /\ undone (srun_step U o s) < undone s).
Proof.
  intros Ho. destruct o as [nm sv|bs| | | |ok|i f|i ok|j|j r|i|i]; try destruct Ho; cbn [srun_step].
  - destruct (v_eof s) eqn:E; [left; rewrite <- E; apply same_stream|]. right. left. unfold unparsed. cbn. rewrite E. lia.
  - destruct (v_exn s) eqn:E; [left; rewrite <- E; apply same_stream|]. right. left. unfold unparsed. cbn. rewrite E. lia.
  - destruct (read_unparsed s); auto.
  - destruct (drain_unparsed ok s); auto.
  - destruct (nth_error (v_tasks s) i) as [t|] eqn:Hi; [|auto]. destruct (a_pc t) eqn:Hp; auto. destruct (a_req t); auto. right. right. exact (dispatch_undone U i _ _ f s t Hi Hp).
  - destruct (nth_error (v_tasks s) i) as [t|] eqn:Hi; [|auto]. destruct (a_pc t) as [|j|bs| | |e] eqn:Hp; auto; right; right.
    + destruct ok; [|apply (tgoto_undone i _ s _ t Hi); auto; rewrite Hp; cbn; lia]. destruct (swrite_stream (a_frame t) bs s) as (A & B & C & D & E & F). destruct (swrite (a_frame t) bs s) as (s' & w). cbn [fst] in *.
      apply (tgoto_undone i _ s _ t Hi); auto; [unfold unparsed; rewrite A, B, C, D; reflexivity|rewrite Hp; destruct w; cbn; lia].
    + apply (tgoto_undone i _ s _ t Hi); auto. rewrite Hp. destruct ok; cbn; lia.
  - destruct (nth_error (v_jobs s) j) as [b|] eqn:Hj; [|auto]. destruct (j_state b) eqn:Hs; auto. right. right. apply (jstate_undone j _ s b Hj). rewrite Hs. cbn. lia.
  - destruct (nth_error (v_jobs s) j) as [b|] eqn:Hj; [|auto]. destruct (j_state b) eqn:Hs; auto. right. right. apply (jstate_undone j _ s b Hj). rewrite Hs. cbn. lia.
  - destruct (nth_error (v_tasks s) i) as [t|] eqn:Hi; [|auto]. destruct (a_pc t) as [|j|bs| | |e] eqn:Hp; auto. destruct (a_req t) as [q|]; auto. destruct (nth_error (v_jobs s) j) as [b|]; [|auto]. destruct (j_state b) as [| |r|]; auto. right. right.
    assert (T : trank (a_pc t) = 5) by (rewrite Hp; reflexivity). unfold conclude. destruct r as [v|e]; [|destruct e; apply (tfail_undone i _ _ s _ t Hi); auto; lia].
    destruct (truthy v); [|apply (tgoto_undone i _ s _ t Hi); auto; cbn; lia]. destruct (result_bytes v (q_id q)); apply (tgoto_undone i _ s _ t Hi); auto; cbn; lia.
  - destruct (nth_error (v_tasks s) i) as [t|] eqn:Hi; [|auto]. destruct (a_pc t) as [|j|bs| | |e] eqn:Hp; auto. destruct (a_req t) as [q|]; auto. destruct (0 <? q_timeout q)%Z; [|auto]. right. right. cbv zeta.
    assert (T : 3 < trank (a_pc t)) by (rewrite Hp; cbn; lia). destruct (nth_error (v_jobs s) j) as [b|] eqn:Hj; [|apply (tfail_undone i _ _ s _ t Hi); auto]. destruct (j_state b) eqn:Hs; try solve [apply (tfail_undone i _ _ s _ t Hi); auto].
    destruct (jstate_undone j JCancelled s b Hj) as (A & B); [rewrite Hs; cbn; lia|]. destruct (tfail_undone i (q_id q) ST_TIMEOUT (set_jstate j JCancelled s) (set_jstate j JCancelled s) t Hi) as (C & D); auto. split; [congruence|lia].
Qed.

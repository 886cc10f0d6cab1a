(** Lemmas for C123: methods that raise StopIteration (M_Exit). *)
From Coq Require Import ZifyBool Lia.
From Verif Require Import PyBase L_PyBase PyDict PyInt M_RpcId M_Trace M_AioServer S_Server L_AioServer L_AioServer2 L_AioServer3 L_AioServer4 L_AioServer5 L_AioServer6 L_AioServer7 M_Listener S_Listener L_Listener M_Exit S_Exit L_Exit.
Open Scope nat_scope.

Lemma op_dec i o : ~ op_of i o \/ op_of i o.
Proof.
  unfold op_of. destruct o as [nm sv|bs| | | |ok|m f|m ok|m|m r|m|m]; try (left; intros [O|[O|[(f' & O)|(ok' & O)]]]; discriminate); destruct (Nat.eq_dec m i) as [->|X];
    try (left; intros [O|[O|[(f' & O)|(ok' & O)]]]; congruence); right; eauto 6.
Qed.

Lemma wait_stays U o s c k i n q j : lok s -> nth_error (n_conns s) c = Some k -> answering k i n (Some q) (TWait j) ->
  o <> LConn c (Result i) -> (o = LConn c (Expire i) -> (q_timeout q <= 0)%Z) ->
  exists k', nth_error (n_conns (lrun_step U o s)) c = Some k' /\ answering k' i n (Some q) (TWait j).
Proof.
  intros L E A Nr Ne. destruct (conn_moves2 U o s c k E) as (k' & E' & M). exists k'. split; [exact E'|]. destruct M as [->|(o' & -> & M)]; [exact A|]. unfold answering in *.
  assert (G := proj1 (nth_good s c k L E)).
  pose proof (op_dec i o') as D.
  destruct D as [D|D]; [exact (task_same U o' k i _ G A D)|].
  destruct M as [->|[(nm & sv & ->)|(j' & ->)]]; [|destruct D as [O|[O|[(f & O)|(ok & O)]]]; discriminate|destruct D as [O|[O|[(f & O)|(ok & O)]]]; discriminate].
  destruct D as [->|[->|[(f & ->)|(ok & ->)]]]; [congruence| | |]; cbn [srun_step]; rewrite A; cbn [a_pc a_req]; try exact A.
  specialize (Ne eq_refl). destruct (Z.ltb_spec 0 (q_timeout q)); [lia|exact A].
Qed.

(** ** A coroutine whose method has raised StopIteration *)
Record lost (s : xst) (c i n : nat) (q : request) (j : nat) : Prop := {
  lo_l : lok (x_l s);
  lo_raised : raised c j s = Some Lost;
  lo_ended : call_state (x_l s) c j = Some FELL;
  lo_wait : answering_on (x_l s) c i n q (TWait j);
  lo_gone : ~ In (c, i) (x_gone s)
}.
Lemma lost_gets s c i n q j : lost s c i n q j -> gets (LConn c (Result i)) s = Some (c, i, Lost).
Proof. intros [L R F (k & E & A) G]. cbn [gets]. rewrite E. unfold answering in A. rewrite A. cbn [a_pc a_req]. rewrite R. reflexivity. Qed.
Lemma lost_step U o s c i n q j : lost s c i n q j -> (o = XStep (LConn c (Expire i)) -> (q_timeout q <= 0)%Z) -> lost (x_step U o s) c i n q j.
Proof.
  intros Lo Ne. pose proof (lost_gets _ _ _ _ _ _ Lo) as Ge. pose proof Lo as [L R F (k & E & A) G]. destruct o as [o|c0 j0 b]; cbn [x_step].
  - destruct (_ || _); [exact Lo|]. destruct (gets o s) as [((c0, i0), b)|] eqn:Go.
    + assert (O : o = LConn c0 (Result i0)).
      { destruct o as [| |c1 o|]; try discriminate. destruct o; try discriminate. cbn [gets] in Go. destruct (nth_error (n_conns (x_l s)) c1) as [k1|]; [|discriminate]. destruct (nth_error (v_tasks k1) _) as [t|]; [|discriminate].
        destruct (a_pc t); try discriminate. destruct (a_req t); [|discriminate]. destruct (raised c1 _ s); [|discriminate]. cbn in Go. congruence. }
      destruct b; [|destruct (Nat.eq_dec c0 c) as [Ec|Ec]; [destruct (Nat.eq_dec i0 i) as [Ei|Ei]|]|exact Lo].
      * constructor; try assumption. exists k. auto.
      * subst. congruence.
      * constructor; cbn [x_l x_raised x_gone]; try assumption; [exists k; auto|]. intros [[= <- <-]|H]; [congruence|exact (G H)].
      * constructor; cbn [x_l x_raised x_gone]; try assumption; [exists k; auto|]. intros [[= <- <-]|H]; [congruence|exact (G H)].
    + destruct (wait_stays U o (x_l s) c k i n q j L E A) as (k' & E' & A'); [congruence|intros ->; apply Ne; reflexivity|].
      constructor; cbn [x_l x_raised x_gone]; [apply lok_step, L|exact R|apply ended_stays; assumption|exists k'; auto|exact G].
  - destruct (wait_stays U (LConn c0 (JobEnd j0 (Raise OtherError))) (x_l s) c k i n q j L E A) as (k' & E' & A'); [discriminate|discriminate|].
    constructor; cbn [x_l x_gone]; [apply lok_step, L| |apply ended_stays; assumption|exists k'; auto|exact G].
    unfold raised. cbn [x_raised]. set (ru := match nth_error (n_conns (x_l s)) c0 with Some _ => _ | None => _ end). destruct ru eqn:Ru; [|exact R]. unfold ru in Ru. apply running_state in Ru. cbn [find fst].
    destruct (same (c, j) (c0, j0)) eqn:Sm; [|exact R]. apply same_eq in Sm. injection Sm as -> ->. congruence.
Qed.
Lemma lost_from U l : forall s c i n q j, lost s c i n q j -> ((q_timeout q <= 0)%Z \/ ~ In (XStep (LConn c (Expire i))) l) -> lost (fold_left (fun s o => x_step U o s) l s) c i n q j.
Proof.
  induction l as [|o l IH]; intros s c i n q j Lo Ne; [exact Lo|]. cbn [fold_left]. apply IH.
  - apply lost_step; [exact Lo|]. intros ->. destruct Ne as [Ne|Ne]; [exact Ne|]. destruct Ne. left. reflexivity.
  - destruct Ne as [Ne|Ne]; [left; exact Ne|right]. intros H. apply Ne. right. exact H.
Qed.
Lemma lost_raise U reg l c i n q j : awaits (x_l (x_run U reg l)) c i n q j -> lost (x_run U reg (l ++ [XRaise c j Lost])) c i n q j.
Proof.
  intros Aw. destruct (raise_state U reg l c i n q j Lost Aw) as (k & -> & E & A). pose proof (xo_l _ _ _ (xok_run U reg l)) as L. constructor; cbn [x_l x_gone].
  - apply lok_step, L.
  - unfold raised. cbn [x_raised find fst]. rewrite same_refl. reflexivity.
  - apply job_ends; [exact L|apply Aw].
  - exists k. auto.
  - exact (not_gone U reg l c i n q j Aw).
Qed.
Lemma lost_run U reg l1 l2 c i n q j : awaits (x_l (x_run U reg l1)) c i n q j -> ((q_timeout q <= 0)%Z \/ ~ In (XStep (LConn c (Expire i))) l2) ->
  lost (x_run U reg (l1 ++ XRaise c j Lost :: l2)) c i n q j.
Proof. intros Aw Ne. change (XRaise c j Lost :: l2) with ([XRaise c j Lost] ++ l2). rewrite app_assoc, x_run_app. apply lost_from; [apply lost_raise, Aw|exact Ne]. Qed.
Lemma lost_unanswered U reg l1 l2 c i n q j k : awaits (x_l (x_run U reg l1)) c i n q j -> ((q_timeout q <= 0)%Z \/ ~ In (XStep (LConn c (Expire i))) l2) ->
  nth_error (n_conns (x_l (x_run U reg (l1 ++ XRaise c j Lost :: l2)))) c = Some k -> v_closed k = false -> answering k i n (Some q) (TWait j) /\ answers n k = [].
Proof.
  intros Aw Ne Ek Cl. destruct (lost_run U reg l1 l2 c i n q j Aw Ne) as [L _ _ (k' & E & A) _]. assert (k' = k) by congruence. subst k'. split; [exact A|]. exact (unanswered k i n _ _ (proj1 (nth_good _ c k L E)) Cl A Logic.I).
Qed.

(** ** It is given up after the timeout *)
Lemma expire_closed U i k : v_closed (srun_step U (Expire i) k) = v_closed k.
Proof.
  cbn [srun_step]. destruct (nth_error (v_tasks k) i) as [t|]; [|reflexivity]. destruct (a_pc t) as [| |j| | |]; try reflexivity. destruct (a_req t) as [q|]; [|reflexivity]. destruct (_ <? _)%Z; [|reflexivity].
  unfold tfail, tgoto. destruct (nth_error (v_jobs k) j) as [b|]; [destruct (j_state b)|]; destruct (fail_bytes _ _); reflexivity.
Qed.
Lemma loop_step U o s : x_dead s = false -> is_gone o s = false -> gets o s = None ->
  x_step U (XStep o) s = {| x_l := lrun_step U o (x_l s); x_raised := x_raised s; x_gone := x_gone s; x_dead := x_dead s |}.
Proof. intros D G Ge. cbn [x_step]. rewrite D, G, Ge. cbn [andb orb]. reflexivity. Qed.
Lemma free_task o s c i : step_of o c i -> ~ In (c, i) (x_gone s) -> is_gone o s = false.
Proof. intros O G. destruct (is_gone o s) eqn:E; [|reflexivity]. apply is_gone_in in E as (c0 & i0 & O' & H). apply step_runs in O, O'. assert ((c0, i0) = (c, i)) as [= -> ->] by congruence. contradiction. Qed.
Lemma lost_times_out U reg l1 l2 c i n q j k : let l := l1 ++ XRaise c j Lost :: l2 in awaits (x_l (x_run U reg l1)) c i n q j -> (0 < q_timeout q)%Z -> ~ In (XStep (LConn c (Expire i))) l2 ->
  x_dead (x_run U reg l) = false -> nth_error (n_conns (x_l (x_run U reg l))) c = Some k -> v_closed k = false ->
  exists k' bs, nth_error (n_conns (x_l (x_run U reg (l ++ [XStep (LConn c (Expire i)); XStep (LConn c (Drain i true))])))) c = Some k' /\ response bs (q_id q) 2 7 [] /\ answers n k' = [bs].
Proof.
  intros l Aw Ti Ne D Ek Cl. pose proof (lost_run U reg l1 l2 c i n q j Aw (or_intror Ne)) as Lo. fold l in Lo. destruct Lo as [L R F (k0 & E & A) G]. assert (k0 = k) by congruence. subst k0.
  pose proof (proj1 (nth_good _ c k L E)) as Gk. pose proof (unanswered k i n _ _ Gk Cl A Logic.I) as Un.
  destruct (expire_fate U k i n q j Gk Cl (conj A Un) Ti) as (bs & Rb & H). pose proof (expire_closed U i k) as Cl1. rewrite Cl in Cl1. pose proof (good_step U (Expire i) k Gk) as G1.
  rewrite x_run_app. cbn [fold_left]. set (s := x_run U reg l) in *.
  rewrite (loop_step U (LConn c (Expire i)) s D) by (first [reflexivity|apply (free_task _ _ c i); [right; left; reflexivity|exact G]]).
  rewrite (conn_step U c (Expire i) (x_l s) k Logic.I E). set (k1 := srun_step U (Expire i) k) in *. match goal with |- context [x_step U (XStep _) ?s1] => set (s1' := s1) end.
  assert (E1 : nth_error (n_conns (x_l s1')) c = Some k1) by (cbn [s1' x_l n_conns]; exact (nth_upd_same (fun _ => k1) _ _ _ E)).
  rewrite (loop_step U (LConn c (Drain i true)) s1') by (first [exact D|reflexivity|apply (free_task _ _ c i); [right; right; right; eauto|exact G]]). cbn [x_l].
  rewrite (conn_step U c (Drain i true) (x_l s1') k1 Logic.I E1). cbn [n_conns]. exists (srun_step U (Drain i true) k1), bs. split; [exact (nth_upd_same (fun _ => srun_step U (Drain i true) k1) _ _ _ E1)|]. split; [exact Rb|].
  apply (fate_write U k1 i n (Some q) bs G1 Cl1); [left; exact H|]. intros e He. destruct H as (H & _). unfold answering in *. congruence.
Qed.

(** ** Any other exception *)
Lemma result_closed U i k : good k -> v_closed (srun_step U (Result i) k) = v_closed k.
Proof.
  intros ((I & T & J) & _). pose proof (step_eff U (Result i) k I T) as E. remember (srun_step U (Result i) k) as s3 eqn:E3. clear E3. remember (Result i) as o eqn:Eo. destruct E as [o|? ?|?| | |s' E|? s' E|o m s' E O|o s' E O]; try discriminate; auto.
  - apply teff_same in E as (_ & E & _). congruence.
  - apply jeff_same in E as (_ & E & _). congruence.
Qed.
Lemma end_closed U j r k : v_closed (srun_step U (JobEnd j r) k) = v_closed k.
Proof. cbn [srun_step]. destruct (nth_error (v_jobs k) j) as [b|]; [|reflexivity]. destruct (j_state b); reflexivity. Qed.
Lemma exception_answered U reg l c i n q j k e : awaits (x_l (x_run U reg l)) c i n q j -> x_dead (x_run U reg l) = false -> nth_error (n_conns (x_l (x_run U reg l))) c = Some k -> v_closed k = false ->
  exists k' bs, nth_error (n_conns (x_l (x_run U reg (l ++ map XStep [LConn c (JobEnd j (Raise e)); LConn c (Result i); LConn c (Drain i true)])))) c = Some k' /\
    response bs (q_id q) 2 (match e with CancelledError | TimeoutError => 7 | _ => 3 end) [] /\ answers n k' = [bs].
Proof.
  intros Aw D Ek Cl. pose proof (xok_run U reg l) as X. pose proof (xo_l _ _ _ X) as L. pose proof (not_gone U reg l c i n q j Aw) as G. pose proof Aw as ((k0 & E & A) & Ru). assert (k0 = k) by congruence. subst k0.
  assert (Rn : raised c j (x_run U reg l) = None) by (destruct (raised c j (x_run U reg l)) as [b|] eqn:R; [|reflexivity]; apply raised_in, (xo_raised _ _ _ X) in R as (R & _); congruence).
  pose proof (proj1 (nth_good _ c k L E)) as Gk. rewrite x_run_app. cbn [map fold_left]. set (s := x_run U reg l) in *.
  rewrite (loop_step U (LConn c (JobEnd j (Raise e))) s D eq_refl eq_refl). rewrite (conn_step U c (JobEnd j (Raise e)) (x_l s) k Logic.I E). set (k1 := srun_step U (JobEnd j (Raise e)) k) in *.
  match goal with |- context [x_step U (XStep (LConn c (Result i))) ?s1] => set (s1' := s1) end.
  assert (E1 : nth_error (n_conns (x_l s1')) c = Some k1) by (cbn [s1' x_l n_conns]; exact (nth_upd_same (fun _ => k1) _ _ _ E)).
  assert (A1 : answering k1 i n (Some q) (TWait j)) by (apply (task_same U (JobEnd j (Raise e)) k i _ Gk A); intros [O|[O|[(f & O)|(ok & O)]]]; discriminate).
  pose proof (good_step U (JobEnd j (Raise e)) k Gk) as G1. fold k1 in G1. assert (Cl1 : v_closed k1 = false) by (unfold k1; rewrite end_closed; exact Cl).
  assert (J1 : exists b, nth_error (v_jobs k1) j = Some b /\ j_state b = JEnded (Raise e)).
  { rewrite call_jst, Ek in Ru. assert (H : nth_error (jst k1) j = Some (JEnded (Raise e))) by (unfold k1; rewrite jst_end, Ru; exact (nth_upd_same (fun _ => JEnded (Raise e)) _ _ _ Ru)).
    unfold jst in H. rewrite nth_error_map in H. destruct (nth_error (v_jobs k1) j) as [b|]; [|discriminate]. exists b. cbn in H. split; [reflexivity|congruence]. }
  destruct J1 as (b & Nb & Sb). pose proof (unanswered k1 i n _ _ G1 Cl1 A1 Logic.I) as Un. pose proof (waits_result U k1 i n q j b _ G1 Cl1 (conj A1 Un) Nb Sb) as Ld.
  assert (Ge : gets (LConn c (Result i)) s1' = None) by (cbn [gets]; rewrite E1; unfold answering in A1; rewrite A1; cbn [a_pc a_req]; change (raised c j s1') with (raised c j s); rewrite Rn; reflexivity).
  rewrite (loop_step U (LConn c (Result i)) s1' D (free_task _ _ c i (or_introl eq_refl) G) Ge). rewrite (conn_step U c (Result i) (x_l s1') k1 Logic.I E1). set (k2 := srun_step U (Result i) k1) in *.
  match goal with |- context [x_step U (XStep (LConn c (Drain i true))) ?s2] => set (s2' := s2) end.
  assert (E2 : nth_error (n_conns (x_l s2')) c = Some k2) by (cbn [s2' x_l n_conns]; exact (nth_upd_same (fun _ => k2) _ _ _ E1)).
  assert (Cl2 : v_closed k2 = false) by (unfold k2; rewrite (result_closed U i k1 G1); exact Cl1). pose proof (good_step U (Result i) k1 G1) as G2. fold k2 in G2.
  rewrite (loop_step U (LConn c (Drain i true)) s2') by (first [exact D|reflexivity|apply (free_task _ _ c i); [right; right; right; eauto|exact G]]). cbn [x_l]. rewrite (conn_step U c (Drain i true) (x_l s2') k2 Logic.I E2). cbn [n_conns].
  exists (srun_step U (Drain i true) k2). destruct Ld as [(bs & C & F & Nr)|(C & _)]; unfold concluded in C.
  - destruct C as (b0 & Fb & Ep). injection Ep as <-. exists bs. split; [exact (nth_upd_same (fun _ => srun_step U (Drain i true) k2) _ _ _ E2)|]. split; [|exact (fate_write U k2 i n (Some q) bs G2 Cl2 F Nr)].
    pose proof (answering_id _ _ _ _ _ Gk A) as Io. eapply fail_bytes_inv; eassumption.
  - destruct C as (b0 & _ & Ep). discriminate.
Qed.

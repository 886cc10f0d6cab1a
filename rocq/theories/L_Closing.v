(** Lemmas behind C115: the listener closes the connections it stops reading. *)
From Coq Require Import ZifyBool.
From Verif Require Import PyBase L_PyBase PyDict PyInt M_SofaHeader M_Package M_RpcId M_Trace M_AioServer L_AioServer L_AioServer2 L_AioServer3 L_AioServer4 L_AioServer5 L_AioServer6 S_Closing.
From Verif Require L_Rest2.
Import L_Rest2 (rrank, read_unparsed, drain_unparsed, unparsed).
Open Scope nat_scope.

Definition last_open (s : sst) : Prop := v_rd s <> RDied /\ (v_closed s = true -> v_rd s = RLast2 \/ v_rd s = REnd).
Lemma open_keep s s' : v_rd s' = v_rd s -> v_closed s' = v_closed s -> last_open s -> last_open s'.
Proof. intros E1 E2 (A & B). split; rewrite E1, ?E2; assumption. Qed.
Lemma open_step U o s : good s -> o <> DrainR false -> last_open s -> last_open (srun_step U o s).
Proof.
  intros G No L. destruct G as (V & _). pose proof (step_eff U o s (proj1 V) (proj1 (proj2 V))) as E.
  assert (Rd : reading (v_rd s) -> v_closed s <> true) by (intros R C; destruct (proj2 L C) as [K|K]; rewrite K in R; exact R).
  remember (srun_step U o s) as s1 eqn:Es. destruct E as [o|nm sv|bs| | |s' R|ok s' D|o i s' T Q|o s' J Q].
  - exact L.
  - exact (open_keep s _ eq_refl eq_refl L).
  - exact (open_keep s _ eq_refl eq_refl L).
  - exact (open_keep s _ eq_refl eq_refl L).
  - exact (open_keep s _ eq_refl eq_refl L).
  - destruct (rstep_same s _ R) as (_ & Ec & _). destruct R as [|st Rr Ww|n h Hf|n pc Hm Hp|n i s'' Hh Hr Ha].
    + exact L.
    + split; [cbn; discriminate|]. intros C. cbn in C. destruct (Rd Rr C).
    + split; [cbn; discriminate|]. intros C. cbn in C. destruct (proj2 L C) as [K|K]; rewrite K in Hf; discriminate.
    + split; [cbn; intros ->; cbn in Hp; congruence|]. intros C. cbn in C. destruct (proj2 L C) as [K|K]; rewrite K in Hm; destruct (Hm eq_refl).
    + split; [|intros C; rewrite Ec in C; destruct (Rd Hr C)]. destruct Ha; cbn; discriminate.
  - destruct ok; [|destruct (No eq_refl)]. clear D. rewrite Es. cbn [srun_step]. unfold sdrain. destruct (v_rd s) as [|h|h c|h c sofa|bs| |st| | |] eqn:Er; try exact L.
    + unfold swrite. destruct (v_closed s) eqn:Ec; [destruct (proj2 L Ec) as [K|K]; rewrite Er in K; discriminate|]. split; cbn; [discriminate|intros C; congruence].
    + split; cbn; [discriminate|]. intros C. destruct (proj2 L C) as [K|K]; rewrite Er in K; discriminate.
    + split; cbn; [discriminate|auto].
    + split; cbn; [discriminate|auto].
  - destruct (teff_same U s i s' T) as (SS & Ec & _). apply (open_keep s); [apply SS|exact Ec|exact L].
  - destruct (jeff_same s s' J) as (SS & Ec & _). apply (open_keep s); [apply SS|exact Ec|exact L].
Qed.
Lemma open_run U reg tr l : ~ In (DrainR false) l -> last_open (srun U reg tr l).
Proof.
  induction l as [|o l IH] using rev_ind; intros N; [split; cbn; discriminate|]. unfold srun. rewrite fold_left_app. cbn [fold_left]. fold (srun U reg tr l).
  apply open_step; [apply good_run|intros ->; apply N, in_or_app; right; left; reflexivity|]. apply IH. intros H. apply N, in_or_app. auto.
Qed.
(** a reader that has seen the end does not wait *)
Lemma starved_moves s : v_eof s = true \/ v_exn s = true -> 2 < rrank (v_rd s) -> starved s <> s.
Proof.
  intros H L E. assert (K : rrank (v_rd (starved s)) = 2) by (unfold starved; destruct (v_exn s); [reflexivity|]; destruct (v_eof s); [reflexivity|destruct H; discriminate]). rewrite E in K. lia.
Qed.
Lemma rests_ended s : v_eof s = true \/ v_exn s = true -> sread s = s -> sdrain true s = s -> v_rd s = REnd \/ v_rd s = RDied.
Proof.
  intros H R D. unfold sdrain in D.
  assert (Ld : forall s' r, rrank r < rrank (v_rd s) -> set_rd s' r <> s) by (intros s' r Lr E; rewrite <- E in Lr; cbn in Lr; lia).
  assert (Lt : 2 < rrank (v_rd s) -> (exists n, ready n s = true /\ unparsed (sread s) < unparsed s) -> False) by (intros _ (n & _ & Lu); rewrite R in Lu; lia).
  destruct (v_rd s) as [|h|h c|h c sofa|bs| |st| | |] eqn:Er; auto; exfalso.
  - revert R. unfold sread. rewrite Er. change (bolt_header_size BoltRequest) with 22%Z. destruct (ready 22 s) eqn:Rr; [|apply starved_moves; [exact H|rewrite Er; cbn; lia]]. intros E.
    assert (Lu : forall s' r, set_rd s' r = s -> v_buf s' = py_drop 22 (v_buf s) -> False).
    { intros s' r Es Eb. unfold ready in Rr. apply andb_prop in Rr as (_ & Rr). apply Z.leb_le in Rr. pose proof (len_py_drop 22 (v_buf s) ltac:(lia) Rr) as Ldr. rewrite <- Eb in Ldr. apply (f_equal v_buf) in Es. cbn in Es. rewrite Es in Ldr. lia. }
    destruct (bolt_header_from_stream BoltRequest (py_take 22 (v_buf s))); [exact (Lu _ _ E eq_refl)|]. destruct (last_id s); [|exact (Lu _ _ E eq_refl)]. unfold rfail in E. destruct (fail_bytes z ST_CODEC_EXCEPTION); exact (Lu _ _ E eq_refl).
  - revert R. unfold sread. rewrite Er. cbv zeta. destruct (ready _ s); [|apply starved_moves; [exact H|rewrite Er; cbn; lia]]. apply Ld. cbn. lia.
  - revert R. unfold sread. rewrite Er. cbv zeta. destruct (ready _ s); [|apply starved_moves; [exact H|rewrite Er; cbn; lia]].
    destruct (from_bytes _) as [x|e]; [apply Ld; cbn; lia|]. destruct e; unfold rfail; try destruct (fail_bytes _ _); apply Ld; cbn; lia.
  - revert R. unfold sread. rewrite Er. cbv zeta. destruct (ready _ s); [|apply starved_moves; [exact H|rewrite Er; cbn; lia]].
    unfold found. cbv zeta. destruct (int_of f_cmdcode h =? CMDCODE_HEARTBEAT)%Z; [destruct (beat_bytes (int_of f_request_id h)); apply Ld; cbn; lia|].
    destruct (int_of f_cmdcode h =? CMDCODE_RESPONSE)%Z; [unfold rfail; destruct (fail_bytes _ _); apply Ld; cbn; lia|]. destruct (negb (bytes_eqb c SofaRequest_name)); [unfold rfail; destruct (fail_bytes _ _); apply Ld; cbn; lia|apply Ld; cbn; lia].
  - revert D. destruct (swrite (List.length (v_heads s) - 1) bs s) as (s' & w). apply Ld. destruct w; cbn; lia.
  - revert D. apply Ld. cbn. lia.
  - revert D. apply Ld. cbn. lia.
  - revert D. apply Ld. cbn. lia.
Qed.
Lemma listener_closes U reg tr l : ~ In (DrainR false) l -> let s := srun U reg tr l in v_eof s = true \/ v_exn s = true -> handler_rests U s -> hung_up s.
Proof. intros N s H (R & D). destruct (rests_ended s H R (D true)) as [E|E]; [exact E|]. destruct (proj1 (open_run U reg tr l N) E). Qed.

(** the steps of the handler are few *)
Definition togo (s : sst) : nat := List.length (v_buf s) + rrank (v_rd s).
Lemma drain_stream ok s : v_eof (sdrain ok s) = v_eof s /\ v_exn (sdrain ok s) = v_exn s.
Proof.
  unfold sdrain, swrite_eof. assert (Sw : forall n b x, v_eof (fst (swrite n b x)) = v_eof x /\ v_exn (fst (swrite n b x)) = v_exn x) by (intros n b x; unfold swrite; destruct (v_closed x); auto).
      destruct (v_rd s); auto; cbn [set_rd set_out v_eof v_exn].
      - destruct ok; [|auto]. specialize (Sw (List.length (v_heads s) - 1) bs s). destruct (swrite (List.length (v_heads s) - 1) bs s) as (s' & w). exact Sw.
      - destruct ok; [|auto]. destruct (last_id s); [|auto]. destruct (fail_bytes z status); [apply Sw|auto]. 
Qed.
Lemma calm U s o s' : of_handler o = false -> eff U s o s' -> togo s' <= togo s + received [o].
Proof.
  intros Ho E. unfold togo. destruct E as [o|nm sv|bs| | |s' R|ok s' D|o i s' T Q|o s' J Q]; try discriminate Ho; cbn [received set_reg set_stream v_buf v_rd]; rewrite ?app_length; try lia.
  - destruct (teff_same U s i s' T) as (SS & _). destruct SS as (E1 & E2 & E3 & E4 & SS). rewrite ?E1, ?E2, ?E3, ?E4. lia.
  - destruct (jeff_same s s' J) as (SS & _). destruct SS as (E1 & E2 & E3 & E4 & SS). rewrite ?E1, ?E2, ?E3, ?E4. lia.
Qed.
Lemma togo_step U o s : good s -> (of_handler o = true -> srun_step U o s = s \/ togo (srun_step U o s) < togo s) /\ (of_handler o = false -> togo (srun_step U o s) <= togo s + received [o]).
Proof.
  intros G. destruct o as [name sv|bs| | | |ok|i fresh|i ok|j|j r|i|i]; split; intros Ho; try discriminate Ho.
  1-4: unfold togo; cbn; rewrite ?app_length; lia.
  - cbn [srun_step]. destruct (read_unparsed s) as [E|E]; [left; exact E|right]. destruct G as (V & _). pose proof (step_eff U Read s (proj1 V) (proj1 (proj2 V))) as X. cbn [srun_step] in X.
    assert (Es : v_eof (sread s) = v_eof s /\ v_exn (sread s) = v_exn s) by (destruct (rstep_same s _ (proj1 (sread_ok s (proj1 V)))) as (_ & _ & _ & _ & A & B & _); auto). unfold unparsed in E. unfold togo. destruct Es as (E1 & E2). rewrite E1, E2 in E. lia.
  - cbn [srun_step]. destruct (drain_unparsed ok s) as [E|E]; [left; exact E|right]. unfold unparsed in E. unfold togo.
    destruct (drain_stream ok s) as (E1 & E2). rewrite E1, E2 in E. lia.
  - destruct G as (V & _). exact (calm U s (Dispatch i fresh) _ Ho (step_eff U (Dispatch i fresh) s (proj1 V) (proj1 (proj2 V)))).
  - destruct G as (V & _). exact (calm U s (Drain i ok) _ Ho (step_eff U (Drain i ok) s (proj1 V) (proj1 (proj2 V)))).
  - destruct G as (V & _). exact (calm U s (JobRun j) _ Ho (step_eff U (JobRun j) s (proj1 V) (proj1 (proj2 V)))).
  - destruct G as (V & _). exact (calm U s (JobEnd j r) _ Ho (step_eff U (JobEnd j r) s (proj1 V) (proj1 (proj2 V)))).
  - destruct G as (V & _). exact (calm U s (Result i) _ Ho (step_eff U (Result i) s (proj1 V) (proj1 (proj2 V)))).
  - destruct G as (V & _). exact (calm U s (Expire i) _ Ho (step_eff U (Expire i) s (proj1 V) (proj1 (proj2 V)))).
Qed.

Lemma received_cons o l : received (o :: l) = received [o] + received l.
Proof. destruct o; cbn; lia. Qed.
Lemma moves_from U l : forall s n, good s -> moves U s l n -> n <= togo s + received l.
Proof.
  induction l as [|o l IH]; intros s n G M; [cbn in M; lia|]. rewrite received_cons. destruct (togo_step U o s G) as (A & B). pose proof (good_step U o s G) as G'.
  assert (H0 : of_handler o = true -> received [o] = 0) by (destruct o; discriminate || reflexivity).
  destruct M as [([Ho|Eo] & M)|(Ho & Ne & m & -> & M)].
  - specialize (IH _ _ G' M). specialize (B Ho). lia.
  - rewrite Eo in *. specialize (IH _ _ G M). lia.
  - specialize (IH _ _ G' M). rewrite (H0 Ho). destruct (A Ho) as [E|E]; [destruct (Ne E)|lia].
Qed.
Lemma few_moves U reg tr l n : moves U (sinit reg tr) l n -> n <= received l + 3.
Proof. intros M. pose proof (moves_from U l _ n (good_init reg tr) M) as H. unfold togo in H. cbn [sinit v_buf v_rd rrank List.length] in H. lia. Qed.

(** closed for good *)
Lemma up_step U o s : good s -> hung_up s -> v_closed s = true -> hung_up (srun_step U o s) /\ v_closed (srun_step U o s) = true /\ v_out (srun_step U o s) = v_out s.
Proof.
  intros (V & _) H C. pose proof (step_eff U o s (proj1 V) (proj1 (proj2 V))) as E. unfold hung_up in *. remember (srun_step U o s) as s1 eqn:Es. destruct E as [o|nm sv|bs| | |s' R|ok s' D|o i s' T Q|o s' J Q]; auto.
  - destruct R as [|st Rr Ww|n h Hf|n pc Hm Hp|n i s'' Hh Hr Ha]; auto; exfalso; rewrite H in *; discriminate || contradiction.
  - exfalso. destruct D as [bs E|[(bs & E)|E]|E|st fin E|E]; rewrite H in E; discriminate.
  - destruct (teff_same U s i s' T) as (SS & Ec & _). rewrite Ec. split; [rewrite <- H; apply SS|]. split; [exact C|]. destruct T; try reflexivity; try congruence. cbn. apply expire_job_same.
  - destruct (jeff_same s s' J) as (SS & Ec & _ & _ & Eo). rewrite Ec, Eo. split; [rewrite <- H; apply SS|auto].
Qed.
Definition ended_inv (s : sst) : Prop := (v_rd s = RLast2 \/ v_rd s = REnd) -> v_closed s = true.
Lemma ended_step U o s : good s -> ended_inv s -> ended_inv (srun_step U o s).
Proof.
  intros (V & _) I. pose proof (step_eff U o s (proj1 V) (proj1 (proj2 V))) as E. unfold ended_inv in *. remember (srun_step U o s) as s1 eqn:Es. destruct E as [o|nm sv|bs| | |s' R|ok s' D|o i s' T Q|o s' J Q]; auto.
  - destruct R as [|st Rr Ww|n h Hf|n pc Hm Hp|n i s'' Hh Hr Ha]; auto; cbn.
    + intros [?|?]; discriminate.
    + intros [?|?]; discriminate.
    + intros [->| ->]; cbn in Hp; congruence.
    + destruct Ha; cbn; intros [?|?]; discriminate.
  - destruct D as [bs E|E|E|st fin E|E]; cbn; try (intros [?|?]; discriminate); auto.
  - destruct (teff_same U s i s' T) as (SS & Ec & _). rewrite Ec. intros H. apply I. destruct SS as (Er & _). rewrite <- Er. exact H.
  - destruct (jeff_same s s' J) as (SS & Ec & _). rewrite Ec. intros H. apply I. destruct SS as (Er & _). rewrite <- Er. exact H.
Qed.
Lemma ended_run U reg tr l : ended_inv (srun U reg tr l).
Proof.
  induction l as [|o l IH] using rev_ind; [unfold ended_inv; cbn; intros [?|?]; discriminate|]. unfold srun. rewrite fold_left_app. cbn [fold_left]. fold (srun U reg tr l). apply ended_step; [apply good_run|exact IH].
Qed.
Lemma stays_hung_up U reg tr l1 l2 : hung_up (srun U reg tr l1) -> hung_up (srun U reg tr (l1 ++ l2)) /\ v_out (srun U reg tr (l1 ++ l2)) = v_out (srun U reg tr l1).
Proof.
  intros H. pose proof (ended_run U reg tr l1 (or_intror H)) as C. assert (K : hung_up (srun U reg tr (l1 ++ l2)) /\ v_closed (srun U reg tr (l1 ++ l2)) = true /\ v_out (srun U reg tr (l1 ++ l2)) = v_out (srun U reg tr l1)); [|tauto].
  induction l2 as [|o l2 (A & B & D)] using rev_ind; [rewrite app_nil_r; auto|]. rewrite app_assoc. set (x := l1 ++ l2) in *. unfold srun in *. rewrite fold_left_app. cbn [fold_left]. fold (srun U reg tr x) in *. fold (srun U reg tr l1) in *.
  destruct (up_step U o _ (good_run U reg tr x) A B) as (A' & B' & D'). split; [exact A'|]. split; [exact B'|congruence].
Qed.

(** left to itself, the handler gets there *)
Lemma run_pair U reg tr l : srun U reg tr (l ++ [Read; DrainR true]) = sdrain true (sread (srun U reg tr l)).
Proof. unfold srun. rewrite fold_left_app. reflexivity. Qed.
Lemma closes_soon U reg tr l n : ~ In (DrainR false) l -> (let s := srun U reg tr l in v_eof s = true \/ v_exn s = true) -> togo (srun U reg tr l) <= n -> hung_up (srun U reg tr (l ++ concat (repeat [Read; DrainR true] n))).
Proof.
  revert l. induction n as [|n IH]; intros l N H T; cbn zeta in *.
  - cbn. rewrite app_nil_r. unfold togo in T. destruct (v_rd (srun U reg tr l)) eqn:Er; cbn [rrank] in T; try lia; [exact Er|]. destruct (proj1 (open_run U reg tr l N) Er).
  - change (concat (repeat [Read; DrainR true] (S n))) with ([Read; DrainR true] ++ concat (repeat [Read; DrainR true] n)). rewrite app_assoc.
    assert (N' : ~ In (DrainR false) (l ++ [Read; DrainR true])) by (intros K; apply in_app_iff in K as [K|K]; [exact (N K)|cbn in K; intuition discriminate]).
    pose proof (good_run U reg tr l) as G. set (s := srun U reg tr l) in *.
    assert (Er : v_eof (sread s) = v_eof s /\ v_exn (sread s) = v_exn s) by (destruct G as (V & _); destruct (rstep_same s _ (proj1 (sread_ok s (proj1 V)))) as (_ & _ & _ & _ & A & B & _); auto).
    destruct (togo_step U Read s G) as (A & _). specialize (A eq_refl). cbn [srun_step] in A.
    pose proof (good_step U Read s G) as G1. cbn [srun_step] in G1. destruct (togo_step U (DrainR true) (sread s) G1) as (B & _). specialize (B eq_refl). cbn [srun_step] in B.
    assert (Ed : v_eof (sdrain true (sread s)) = v_eof s /\ v_exn (sdrain true (sread s)) = v_exn s).
    { destruct Er as (<- & <-). apply drain_stream. }
    destruct A as [A|A]; [destruct B as [B|B]|].
    + rewrite A in B. assert (Eq : srun U reg tr (l ++ [Read; DrainR true]) = s) by (rewrite run_pair; fold s; rewrite A; exact B).
      assert (Hu : hung_up (srun U reg tr (l ++ [Read; DrainR true]))). { rewrite Eq. destruct (rests_ended s H A B) as [E|E]; [exact E|]. destruct (proj1 (open_run U reg tr l N) E). }
      apply stays_hung_up. exact Hu.
    + apply IH; [exact N'|rewrite run_pair; fold s; destruct Ed as (-> & ->); exact H|]. rewrite run_pair. fold s. rewrite A in B |- *. lia.
    + apply IH; [exact N'|rewrite run_pair; fold s; destruct Ed as (-> & ->); exact H|]. rewrite run_pair. fold s. destruct B as [B|B]; [rewrite B|]; lia.
Qed.
Lemma togo_run U reg tr l : togo (srun U reg tr l) <= received l + 3.
Proof.
  induction l as [|o l IH] using rev_ind; [cbn; lia|]. assert (Ra : received (l ++ [o]) = received l + received [o]) by (clear; induction l as [|x l IHl]; [reflexivity|]; rewrite <- app_comm_cons, (received_cons x (l ++ [o])), (received_cons x l), IHl; lia).
  unfold srun. rewrite fold_left_app. cbn [fold_left]. fold (srun U reg tr l). rewrite Ra. destruct (togo_step U o _ (good_run U reg tr l)) as (A & B). destruct (of_handler o); [destruct (A eq_refl) as [->|A']; lia|]. specialize (B eq_refl). lia.
Qed.
Lemma closes_in_time U reg tr l n : ~ In (DrainR false) l -> (let s := srun U reg tr l in v_eof s = true \/ v_exn s = true) -> received l + 3 <= n -> hung_up (srun U reg tr (l ++ concat (repeat [Read; DrainR true] n))).
Proof. intros N H L. apply closes_soon; [exact N|exact H|]. pose proof (togo_run U reg tr l). lia. Qed.

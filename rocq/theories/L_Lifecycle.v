(** Lemmas behind C97. *)
From Coq Require Import Lia.
From Verif Require Import PyBase PyDict PyInt M_RpcId M_Trace M_AioServer L_AioServer2 M_Listener M_Lifecycle S_Lifecycle.
Open Scope nat_scope.

Lemma kfrom_app s a b : k_from s (a ++ b) = k_from (k_from s a) b.
Proof. apply fold_left_app. Qed.
Lemma runs_app a b : runs (a ++ b) = runs a + runs b.
Proof. unfold runs. rewrite filter_app, app_length. reflexivity. Qed.
Lemma kth_snoc {A} (l : list A) y w x : nth_error (l ++ [y]) w = Some x -> (nth_error l w = Some x) \/ (w = List.length l /\ x = y).
Proof.
  intros H. destruct (Nat.lt_ge_cases w (List.length l)) as [L|L]; [left; rewrite nth_error_app1 in H by exact L; exact H|right].
  rewrite nth_error_app2 in H by exact L. destruct (w - List.length l) as [|k] eqn:E; [|destruct k; discriminate]. injection H as ->. split; [lia|reflexivity].
Qed.
Lemma kth_old {A} (l : list A) y w x : nth_error l w = Some x -> nth_error (l ++ [y]) w = Some x.
Proof. intros H. rewrite nth_error_app1; [exact H|]. apply nth_error_Some. congruence. Qed.

(** ** The threaded listener *)
(** with at most one call of run_forever *)
Record kok (n : nat) (s : kst) : Prop := {
  ko_one : forall r r' p p', nth_error (k_threads s) r = Some (KServe p) -> nth_error (k_threads s) r' = Some (KServe p') -> r = r';
  ko_none : n = 0 -> forall r p, nth_error (k_threads s) r <> Some (KServe p);
  ko_event : k_event s = true -> exists r, run_returned s r;
  ko_unset : forall r, run_returned s r -> k_event s = true;
  ko_asked : shutdown_asked s -> k_request s = true \/ exists r p, nth_error (k_threads s) r = Some (KServe p) /\ (p = REvent \/ p = RReturned);
  ko_stopped : shutdown_returned s -> k_event s = true;
  ko_open : k_open s = true;
  ko_refused : k_refused s = []
}.
Lemma kok_init : kok 0 k_init.
Proof.
  constructor; cbn; try reflexivity; try discriminate.
  - intros [|r]; discriminate.
  - intros _ [|r]; discriminate.
  - intros [|r]; discriminate.
  - intros ([|i] & p & H & _); discriminate.
  - intros ([|i] & H); discriminate.
Qed.

(** a step of a thread of run_forever *)
Lemma kok_serve n s i p req ev w sv p' : kok n s -> nth_error (k_threads s) i = Some (KServe p) ->
  (ev = true <-> p' = RReturned) -> (k_request s = true -> req = true \/ p' = REvent \/ p' = RReturned) -> (p = REvent \/ p = RReturned -> p' = REvent \/ p' = RReturned) ->
  (p = RReturned -> p' = RReturned) -> kok n (k_put req ev w sv i (KServe p') s).
Proof.
  intros [A B C D E F G H] Hi He Hr Hp Hq.
  assert (K : forall r x, nth_error (upd i (fun _ => KServe p') (k_threads s)) r = Some x -> (r = i /\ x = KServe p') \/ (r <> i /\ nth_error (k_threads s) r = Some x)).
  { intros r x Hx. apply nth_upd_inv in Hx as [(<- & y & _ & ->)|(Ne & Hx)]; auto. }
  constructor; cbn [k_put k_threads k_event k_request k_open k_refused]; auto.
  - intros r r' q q' H1 H2. apply K in H1 as [(-> & _)|(N1 & H1)]; apply K in H2 as [(-> & _)|(N2 & H2)]; [reflexivity|exact (A _ _ _ _ Hi H2)|exact (A _ _ _ _ H1 Hi)|exact (A _ _ _ _ H1 H2)].
  - intros Hn r q. destruct (B Hn i p Hi).
  - intros Ev. apply He in Ev as ->. exists i. unfold run_returned. cbn. exact (nth_upd_same _ _ _ _ Hi).
  - intros r Hr'. unfold run_returned in Hr'. cbn in Hr'. apply K in Hr' as [(-> & [= <-])|(N & Hr')]; [apply He; reflexivity|]. destruct (N (A _ _ _ _ Hr' Hi)).
  - intros (j & q & Hj & Nq). apply K in Hj as [(_ & ?)|(N & Hj)]; [discriminate|]. cbn [k_put k_threads].
    destruct E as [Rq|(r & q' & Hr' & O)]; [exists j, q; auto| |].
    + destruct (Hr Rq) as [R|R]; [left; exact R|right]. exists i, p'. split; [exact (nth_upd_same _ _ _ _ Hi)|exact R].
    + assert (r = i) by exact (A _ _ _ _ Hr' Hi). subst r. right. exists i, p'. split; [exact (nth_upd_same _ _ _ _ Hi)|]. apply Hp. assert (q' = p) by congruence. subst q'. exact O.
  - intros (j & Hj). cbn [k_put k_threads] in Hj. apply K in Hj as [(_ & ?)|(N & Hj)]; [discriminate|]. apply He. apply Hq. destruct C as (r & Hr'); [apply F; exists j; exact Hj|]. unfold run_returned in Hr'. assert (r = i) by exact (A _ _ _ _ Hr' Hi). subst r. congruence.
Qed.
(** a step of a thread of shutdown *)
Lemma kok_stop n s i p req p' : kok n s -> nth_error (k_threads s) i = Some (KStop p) -> (k_request s = true -> req = true) ->
  (p = HSet -> p' <> HSet -> req = true) -> (p' = HReturned -> k_event s = true) -> kok n (k_put req (k_event s) (k_waiting s) (k_served s) i (KStop p') s).
Proof.
  intros [A B C D E F G H] Hi Hr Hp Hq.
  assert (K : forall r x, nth_error (upd i (fun _ => KStop p') (k_threads s)) r = Some x -> (r = i /\ x = KStop p') \/ (r <> i /\ nth_error (k_threads s) r = Some x)).
  { intros r x Hx. apply nth_upd_inv in Hx as [(<- & y & _ & ->)|(Ne & Hx)]; auto. }
  assert (K' : forall r q, nth_error (k_threads s) r = Some (KServe q) -> nth_error (upd i (fun _ => KStop p') (k_threads s)) r = Some (KServe q)).
  { intros r q Hx. rewrite nth_upd_other; [exact Hx|]. intros ->. congruence. }
  constructor; cbn [k_put k_threads k_event k_request k_open k_refused]; auto.
  - intros r r' q q' H1 H2. apply K in H1 as [(_ & ?)|(N1 & H1)]; [discriminate|]. apply K in H2 as [(_ & ?)|(N2 & H2)]; [discriminate|]. exact (A _ _ _ _ H1 H2).
  - intros Hn r q Hx. apply K in Hx as [(_ & ?)|(_ & Hx)]; [discriminate|]. exact (B Hn _ _ Hx).
  - intros Ev. destruct (C Ev) as (r & Hr'). exists r. apply K'. exact Hr'.
  - intros r Hr'. unfold run_returned in Hr'. cbn in Hr'. apply K in Hr' as [(_ & ?)|(_ & Hr')]; [discriminate|]. exact (D r Hr').
  - intros (j & q & Hj & Nq). cbn [k_put k_threads] in *.
    assert (Q : shutdown_asked s -> req = true \/ exists r p0, nth_error (upd i (fun _ => KStop p') (k_threads s)) r = Some (KServe p0) /\ (p0 = REvent \/ p0 = RReturned)).
    { intros S. destruct (E S) as [R|(r & q' & Hr' & O)]; [left; exact (Hr R)|right; exists r, q'; auto]. }
    apply K in Hj as [(-> & [= ->])|(_ & Hj)]; [|apply Q; exists j, q; auto]. destruct p; [left; apply Hp; auto| |]; apply Q; exists i; eexists; split; try exact Hi; discriminate.
  - intros (j & Hj). cbn [k_put k_threads] in Hj. apply K in Hj as [(_ & [= <-])|(_ & Hj)]; [auto|]. apply F. exists j. exact Hj.
Qed.
Lemma kok_step n o s : kok n s -> n + runs [o] <= 1 -> kok (n + runs [o]) (k_step o s).
Proof.
  intros O Hn. destruct o as [| | |i]; cbn [k_step].
  - cbn in *. assert (n = 0) by lia. subst n. destruct O as [A B C D E F G H].
    constructor; cbn [k_thread k_threads k_event k_request k_open k_refused]; auto.
    + intros r r' p p' H1 H2. apply kth_snoc in H1 as [H1|(-> & _)]; [destruct (B eq_refl _ _ H1)|]. apply kth_snoc in H2 as [H2|(-> & _)]; [destruct (B eq_refl _ _ H2)|reflexivity].
    + intros; lia.
    + intros Ev. destruct (C Ev) as (r & Hr). destruct (B eq_refl _ _ Hr).
    + intros r Hr. unfold run_returned in Hr. cbn in Hr. apply kth_snoc in Hr as [Hr|(_ & Hr)]; [exact (D r Hr)|discriminate].
    + intros (j & q & Hj & Nq). cbn [k_thread k_threads] in *. apply kth_snoc in Hj as [Hj|(_ & ?)]; [|discriminate]. destruct E as [R|(r & q' & Hr' & O)]; [exists j, q; auto|left; exact R|destruct (B eq_refl _ _ Hr')].
    + intros (j & Hj). cbn [k_thread k_threads] in Hj. apply kth_snoc in Hj as [Hj|(_ & ?)]; [|discriminate]. apply F. exists j. exact Hj.
  - replace (n + runs [KShutdown]) with n by (cbn; lia). destruct O as [A B C D E F G H].
    assert (K : forall r p, nth_error (k_threads s ++ [KStop HSet]) r = Some (KServe p) -> nth_error (k_threads s) r = Some (KServe p)) by (intros r p Hr; apply kth_snoc in Hr as [Hr|(_ & Hr)]; [exact Hr|discriminate]).
    constructor; cbn [k_thread k_threads k_event k_request k_open k_refused]; auto.
    + intros r r' p p' H1 H2. exact (A _ _ _ _ (K _ _ H1) (K _ _ H2)).
    + intros N r p Hr. exact (B N _ _ (K _ _ Hr)).
    + intros Ev. destruct (C Ev) as (r & Hr). exists r. apply kth_old. exact Hr.
    + intros r Hr. exact (D r (K _ _ Hr)).
    + intros (j & q & Hj & Nq). cbn [k_thread k_threads] in *. apply kth_snoc in Hj as [Hj|(_ & [= ->])]; [|destruct (Nq eq_refl)]. destruct E as [R|(r & q' & Hr' & O)]; [exists j, q; auto|left; exact R|right; exists r, q'; split; [apply kth_old; exact Hr'|exact O]].
    + intros (j & Hj). cbn [k_thread k_threads] in Hj. apply kth_snoc in Hj as [Hj|(_ & ?)]; [|discriminate]. apply F. exists j. exact Hj.
  - replace (n + runs [KConnect]) with n by (cbn; lia). destruct O as [A B C D E F G H]. rewrite G. constructor; auto.
  - replace (n + runs [KGo i]) with n by (cbn; lia). destruct (nth_error (k_threads s) i) as [[p|p]|] eqn:Hi; [| |exact O].
    + assert (Ev : p <> RReturned -> k_event s = false).
      { intros N. destruct (k_event s) eqn:E; [|reflexivity]. destruct (ko_event _ _ O E) as (r & Hr). unfold run_returned in Hr. assert (r = i) by exact (ko_one _ _ O _ _ _ _ Hr Hi). subst r. congruence. }
      destruct p as [| | |ready| | | |]; try exact O; unfold k_goto; try rewrite (Ev ltac:(discriminate)).
      * apply (kok_serve n s i RClear); auto; [split; discriminate|intros [?|?]; discriminate|discriminate].
      * apply (kok_serve n s i RWhile); auto; [split; [discriminate|destruct (k_request s); discriminate]|intros [?|?]; discriminate|discriminate].
      * apply (kok_serve n s i RSelect); auto; [split; discriminate|intros [?|?]; discriminate|discriminate].
      * apply (kok_serve n s i (RBreak ready)); auto; [split; [discriminate|destruct (k_request s); [discriminate|destruct ready; discriminate]]|intros [?|?]; discriminate|discriminate].
      * destruct (k_waiting s); apply (kok_serve n s i RHandle); auto; try (split; discriminate); try (intros [?|?]; discriminate); discriminate.
      * apply (kok_serve n s i RReset); auto; [split; discriminate|discriminate].
      * apply (kok_serve n s i REvent); auto. split; reflexivity.
    + destruct p as [| |]; [| |exact O].
      * apply (kok_stop n s i HSet); auto. discriminate.
      * destruct (k_event s) eqn:E; [|exact O]. unfold k_goto. apply (kok_stop n s i HWait); auto. discriminate.
Qed.
Lemma kok_run l : runs l <= 1 -> kok (runs l) (k_run l).
Proof.
  induction l as [|o l IH] using rev_ind; intros H; [exact kok_init|]. rewrite runs_app in *. unfold k_run. rewrite kfrom_app. apply kok_step; [apply IH; lia|exact H].
Qed.

(** once a call of shutdown has returned *)
Lemma stopped_step n o s : kok n s -> n <= 1 -> shutdown_returned s -> runs [o] = 0 ->
  shutdown_returned (k_step o s) /\ k_served (k_step o s) = k_served s /\ (forall c, In c (k_waiting s) -> In c (k_waiting (k_step o s))).
Proof.
  intros O Hn S H. destruct o as [| | |i]; cbn [k_step]; [discriminate| | |].
  - split; [|auto]. destruct S as (j & Hj). exists j. apply kth_old. exact Hj.
  - rewrite (ko_open _ _ O). split; [exact S|]. split; [reflexivity|]. intros c Hc. cbn. apply in_or_app. auto.
  - destruct (ko_event _ _ O (ko_stopped _ _ O S)) as (r & Hr). unfold run_returned in Hr.
    destruct (nth_error (k_threads s) i) as [[p|p]|] eqn:Hi; [| |auto].
    + assert (r = i) by exact (ko_one _ _ O _ _ _ _ Hr Hi). subst r. rewrite Hi in Hr. injection Hr as ->. auto.
    + destruct S as (j & Hj). destruct p; [| |split; [exists j; exact Hj|auto]].
      * split; [|auto]. exists j. cbn. rewrite nth_upd_other; [exact Hj|]. intros ->. congruence.
      * destruct (k_event s); [|split; [exists j; exact Hj|auto]]. split; [|auto]. exists j. cbn. rewrite nth_upd_other; [exact Hj|]. intros ->. congruence.
Qed.
Lemma stopped_from l : forall n s, kok n s -> n <= 1 -> shutdown_returned s -> runs l = 0 ->
  shutdown_returned (k_from s l) /\ kok n (k_from s l) /\ k_served (k_from s l) = k_served s /\ (forall c, In c (k_waiting s) -> In c (k_waiting (k_from s l))).
Proof.
  induction l as [|o l IH]; intros n s O Hn S H; [auto|]. change (k_from s (o :: l)) with (k_from (k_step o s) l). assert (H1 : runs [o] = 0 /\ runs l = 0) by (change (o :: l) with ([o] ++ l) in H; rewrite runs_app in H; lia). destruct H1 as (H1 & H2).
  destruct (stopped_step n o s O Hn S H1) as (S' & A & B). assert (O' : kok n (k_step o s)) by (rewrite <- (Nat.add_0_r n), <- H1; apply kok_step; [exact O|lia]).
  destruct (IH n _ O' Hn S' H2) as (A1 & A2 & A3 & A4). split; [exact A1|]. split; [exact A2|]. split; [congruence|auto].
Qed.
Lemma threaded_stops l1 l2 : runs l1 <= 1 -> runs l2 = 0 -> let s := k_run l1 in shutdown_returned s ->
  k_served (k_from s l2) = k_served s /\ (exists r, run_returned s r) /\ (forall r, server_thread s r -> run_returned s r).
Proof.
  intros H1 H2 s S. pose proof (kok_run l1 H1) as O. fold s in O. destruct (stopped_from l2 _ s O H1 S H2) as (_ & _ & A & _). split; [exact A|].
  destruct (ko_event _ _ O (ko_stopped _ _ O S)) as (r & Hr). split; [exists r; exact Hr|]. intros r' (p & Hp). assert (r = r') by exact (ko_one _ _ O _ _ _ _ Hr Hp). subst r'. exact Hr.
Qed.
Lemma threaded_unserved l1 l2 : runs l1 <= 1 -> runs l2 = 0 -> let s := k_run l1 in shutdown_returned s ->
  In (k_next s) (k_waiting (k_from (k_step KConnect s) l2)) /\ k_refused (k_from (k_step KConnect s) l2) = [] /\ k_served (k_from (k_step KConnect s) l2) = k_served s.
Proof.
  intros H1 H2 s S. pose proof (kok_run l1 H1) as O. fold s in O. destruct (stopped_step _ KConnect s O H1 S eq_refl) as (S' & A & _).
  assert (O' : kok (runs l1) (k_step KConnect s)) by (rewrite <- (Nat.add_0_r (runs l1)); apply (kok_step (runs l1) KConnect); [exact O|cbn; lia]).
  destruct (stopped_from l2 _ _ O' H1 S' H2) as (_ & O'' & B & C). split; [apply C; cbn [k_step]; rewrite (ko_open _ _ O); cbn; apply in_or_app; right; left; reflexivity|]. split; [exact (ko_refused _ _ O'')|congruence].
Qed.
Lemma threaded_not_started l : runs l = 0 -> ~ shutdown_returned (k_run l).
Proof.
  intros H S. assert (O : kok 0 (k_run l)) by (rewrite <- H; apply kok_run; lia). destruct (ko_event _ _ O (ko_stopped _ _ O S)) as (r & Hr). exact (ko_none _ _ O eq_refl _ _ Hr).
Qed.

(** what is left to do for run_forever once it was asked to stop *)
Definition left (p : rpc) : nat := match p with RClear => 5 | RWhile => 3 | RSelect => 4 | RBreak _ => 3 | RHandle => 4 | RReset => 2 | REvent => 1 | RReturned => 0 end.
Definition going (r : nat) (p : rpc) (s : kst) : Prop := nth_error (k_threads s) r = Some (KServe p) /\ (k_request s = true \/ p = REvent \/ p = RReturned).
Lemma going_step n o r p s : kok n s -> going r p s -> exists p', going r p' (k_step o s) /\ left p' + turns r [o] <= Nat.max (left p) (turns r [o]).
Proof.
  intros O (Hr & Hq). destruct o as [| | |i]; cbn [k_step].
  - exists p. split; [split; [apply kth_old; exact Hr|exact Hq]|cbn; lia].
  - exists p. split; [split; [apply kth_old; exact Hr|exact Hq]|cbn; lia].
  - rewrite (ko_open _ _ O). exists p. split; [split; [exact Hr|exact Hq]|cbn; lia].
  - unfold turns. cbn [filter]. destruct (Nat.eqb_spec i r) as [->|Ne].
    + rewrite Hr. cbn [List.length]. assert (U : forall q, nth_error (upd r (fun _ => KServe q) (k_threads s)) r = Some (KServe q)) by (intros q; exact (nth_upd_same _ _ _ _ Hr)).
      destruct p as [| | |ready| | | |]; try (destruct Hq as [Hq|[Hq|Hq]]; [|discriminate|discriminate]); try rewrite Hq.
      * exists RWhile. split; [split; [apply U|left; cbn; first [reflexivity|exact Hq]]|cbn; lia].
      * exists RReset. split; [split; [apply U|left; cbn; first [reflexivity|exact Hq]]|cbn; lia].
      * eexists (RBreak _). split; [split; [apply U|left; cbn; first [reflexivity|exact Hq]]|cbn; lia].
      * exists RReset. split; [split; [apply U|left; cbn; first [reflexivity|exact Hq]]|cbn; lia].
      * exists RWhile. split; [|cbn; lia]. destruct (k_waiting s); (split; [apply U|left; cbn; first [reflexivity|exact Hq]]).
      * exists REvent. split; [split; [apply U|right; left; reflexivity]|cbn; lia].
      * exists RReturned. split; [split; [apply U|right; right; reflexivity]|cbn; lia].
      * exists RReturned. split; [split; [exact Hr|exact Hq]|cbn; lia].
    + exists p. split; [|cbn; lia]. destruct (nth_error (k_threads s) i) as [[q|q]|] eqn:Hi; [destruct (Ne (ko_one _ _ O _ _ _ _ Hi Hr))| |split; assumption].
      destruct q; [split; [cbn; rewrite nth_upd_other by exact Ne; exact Hr|left; reflexivity]| |split; assumption].
      destruct (k_event s); [|split; assumption]. split; [cbn; rewrite nth_upd_other by exact Ne; exact Hr|exact Hq].
Qed.
Lemma going_from l : forall n r p s, kok n s -> n + runs l <= 1 -> going r p s -> exists p', going r p' (k_from s l) /\ left p' + turns r l <= Nat.max (left p) (turns r l).
Proof.
  induction l as [|o l IH]; intros n r p s O Hn G; [exists p; split; [exact G|cbn; lia]|]. change (k_from s (o :: l)) with (k_from (k_step o s) l).
  change (o :: l) with ([o] ++ l) in *. rewrite runs_app in Hn. destruct (going_step n o r p s O G) as (p1 & G1 & L1). assert (O1 : kok (n + runs [o]) (k_step o s)) by (apply kok_step; [exact O|lia]).
  destruct (IH _ r p1 _ O1 ltac:(lia) G1) as (p2 & G2 & L2). exists p2. split; [exact G2|]. unfold turns in *. rewrite filter_app, app_length. lia.
Qed.
Lemma threaded_ends l1 l2 r : runs (l1 ++ l2) <= 1 -> let s := k_run l1 in server_thread s r -> shutdown_asked s -> 5 <= turns r l2 ->
  run_returned (k_from s l2) r /\ forall i, nth_error (k_threads (k_from s l2)) i = Some (KStop HWait) -> nth_error (k_threads (k_step (KGo i) (k_from s l2))) i = Some (KStop HReturned).
Proof.
  intros H s (p & Hp) A T. rewrite runs_app in H. assert (O : kok (runs l1) s) by (apply kok_run; lia).
  assert (G : going r p s). { split; [exact Hp|]. destruct (ko_asked _ _ O A) as [R|(r' & q & Hr' & Q)]; [left; exact R|right]. assert (r' = r) by exact (ko_one _ _ O _ _ _ _ Hr' Hp). subst r'. assert (q = p) by congruence. subst q. exact Q. }
  destruct (going_from l2 _ r p s O H G) as (p' & (G' & _) & L). assert (left p <= 5) by (destruct p; cbn; lia). assert (left p' = 0) by lia. assert (p' = RReturned) by (destruct p'; cbn in *; try lia; reflexivity). subst p'.
  split; [exact G'|]. intros i Hi. assert (O' : kok (runs (l1 ++ l2)) (k_run (l1 ++ l2))) by (apply kok_run; rewrite runs_app; exact H). unfold k_run in O'. rewrite kfrom_app in O'.
  cbn [k_step]. rewrite Hi. fold (k_run l1) in O'. fold s in O'. rewrite (ko_unset _ _ O' r G'). cbn. exact (nth_upd_same _ _ _ _ Hi).
Qed.

(** without shutdown, every connection is served *)
Definition idle (s : kst) : Prop := k_request s = false /\ forall i p, nth_error (k_threads s) i = Some (KStop p) -> False.
Definition early (p : rpc) : option nat := match p with RClear => Some 5 | RWhile => Some 4 | RSelect => Some 3 | RBreak true => Some 2 | RBreak false => Some 5 | RHandle => Some 1 | _ => None end.
Lemma idle_step n o r p k s a b : kok n s -> idle s -> shutdowns [o] = 0 -> n + runs [o] <= 1 -> nth_error (k_threads s) r = Some (KServe p) -> early p = Some k -> k_waiting s = a ++ b -> (a <> [] -> p = RBreak false -> k <= 5) ->
  idle (k_step o s) /\ exists p' k', nth_error (k_threads (k_step o s)) r = Some (KServe p') /\ early p' = Some k' /\
    exists a' b', k_waiting (k_step o s) = a' ++ b' /\ (forall c, In c a \/ In c (k_served s) -> In c a' \/ In c (k_served (k_step o s))) /\ (a = [] -> a' = []) /\
    (a' <> [] -> 4 * List.length a' + k' + turns r [o] <= 4 * List.length a + k).
Proof.
  intros O (I1 & I2) Hs Hn Hr He Hw _. destruct o as [| | |i]; cbn [k_step]; [| discriminate | |].
  - exfalso. cbn in Hn. assert (n = 0) by lia. exact (ko_none _ _ O H _ _ Hr).
  - rewrite (ko_open _ _ O). split; [split; [exact I1|exact I2]|]. exists p, k. split; [exact Hr|]. split; [exact He|]. exists a, (b ++ [k_next s]). cbn [k_waiting k_served]. rewrite Hw, app_assoc. split; [reflexivity|]. split; [auto|]. split; [auto|]. cbn. lia.
  - unfold turns. cbn [filter]. destruct (Nat.eqb_spec i r) as [->|Ne].
    + rewrite Hr. assert (U : forall q, nth_error (upd r (fun _ => KServe q) (k_threads s)) r = Some (KServe q)) by (intros q; exact (nth_upd_same _ _ _ _ Hr)).
      assert (Id : forall ev w sv q, idle (k_put false ev w sv r (KServe q) s)).
      { intros ev w sv q. split; [reflexivity|]. intros j x Hx. cbn in Hx. apply nth_upd_inv in Hx as [(_ & y & _ & ?)|(_ & Hx)]; [discriminate|exact (I2 j x Hx)]. }
      assert (Mv : forall ev q k', early q = Some k' -> (a <> [] -> k' + 1 <= k) -> idle (k_put false ev (k_waiting s) (k_served s) r (KServe q) s) /\
        exists p' k'0, nth_error (k_threads (k_put false ev (k_waiting s) (k_served s) r (KServe q) s)) r = Some (KServe p') /\ early p' = Some k'0 /\ exists a' b', k_waiting (k_put false ev (k_waiting s) (k_served s) r (KServe q) s) = a' ++ b' /\
        (forall c, In c a \/ In c (k_served s) -> In c a' \/ In c (k_served (k_put false ev (k_waiting s) (k_served s) r (KServe q) s))) /\ (a = [] -> a' = []) /\ (a' <> [] -> 4 * List.length a' + k'0 + 1 <= 4 * List.length a + k)).
      { intros ev q k' Eq Lk. split; [apply Id|]. exists q, k'. split; [apply U|]. split; [exact Eq|]. exists a, b. split; [exact Hw|]. split; [auto|]. split; [auto|]. intros Na. specialize (Lk Na). lia. }
      cbn [List.length]. unfold k_goto. rewrite I1. destruct p as [| | |ready| | | |]; try discriminate He; cbn [early] in He.
      * injection He as <-. apply (Mv false RWhile 4); [reflexivity|lia].
      * injection He as <-. apply (Mv (k_event s) RSelect 3); [reflexivity|lia].
      * injection He as <-. destruct (k_waiting s) as [|c w] eqn:Ew.
        -- apply (Mv (k_event s) (RBreak false) 5); [reflexivity|]. intros Na. destruct a; [destruct (Na eq_refl)|discriminate].
        -- apply (Mv (k_event s) (RBreak true) 2); [reflexivity|lia].
      * destruct ready; injection He as <-; [apply (Mv (k_event s) RHandle 1); [reflexivity|lia]|apply (Mv (k_event s) RWhile 4); [reflexivity|lia]].
      * injection He as <-. destruct (k_waiting s) as [|c w] eqn:Ew.
        -- apply (Mv (k_event s) RWhile 4); [reflexivity|]. intros Na. destruct a; [destruct (Na eq_refl)|discriminate].
        -- split; [apply Id|]. exists RWhile, 4. split; [apply U|]. split; [reflexivity|]. cbn [k_put k_waiting k_served]. destruct a as [|x a].
           ++ exists [], w. split; [reflexivity|]. split; [intros c0 [[]|H]; right; apply in_or_app; auto|]. split; [auto|]. intros N; destruct (N eq_refl).
           ++ injection Hw as <- Hw. exists a, b. split; [exact Hw|]. split; [|split; [discriminate|cbn [List.length]; lia]].
              intros c0 [[<-|H]|H]; [right; apply in_or_app; right; left; reflexivity|left; exact H|right; apply in_or_app; auto].
    + cbn [List.length]. destruct (nth_error (k_threads s) i) as [[q|q]|] eqn:Hi; [destruct (Ne (ko_one _ _ O _ _ _ _ Hi Hr))|destruct (I2 _ _ Hi)|].
      split; [split; assumption|]. exists p, k. split; [exact Hr|]. split; [exact He|]. exists a, b. split; [exact Hw|]. split; [auto|]. split; [auto|lia].
Qed.
Lemma idle_from l : forall n r p k s a b, kok n s -> idle s -> shutdowns l = 0 -> n + runs l <= 1 -> nth_error (k_threads s) r = Some (KServe p) -> early p = Some k -> k_waiting s = a ++ b ->
  4 * List.length a + k <= turns r l -> forall c, In c a \/ In c (k_served s) -> In c (k_served (k_from s l)).
Proof.
  induction l as [|o l IH]; intros n r p k s a b O I Hs Hn Hr He Hw T c Hc.
  - cbn in T. destruct p as [| | |[]| | | |]; cbn in He; injection He as <- || discriminate He; lia.
  - change (k_from s (o :: l)) with (k_from (k_step o s) l). change (o :: l) with ([o] ++ l) in *. rewrite runs_app in Hn. unfold shutdowns in Hs. rewrite filter_app, app_length in Hs. fold (shutdowns [o]) in Hs. fold (shutdowns l) in Hs.
    unfold turns in T. rewrite filter_app, app_length in T. fold (turns r [o]) in T. fold (turns r l) in T.
    destruct (idle_step n o r p k s a b O I ltac:(lia) ltac:(lia) Hr He Hw ltac:(intros _ ->; injection He as <-; lia)) as (I' & p' & k' & Hr' & He' & a' & b' & Hw' & Hin & Hnil & Hlt).
    assert (O' : kok (n + runs [o]) (k_step o s)) by (apply kok_step; [exact O|lia]).
    destruct a' as [|x a'].
    + (* everything is served already *)
      assert (Sv : In c (k_served (k_step o s))) by (destruct (Hin c Hc) as [[]|H]; exact H).
      clear - Sv. revert Sv. generalize (k_step o s). induction l as [|o' l IH]; intros s0 Sv; [exact Sv|]. apply IH. destruct o' as [| | |i]; cbn [k_step]; [exact Sv|exact Sv|destruct (k_open s0); exact Sv|].
      destruct (nth_error (k_threads s0) i) as [[q|q]|]; [| |exact Sv]; destruct q; try exact Sv; [destruct (k_waiting s0); [exact Sv|cbn; apply in_or_app; left; exact Sv]|destruct (k_event s0); exact Sv].
    + apply (IH (n + runs [o]) r p' k' _ (x :: a') b' O' I'); auto; [lia|lia|]. specialize (Hlt ltac:(discriminate)). lia.
Qed.
Lemma idle_run l : shutdowns l = 0 -> runs l <= 1 -> idle (k_run l) /\ forall r p, nth_error (k_threads (k_run l)) r = Some (KServe p) -> early p <> None.
Proof.
  induction l as [|o l IH] using rev_ind; intros Hs Hn.
  - split; [split; [reflexivity|intros [|i]; discriminate]|intros [|r]; discriminate].
  - rewrite runs_app in Hn. unfold shutdowns in Hs. rewrite filter_app, app_length in Hs. fold (shutdowns l) in Hs. fold (shutdowns [o]) in Hs. destruct IH as (I & E); [lia|lia|]. assert (O : kok (runs l) (k_run l)) by (apply kok_run; lia).
    unfold k_run. rewrite kfrom_app. fold (k_run l). cbn [k_from fold_left]. destruct o as [| | |i]; [| cbn in Hs; lia | |].
    + destruct I as (I1 & I2). split; [split; [exact I1|]|].
      * intros i p H. apply kth_snoc in H as [H|(_ & ?)]; [exact (I2 i p H)|discriminate].
      * intros r p H. apply kth_snoc in H as [H|(_ & [= ->])]; [exact (E r p H)|discriminate].
    + cbn [k_step]. rewrite (ko_open _ _ O). destruct I as (I1 & I2). split; [split; [exact I1|exact I2]|exact E].
    + destruct (nth_error (k_threads (k_run l)) i) as [[q|q]|] eqn:Hi; [|destruct (proj2 I _ _ Hi)|cbn [k_step]; rewrite Hi; auto].
      destruct (early q) as [k|] eqn:Eq; [|destruct (E _ _ Hi Eq)].
      destruct (idle_step (runs l) (KGo i) i q k (k_run l) [] (k_waiting (k_run l)) O I ltac:(reflexivity) ltac:(cbn in *; lia) Hi Eq eq_refl ltac:(congruence)) as (I' & p' & k' & Hr' & He' & _).
      split; [exact I'|]. intros r p Hr. assert (O' : kok (runs l) (k_step (KGo i) (k_run l))) by (rewrite <- (Nat.add_0_r (runs l)); apply (kok_step (runs l) (KGo i)); [exact O|cbn; lia]).
      assert (r = i) by exact (ko_one _ _ O' _ _ _ _ Hr Hr'). subst r. congruence.
Qed.
Lemma threaded_serves l1 l2 r : runs (l1 ++ l2) <= 1 -> shutdowns (l1 ++ l2) = 0 -> let s := k_run l1 in server_thread s r -> 4 * List.length (k_waiting s) + 5 <= turns r l2 ->
  forall c, In c (k_waiting s) -> In c (k_served (k_from s l2)).
Proof.
  intros Hn Hs s (p & Hp) T c Hc. rewrite runs_app in Hn. unfold shutdowns in Hs. rewrite filter_app, app_length in Hs. fold (shutdowns l1) in Hs. fold (shutdowns l2) in Hs. destruct (idle_run l1) as (I & E); [lia|lia|]. destruct (early p) as [k|] eqn:Ep; [|destruct (E r p Hp Ep)].
  assert (k <= 5) by (destruct p as [| | |[]| | | |]; cbn in Ep; injection Ep as <- || discriminate Ep; lia).
  apply (idle_from l2 (runs l1) r p k s (k_waiting s) []); auto; [apply kok_run; lia|lia|symmetry; apply app_nil_r|lia].
Qed.

(** ** The asyncio listener *)
Lemma gfrom_app U s a b : g_from U s (a ++ b) = g_from U (g_from U s a) b.
Proof. apply fold_left_app. Qed.
Record gok (s : gst) : Prop := {
  go_stop : g_stop s = false;
  go_server : g_server s = true -> g_pc s = GRunning;
  go_running : g_pc s = GRunning -> g_server s = true;
  go_pc : g_pc s <> GReturned;
  go_found : forall i p, nth_error (g_stops s) i = Some p -> (p = AClose \/ p = ASchedule \/ p = AReturned true) -> g_server s = true;
  go_closed : forall i p, nth_error (g_stops s) i = Some p -> (p = ASchedule \/ p = AReturned true) -> g_open s = false;
  go_waiting : g_open s = false -> g_waiting s = 0
}.
Lemma gok_init reg : gok (g_init reg).
Proof. constructor; cbn; try reflexivity; try discriminate; intros [|i]; discriminate. Qed.
Lemma gok_same s s' : gok s -> g_stop s' = g_stop s -> g_server s' = g_server s -> g_pc s' = g_pc s -> g_open s' = g_open s -> g_stops s' = g_stops s -> (g_open s' = false -> g_waiting s' = 0) -> gok s'.
Proof. intros [A B C D E F G] H1 H2 H3 H4 H5 H6. constructor; rewrite ?H1, ?H2, ?H3, ?H4, ?H5; auto. rewrite <- H4. exact H6. Qed.
Lemma gok_step U o s : gok s -> gok (g_step U o s).
Proof.
  intros O. pose proof O as [A B C D E F G]. destruct o as [bound| |i| |o]; cbn [g_step].
  - assert (Ns : g_pc s <> GRunning -> forall i p, nth_error (g_stops s) i = Some p -> ~ (p = ASchedule \/ p = AReturned true)).
    { intros Np i p Hi Hp. apply Np, B, (E i p Hi). tauto. }
    assert (Nv : g_pc s <> GRunning -> g_server s = false) by (intros Np; destruct (g_server s); [destruct (Np (B eq_refl))|reflexivity]).
    destruct (g_pc s) eqn:Ep; cbn [g_set]; try exact O.
    + constructor; cbn; auto; try discriminate. intros Sv. rewrite Nv in Sv; discriminate.
    + destruct bound; constructor; cbn; auto; try discriminate; try (intros Sv; rewrite Nv in Sv; discriminate). intros i p Hi Hp. destruct (Ns ltac:(discriminate) i p Hi Hp).
    + constructor; cbn; auto; discriminate.
    + rewrite A. exact O.
    + constructor; cbn; auto; try discriminate. intros Sv. rewrite Nv in Sv; discriminate.
  - constructor; cbn; auto.
    + intros i p Hi Hp. apply kth_snoc in Hi as [Hi|(_ & ->)]; [exact (E i p Hi Hp)|]. destruct Hp as [?|[?|?]]; discriminate.
    + intros i p Hi Hp. apply kth_snoc in Hi as [Hi|(_ & ->)]; [exact (F i p Hi Hp)|]. destruct Hp as [?|?]; discriminate.
  - destruct (nth_error (g_stops s) i) as [q|] eqn:Hi; [|exact O].
    assert (K : forall p' j p, nth_error (upd i (fun _ => p') (g_stops s)) j = Some p -> (j = i /\ p = p') \/ nth_error (g_stops s) j = Some p) by (intros p' j p Hj; apply nth_upd_inv in Hj as [(<- & y & _ & ->)|(_ & Hj)]; auto).
    destruct q as [| | |found]; [| | |exact O].
    + constructor; cbn; auto.
      * intros j p Hj Hp. apply K in Hj as [(_ & ->)|Hj]; [|exact (E j p Hj Hp)]. destruct (g_server s); [reflexivity|]. destruct Hp as [?|[?|?]]; discriminate.
      * intros j p Hj Hp. apply K in Hj as [(_ & ->)|Hj]; [|exact (F j p Hj Hp)]. destruct (g_server s); destruct Hp as [?|?]; discriminate.
    + constructor; cbn; auto. intros j p Hj Hp. apply K in Hj as [(_ & ->)|Hj]; [|exact (E j p Hj Hp)]. apply (E i AClose Hi). auto.
    + constructor; cbn; auto.
      * intros j p Hj Hp. apply K in Hj as [(_ & ->)|Hj]; [|exact (E j p Hj Hp)]. apply (E i ASchedule Hi). auto.
      * intros j p Hj Hp. apply K in Hj as [(_ & ->)|Hj]; [|exact (F j p Hj Hp)]. apply (F i ASchedule Hi). auto.
  - destruct (g_open s) eqn:Eo; apply (gok_same s); auto; cbn; rewrite Eo; auto; discriminate.
  - assert (W : gok (g_listener (g_waiting s) (lrun_step U o (g_lst s)) s)) by (apply (gok_same s); auto).
    destruct o as [tr|name sv|c o|]; auto.
    + destruct (looping s); [|exact O]. destruct (g_open s) eqn:Eo; [|exact O]. cbn [andb]. destruct (g_waiting s); [exact O|]. apply (gok_same s); auto. cbn. rewrite Eo. discriminate.
    + destruct o; auto; destruct (looping s); auto.
Qed.
Lemma gok_from U l : forall s, gok s -> gok (g_from U s l).
Proof. induction l as [|o l IH]; intros s O; [exact O|]. apply IH, gok_step, O. Qed.
Lemma gok_run U reg l : gok (g_run U reg l).
Proof. apply gok_from, gok_init. Qed.
Lemma running_step U o s : gok s -> g_pc s = GRunning -> g_pc (g_step U o s) = GRunning.
Proof.
  intros O Hp. destruct o as [bound| |i| |o]; cbn [g_step].
  - rewrite Hp, (go_stop _ O). exact Hp.
  - exact Hp.
  - destruct (nth_error (g_stops s) i) as [[| | |]|]; exact Hp.
  - destruct (g_open s); exact Hp.
  - destruct o as [tr|name sv|c o|]; try exact Hp; [destruct (looping s && g_open s); [destruct (g_waiting s); exact Hp|exact Hp]|]. destruct o; try exact Hp; destruct (looping s); exact Hp.
Qed.
Lemma running_from U l : forall s, gok s -> g_pc s = GRunning -> g_pc (g_from U s l) = GRunning.
Proof. induction l as [|o l IH]; intros s O H; [exact H|]. apply IH; [apply gok_step; exact O|apply running_step; assumption]. Qed.
Lemma asyncio_runs_on U reg l1 l2 : g_pc (g_run U reg l1) <> GReturned /\ (g_pc (g_run U reg l1) = GRunning -> g_pc (g_run U reg (l1 ++ l2)) = GRunning).
Proof. split; [exact (go_pc _ (gok_run U reg l1))|]. intros H. unfold g_run. rewrite gfrom_app. apply running_from; [apply gok_run|exact H]. Qed.
Lemma lrun_conns U o s : (forall tr, o <> LAccept tr) -> List.length (n_conns (lrun_step U o s)) = List.length (n_conns s).
Proof.
  intros H. destruct o as [tr|name sv|c o|]; cbn [lrun_step].
  - destruct (H tr eq_refl).
  - cbn. apply map_length.
  - destruct o; try reflexivity; destruct (nth_error (n_conns s) c); try reflexivity; cbn; apply length_upd.
  - destruct (Nat.ltb (workers s) MAX_WORKER); [|reflexivity]. destruct (n_queue s) as [|(c, j) q]; [reflexivity|]. cbn. apply length_upd.
Qed.
Lemma closed_step U o s : gok s -> closed_by_shutdown s -> closed_by_shutdown (g_step U o s) /\ accepted (g_step U o s) = accepted s /\ g_refused (g_step U o s) = g_refused s + connects [o].
Proof.
  intros O (i & Hi). assert (Eo : g_open s = false) by (apply (go_closed _ O i _ Hi); auto). assert (Ew := go_waiting _ O Eo).
  assert (Ep : g_pc s = GRunning) by (apply (go_server _ O), (go_found _ O i _ Hi); auto).
  assert (Same : forall s', g_stops s' = g_stops s -> accepted s' = accepted s -> g_refused s' = g_refused s -> closed_by_shutdown s' /\ accepted s' = accepted s /\ g_refused s' = g_refused s + 0).
  { intros s' A B C. split; [exists i; rewrite A; exact Hi|]. split; [exact B|rewrite C; lia]. }
  destruct o as [bound| |j| |o]; cbn [g_step]; unfold connects; cbn [filter List.length].
  - rewrite Ep, (go_stop _ O). apply Same; reflexivity.
  - split; [exists i; apply kth_old; exact Hi|]. split; [reflexivity|]. cbn. lia.
  - destruct (nth_error (g_stops s) j) as [q|] eqn:Hj; [|apply Same; reflexivity].
    assert (K : forall p, q <> AReturned true -> nth_error (upd j (fun _ => p) (g_stops s)) i = Some (AReturned true)) by (intros p Nq; rewrite nth_upd_other; [exact Hi|intros ->; congruence]).
    destruct q as [| | |found]; [| | |apply Same; reflexivity].
    + split; [exists i; apply K; discriminate|]. split; [reflexivity|cbn; lia].
    + split; [exists i; apply K; discriminate|]. split; [reflexivity|cbn; lia].
    + split; [exists i; apply K; discriminate|]. split; [reflexivity|cbn; lia].
  - rewrite Eo. split; [exists i; exact Hi|]. split; [reflexivity|cbn; lia].
  - destruct o as [tr|name sv|c o|].
    + rewrite Eo, andb_false_r. apply Same; reflexivity.
    + apply Same; try reflexivity. apply lrun_conns. discriminate.
    + assert (L : List.length (n_conns (lrun_step U (LConn c o) (g_lst s))) = List.length (n_conns (g_lst s))) by (apply lrun_conns; discriminate). destruct o; try (apply Same; [reflexivity|exact L|reflexivity]); destruct (looping s); apply Same; try reflexivity; exact L.
    + apply Same; try reflexivity. apply lrun_conns. discriminate.
Qed.
Lemma asyncio_stops U reg l1 l2 : let s := g_run U reg l1 in closed_by_shutdown s -> accepted (g_from U s l2) = accepted s /\ g_refused (g_from U s l2) = g_refused s + connects l2.
Proof.
  intros s C. assert (O : gok s) by apply gok_run. revert O C. generalize s. clear s. induction l2 as [|o l2 IH]; intros s O C; [split; [reflexivity|cbn; lia]|].
  destruct (closed_step U o s O C) as (C' & A & B). destruct (IH _ (gok_step U o s O) C') as (A' & B'). change (g_from U s (o :: l2)) with (g_from U (g_step U o s) l2).
  split; [congruence|]. rewrite B', B. change (o :: l2) with ([o] ++ l2). unfold connects. rewrite filter_app, app_length. lia.
Qed.
Lemma asyncio_goes_on U reg l1 : let s := g_run U reg l1 in g_pc s = GRunning -> forall l2, (forall tr, ~ In (LAccept tr) l2) ->
  g_lst (g_from U s (map GList l2)) = fold_left (fun x o => lrun_step U o x) l2 (g_lst s).
Proof.
  intros s Hp l2. assert (O : gok s) by apply gok_run. revert O Hp. generalize s. clear s. induction l2 as [|o l2 IH]; intros s O Hp Na; [reflexivity|]. change (g_from U s (map GList (o :: l2))) with (g_from U (g_step U (GList o) s) (map GList l2)).
  rewrite IH; [|apply gok_step; exact O|apply running_step; assumption|intros tr H; exact (Na tr (or_intror H))]. cbn [fold_left]. f_equal. assert (Lp : looping s = true) by (unfold looping; rewrite Hp; reflexivity).
  destruct o as [tr|name sv|c o|]; [destruct (Na tr (or_introl eq_refl))|reflexivity| |reflexivity]. cbn [g_step]. rewrite Lp. destruct o; reflexivity.
Qed.
(** a shutdown that comes too early returns and changes nothing *)
Lemma asyncio_lost U reg l1 tr : let s := g_run U reg l1 in let i := List.length (g_stops s) in g_server s = false ->
  let s1 := g_from U s [GShutdown; GGo i] in
  nth_error (g_stops s1) i = Some (AReturned false) /\ g_pc s1 = g_pc s /\ g_open s1 = g_open s /\ g_lst s1 = g_lst s /\
  (g_pc s = GStarting -> accepted (g_from U s1 [GRun true; GRun true; GConnect; GList (LAccept tr)]) = S (accepted s)).
Proof.
  intros s i Hs s1. assert (E : nth_error (g_stops s ++ [AFind]) i = Some AFind) by (unfold i; rewrite nth_error_app2, Nat.sub_diag by lia; reflexivity).
  assert (E1 : s1 = {| g_pc := g_pc s; g_server := g_server s; g_open := g_open s; g_stop := g_stop s; g_waiting := g_waiting s; g_refused := g_refused s; g_stops := upd i (fun _ => AReturned false) (g_stops s ++ [AFind]); g_lst := g_lst s |}).
  { unfold s1, g_from. cbn [fold_left g_step g_stops]. rewrite E. unfold g_goto. cbn. rewrite Hs. reflexivity. }
  rewrite E1. cbn [g_stops g_pc g_open g_lst]. split; [exact (nth_upd_same _ _ _ _ E)|]. split; [reflexivity|]. split; [reflexivity|]. split; [reflexivity|].
  intros Hp. unfold g_from. cbn [fold_left g_step g_pc]. rewrite Hp. cbn [g_set g_pc g_step]. cbn [g_open g_set]. cbn. unfold accepted. cbn. rewrite app_length. cbn. lia.
Qed.
(** what happens on the connections is a history of M_Listener *)
Lemma asyncio_listener U reg l : exists h, g_lst (g_run U reg l) = lrun U reg h.
Proof.
  induction l as [|o l (h & IH)] using rev_ind; [exists []; reflexivity|]. unfold g_run. rewrite gfrom_app. fold (g_run U reg l). cbn [g_from fold_left].
  assert (S0 : forall s', g_lst s' = g_lst (g_run U reg l) -> exists h0, g_lst s' = lrun U reg h0) by (intros s' E; exists h; congruence).
  assert (S1 : forall w o, exists h0, g_lst (g_listener w (lrun_step U o (g_lst (g_run U reg l))) (g_run U reg l)) = lrun U reg h0).
  { intros w o'. exists (h ++ [o']). unfold lrun. rewrite fold_left_app. cbn. unfold lrun in IH. rewrite IH. reflexivity. }
  destruct o as [bound| |i| |o]; cbn [g_step].
  - destruct (g_pc (g_run U reg l)); try (destruct bound); try (destruct (g_stop (g_run U reg l))); apply S0; reflexivity.
  - apply S0; reflexivity.
  - destruct (nth_error (g_stops (g_run U reg l)) i) as [[| | |]|]; apply S0; reflexivity.
  - destruct (g_open (g_run U reg l)); apply S0; reflexivity.
  - destruct o as [tr|name sv|c o|]; try apply S1.
    + destruct (looping (g_run U reg l) && g_open (g_run U reg l)); [|apply S0; reflexivity]. destruct (g_waiting (g_run U reg l)); [apply S0; reflexivity|apply S1].
    + destruct o; try apply S1; destruct (looping (g_run U reg l)); try apply S1; apply S0; reflexivity.
Qed.

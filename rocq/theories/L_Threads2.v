(** Lemmas about MeshClient.startup called by several threads (M_Threads). *)
From Coq Require Import Strings.String ZifyBool.
From Verif Require Import PyBase L_PyBase PyDict L_PyDict PyInt M_RpcId M_Mesh S_Mesh L_Mesh M_AioServer L_AioServer2 M_Threads S_Threads.
From Verif Require L_Rest1 L_Rest2.
Import L_Rest1 (total).
Import L_Rest2 (total_upd).
Open Scope nat_scope.

Definition inside (p : spc) : bool := match p with SCheck | SPost | SMark | SLeave _ => true | _ => false end.
Definition app_post (info : appinfo) : post := (EP_app, appinfo_doc info).
Definition done_once (ans : nat -> answer) (lg : list post) : Prop := exists n doc, posted lg n EP_app doc /\ accepted (ans n).
Definition failed (ans : nat -> answer) (lg : list post) (e : exn) : Prop := exists n doc, posted lg n EP_app doc /\ post_result (ans n) = Raise e.
Definition told (ans : nat -> answer) (lg : list post) (r : res bool) : Prop := match r with Ok b => b = true /\ done_once ans lg | Raise e => failed ans lg e end.
Definition pc_ok (ans : nat -> answer) (st : bool) (lg : list post) (p : spc) : Prop :=
  match p with
  | SPost => st = false /\ ~ done_once ans lg
  | SCheck => st = false -> ~ done_once ans lg
  | SMark => st = false /\ done_once ans lg
  | SLeave r => told ans lg r /\ (st = false -> ~ done_once ans lg)
  | SDone r => told ans lg r
  | OCall ep _ => ep <> EP_app
  | SCall | ODone _ => True
  end.
Record uok (ans : nat -> answer) (info : appinfo) (s : sstate) : Prop := {
  uk_lock : forall i p, nth_error (ss_threads s) i = Some p -> inside p = true -> ss_lock s = Some i;
  uk_held : forall i, ss_lock s = Some i -> exists p, nth_error (ss_threads s) i = Some p /\ inside p = true;
  uk_pc : forall i p, nth_error (ss_threads s) i = Some p -> pc_ok ans (ss_started s) (ss_log s) p;
  uk_started : ss_started s = true -> done_once ans (ss_log s);
  uk_free : ss_lock s = None -> ss_started s = false -> ~ done_once ans (ss_log s);
  uk_last : forall n doc n' doc', posted (ss_log s) n EP_app doc -> accepted (ans n) -> posted (ss_log s) n' EP_app doc' -> n' <= n;
  uk_doc : forall n doc, posted (ss_log s) n EP_app doc -> doc = appinfo_doc info
}.
Lemma posted_app lg x n ep doc : posted (lg ++ [x]) n ep doc <-> posted lg n ep doc \/ (n = List.length lg /\ x = (ep, doc)).
Proof.
  unfold posted. split.
  - intros H. destruct (Nat.lt_ge_cases n (List.length lg)) as [L|L]; [rewrite nth_error_app1 in H by exact L; auto|]. rewrite nth_error_app2 in H by exact L. destruct (n - List.length lg) as [|m] eqn:E; [|destruct m; discriminate]. cbn in H. right. split; [lia|congruence].
  - intros [H|(-> & ->)]; [rewrite nth_error_app1 by (apply nth_error_Some; congruence); exact H|]. rewrite nth_error_app2, Nat.sub_diag by lia. reflexivity.
Qed.
Lemma done_other ans lg x : fst x <> EP_app -> done_once ans (lg ++ [x]) <-> done_once ans lg.
Proof. intros N. split; intros (n & doc & P & A). - apply posted_app in P as [P|(_ & ->)]; [exists n, doc; auto|destruct (N eq_refl)]. - exists n, doc. split; [apply posted_app; auto|exact A]. Qed.
Lemma done_app ans lg x : done_once ans lg -> done_once ans (lg ++ [x]).
Proof. intros (n & doc & P & A). exists n, doc. split; [apply posted_app; auto|exact A]. Qed.
Lemma failed_app ans lg x e : failed ans lg e -> failed ans (lg ++ [x]) e.
Proof. intros (n & doc & P & A). exists n, doc. split; [apply posted_app; auto|exact A]. Qed.
Lemma told_app ans lg x r : told ans lg r -> told ans (lg ++ [x]) r.
Proof. destruct r; cbn; [intros (H & K); split; [exact H|apply done_app; exact K]|apply failed_app]. Qed.

(** a step of thread i that changes its own place only, or the lock *)
Lemma uok_move ans info s i p p' lk st : uok ans info s -> nth_error (ss_threads s) i = Some p ->
  lk = (if inside p' then Some i else if inside p then None else ss_lock s) -> (inside p' = true -> inside p = true \/ ss_lock s = None) ->
  (st = ss_started s \/ p = SMark /\ st = true) -> pc_ok ans st (ss_log s) p' -> (inside p' = false -> st = false -> inside p = true -> ~ done_once ans (ss_log s)) ->
  uok ans info {| ss_lock := lk; ss_started := st; ss_log := ss_log s; ss_threads := upd i (fun _ => p') (ss_threads s) |}.
Proof.
  intros K Hi -> Hlk Hst Hpc Hfree. pose proof (uk_lock _ _ _ K i p Hi) as Li.
  assert (Uniq : forall j q, j <> i -> nth_error (ss_threads s) j = Some q -> inside q = true -> inside p = true \/ inside p' = true -> False).
  { intros j q N Hj Iq H. pose proof (uk_lock _ _ _ K j q Hj Iq) as Lj. destruct H as [H|H]; [rewrite (Li H) in Lj; congruence|]. destruct (Hlk H) as [H1|H1]; [rewrite (Li H1) in Lj; congruence|congruence]. }
  constructor; cbn [ss_lock ss_started ss_log ss_threads].
  - intros j q Hj Iq. apply nth_upd_inv in Hj as [(<- & x & _ & ->)|(N & Hj)]; [rewrite Iq; reflexivity|]. destruct (inside p') eqn:E1; [exfalso; eauto|]. destruct (inside p) eqn:E2; [exfalso; eauto|]. exact (uk_lock _ _ _ K j q Hj Iq).
  - intros j Hj. destruct (inside p') eqn:E1; [injection Hj as <-; exists p'; rewrite (nth_upd_same _ _ _ _ Hi); auto|]. destruct (inside p) eqn:E2; [discriminate|]. destruct (uk_held _ _ _ K j Hj) as (q & Hq & Iq).
    exists q. split; [|exact Iq]. rewrite nth_upd_other; [exact Hq|]. intros <-. congruence.
  - intros j q Hj. apply nth_upd_inv in Hj as [(<- & x & _ & ->)|(N & Hj)]; [exact Hpc|]. pose proof (uk_pc _ _ _ K j q Hj) as P. destruct Hst as [->|(-> & ->)]; [exact P|].
    destruct q; cbn in *; try exact P; try discriminate; try (exfalso; apply (Uniq j _ (not_eq_sym N) Hj eq_refl); left; reflexivity).
  - intros E. destruct Hst as [->|(-> & ->)]; [exact (uk_started _ _ _ K E)|]. exact (proj2 (uk_pc _ _ _ K i SMark Hi)).
  - intros E1 E2. destruct (inside p') eqn:I1; [discriminate|]. destruct (inside p) eqn:I2; [apply Hfree; auto|]. apply (uk_free _ _ _ K E1). destruct Hst as [->|(-> & ->)]; [exact E2|discriminate].
  - exact (uk_last _ _ _ K).
  - exact (uk_doc _ _ _ K).
Qed.
Lemma uok_step ans info i s : uok ans info s -> uok ans info (up_step ans info i s).
Proof.
  intros K. unfold up_step. destruct (nth_error (ss_threads s) i) as [p|] eqn:Hi; [|exact K]. pose proof (uk_pc _ _ _ K i p Hi) as P. destruct p as [| | | |r|r|ep doc|r]; try exact K.
  - destruct (ss_lock s) eqn:El; [exact K|]. apply (uok_move ans info s i SCall SCheck); auto; try discriminate. cbn. exact (uk_free _ _ _ K El).
  - pose proof (uk_lock _ _ _ K i SCheck Hi eq_refl) as Li. destruct (ss_started s) eqn:Es.
    + apply (uok_move ans info s i SCheck (SLeave (Ok true))); auto; try discriminate. cbn. split; [split; [reflexivity|apply (uk_started _ _ _ K Es)]|discriminate].
    + apply (uok_move ans info s i SCheck SPost); auto; try discriminate. cbn in *. auto.
  - pose proof (uk_lock _ _ _ K i SPost Hi eq_refl) as Li. destruct P as (Es & Nd). unfold do_post. cbn [fst snd].
    set (p' := match post_result (ans (List.length (ss_log s))) with Ok _ => SMark | Raise e => SLeave (Raise e) end). fold (app_post info). set (lg := ss_log s ++ [app_post info]).
    assert (In' : inside p' = true) by (unfold p'; destruct (post_result _); reflexivity).
    assert (Here : posted lg (List.length (ss_log s)) EP_app (appinfo_doc info)) by (apply posted_app; right; auto).
    assert (Uniq : forall j q, j <> i -> nth_error (ss_threads s) j = Some q -> inside q = false).
    { intros j q N Hj. destruct (inside q) eqn:Iq; [|reflexivity]. pose proof (uk_lock _ _ _ K j q Hj Iq). congruence. }
    constructor; cbn [ss_lock ss_started ss_log ss_threads].
    + intros j q Hj Iq. apply nth_upd_inv in Hj as [(<- & x & _ & ->)|(N & Hj)]; [exact Li|]. rewrite (Uniq j q (not_eq_sym N) Hj) in Iq. discriminate.
    + intros j Hj. rewrite Li in Hj. injection Hj as <-. exists p'. rewrite (nth_upd_same _ _ _ _ Hi). auto.
    + intros j q Hj. apply nth_upd_inv in Hj as [(<- & x & _ & ->)|(N & Hj)].
      * unfold p'. destruct (post_result (ans (List.length (ss_log s)))) as [d|e] eqn:Er; cbn.
        -- split; [exact Es|]. exists (List.length (ss_log s)), (appinfo_doc info). split; [exact Here|]. apply post_result_accepted. eauto.
        -- split; [exists (List.length (ss_log s)), (appinfo_doc info); auto|]. intros _ (n & doc & Hp & Ha). apply posted_app in Hp as [Hp|(-> & _)]; [apply Nd; exists n, doc; auto|]. apply post_result_accepted in Ha as (d & Ha). congruence.
      * pose proof (uk_pc _ _ _ K j q Hj) as Q. pose proof (Uniq j q (not_eq_sym N) Hj) as Iq. destruct q; try discriminate; cbn in *; auto. apply told_app. exact Q.
    + congruence.
    + congruence.
    + intros n doc n' doc' Hn Ha Hn'. apply posted_app in Hn as [Hn|(-> & _)]; [destruct Nd; exists n, doc; auto|]. apply posted_app in Hn' as [Hn'|(-> & _)]; [|lia]. unfold posted in Hn'. assert (X : nth_error (ss_log s) n' <> None) by congruence. apply nth_error_Some in X. lia.
    + intros n doc Hn. apply posted_app in Hn as [Hn|(_ & Hn)]; [exact (uk_doc _ _ _ K n doc Hn)|]. unfold app_post in Hn. congruence.
  - pose proof (uk_lock _ _ _ K i SMark Hi eq_refl) as Li. apply (uok_move ans info s i SMark (SLeave (Ok true))); auto; try discriminate. cbn in *. split; [split; [reflexivity|tauto]|discriminate].
  - pose proof (uk_lock _ _ _ K i (SLeave r) Hi eq_refl) as Li. apply (uok_move ans info s i (SLeave r) (SDone r)); auto; try discriminate; cbn in *; tauto.
  - unfold do_post. cbn [fst snd]. cbn in P. constructor; cbn [ss_lock ss_started ss_log ss_threads].
    + intros j q Hj Iq. apply nth_upd_inv in Hj as [(<- & x & _ & ->)|(N & Hj)]; [discriminate|]. exact (uk_lock _ _ _ K j q Hj Iq).
    + intros j Hj. destruct (uk_held _ _ _ K j Hj) as (q & Hq & Iq). exists q. split; [|exact Iq]. rewrite nth_upd_other; [exact Hq|]. intros <-. rewrite Hi in Hq. injection Hq as <-. discriminate.
    + intros j q Hj. apply nth_upd_inv in Hj as [(<- & x & _ & ->)|(N & Hj)]; [exact I|]. pose proof (uk_pc _ _ _ K j q Hj) as Q. destruct q; cbn in *; rewrite ?done_other by exact P; auto; [destruct Q; split; [apply told_app|]; assumption|apply told_app; exact Q].
    + intros E. apply done_other; [exact P|]. exact (uk_started _ _ _ K E).
    + intros E1 E2. rewrite done_other by exact P. exact (uk_free _ _ _ K E1 E2).
    + intros n d n' d' Hn Ha Hn'. apply posted_app in Hn as [Hn|(_ & Hn)]; [|injection Hn; intros; subst; destruct (P eq_refl)]. apply posted_app in Hn' as [Hn'|(_ & Hn')]; [|injection Hn'; intros; subst; destruct (P eq_refl)]. exact (uk_last _ _ _ K _ _ _ _ Hn Ha Hn').
    + intros n d Hn. apply posted_app in Hn as [Hn|(_ & Hn)]; [exact (uk_doc _ _ _ K n d Hn)|injection Hn; intros; subst; destruct (P eq_refl)].
Qed.
Lemma uok_init ans info calls : mesh_calls calls -> uok ans info (up_init calls).
Proof.
  intros M. assert (Nd : ~ done_once ans []) by (intros (n & d & H & _); destruct n; discriminate).
  assert (F : forall i p, nth_error calls i = Some p -> p = SCall \/ exists ep doc, p = OCall ep doc /\ ep <> EP_app) by (intros i p H; exact (proj1 (Forall_forall _ _) M p (nth_error_In _ _ H))).
  constructor; cbn; auto; try discriminate.
  - intros i p H Ip. destruct (F i p H) as [->|(ep & doc & -> & _)]; discriminate.
  - intros i p H. destruct (F i p H) as [->|(ep & doc & -> & N)]; [exact I|exact N].
  - intros n d n' d' H. destruct n; discriminate.
  - intros n d H. destruct n; discriminate.
Qed.
Definition ufrom ans info (s : sstate) (l : list nat) : sstate := fold_left (fun s i => up_step ans info i s) l s.
Lemma uok_from ans info l : forall s, uok ans info s -> uok ans info (ufrom ans info s l).
Proof. induction l as [|i l IH]; intros s K; [exact K|]. apply IH, uok_step, K. Qed.
Lemma uok_run ans info calls l : mesh_calls calls -> uok ans info (up_run ans info calls l).
Proof. intros M. apply (uok_from ans info l), uok_init, M. Qed.

Lemma up_once ans info calls l n doc n' doc' : mesh_calls calls -> let s := up_run ans info calls l in
  posted (ss_log s) n (str "configs/application") doc -> doc = appinfo_doc info /\ (accepted (ans n) -> posted (ss_log s) n' (str "configs/application") doc' -> n' <= n).
Proof. intros M s H. pose proof (uok_run ans info calls l M) as K. split; [exact (uk_doc _ _ _ K n doc H)|]. intros A H'. exact (uk_last _ _ _ K _ _ _ _ H A H'). Qed.
Lemma up_result ans info calls l i r : mesh_calls calls -> let s := up_run ans info calls l in nth_error (ss_threads s) i = Some (SDone r) ->
  (r = Ok true /\ exists n doc, posted (ss_log s) n (str "configs/application") doc /\ accepted (ans n)) \/
  exists e n doc, r = Raise e /\ posted (ss_log s) n (str "configs/application") doc /\ post_result (ans n) = Raise e.
Proof.
  intros M s H. pose proof (uk_pc _ _ _ (uok_run ans info calls l M) i _ H) as P. cbn in P. fold s in P. destruct r as [b|e]; cbn in P.
  - destruct P as (-> & P). left. split; [reflexivity|]. exact P.
  - right. destruct P as (n & doc & P1 & P2). exists e, n, doc. auto.
Qed.

(** ** It ends *)
Definition rank (p : spc) : nat := match p with SCall => 5 | SCheck => 4 | SPost => 3 | SMark => 2 | SLeave _ => 1 | OCall _ _ => 1 | SDone _ | ODone _ => 0 end.
Definition work (s : sstate) : nat := total rank (ss_threads s).
Lemma up_lower ans info i s : up_step ans info i s = s \/ work (up_step ans info i s) < work s.
Proof.
  unfold up_step. destruct (nth_error (ss_threads s) i) as [p|] eqn:Hi; [|left; reflexivity].
  assert (G : forall lk st lg p', rank p' < rank p -> work {| ss_lock := lk; ss_started := st; ss_log := lg; ss_threads := upd i (fun _ => p') (ss_threads s) |} < work s).
  { intros lk st lg p' H. unfold work. cbn [ss_threads]. pose proof (total_upd rank (fun _ => p') (ss_threads s) i p Hi) as T. cbn beta in T. lia. }
  destruct p as [| | | |r|r|ep doc|r]; try (left; reflexivity); try (right; apply G; cbn; lia).
  - destruct (ss_lock s); [left; reflexivity|right; apply G; cbn; lia].
  - right. apply G. destruct (ss_started s); cbn; lia.
  - right. unfold do_post. cbn [fst snd]. apply G. destruct (post_result _); cbn; lia.
Qed.
Lemma up_effective ans info l : forall s n, effective ans info s l n -> n <= work s.
Proof.
  induction l as [|i l IH]; intros s n H; cbn in H; [lia|]. destruct H as [(_ & H)|(N & m & -> & H)]; [apply IH; exact H|]. apply IH in H. destruct (up_lower ans info i s) as [E|E]; [contradiction|lia].
Qed.
Lemma work_init calls : mesh_calls calls -> work (up_init calls) <= 5 * List.length calls.
Proof. unfold work. cbn [up_init ss_threads]. unfold total, list_sum. induction 1 as [|p l H _ IH]; cbn; [lia|]. destruct H as [->|(ep & doc & -> & _)]; cbn; lia. Qed.
Lemma up_bounded ans info calls l n : mesh_calls calls -> effective ans info (up_init calls) l n -> n <= 5 * List.length calls.
Proof. intros M H. apply up_effective in H. pose proof (work_init calls M). lia. Qed.
Lemma up_enabled ans info s i p : uok ans info s -> nth_error (ss_threads s) i = Some p -> ~ finished p -> exists j, work (up_step ans info j s) < work s.
Proof.
  intros K Hi Nf. assert (En : forall j q, nth_error (ss_threads s) j = Some q -> (q <> SCall \/ ss_lock s = None) -> ~ finished q -> work (up_step ans info j s) < work s).
  { intros j q Hj Hq Nq. destruct (up_lower ans info j s) as [E|E]; [exfalso|exact E]. assert (F : nth_error (ss_threads (up_step ans info j s)) j = Some q) by (rewrite E; exact Hj). unfold up_step in F. rewrite Hj in F.
    destruct q as [| | | |r|r|ep doc|r]; cbn in Nq; try tauto; unfold do_post in F; cbn [fst snd] in F; try (cbn [ss_threads] in F; rewrite (nth_upd_same _ _ _ _ Hj) in F; discriminate).
    - destruct Hq as [Hq|Hq]; [congruence|]. rewrite Hq in F. cbn [ss_threads] in F. rewrite (nth_upd_same _ _ _ _ Hj) in F. discriminate.
    - cbn [ss_threads] in F. rewrite (nth_upd_same _ _ _ _ Hj) in F. destruct (ss_started s); discriminate.
    - cbn [ss_threads] in F. rewrite (nth_upd_same _ _ _ _ Hj) in F. destruct (post_result _); discriminate. }
  destruct (ss_lock s) as [j|] eqn:El.
  - destruct (uk_held _ _ _ K j El) as (q & Hq & Iq). exists j. apply (En j q Hq); [left; intros ->; discriminate|]. destruct q; cbn in *; auto; discriminate.
  - exists i. apply (En i p Hi); auto.
Qed.
Lemma up_can_finish ans info n : forall s, uok ans info s -> work s <= n -> exists l, Forall finished (ss_threads (ufrom ans info s l)).
Proof.
  induction n as [|n IH]; intros s K W.
  - exists []. apply Forall_forall. intros p Hp. apply In_nth_error in Hp as (i & Hi). destruct p; cbn; try exact I; exfalso; destruct (up_enabled ans info s i _ K Hi (fun x => x)) as (j & Hj); lia.
  - assert (D : Forall finished (ss_threads s) \/ exists p, In p (ss_threads s) /\ ~ finished p).
    { generalize (ss_threads s). clear. induction l as [|p l [IH|(q & Hq & Nq)]]; [left; constructor| |right; exists q; split; [right; exact Hq|exact Nq]]. destruct p; try (left; constructor; [exact I|exact IH]); right; eexists; (split; [left; reflexivity|]); cbn; auto. }
    destruct D as [D|(p & Hp & Np)]; [exists []; exact D|]. apply In_nth_error in Hp as (i & Hi). destruct (up_enabled ans info s i p K Hi Np) as (j & Hj). destruct (IH (up_step ans info j s) (uok_step ans info j s K)) as (l & Hl); [lia|]. exists (j :: l). exact Hl.
Qed.
Lemma up_run_app ans info calls l1 l2 : up_run ans info calls (l1 ++ l2) = ufrom ans info (up_run ans info calls l1) l2.
Proof. apply fold_left_app. Qed.
Lemma up_finish ans info calls l : mesh_calls calls -> exists l2, Forall finished (ss_threads (up_run ans info calls (l ++ l2))).
Proof. intros M. destruct (up_can_finish ans info _ _ (uok_run ans info calls l M) (le_n _)) as (l2 & H). exists l2. rewrite up_run_app. exact H. Qed.

(** Lemmas behind C143. *)
From Coq Require Import Strings.String Lia.
From Verif Require Import PyBase L_PyBase PyDict PyInt M_Mesh M_AioServer M_SubThreads L_SubThreads M_MeshWait S_MeshWait.
Open Scope nat_scope.

Definition holds (p : wpc) : Prop := p = WCheck \/ p = WAsked.
Definition winv (s : waits) : Prop := forall i, k_lock s = Some i <-> exists p, nth_error (k_threads s) i = Some p /\ holds p.
Lemma upd_at {A} (l : list A) i x y : nth_error l i = Some y -> nth_error (upd i (fun _ => x) l) i = Some x.
Proof. intros E. rewrite upd_nth, E. destruct (Nat.eq_dec i i); [reflexivity|congruence]. Qed.
Lemma upd_else {A} (l : list A) i j (f : A -> A) : j <> i -> nth_error (upd i f l) j = nth_error l j.
Proof. intros N. rewrite upd_nth. destruct (Nat.eq_dec j i); [congruence|reflexivity]. Qed.
(** a move of thread i from p to q, with lock lk afterwards *)
Lemma winv_move s i p q lk st sent : winv s -> nth_error (k_threads s) i = Some p ->
  (lk = k_lock s /\ (holds p <-> holds q) \/ lk = None /\ holds p /\ ~ holds q \/ lk = Some i /\ k_lock s = None /\ holds q) ->
  winv {| k_lock := lk; k_started := st; k_sent := sent; k_threads := upd i (fun _ => q) (k_threads s) |}.
Proof.
  intros I E C j. cbn. specialize (I j) as Ij. pose proof (I i) as Ii. destruct (Nat.eq_dec j i) as [->|N].
  - rewrite (upd_at _ i q p E). assert (X : (exists p0, Some q = Some p0 /\ holds p0) <-> holds q) by (split; [intros (? & [= <-] & H); exact H|eauto]). rewrite X. assert (Y : (exists p0, nth_error (k_threads s) i = Some p0 /\ holds p0) <-> holds p) by (rewrite E; split; [intros (? & [= <-] & H); exact H|eauto]). rewrite Y in Ij.
    destruct C as [(-> & C)|[(-> & C1 & C2)|(-> & C1 & C2)]]; [tauto|split; [discriminate|tauto]|tauto].
  - rewrite (upd_else _ i j _ N). destruct C as [(-> & C)|[(-> & C1 & C2)|(-> & C1 & C2)]]; [exact Ij| |].
    + split; [discriminate|]. intros H. apply Ij in H. assert (k_lock s = Some i) by (apply Ii; eauto). congruence.
    + split; [congruence|]. intros H. apply Ij in H. congruence.
Qed.
Ltac hh := unfold holds; intuition (try congruence; try discriminate).
Lemma winv_step s o : winv s -> winv (w_step s o).
Proof.
  intros I. destruct o as [i|i a]; cbn; destruct (nth_error (k_threads s) i) as [[| | |ep| |r]|] eqn:E; try exact I.
  - destruct (k_lock s) eqn:L; [exact I|]. eapply winv_move; [exact I|exact E|]. right. right. hh.
  - destruct (k_started s); (eapply winv_move; [exact I|exact E|]); [right; left; hh|left; hh].
  - eapply winv_move; [exact I|exact E|]. left. hh.
  - eapply winv_move; [exact I|exact E|]. right. left. hh.
  - eapply winv_move; [exact I|exact E|]. left. hh.
Qed.
Lemma winv_init calls : fresh_calls calls -> winv (w_begin calls).
Proof. intros F i. cbn. split; [discriminate|]. intros (p & E & H). apply nth_error_In in E. unfold fresh_calls in F. rewrite Forall_forall in F. destruct (F p E) as [->|(ep & ->)]; destruct H; discriminate. Qed.
Lemma w_app calls l1 l2 : w_run calls (l1 ++ l2) = fold_left w_step l2 (w_run calls l1).
Proof. apply fold_left_app. Qed.
Lemma winv_run calls l : fresh_calls calls -> winv (w_run calls l).
Proof. intros F. induction l as [|o l IH] using rev_ind; [apply winv_init, F|]. rewrite w_app. apply winv_step, IH. Qed.

(** ** A post that is not answered *)
Definition of (o : wev) : nat := match o with KGo i | KAnswer i _ => i end.
Lemma others_stay s o j : j <> of o -> nth_error (k_threads (w_step s o)) j = nth_error (k_threads s) j.
Proof.
  intros N. destruct o as [i|i a]; cbn in *; destruct (nth_error (k_threads s) i) as [[| | |ep| |r]|]; try reflexivity; try (destruct (k_lock s); [reflexivity|]); try (destruct (k_started s)); cbn; apply upd_else; exact N.
Qed.
Lemma wait_step s o i p : (p = WAsked \/ p = WOtherAsked) -> stands s i p -> (forall a, o <> KAnswer i a) -> stands (w_step s o) i p.
Proof.
  unfold stands. intros P E N. destruct (Nat.eq_dec i (of o)) as [->|D]; [|rewrite others_stay by exact D; exact E]. destruct o as [i|i a]; cbn in *; [|destruct (N a eq_refl)]. rewrite E. destruct P as [->| ->]; exact E.
Qed.
Lemma wait_run i p : (p = WAsked \/ p = WOtherAsked) -> forall l s, stands s i p -> never_answers i l -> stands (fold_left w_step l s) i p.
Proof.
  intros P. induction l as [|o l IH]; intros s E N; [exact E|]. cbn. apply IH; [|intros a H; apply (N a); right; exact H]. apply wait_step; [exact P|exact E|]. intros a ->. apply (N a). left. reflexivity.
Qed.
Lemma unanswered_stays calls l1 l2 i : unanswered (w_run calls l1) i -> never_answers i l2 -> unanswered (w_run calls (l1 ++ l2)) i.
Proof. intros [U|U] N; rewrite w_app; [left|right]; apply wait_run; auto. Qed.
Lemma start_step s o i j : winv s -> stands s i WAsked -> stands s j WStart -> stands (w_step s o) j WStart.
Proof.
  unfold stands. intros I Ei Ej. assert (L : k_lock s = Some i) by (apply I; exists WAsked; split; [exact Ei|right; reflexivity]). destruct (Nat.eq_dec j (of o)) as [->|D]; [|rewrite others_stay by exact D; exact Ej]. destruct o as [j|j a]; cbn in *; rewrite Ej; [rewrite L|]; exact Ej.
Qed.
Lemma start_run i j : forall l s, winv s -> stands s i WAsked -> never_answers i l -> stands s j WStart -> stands (fold_left w_step l s) j WStart.
Proof.
  induction l as [|o l IH]; intros s I Ei N Ej; [exact Ej|]. cbn. apply IH.
  - apply winv_step, I.
  - apply wait_step; [left; reflexivity|exact Ei|]. intros a ->. apply (N a). left. reflexivity.
  - intros a H. apply (N a). right. exact H.
  - eapply start_step; eassumption.
Qed.
Lemma holds_up calls l1 l2 i j : fresh_calls calls -> stands (w_run calls l1) i WAsked -> never_answers i l2 -> stands (w_run calls l1) j WStart -> stands (w_run calls (l1 ++ l2)) j WStart.
Proof. intros F Ei N Ej. rewrite w_app. eapply start_run; [apply winv_run, F|exact Ei|exact N|exact Ej]. Qed.

(** ** Calls without the lock *)
Lemma other_call calls l j ep a : stands (w_run calls l) j (WOther ep) -> stands (w_run calls (l ++ [KGo j; KAnswer j a])) j (WDone (k_result a)).
Proof.
  intros E. rewrite w_app. set (s := w_run calls l) in *. unfold stands in *. cbn [fold_left]. assert (G : w_step s (KGo j) = {| k_lock := k_lock s; k_started := k_started s; k_sent := k_sent s ++ [(j, ep)]; k_threads := upd j (fun _ => WOtherAsked) (k_threads s) |}) by (cbn; now rewrite E).
  rewrite G. cbn. rewrite (upd_at _ j WOtherAsked _ E). cbn. eapply upd_at. exact (upd_at _ j WOtherAsked _ E).
Qed.

(** ** When everything is answered *)
Lemma stuck_done calls l : fresh_calls calls -> let s := w_run calls l in stuck s -> (forall i, ~ unanswered s i) -> forall i p, stands s i p -> exists r, p = WDone r.
Proof.
  intros F s St U i p E. pose proof (winv_run calls l F) as I. fold s in I.
  assert (Mv : forall j q q', stands s j q -> q <> q' -> nth_error (k_threads (w_step s (KGo j))) j = Some q' -> False) by (intros j q q' Ej N Ej'; rewrite (St j) in Ej'; unfold stands in Ej; congruence).
  assert (NL : forall j, ~ stands s j WCheck).
  { intros j Ej. destruct (k_started s) eqn:B; [apply (Mv j WCheck (WDone (Ok tt)) Ej)|apply (Mv j WCheck WAsked Ej)]; try discriminate; unfold stands in Ej; cbn; rewrite Ej, B; cbn; eapply upd_at; exact Ej. }
  assert (LN : k_lock s = None).
  { destruct (k_lock s) as [j|] eqn:L; [|reflexivity]. exfalso. apply I in L as (q & Eq & [->| ->]); [exact (NL j Eq)|apply (U j); left; exact Eq]. }
  destruct p as [| | |ep| |r]; [| | | | |eauto]; exfalso.
  - apply (Mv i WStart WCheck E); [discriminate|]. unfold stands in E. cbn. rewrite E, LN. cbn. eapply upd_at; exact E.
  - exact (NL i E).
  - apply (U i). left. exact E.
  - apply (Mv i (WOther ep) WOtherAsked E); [discriminate|]. unfold stands in E. cbn. rewrite E. cbn. eapply upd_at; exact E.
  - apply (U i). right. exact E.
Qed.
Definition left_of (p : wpc) : nat := match p with WStart => 3 | WCheck | WOther _ => 2 | WAsked | WOtherAsked => 1 | WDone _ => 0 end.
Definition total (l : list wpc) : nat := fold_right (fun p n => left_of p + n) 0 l.
Lemma total_upd q : forall l i p, nth_error l i = Some p -> total (upd i (fun _ => q) l) + left_of p = total l + left_of q.
Proof. induction l as [|x l IH]; intros [|i] p E; try discriminate; cbn in *; [injection E as <-; lia|]. specialize (IH i p E). unfold total in IH. lia. Qed.
Lemma total_step s o : w_step s o <> s -> total (k_threads (w_step s o)) < total (k_threads s).
Proof.
  intros N. assert (G : forall i p q, nth_error (k_threads s) i = Some p -> left_of q < left_of p -> total (upd i (fun _ => q) (k_threads s)) < total (k_threads s)) by (intros i p q E L; pose proof (total_upd q _ i p E); lia).
  destruct o as [i|i a]; cbn in *; destruct (nth_error (k_threads s) i) as [[| | |ep| |r]|] eqn:E; try congruence; try (destruct (k_lock s); [congruence|]); try (destruct (k_started s)); cbn; (eapply G; [exact E|cbn; lia]).
Qed.
Lemma changes_total s l n : changes s l n -> n <= total (k_threads s).
Proof. induction 1 as [s|s o l n H C IH|s o l n H C IH]; [lia|exact IH|]. pose proof (total_step s o H). lia. Qed.
Lemma few_changes calls l n : fresh_calls calls -> changes (w_begin calls) l n -> n <= 3 * List.length calls.
Proof.
  intros F C. apply changes_total in C. change (k_threads (w_begin calls)) with calls in C. assert (T : total calls <= 3 * List.length calls); [|lia]. clear C. induction F as [|p calls [->|(ep & ->)] F IH]; unfold total in *; cbn [fold_right left_of List.length] in *; lia.
Qed.

(** ** A startup that returned was accepted, or another one was *)
Definition start_pc (p : wpc) : Prop := match p with WOther _ | WOtherAsked => False | _ => True end.
Lemma accepted_later calls l o : start_accepted calls l -> start_accepted calls (l ++ [o]).
Proof. intros (l1 & j & a & l2 & d & -> & H). exists l1, j, a, (l2 ++ [o]), d. rewrite <- app_assoc. split; [reflexivity|exact H]. Qed.
Lemma started_inv calls l : let s := w_run calls l in
  (k_started s = true -> start_accepted calls l) /\
  forall i, nth_error calls i = Some WStart -> exists p, nth_error (k_threads s) i = Some p /\ start_pc p /\ (p = WDone (Ok tt) -> start_accepted calls l).
Proof.
  cbn zeta. induction l as [|o l [A B]] using rev_ind.
  - split; [discriminate|]. intros i E. exists WStart. split; [exact E|]. split; [exact Logic.I|discriminate].
  - rewrite w_app. cbn [fold_left]. set (s := w_run calls l) in *.
    assert (Acc : forall i a d, o = KAnswer i a -> nth_error (k_threads s) i = Some WAsked -> post_result a = Ok d -> start_accepted calls (l ++ [o])).
    { intros i a d -> E R. exists l, i, a, [], d. split; [reflexivity|]. split; [exact E|exact R]. }
    split.
    + destruct o as [i|i a]; cbn; destruct (nth_error (k_threads s) i) as [[| | |ep| |r]|] eqn:E; try (destruct (k_lock s)); try (destruct (k_started s) eqn:St); cbn; try (rewrite ?St; intros; apply accepted_later; tauto); try (intros X; apply accepted_later, A; exact X).
      all: destruct (post_result a) as [d|e] eqn:R; intros X; try discriminate X; exact (Acc i a d eq_refl E R).
    + intros i Ei. destruct (B i Ei) as (p & E & P & D). destruct (Nat.eq_dec i (of o)) as [->|N]; [|exists p; rewrite others_stay by exact N; split; [exact E|split; [exact P|intros X; apply accepted_later, D, X]]].
      destruct o as [i|i a]; cbn [of] in *; destruct p as [| | |ep| |r]; try (destruct P; fail); cbn; rewrite E.
      * destruct (k_lock s); [exists WStart|exists WCheck]; (split; [first [exact E|eapply upd_at; exact E]|split; [exact Logic.I|discriminate]]).
      * destruct (k_started s) eqn:St; cbn; [exists (WDone (Ok tt))|exists WAsked]; (split; [eapply upd_at; exact E|split; [exact Logic.I|]]); [intros _; apply accepted_later, A; reflexivity|discriminate].
      * exists WAsked. split; [exact E|]. split; [exact Logic.I|discriminate].
      * exists (WDone r). split; [exact E|]. split; [exact Logic.I|]. intros X. apply accepted_later, D, X.
      * exists WStart. split; [exact E|]. split; [exact Logic.I|discriminate].
      * exists WCheck. split; [exact E|]. split; [exact Logic.I|discriminate].
      * exists (WDone (k_result a)). split; [eapply upd_at; exact E|]. split; [exact Logic.I|]. unfold k_result. destruct (post_result a) as [d|e] eqn:R; [intros _; exact (Acc i a d eq_refl E R)|discriminate].
      * exists (WDone r). split; [exact E|]. split; [exact Logic.I|]. intros X. apply accepted_later, D, X.
Qed.
Lemma startup_true calls l i : nth_error calls i = Some WStart -> stands (w_run calls l) i (WDone (Ok tt)) -> start_accepted calls l.
Proof. intros E X. destruct (started_inv calls l) as [_ B]. destruct (B i E) as (p & E' & _ & D). apply D. unfold stands in X. congruence. Qed.

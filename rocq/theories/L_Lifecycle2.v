(** Lemmas behind C110: calling run_forever again after shutdown. *)
From Coq Require Import Lia.
From Verif Require Import PyBase M_AioServer L_AioServer2 M_Listener M_Lifecycle S_Lifecycle L_Lifecycle.
Open Scope nat_scope.

Lemma shutdowns_app a b : shutdowns (a ++ b) = shutdowns a + shutdowns b.
Proof. unfold shutdowns. rewrite filter_app, app_length. reflexivity. Qed.

(** with at most one call of shutdown *)
Definition ending (p : rpc) : Prop := p = RReset \/ p = REvent \/ p = RReturned.
Record once (n : nat) (s : kst) : Prop := {
  on_one : forall i j p q, nth_error (k_threads s) i = Some (KStop p) -> nth_error (k_threads s) j = Some (KStop q) -> i = j;
  on_none : n = 0 -> forall i p, nth_error (k_threads s) i <> Some (KStop p);
  on_set : k_request s = true -> shutdown_asked s;
  on_ending : forall r p, nth_error (k_threads s) r = Some (KServe p) -> ending p -> shutdown_asked s;
  on_clear : forall r p, nth_error (k_threads s) r = Some (KServe p) -> p = REvent \/ p = RReturned -> k_request s = false
}.
Lemma once_init : once 0 k_init.
Proof.
  constructor; cbn; try discriminate.
  - intros [|i]; discriminate.
  - intros _ [|i]; discriminate.
  - intros [|i]; discriminate.
  - intros [|i]; discriminate.
Qed.

Lemma once_serve n s i p req ev w sv p' : once n s -> (forall r r' q q', nth_error (k_threads s) r = Some (KServe q) -> nth_error (k_threads s) r' = Some (KServe q') -> r = r') ->
  nth_error (k_threads s) i = Some (KServe p) -> (req = true -> k_request s = true) -> (ending p' -> ending p \/ k_request s = true) ->
  (p' = REvent \/ p' = RReturned -> req = false) -> once n (k_put req ev w sv i (KServe p') s).
Proof.
  intros [A B C D E] One Hi Hr He Hc.
  assert (K : forall r x, nth_error (upd i (fun _ => KServe p') (k_threads s)) r = Some x -> (r = i /\ x = KServe p') \/ (r <> i /\ nth_error (k_threads s) r = Some x)).
  { intros r x Hx. apply nth_upd_inv in Hx as [(<- & y & _ & ->)|(Ne & Hx)]; auto. }
  assert (K' : shutdown_asked s -> shutdown_asked (k_put req ev w sv i (KServe p') s)).
  { intros (j & q & Hj & Nq). exists j, q. split; [|exact Nq]. cbn. rewrite nth_upd_other; [exact Hj|]. intros ->. congruence. }
  constructor; cbn [k_put k_threads k_request].
  - intros a b x y Ha Hb. apply K in Ha as [(_ & ?)|(_ & Ha)]; [discriminate|]. apply K in Hb as [(_ & ?)|(_ & Hb)]; [discriminate|]. exact (A _ _ _ _ Ha Hb).
  - intros N r q Hx. apply K in Hx as [(_ & ?)|(_ & Hx)]; [discriminate|]. exact (B N _ _ Hx).
  - intros R. apply K'. auto.
  - intros r q Hx Eq. apply K'. apply K in Hx as [(_ & [= ->])|(N & Hx)]; [destruct (He Eq) as [He'|He']; [exact (D _ _ Hi He')|exact (C He')]|exact (D _ _ Hx Eq)].
  - intros r q Hx Eq. apply K in Hx as [(_ & [= ->])|(N & Hx)]; [exact (Hc Eq)|]. destruct (N (One _ _ _ _ Hx Hi)).
Qed.
Lemma once_stop n s i p req p' : once n s -> nth_error (k_threads s) i = Some (KStop p) -> p' <> HSet -> (p = HSet \/ req = k_request s) ->
  once n (k_put req (k_event s) (k_waiting s) (k_served s) i (KStop p') s).
Proof.
  intros [A B C D E] Hi Np Hr.
  assert (K : forall r x, nth_error (upd i (fun _ => KStop p') (k_threads s)) r = Some x -> (r = i /\ x = KStop p') \/ (r <> i /\ nth_error (k_threads s) r = Some x)).
  { intros r x Hx. apply nth_upd_inv in Hx as [(<- & y & _ & ->)|(Ne & Hx)]; auto. }
  assert (K' : shutdown_asked (k_put req (k_event s) (k_waiting s) (k_served s) i (KStop p') s)).
  { exists i, p'. split; [exact (nth_upd_same _ _ _ _ Hi)|exact Np]. }
  constructor; cbn [k_put k_threads k_request]; auto.
  - intros a b x y Ha Hb. apply K in Ha as [(-> & _)|(_ & Ha)]; apply K in Hb as [(-> & _)|(_ & Hb)]; [reflexivity|exact (A _ _ _ _ Hi Hb)|exact (A _ _ _ _ Ha Hi)|exact (A _ _ _ _ Ha Hb)].
  - intros N r q Hx. destruct (B N _ _ Hi).
  - intros r q Hx Eq. apply K in Hx as [(_ & ?)|(N & Hx)]; [discriminate|]. destruct Hr as [->| ->]; [|exact (E _ _ Hx Eq)].
    exfalso. destruct (D _ _ Hx) as (j & y & Hj & Ny); [unfold ending; tauto|]. assert (j = i) by exact (A _ _ _ _ Hj Hi). subst j. congruence.
Qed.
Lemma once_step m n o s : kok m s -> m + runs [o] <= 1 -> once n s -> n + shutdowns [o] <= 1 -> once (n + shutdowns [o]) (k_step o s).
Proof.
  intros O Hm S Hn. destruct o as [| | |i]; cbn [k_step].
  - replace (n + shutdowns [KRun]) with n by (cbn; lia). destruct S as [A B C D E].
    assert (K : forall r p, nth_error (k_threads s ++ [KServe RClear]) r = Some (KStop p) -> nth_error (k_threads s) r = Some (KStop p)) by (intros r p Hr; apply kth_snoc in Hr as [Hr|(_ & Hr)]; [exact Hr|discriminate]).
    assert (K' : shutdown_asked s -> shutdown_asked (k_thread (KServe RClear) s)) by (intros (j & q & Hj & Nq); exists j, q; split; [apply kth_old; exact Hj|exact Nq]).
    constructor; cbn [k_thread k_threads k_request].
    + intros a b x y Ha Hb. exact (A _ _ _ _ (K _ _ Ha) (K _ _ Hb)).
    + intros N r p Hr. exact (B N _ _ (K _ _ Hr)).
    + auto.
    + intros r p Hr Ep. apply K'. apply kth_snoc in Hr as [Hr|(_ & [= ->])]; [exact (D _ _ Hr Ep)|destruct Ep as [?|[?|?]]; discriminate].
    + intros r p Hr Ep. apply kth_snoc in Hr as [Hr|(_ & [= ->])]; [exact (E _ _ Hr Ep)|destruct Ep; discriminate].
  - cbn in Hn. assert (n = 0) by lia. subst n. destruct S as [A B C D E]. cbn [Nat.add].
    assert (K' : shutdown_asked s -> False) by (intros (j & q & Hj & Nq); exact (B eq_refl _ _ Hj)).
    constructor; cbn [k_thread k_threads k_request].
    + intros a b x y Ha Hb. apply kth_snoc in Ha as [Ha|(-> & _)]; [destruct (B eq_refl _ _ Ha)|]. apply kth_snoc in Hb as [Hb|(-> & _)]; [destruct (B eq_refl _ _ Hb)|reflexivity].
    + cbn. lia.
    + intros R. destruct (K' (C R)).
    + intros r p Hr Ep. apply kth_snoc in Hr as [Hr|(_ & ?)]; [|discriminate]. destruct (K' (D _ _ Hr Ep)).
    + intros r p Hr Ep. apply kth_snoc in Hr as [Hr|(_ & ?)]; [|discriminate]. exact (E _ _ Hr Ep).
  - replace (n + shutdowns [KConnect]) with n by (cbn; lia). rewrite (ko_open _ _ O). destruct S as [A B C D E]. constructor; auto.
  - replace (n + shutdowns [KGo i]) with n by (cbn; lia). destruct (nth_error (k_threads s) i) as [[p|p]|] eqn:Hi; [| |exact S].
    + pose proof (ko_one _ _ O) as One. assert (Cl : p = REvent \/ p = RReturned -> k_request s = false) by (intros Ep; exact (on_clear _ _ S _ _ Hi Ep)).
      destruct p as [| | |ready| | | |]; try exact S; unfold k_goto.
      * apply (once_serve n s i RClear); auto; [intros [?|[?|?]]; discriminate|intros [?|?]; discriminate].
      * apply (once_serve n s i RWhile); auto; [destruct (k_request s); [auto|intros [?|[?|?]]; discriminate]|destruct (k_request s); intros [?|?]; discriminate].
      * apply (once_serve n s i RSelect); auto; [intros [?|[?|?]]; discriminate|intros [?|?]; discriminate].
      * apply (once_serve n s i (RBreak ready)); auto; [destruct (k_request s); [auto|destruct ready; intros [?|[?|?]]; discriminate]|destruct (k_request s), ready; intros [?|?]; discriminate].
      * destruct (k_waiting s); (apply (once_serve n s i RHandle); auto; [intros [?|[?|?]]; discriminate|intros [?|?]; discriminate]).
      * apply (once_serve n s i RReset); auto; [discriminate|unfold ending; auto].
      * apply (once_serve n s i REvent); auto. unfold ending. auto.
    + destruct p as [| |]; [| |exact S].
      * apply (once_stop n s i HSet); auto. discriminate.
      * destruct (k_event s) eqn:Ev; [|exact S]. unfold k_goto. apply (once_stop n s i HWait); auto. discriminate.
Qed.
Lemma once_run l : runs l <= 1 -> shutdowns l <= 1 -> once (shutdowns l) (k_run l).
Proof.
  induction l as [|o l IH] using rev_ind; intros Hr Hs; [exact once_init|]. rewrite runs_app in Hr. rewrite shutdowns_app in *. unfold k_run. rewrite kfrom_app. fold (k_run l).
  apply (once_step (runs l)); [apply kok_run; lia|exact Hr|apply IH; lia|exact Hs].
Qed.

(** all other threads have ended *)
Definition alone (r : nat) (s : kst) : Prop := k_open s = true /\ k_request s = false /\
  forall i p, nth_error (k_threads s) i = Some p -> i = r \/ p = KServe RReturned \/ p = KStop HReturned.
Lemma alone_step o r p k s a b : alone r s -> shutdowns [o] = 0 -> runs [o] = 0 -> nth_error (k_threads s) r = Some (KServe p) -> early p = Some k -> k_waiting s = a ++ b ->
  alone r (k_step o s) /\ exists p' k', nth_error (k_threads (k_step o s)) r = Some (KServe p') /\ early p' = Some k' /\
    exists a' b', k_waiting (k_step o s) = a' ++ b' /\ (forall c, In c a \/ In c (k_served s) -> In c a' \/ In c (k_served (k_step o s))) /\ (a = [] -> a' = []) /\
    (a' <> [] -> 4 * List.length a' + k' + turns r [o] <= 4 * List.length a + k).
Proof.
  intros (I0 & I1 & I2) Hs Hn Hr He Hw. destruct o as [| | |i]; cbn [k_step]; [discriminate|discriminate| |].
  - rewrite I0. split; [split; [reflexivity|split; [exact I1|exact I2]]|]. exists p, k. split; [exact Hr|]. split; [exact He|]. exists a, (b ++ [k_next s]). cbn [k_waiting k_served]. rewrite Hw, app_assoc. split; [reflexivity|]. split; [auto|]. split; [auto|]. cbn. lia.
  - unfold turns. cbn [filter]. destruct (Nat.eqb_spec i r) as [->|Ne].
    + rewrite Hr. assert (U : forall q, nth_error (upd r (fun _ => KServe q) (k_threads s)) r = Some (KServe q)) by (intros q; exact (nth_upd_same _ _ _ _ Hr)).
      assert (Id : forall ev w sv q, alone r (k_put false ev w sv r (KServe q) s)).
      { intros ev w sv q. split; [exact I0|]. split; [reflexivity|]. intros j x Hx. cbn in Hx. apply nth_upd_inv in Hx as [(<- & _)|(_ & Hx)]; [left; reflexivity|exact (I2 j x Hx)]. }
      assert (Mv : forall ev q k', early q = Some k' -> (a <> [] -> k' + 1 <= k) -> alone r (k_put false ev (k_waiting s) (k_served s) r (KServe q) s) /\
        exists p' k'0, nth_error (k_threads (k_put false ev (k_waiting s) (k_served s) r (KServe q) s)) r = Some (KServe p') /\ early p' = Some k'0 /\ exists a' b', k_waiting (k_put false ev (k_waiting s) (k_served s) r (KServe q) s) = a' ++ b' /\
        (forall c, In c a \/ In c (k_served s) -> In c a' \/ In c (k_served (k_put false ev (k_waiting s) (k_served s) r (KServe q) s))) /\ (a = [] -> a' = []) /\ (a' <> [] -> 4 * List.length a' + k'0 + 1 <= 4 * List.length a + k)).
      { intros ev q k' Eq Lk. split; [apply Id|]. exists q, k'. split; [apply U|]. split; [exact Eq|]. exists a, b. split; [exact Hw|]. split; [auto|]. split; [auto|]. intros Na. specialize (Lk Na). lia. }
      cbn [List.length]. unfold k_goto. rewrite I1. destruct p as [| | |ready| | | |]; try discriminate He; cbn [early] in He.
      * injection He as <-. apply (Mv false RWhile 4); [reflexivity|lia].
      * injection He as <-. apply (Mv (k_event s) RSelect 3); [reflexivity|lia].
      * injection He as <-. destruct (k_waiting s) as [|c w] eqn:Ew.
        -- apply (Mv (k_event s) (RBreak false) 5); [reflexivity|]. intros Na. destruct a; [destruct (Na eq_refl)|discriminate].
        -- apply (Mv (k_event s) (RBreak true) 2); [reflexivity|lia].
      * destruct ready; injection He as <-; [apply (Mv (k_event s) RHandle 1); [reflexivity|lia]|apply (Mv (k_event s) RWhile 4); [reflexivity|lia]].
      * injection He as <-. destruct (k_waiting s) as [|c w] eqn:Ew.
        -- apply (Mv (k_event s) RWhile 4); [reflexivity|]. intros Na. destruct a; [destruct (Na eq_refl)|discriminate].
        -- split; [apply Id|]. exists RWhile, 4. split; [apply U|]. split; [reflexivity|]. cbn [k_put k_waiting k_served]. destruct a as [|x a].
           ++ exists [], w. split; [reflexivity|]. split; [intros c0 [[]|H]; right; apply in_or_app; auto|]. split; [auto|]. intros N; destruct (N eq_refl).
           ++ injection Hw as <- Hw. exists a, b. split; [exact Hw|]. split; [|split; [discriminate|cbn [List.length]; lia]].
              intros c0 [[<-|H]|H]; [right; apply in_or_app; right; left; reflexivity|left; exact H|right; apply in_or_app; auto].
    + cbn [List.length]. assert (Z : alone r s /\ exists p' k', nth_error (k_threads s) r = Some (KServe p') /\ early p' = Some k' /\
        exists a' b', k_waiting s = a' ++ b' /\ (forall c, In c a \/ In c (k_served s) -> In c a' \/ In c (k_served s)) /\ (a = [] -> a' = []) /\ (a' <> [] -> 4 * List.length a' + k' + 0 <= 4 * List.length a + k)).
      { split; [split; [exact I0|split; [exact I1|exact I2]]|]. exists p, k. split; [exact Hr|]. split; [exact He|]. exists a, b. split; [exact Hw|]. split; [auto|]. split; [auto|lia]. }
      destruct (nth_error (k_threads s) i) as [x|] eqn:Hi; [|exact Z]. destruct (I2 _ _ Hi) as [?|[->| ->]]; [contradiction| |]; exact Z.
Qed.
Lemma served_from l : forall s c, In c (k_served s) -> In c (k_served (k_from s l)).
Proof.
  induction l as [|o' l IH]; intros s0 c Sv; [exact Sv|]. apply IH. destruct o' as [| | |i]; cbn [k_step]; [exact Sv|exact Sv|destruct (k_open s0); exact Sv|].
  destruct (nth_error (k_threads s0) i) as [[q|q]|]; [| |exact Sv]; destruct q; try exact Sv; [destruct (k_waiting s0); [exact Sv|cbn; apply in_or_app; left; exact Sv]|destruct (k_event s0); exact Sv].
Qed.
Lemma alone_from l : forall r p k s a b, alone r s -> shutdowns l = 0 -> runs l = 0 -> nth_error (k_threads s) r = Some (KServe p) -> early p = Some k -> k_waiting s = a ++ b ->
  4 * List.length a + k <= turns r l -> forall c, In c a \/ In c (k_served s) -> In c (k_served (k_from s l)).
Proof.
  induction l as [|o l IH]; intros r p k s a b I Hs Hn Hr He Hw T c Hc.
  - cbn in T. destruct p as [| | |[]| | | |]; cbn in He; injection He as <- || discriminate He; lia.
  - change (k_from s (o :: l)) with (k_from (k_step o s) l). change (o :: l) with ([o] ++ l) in *. rewrite runs_app in Hn. rewrite shutdowns_app in Hs.
    unfold turns in T. rewrite filter_app, app_length in T. fold (turns r [o]) in T. fold (turns r l) in T.
    destruct (alone_step o r p k s a b I ltac:(lia) ltac:(lia) Hr He Hw) as (I' & p' & k' & Hr' & He' & a' & b' & Hw' & Hin & Hnil & Hlt).
    destruct a' as [|x a'].
    + apply served_from. destruct (Hin c Hc) as [[]|H]; exact H.
    + apply (IH r p' k' _ (x :: a') b' I'); auto; [lia|lia|]. specialize (Hlt ltac:(discriminate)). lia.
Qed.
Lemma restarts l1 l2 : runs l1 <= 1 -> shutdowns l1 <= 1 -> let s := k_run l1 in shutdown_returned s -> runs l2 = 0 -> shutdowns l2 = 0 ->
  4 * List.length (k_waiting s) + 5 <= turns (List.length (k_threads s)) l2 -> forall c, In c (k_waiting s) -> In c (k_served (k_from (k_step KRun s) l2)).
Proof.
  intros H1 H2 s S R2 S2 T c Hc. pose proof (kok_run l1 H1) as O. pose proof (once_run l1 H1 H2) as N. fold s in O, N. destruct (threaded_stops l1 [] H1 eq_refl S) as (_ & (r & Hr) & All).
  apply (alone_from l2 (List.length (k_threads s)) RClear 5 (k_step KRun s) (k_waiting s) []); auto; try reflexivity.
  - split; [exact (ko_open _ _ O)|]. split; [exact (on_clear _ _ N r RReturned Hr (or_intror eq_refl))|]. intros i p Hi. apply kth_snoc in Hi as [Hi|(-> & _)]; [right|left; reflexivity].
    destruct p as [p|p]; [left; f_equal; specialize (All i (ex_intro _ p Hi)); unfold run_returned in All; fold s in All; congruence|right].
    destruct S as (j & Hj). fold s in Hj. assert (i = j) by exact (on_one _ _ N _ _ _ _ Hi Hj). subst j. congruence.
  - cbn [k_step k_thread k_threads]. rewrite nth_error_app2, Nat.sub_diag by lia. reflexivity.
  - symmetry. apply app_nil_r.
Qed.
(** a second call of shutdown returns at once, and makes the next run_forever return without serving anyone *)
Lemma second_shutdown l1 : runs l1 <= 1 -> let s := k_run l1 in shutdown_returned s -> let i := List.length (k_threads s) in
  let s1 := k_from s [KShutdown; KGo i; KGo i] in let s2 := k_from s1 [KRun; KGo (S i); KGo (S i); KGo (S i); KGo (S i)] in
  nth_error (k_threads s1) i = Some (KStop HReturned) /\ run_returned s2 (S i) /\ k_served s2 = k_served s /\ k_waiting s2 = k_waiting s.
Proof.
  intros H1 s Sr i s1 s2. pose proof (kok_run l1 H1) as O. fold s in O. pose proof (ko_stopped _ _ O Sr) as Ev.
  assert (U : forall (A : Type) (l : list A) x y, upd (List.length l) (fun _ => y) (l ++ [x]) = l ++ [y]) by (intros A l x y; induction l as [|z l IH]; cbn; [reflexivity|f_equal; exact IH]).
  assert (G : forall (A : Type) (l : list A) x, nth_error (l ++ [x]) (List.length l) = Some x) by (intros A l x; rewrite nth_error_app2, Nat.sub_diag by lia; reflexivity).
  assert (E1 : s1 = {| k_open := k_open s; k_request := true; k_event := k_event s; k_waiting := k_waiting s; k_served := k_served s; k_refused := k_refused s; k_next := k_next s; k_threads := k_threads s ++ [KStop HReturned] |}).
  { set (mk := fun (req : bool) (p : hpc) => {| k_open := k_open s; k_request := req; k_event := k_event s; k_waiting := k_waiting s; k_served := k_served s; k_refused := k_refused s; k_next := k_next s; k_threads := k_threads s ++ [KStop p] |}).
    assert (A0 : k_step KShutdown s = mk (k_request s) HSet) by reflexivity.
    assert (A1 : k_step (KGo i) (mk (k_request s) HSet) = mk true HWait) by (unfold mk, i; cbn [k_step k_threads]; rewrite G; unfold k_put; cbn [k_threads k_request k_event k_waiting k_served k_open k_refused k_next]; rewrite U; reflexivity).
    assert (A2 : k_step (KGo i) (mk true HWait) = mk true HReturned) by (unfold mk, i; cbn [k_step k_threads]; rewrite G; cbn [k_threads k_request k_event k_waiting k_served k_open k_refused k_next]; rewrite Ev; unfold k_goto, k_put; cbn [k_threads k_request k_event k_waiting k_served k_open k_refused k_next]; rewrite U; reflexivity).
    subst s1. unfold k_from. cbn [fold_left]. rewrite A0, A1, A2. reflexivity. }
  assert (Li : S i = List.length (k_threads s1)) by (rewrite E1; cbn; rewrite app_length; cbn; unfold i; lia).
  split; [rewrite E1; apply G|].
  assert (E2 : s2 = {| k_open := k_open s; k_request := false; k_event := true; k_waiting := k_waiting s; k_served := k_served s; k_refused := k_refused s; k_next := k_next s; k_threads := k_threads s1 ++ [KServe RReturned] |}).
  { set (mk := fun (req ev : bool) (p : rpc) => {| k_open := k_open s; k_request := req; k_event := ev; k_waiting := k_waiting s; k_served := k_served s; k_refused := k_refused s; k_next := k_next s; k_threads := k_threads s1 ++ [KServe p] |}).
    assert (A0 : k_step KRun s1 = mk true (k_event s) RClear).
    { unfold mk, k_step, k_thread. rewrite E1 at 1 2 3 4 5 6 7. reflexivity. }
    assert (A1 : forall ev, k_step (KGo (S i)) (mk true ev RClear) = mk true false RWhile) by (intros ev; unfold mk; cbn [k_step k_threads]; rewrite Li, G; unfold k_put; cbn [k_threads k_request k_event k_waiting k_served k_open k_refused k_next]; rewrite U; reflexivity).
    assert (A2 : k_step (KGo (S i)) (mk true false RWhile) = mk true false RReset) by (unfold mk; cbn [k_step k_threads]; rewrite Li, G; unfold k_goto, k_put; cbn [k_threads k_request k_event k_waiting k_served k_open k_refused k_next]; rewrite U; reflexivity).
    assert (A3 : k_step (KGo (S i)) (mk true false RReset) = mk false false REvent) by (unfold mk; cbn [k_step k_threads]; rewrite Li, G; unfold k_goto, k_put; cbn [k_threads k_request k_event k_waiting k_served k_open k_refused k_next]; rewrite U; reflexivity).
    assert (A4 : k_step (KGo (S i)) (mk false false REvent) = mk false true RReturned) by (unfold mk; cbn [k_step k_threads]; rewrite Li, G; unfold k_goto, k_put; cbn [k_threads k_request k_event k_waiting k_served k_open k_refused k_next]; rewrite U; reflexivity).
    subst s2. unfold k_from. cbn [fold_left]. rewrite A0, A1, A2, A3, A4. reflexivity. }
  rewrite E2. split; [unfold run_returned; rewrite Li; apply G|]. split; reflexivity.
Qed.

(** Lemmas behind C129: the asyncio client. *)
From Coq Require Import Lia ZifyBool.
From Verif Require Import PyBase L_PyBase PyDict L_PyDict M_SofaHeader M_Package L_Package L_Codec S_Wire M_SyncClient L_SyncClient M_AioClient L_AioClient L_AioClient2 L_AioClient3 S_WhyAio.
Open Scope Z_scope.

(** ** Calls that end without having been sent *)
Lemma goto_none i j p s t' : t_pc t' = Done RetNone -> nth_error (s_tasks (goto j p s)) i = Some t' ->
  nth_error (s_tasks s) i = Some t' \/ (i = j /\ p = Done RetNone /\ exists t, nth_error (s_tasks s) i = Some t /\ t_req t' = t_req t).
Proof. intros P H. cbn [goto set_tasks s_tasks] in H. apply upd_get in H as [(_ & H)|(-> & t & H & ->)]; [left; exact H|]. right. split; [reflexivity|]. split; [exact P|]. exists t. auto. Qed.
Definition quits (o : step) (i : nat) (t : task) : Prop := o = DialFail i \/ o = DrainFail i \/ (exists e, to_stream (t_req t) = Raise e) \/ p_ptype (t_req t) = PTYPE_ONEWAY.
Lemma abandon_none i j rid s t' : t_pc t' = Done RetNone -> nth_error (s_tasks (abandon j rid s)) i = Some t' -> nth_error (s_tasks s) i = Some t' \/ i = j /\ exists t, nth_error (s_tasks s) i = Some t /\ t_req t' = t_req t.
Proof. unfold abandon. destruct (dmem rid (s_req s)); intros P H; apply (goto_none _ _ _ _ _ P) in H as [H|(-> & E & H)]; auto. Qed.
Lemma enter_none i j rid a n s t' : t_pc t' = Done RetNone -> nth_error (s_tasks (enter_send j rid a n s)) i = Some t' -> nth_error (s_tasks s) i = Some t' \/ n = O /\ i = j /\ exists t, nth_error (s_tasks s) i = Some t /\ t_req t' = t_req t.
Proof.
  intros P H. destruct n as [|n]; [apply (abandon_none _ _ _ _ _ P) in H as [H|H]; auto|]. left. cbn [enter_send] in H.
  destruct (dget a (s_conn s)); [|destruct (dget a (s_dial s))]; apply (goto_none _ _ _ _ _ P) in H as [H|(_ & E & _)]; auto; discriminate.
Qed.
Lemma failed_none i j rid a n c s t' : t_pc t' = Done RetNone -> nth_error (s_tasks (send_failed j rid a n c s)) i = Some t' -> nth_error (s_tasks s) i = Some t' \/ i = j /\ exists t, nth_error (s_tasks s) i = Some t /\ t_req t' = t_req t.
Proof.
  intros P H. unfold send_failed in H. cbv zeta in H. destruct (dmem a (s_conn (cancel_reader c s))); [destruct (dmem a (s_dial (set_conn _ _)))|].
  - apply (enter_none _ _ _ _ _ _ _ P) in H as [H|(_ & H)]; auto.
  - apply (abandon_none _ _ _ _ _ P) in H as [H|H]; auto.
  - apply (abandon_none _ _ _ _ _ P) in H as [H|H]; auto.
Qed.
Lemma tasks_deliver p s : s_tasks (deliver p s) = s_tasks s.
Proof. unfold deliver, wake. cbv zeta. repeat match goal with |- context [if ?b then _ else _] => destruct b end; cbn; destruct (dget (rid_of p) (s_req s)); reflexivity. Qed.
Lemma tasks_read c s : s_tasks (read c s) = s_tasks s.
Proof.
  unfold read, process. destruct (nth_error (s_links s) c) as [k|]; [|reflexivity]. destruct (k_rd k); try reflexivity; (destruct (k_cancel k || k_exn k); [reflexivity|]).
  - destruct (_ <=? _); [|destruct (k_eof k); reflexivity]. cbv zeta. destruct (bolt_header_from_stream _ _); reflexivity.
  - destruct (_ <=? _); [|destruct (k_eof k); reflexivity]. destruct (bolt_content_from_stream _ _ _); [rewrite tasks_deliver|]; reflexivity.
Qed.
Lemma none_why o s i t' : nth_error (s_tasks (run_step o s)) i = Some t' -> t_pc t' = Done RetNone -> nth_error (s_tasks s) i = Some t' \/ quits o i t'.
Proof.
  intros H P. unfold quits. destruct o as [req ad|j|j|j|j|j|j|j|j|c bs|c|c|c|rid|]; cbn [run_step] in H.
  - cbn [call set_tasks s_tasks] in H. apply nth_app in H as [H|(-> & ->)]; [auto|discriminate].
  - destruct (nth_error (s_tasks s) j) as [t|]; [|auto]. destruct (t_pc t); try (left; exact H). destruct (t_addr t); [|apply (goto_none _ _ _ _ _ P) in H as [H|(_ & E & _)]; [auto|discriminate]].
    apply (enter_none _ _ _ _ _ _ _ P) in H as [H|([=] & _)]; auto.
  - destruct (nth_error (s_tasks s) j) as [t|]; [|auto]. destruct (t_pc t); try (left; exact H). destruct (t_addr t); [|auto]. destruct (nth_error (s_locks s) l) as [[]|]; auto.
    destruct (dget a (s_conn s)); apply (goto_none _ _ _ _ _ P) in H as [H|(_ & E & _)]; auto; discriminate.
  - destruct (nth_error (s_tasks s) j) as [t|]; [|auto]. destruct (t_pc t); try (left; exact H). destruct (t_addr t); [|auto]. destruct (dsetdefault a (List.length (s_links s)) (s_conn (set_lock l false (set_links s (s_links s ++ [new_link a]))))) as (d, c').
    apply (goto_none _ _ _ _ _ P) in H as [H|(_ & E & _)]; auto; discriminate.
  - destruct (nth_error (s_tasks s) j) as [t|]; [|auto]. destruct (t_pc t); try (left; exact H). apply (abandon_none _ _ _ _ _ P) in H as [H|(-> & _)]; auto.
  - destruct (nth_error (s_tasks s) j) as [t|] eqn:Ht; [|auto]. destruct (t_pc t); try (left; exact H); destruct (t_addr t) as [a|]; try (left; exact H).
    + destruct (to_stream (t_req t)) as [bs|e] eqn:Es.
      * apply (goto_none _ _ _ _ _ P) in H as [H|(_ & E & _)]; auto; discriminate.
      * apply (failed_none _ _ _ _ _ _ _ _ P) in H as [H|(-> & t1 & H1 & E)]; auto. right. right. right. left. exists e. rewrite E. congruence.
    + unfold sent in H. cbv zeta in H. destruct (dget (rid_of (t_req t)) (s_req s)); [destruct (p_ptype (t_req t) =? PTYPE_ONEWAY) eqn:Eo|]; apply (goto_none _ _ _ _ _ P) in H as [H|(-> & E & t1 & H1 & E1)]; auto; try discriminate.
      right. right. right. right. rewrite E1. cbn [set_req s_tasks] in H1; replace t1 with t by congruence. lia.
    + unfold sent in H. cbv zeta in H. destruct (dget (rid_of (t_req t)) (s_req s)); [destruct (p_ptype (t_req t) =? PTYPE_ONEWAY) eqn:Eo|]; apply (goto_none _ _ _ _ _ P) in H as [H|(-> & E & t1 & H1 & E1)]; auto; try discriminate.
      right. right. right. right. rewrite E1. cbn [set_req s_tasks] in H1; replace t1 with t by congruence. lia.
  - destruct (nth_error (s_tasks s) j) as [t|]; [|auto]. destruct (t_pc t); try (left; exact H); destruct (t_addr t) as [a|]; try (left; exact H); apply (failed_none _ _ _ _ _ _ _ _ P) in H as [H|(-> & _)]; auto.
  - destruct (nth_error (s_tasks s) j) as [t|]; [|auto]. destruct (t_pc t); try (left; exact H). destruct (nth_error (s_events s) ev) as [[]|]; try (left; exact H).
    destruct (dget (rid_of (t_req t)) (s_resp s)); apply (goto_none _ _ _ _ _ P) in H as [H|(_ & E & _)]; auto; discriminate.
  - destruct (nth_error (s_tasks s) j) as [t|]; [|auto]. destruct (t_pc t); try (left; exact H); apply (goto_none _ _ _ _ _ P) in H as [H|(_ & E & _)]; auto; discriminate.
  - auto.
  - auto.
  - auto.
  - rewrite tasks_read in H. auto.
  - destruct (s_timer s); auto. destruct (heartbeat_new_request rid); auto. cbn [set_timer call set_tasks s_tasks] in H. apply nth_app in H as [H|(-> & ->)]; [auto|discriminate].
  - destruct (s_timer s); auto. destruct (nth_error (s_tasks s) i0) as [t|]; [|auto]. destruct (t_pc t) as [| | | | | |[]]; auto.
Qed.

(** ** What a read does *)
Lemma read_view c s : links_ok s -> view (read c s) = view s \/ exists frame p, consumes c frame s (read c s) /\ from_stream BoltResponse frame = Ok p /\ view (read c s) = view (deliver p s).
Proof.
  intros K. unfold read. destruct (nth_error (s_links s) c) as [k|] eqn:Hk; [|left; reflexivity]. pose proof (K c k Hk) as LO.
  destruct (k_rd k) as [| |fixed h n|] eqn:Er; try (left; reflexivity); (destruct (k_cancel k || k_exn k); [left; reflexivity|]).
  - left. destruct (_ <=? _); [|destruct (k_eof k); reflexivity]. cbv zeta. destruct (bolt_header_from_stream _ _); reflexivity.
  - destruct (n <=? len (k_buf k)); [|left; destruct (k_eof k); reflexivity]. destruct (lo_body _ LO _ _ _ Er) as (L20 & -> & _). unfold process at 1 3. rewrite content_is_frame by exact L20.
    destruct (from_stream BoltResponse (fixed ++ py_take n (k_buf k))) as [p|e] eqn:Ef; [|left; reflexivity]. right. exists (fixed ++ py_take n (k_buf k)), p. split; [|split; [exact Ef|apply view_deliver; reflexivity]].
    exists k, (rd_take k n RdHead [fixed ++ py_take n (k_buf k)]). split; [exact Hk|]. split; [rewrite links_process; cbn; exact (upd_same c _ _ k Hk)|reflexivity].
Qed.

(** ** The invariant *)
Definition why (t : timer) (l : list step) (i : nat) (tk : task) : Prop := let s := run t l in let rid := rid_of (t_req tk) in
  match t_pc tk with
  | Start => True
  | Done r => outcome t l i tk r
  | WaitResp ev => nth_error (s_events s) ev = Some true -> dmem rid (s_resp s) = true \/ told_off s rid
  | _ => dmem rid (s_req s) = true \/ too_early t l i rid
  end.
Definition whys (t : timer) (l : list step) : Prop := forall i tk, nth_error (s_tasks (run t l)) i = Some tk -> why t l i tk.
Lemma run_snoc t l o : run t (l ++ [o]) = run_step o (run t l).
Proof. unfold run. rewrite fold_left_app. reflexivity. Qed.
Lemma told_more t l o rid : told_off (run t l) rid -> told_off (run t (l ++ [o])) rid.
Proof. intros (p & G & H). exists p. split; [|exact H]. rewrite run_snoc. exact (seen_mono _ _ _ (step_links o _) G). Qed.
Lemma early_more t l o i rid : too_early t l i rid -> too_early t (l ++ [o]) i rid.
Proof. intros (l1 & c & l2 & tk & k & k' & frame & p & -> & H). exists l1, c, (l2 ++ [o]), tk, k, k', frame, p. split; [rewrite <- app_assoc; reflexivity|exact H]. Qed.
Lemma outcome_more t l o i tk r : outcome t l i tk r -> outcome t (l ++ [o]) i tk r.
Proof.
  destruct r as [|p|e]; cbn.
  - intros [H|[H|[H|H]]]; [left; exact H|right; left|right; right; left|right; right; right; exact H]; apply in_or_app; auto.
  - intros (G & H). split; [|exact H]. rewrite run_snoc. exact (seen_mono _ _ _ (step_links o _) G).
  - intros [H|[(E & H)|(E & [H|H])]]; [left; exact H|right; left; split; [exact E|apply in_or_app; auto]|right; right; split; [exact E|left; apply told_more; exact H]|right; right; split; [exact E|right; apply early_more; exact H]].
Qed.
Lemma live_sending tk : on_the_way (t_pc tk) -> live (t_pc tk).
Proof. destruct (t_pc tk); cbn; tauto. Qed.
(** a call that a step leaves where it is *)
Lemma why_stays t l o i tk : why t l i tk ->
  (on_the_way (t_pc tk) -> dmem (rid_of (t_req tk)) (s_req (run t l)) = true -> dmem (rid_of (t_req tk)) (s_req (run_step o (run t l))) = true \/ too_early t (l ++ [o]) i (rid_of (t_req tk))) ->
  (forall ev, t_pc tk = WaitResp ev -> (nth_error (s_events (run t l)) ev = Some true -> dmem (rid_of (t_req tk)) (s_resp (run t l)) = true \/ told_off (run t l) (rid_of (t_req tk))) -> nth_error (s_events (run_step o (run t l))) ev = Some true ->
     dmem (rid_of (t_req tk)) (s_resp (run_step o (run t l))) = true \/ told_off (run_step o (run t l)) (rid_of (t_req tk))) ->
  why t (l ++ [o]) i tk.
Proof.
  intros W A B. unfold why in *. rewrite run_snoc. destruct (t_pc tk) as [|n l0|n l0|n c|n c|ev|r] eqn:Epc; [exact I| | | | |exact (B ev eq_refl W)|exact (outcome_more _ _ _ _ _ _ W)];
    (destruct W as [W|W]; [apply A; [exact I|exact W]|right; apply early_more; exact W]).
Qed.
Lemma dmem_ddel_other {V} k k' (d : dict Z V) : k <> k' -> dmem k d = true -> dmem k (ddel k' d) = true.
Proof. intros N H. unfold dmem in *. rewrite dget_ddel_other by congruence. exact H. Qed.
Lemma dmem_dset {V} k k' (v : V) (d : dict Z V) : dmem k d = true -> dmem k (dset k' v d) = true.
Proof. intros H. unfold dmem in *. destruct (Z.eq_dec k' k) as [->|N]; [rewrite dget_dset_same; reflexivity|rewrite dget_dset_other by congruence; exact H]. Qed.
Lemma dmem_same {V} k (v : V) (d : dict Z V) : dmem k (dset k v d) = true.
Proof. unfold dmem. rewrite dget_dset_same. reflexivity. Qed.
Lemma way_eq p : on_the_way p <-> sending p. Proof. destruct p; cbn; tauto. Qed.
(** a read *)
Lemma whys_read t l c : inv_ev (run t l) -> whys t l -> whys t (l ++ [Read c]).
Proof.
  intros Q W i tk Hi. pose proof (run_links_ok t l) as K. rewrite run_snoc in Hi. cbn [run_step] in Hi. rewrite tasks_read in Hi. specialize (W i tk Hi).
  assert (SR : forall p, (exists frame, consumes c frame (run t l) (read c (run t l)) /\ from_stream BoltResponse frame = Ok p) -> got (read c (run t l)) p).
  { intros p (frame & (k & k' & _ & H & E) & F). exists c, k', frame. split; [exact H|]. split; [rewrite E; apply in_or_app; right; left; reflexivity|exact F]. }
  destruct (read_view c (run t l) K) as [V|(frame & p & Co & F & V)].
  - unfold view in V. injection V as V1 V2 V3 V4. apply why_stays; [exact W| |]; cbn [run_step]; rewrite ?V1; [auto|]. intros ev _ H. rewrite V2, V3. intros E. destruct (H E) as [G|G]; [left; exact G|right; exact (let '(ex_intro _ p (conj G1 G2)) := G in ex_intro _ p (conj (seen_mono _ _ _ (step_links (Read c) _) G1) G2))].
  - pose proof (decoded_cmdcode frame p F) as C. destruct (deliver_view p (run t l) C) as [(_ & D)|(ev0 & Hev & D)].
    { rewrite D in V. unfold view in V. injection V as V1 V2 V3 V4. apply why_stays; [exact W| |]; cbn [run_step]; rewrite ?V1; [auto|]. intros ev _ H. rewrite V2, V3. intros E. destruct (H E) as [G|G]; [left; exact G|right; exact (let '(ex_intro _ p (conj G1 G2)) := G in ex_intro _ p (conj (seen_mono _ _ _ (step_links (Read c) _) G1) G2))]. }
    assert (V1 : s_req (read c (run t l)) = ddel (rid_of p) (s_req (run t l))) by (destruct D as [(_ & D)|(_ & D)]; rewrite D in V; unfold view in V; injection V as V1 V2 V3 V4; exact V1).
    assert (V3 : s_events (read c (run t l)) = upd ev0 (fun _ => true) (s_events (run t l))) by (destruct D as [(_ & D)|(_ & D)]; rewrite D in V; unfold view in V; injection V as V1' V2 V3 V4; exact V3).
    assert (V2 : (says_ok p /\ s_resp (read c (run t l)) = dset (rid_of p) p (s_resp (run t l))) \/ (~ says_ok p /\ s_resp (read c (run t l)) = s_resp (run t l))).
    { destruct D as [(Su & D)|(Su & D)]; rewrite D in V; unfold view in V; injection V as V1' V2 V3' V4; [left|right]; (split; [exact Su|exact V2]). }
    clear D V. apply why_stays; [exact W| |]; cbn [run_step].
    + intros Wy M. rewrite V1. destruct (Z.eq_dec (rid_of (t_req tk)) (rid_of p)) as [E|E]; [right|left; apply dmem_ddel_other; assumption].
      destruct Co as (k & k' & Hk & Hk' & Ef). exists l, c, [], tk, k, k', frame, p. split; [reflexivity|]. split; [exact Hi|]. split; [exact Wy|]. split; [reflexivity|]. split; [exact Hk|]. split; [rewrite run_snoc; exact Hk'|]. auto.
    + intros ev Ew H E. destruct (Nat.eq_dec ev0 ev) as [->|Ne].
      * assert (R : rid_of p = rid_of (t_req tk)) by exact (proj1 (proj2 (e_own _ Q i tk ev Hi Ew)) _ Hev). destruct V2 as [(_ & ->)|(Ns & _)]; [left; rewrite R; apply dmem_same|right]. exists p. split; [apply SR; exists frame; auto|auto].
      * rewrite V3, upd_other in E by exact Ne. destruct (H E) as [G|(p' & G & G')]; [left|right; exists p'; split; [exact (seen_mono _ _ _ (step_links (Read c) _) G)|exact G']].
        destruct V2 as [(_ & ->)|(_ & ->)]; [apply dmem_dset; exact G|exact G].
Qed.
(** any other step *)
Lemma whys_other t l o : (forall c, o <> Read c) -> inv (run t l) -> inv_ev (run t l) -> inv_live (run t l) -> whys t l -> whys t (l ++ [o]).
Proof.
  intros No I Q Lv W i tk Hi. pose proof (step_eff o _ (i_links _ I)) as E. rewrite run_snoc in Hi.
  assert (TO : forall rid, told_off (run t l) rid -> told_off (run_step o (run t l)) rid) by (intros rid H; rewrite <- run_snoc; apply told_more; exact H).
  (* the calls that do not move *)
  assert (Old : forall tk, nth_error (s_tasks (run t l)) i = Some tk -> (dmem (rid_of (t_req tk)) (s_req (run t l)) = true -> live (t_pc tk) -> dmem (rid_of (t_req tk)) (s_req (run_step o (run t l))) = true) ->
    (forall ev, t_pc tk = WaitResp ev -> nth_error (s_events (run_step o (run t l))) ev = Some true -> nth_error (s_events (run t l)) ev = Some true) ->
    (dmem (rid_of (t_req tk)) (s_resp (run t l)) = true -> live (t_pc tk) -> dmem (rid_of (t_req tk)) (s_resp (run_step o (run t l))) = true) -> why t (l ++ [o]) i tk).
  { intros tk0 H0 A B C. apply why_stays; [exact (W i tk0 H0)| |].
    - intros Wy M. left. apply A; [exact M|apply live_sending; exact Wy].
    - intros ev Ew H Et. destruct (H (B ev Ew Et)) as [G|G]; [left; apply C; [exact G|rewrite Ew; exact Logic.I]|right; apply TO; exact G]. }
  pose proof (i_wfreq _ I) as W1. pose proof (i_wfresp _ I) as W2.
  assert (Di : forall j tj tk0, nth_error (s_tasks (run t l)) j = Some tj -> live (t_pc tj) -> nth_error (s_tasks (run t l)) i = Some tk0 -> live (t_pc tk0) -> j <> i -> rid_of (t_req tk0) <> rid_of (t_req tj)).
  { intros j tj tk0 Hj Lj H0 L0 Ne Er. apply Ne. symmetry. exact (l_distinct _ Lv i j tk0 tj H0 Hj L0 Lj Er). }
  pose proof (none_why o (run t l) i tk Hi) as Nw.
  destruct E as [V|t0 Hp Hr V|j t0 e Ht Hp Ha V|j t0 p Ht Hp Hs V|j t0 p Ht Hs Hs' V|j t0 Ht Hs Hm V|j t0 Ht Hs Hm V|j t0 ev Ht Hs Hg V|j t0 ev p Ho Ht Hp He Hg V|j t0 ev Ho Ht Hp He Hg V|j t0 Ho Ht Hl V|p c k frame ev Ho Hk Hf Hd Su Hev V|p c k frame ev Ho Hk Hf Hd Su Hev V];
    try (destruct (No _ Ho)); unfold view in V; injection V as V1 V2 V3 V4; rewrite V4 in Hi.
  - apply Old; [exact Hi|rewrite V1; auto|rewrite V3; auto|rewrite V2; auto].
  - apply nth_app in Hi as [Hi|(-> & ->)]; [apply Old; [exact Hi|rewrite V1; auto|rewrite V3; auto|rewrite V2; auto]|]. unfold why. rewrite Hp. exact Logic.I.
  - apply moved_get in Hi as [(_ & Hi)|(-> & t1 & Hi & ->)]; [apply Old; [exact Hi|rewrite V1; auto|rewrite V3; auto|rewrite V2; auto]|]. unfold why. cbn. left. congruence.
  - apply moved_get in Hi as [(Ne & Hi)|(-> & t1 & Hi & ->)].
    + apply Old; [exact Hi|rewrite V1; intros M _; apply dmem_dset; exact M| |rewrite V2; auto]. rewrite V3. intros ev _ Et. apply nth_app in Et as [Et|(_ & [=])]. exact Et.
    + assert (t1 = t0) by congruence. subst t1. apply way_eq in Hs. unfold why. rewrite run_snoc, V1. cbn [at_pc t_pc t_req]. destruct p; try destruct Hs; left; apply dmem_same.
  - apply moved_get in Hi as [(Ne & Hi)|(-> & t1 & Hi & ->)]; [apply Old; [exact Hi|rewrite V1; auto|rewrite V3; auto|rewrite V2; auto]|]. assert (t1 = t0) by congruence. subst t1.
    assert (G : dmem (rid_of (t_req t0)) (s_req (run t l)) = true \/ too_early t l i (rid_of (t_req t0))) by (pose proof (W i t0 Hi) as G; unfold why in G; destruct (t_pc t0); try destruct Hs; exact G).
    unfold why. rewrite run_snoc, V1. cbn [at_pc t_pc t_req]. assert (G' : dmem (rid_of (t_req t0)) (s_req (run t l)) = true \/ too_early t (l ++ [o]) i (rid_of (t_req t0))) by (destruct G; [left|right; apply early_more]; assumption). destruct p; try destruct Hs'; exact G'.
  - apply moved_get in Hi as [(Ne & Hi)|(-> & t1 & Hi & ->)].
    + apply Old; [exact Hi| |rewrite V3; auto|rewrite V2; auto]. rewrite V1. intros M Li. apply dmem_ddel_other; [|exact M]. apply (Di j t0 tk Ht); auto. apply sending_live. exact Hs.
    + assert (t1 = t0) by congruence. subst t1. unfold why. cbn [at_pc t_pc t_req outcome]. destruct (Nw eq_refl) as [H|[H|[H|[H|H]]]].
      * exfalso. rewrite Hi in H. injection H as H. rewrite H in Hs. exact Hs.
      * right. left. apply in_or_app. right. left. exact H.
      * right. right. left. apply in_or_app. right. left. exact H.
      * right. right. right. exact H.
      * left. exact H.
  - apply moved_get in Hi as [(Ne & Hi)|(-> & t1 & Hi & ->)]; [apply Old; [exact Hi|rewrite V1; auto|rewrite V3; auto|rewrite V2; auto]|]. assert (t1 = t0) by congruence. subst t1.
    assert (G : dmem (rid_of (t_req t0)) (s_req (run t l)) = true \/ too_early t l i (rid_of (t_req t0))) by (pose proof (W i t0 Hi) as G; unfold why in G; destruct (t_pc t0); try destruct Hs; exact G).
    unfold why. cbn. right. right. split; [reflexivity|]. right. destruct G as [G|G]; [congruence|apply early_more; exact G].
  - apply moved_get in Hi as [(Ne & Hi)|(-> & t1 & Hi & ->)]; [apply Old; [exact Hi|rewrite V1; auto|rewrite V3; auto|rewrite V2; auto]|]. assert (t1 = t0) by congruence. subst t1. unfold why. rewrite run_snoc, V3. cbn [at_pc t_pc t_req].
    intros Et. rewrite (e_unset _ Q _ _ Hg) in Et. discriminate.
  - apply moved_get in Hi as [(Ne & Hi)|(-> & t1 & Hi & ->)].
    + apply Old; [exact Hi|rewrite V1; auto|rewrite V3; auto|]. rewrite V2. intros M Li. apply dmem_ddel_other; [|exact M]. apply (Di j t0 tk Ht); auto. rewrite Hp. exact Logic.I.
    + assert (t1 = t0) by congruence. subst t1. unfold why. cbn [at_pc t_pc t_req outcome]. destruct (i_resp _ I _ _ Hg) as (A & B & C). split; [rewrite run_snoc; exact (seen_mono _ _ _ (step_links o _) C)|]. auto.
  - apply moved_get in Hi as [(Ne & Hi)|(-> & t1 & Hi & ->)]; [apply Old; [exact Hi|rewrite V1; auto|rewrite V3; auto|rewrite V2; auto]|]. assert (t1 = t0) by congruence. subst t1.
    pose proof (W i t0 Hi) as G. unfold why in G. rewrite Hp in G. unfold why. cbn. right. right. split; [reflexivity|]. left. destruct (G He) as [G'|G']; [unfold dmem in G'; rewrite Hg in G'; discriminate|apply told_more; exact G'].
  - apply moved_get in Hi as [(Ne & Hi)|(-> & t1 & Hi & ->)]; [apply Old; [exact Hi|rewrite V1; auto|rewrite V3; auto|rewrite V2; auto]|]. unfold why. cbn. right. left. split; [reflexivity|]. apply in_or_app. right. left. exact Ho.
Qed.
Lemma whys_run t l : distinct_ids (init t) l -> whys t l.
Proof.
  induction l as [|o l IH] using rev_ind; [intros _ [|i] tk [=]|]. intros D. apply distinct_app in D as (D & _). destruct (inv_all_run t l D) as (I & Q & Lv). specialize (IH D).
  destruct o; lazymatch goal with |- whys _ (_ ++ [Read _]) => apply whys_read; assumption | _ => apply whys_other; [intros c0 [=]|assumption..] end.
Qed.
Lemma outcome_run t l i tk r : distinct_ids (init t) l -> nth_error (s_tasks (run t l)) i = Some tk -> t_pc tk = Done r -> outcome t l i tk r.
Proof. intros D H E. pose proof (whys_run t l D i tk H) as W. unfold why in W. rewrite E in W. exact W. Qed.
Lemma got_more t l l2 p : got (run t l) p -> got (run t (l ++ l2)) p.
Proof. intros G. induction l2 as [|o l2 IH] using rev_ind; [rewrite app_nil_r; exact G|]. rewrite app_assoc, run_snoc. exact (seen_mono _ _ _ (step_links o _) IH). Qed.

(** ** A reply that comes too early is lost *)
Definition lost (s : st) (i : nat) (rid : Z) : Prop := exists tk, nth_error (s_tasks s) i = Some tk /\ rid_of (t_req tk) = rid /\
  ((on_the_way (t_pc tk) /\ dmem rid (s_req s) = false) \/ t_pc tk = Done (RetErr KeyError) \/ t_pc tk = Done (RetErr CancelledError)).
Lemma dmem_gone {V} k k' (d : dict Z V) : wf_dict d -> dmem k d = false -> dmem k (ddel k' d) = false.
Proof. intros W H. destruct (Z.eq_dec k' k) as [->|N]; unfold dmem in *; [rewrite dget_ddel_same by exact W; reflexivity|rewrite dget_ddel_other by congruence; exact H]. Qed.
Lemma lost_step o s i rid : inv s -> inv_live s -> lost s i rid -> lost (run_step o s) i rid.
Proof.
  intros I Lv (tk & Hi & R & C). pose proof (step_eff o s (i_links _ I)) as E. pose proof (i_wfreq _ I) as W1.
  (* where call i stands afterwards, if it is not the one that moves *)
  assert (Stay : forall j p tj, nth_error (s_tasks s) j = Some tj -> j <> i -> s_tasks (run_step o s) = moved j p s -> (on_the_way (t_pc tk) -> dmem rid (s_req s) = false -> dmem rid (s_req (run_step o s)) = false) -> lost (run_step o s) i rid).
  { intros j p tj Hj Ne T D. exists tk. split; [rewrite T; unfold moved; rewrite upd_other by exact Ne; exact Hi|]. split; [exact R|]. destruct C as [(C1 & C2)|C]; [left; split; [exact C1|exact (D C1 C2)]|right; exact C]. }
  assert (Same : s_tasks (run_step o s) = s_tasks s -> (dmem rid (s_req s) = false -> dmem rid (s_req (run_step o s)) = false) -> lost (run_step o s) i rid).
  { intros T D. exists tk. split; [rewrite T; exact Hi|]. split; [exact R|]. destruct C as [(C1 & C2)|C]; [left; split; [exact C1|exact (D C2)]|right; exact C]. }
  assert (Move : forall p, s_tasks (run_step o s) = moved i p s -> (on_the_way p /\ dmem rid (s_req (run_step o s)) = false) \/ p = Done (RetErr KeyError) \/ p = Done (RetErr CancelledError) -> lost (run_step o s) i rid).
  { intros p T D. exists (at_pc p tk). split; [rewrite T; exact (upd_same i _ _ tk Hi)|]. split; [exact R|exact D]. }
  destruct E as [V|t0 Hp Hr V|j t0 e Ht Hp Ha V|j t0 p Ht Hp Hs V|j t0 p Ht Hs Hs' V|j t0 Ht Hs Hm V|j t0 Ht Hs Hm V|j t0 ev Ht Hs Hg V|j t0 ev p Ho Ht Hp He Hg V|j t0 ev Ho Ht Hp He Hg V|j t0 Ho Ht Hl V|p c k frame ev Ho Hk Hf Hd Su Hev V|p c k frame ev Ho Hk Hf Hd Su Hev V];
    unfold view in V; injection V as V1 V2 V3 V4.
  - apply Same; [exact V4|rewrite V1; auto].
  - exists tk. split; [rewrite V4; rewrite nth_error_app1 by (apply nth_error_Some; congruence); exact Hi|]. split; [exact R|]. rewrite V1. exact C.
  - assert (Ne : j <> i) by (intros ->; assert (t0 = tk) by congruence; subst t0; rewrite Hp in C; destruct C as [([] & _)|[C|C]]; discriminate C). apply (Stay j _ t0 Ht Ne V4). rewrite V1. auto.
  - assert (Ne : j <> i) by (intros ->; assert (t0 = tk) by congruence; subst t0; rewrite Hp in C; destruct C as [([] & _)|[C|C]]; discriminate C). apply (Stay j _ t0 Ht Ne V4). rewrite V1. intros C1 C2.
    assert (Nr : rid_of (t_req t0) <> rid) by (intros Er; apply Ne; apply (l_distinct _ Lv j i t0 tk Ht Hi); [rewrite Hp; exact Logic.I|apply live_sending; exact C1|congruence]). unfold dmem in *. rewrite dget_dset_other by congruence. exact C2.
  - destruct (Nat.eq_dec j i) as [->|Ne]; [|apply (Stay j _ t0 Ht Ne V4); rewrite V1; auto]. assert (t0 = tk) by congruence. subst t0. apply (Move _ V4). destruct C as [(C1 & C2)|C]; [left; split; [apply way_eq; exact Hs'|rewrite V1; exact C2]|destruct C as [C|C]; rewrite C in Hs; destruct Hs].
  - destruct (Nat.eq_dec j i) as [->|Ne]; [|apply (Stay j _ t0 Ht Ne V4); rewrite V1; intros _; apply dmem_gone; exact W1]. assert (t0 = tk) by congruence. subst t0. exfalso. destruct C as [(C1 & C2)|[C|C]]; [congruence|rewrite C in Hs; exact Hs..].
  - destruct (Nat.eq_dec j i) as [->|Ne]; [|apply (Stay j _ t0 Ht Ne V4); rewrite V1; auto]. apply (Move _ V4). right. left. reflexivity.
  - destruct (Nat.eq_dec j i) as [->|Ne]; [|apply (Stay j _ t0 Ht Ne V4); rewrite V1; auto]. assert (t0 = tk) by congruence. subst t0. exfalso. destruct C as [(C1 & C2)|[C|C]]; [unfold dmem in C2; rewrite <- R, Hg in C2; discriminate|rewrite C in Hs; exact Hs..].
  - destruct (Nat.eq_dec j i) as [->|Ne]; [|apply (Stay j _ t0 Ht Ne V4); rewrite V1; auto]. assert (t0 = tk) by congruence. subst t0. exfalso. rewrite Hp in C. destruct C as [([] & _)|[C|C]]; discriminate C.
  - destruct (Nat.eq_dec j i) as [->|Ne]; [|apply (Stay j _ t0 Ht Ne V4); rewrite V1; auto]. apply (Move _ V4). right. left. reflexivity.
  - destruct (Nat.eq_dec j i) as [->|Ne]; [|apply (Stay j _ t0 Ht Ne V4); rewrite V1; auto]. apply (Move _ V4). right. right. reflexivity.
  - apply Same; [exact V4|rewrite V1; apply dmem_gone; exact W1].
  - apply Same; [exact V4|rewrite V1; apply dmem_gone; exact W1].
Qed.
Lemma lost_run t l l2 i rid : distinct_ids (init t) (l ++ l2) -> lost (run t l) i rid -> lost (run t (l ++ l2)) i rid.
Proof.
  intros D H. revert D. induction l2 as [|o l2 IH] using rev_ind; intros D; [rewrite app_nil_r; exact H|]. rewrite app_assoc in *. pose proof (proj1 (proj1 (distinct_app _ _ _) D)) as D1. destruct (inv_all_run t _ D1) as (I & _ & Lv). rewrite run_snoc. apply lost_step; auto.
Qed.
Lemma early_lost t l i tk r : distinct_ids (init t) l -> nth_error (s_tasks (run t l)) i = Some tk -> too_early t l i (rid_of (t_req tk)) -> t_pc tk = Done r -> r = RetErr KeyError \/ r = RetErr CancelledError.
Proof.
  intros D Hi (l1 & c & l2 & tk0 & k & k' & frame & p & -> & H0 & Wy & R0 & Hk & Hk' & Ef & F & R) Hd. change (Read c :: l2) with ([Read c] ++ l2) in *. rewrite app_assoc in *.
  assert (L : lost (run t (l1 ++ [Read c])) i (rid_of (t_req tk))).
  { rewrite run_snoc in *. cbn [run_step] in *. exists tk0. rewrite tasks_read. split; [exact H0|]. split; [exact R0|]. left. split; [exact Wy|].
    assert (Co : consumes c frame (run t l1) (read c (run t l1))) by (exists k, k'; auto). pose proof (read_consumes c frame _ (run_links_ok t l1) Co) as V. rewrite F in V. rewrite <- R.
    destruct (deliver_view p (run t l1) (decoded_cmdcode _ _ F)) as [(N & D')|(ev & _ & [(_ & D')|(_ & D')])]; rewrite D' in V; unfold view in V; injection V as V1 _ _ _; unfold dmem; rewrite V1; [rewrite N; reflexivity|rewrite dget_ddel_same; [reflexivity|]..]; exact (i_wfreq _ (inv_run t l1)). }
  apply (lost_run t _ l2) in L; [|exact D]. destruct L as (tk' & Hi' & _ & C). assert (tk' = tk) by congruence. subst tk'. rewrite Hd in C. destruct C as [([] & _)|[C|C]]; [left|right]; congruence.
Qed.

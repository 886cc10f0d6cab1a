(** Lemmas about the asyncio client, whatever happens: readers that are not cut off, and replies that take the event of their request. *)
From Coq Require Import ZifyBool.
From Verif Require Import PyBase L_PyBase PyDict L_PyDict M_SofaHeader M_Package L_Package L_Codec S_Wire M_SyncClient M_AioClient L_AioClient L_AioClient2 L_AioClient3 L_AioClient4 L_AioClient5 L_AioClient6 L_Settle1.
Open Scope Z_scope.

(** ** What a step other than a run of a reader does to a connection *)
Record keeps_link (o : step) (c : nat) (k k' : link) : Prop := {
  kl_rd : k_rd k' = k_rd k;
  kl_frames : k_frames k' = k_frames k;
  kl_cancel : k_cancel k = true -> k_cancel k' = true;
  kl_exn : k_exn k = true -> k_exn k' = true;
  kl_eof : k_eof k' = true -> k_eof k = true \/ o = Eof c;
  kl_in : exists b, k_in k' = k_in k ++ b
}.
Lemma keeps_self o c k : keeps_link o c k k.
Proof. constructor; auto. exists []. rewrite app_nil_r. reflexivity. Qed.
Lemma links_any o s : (forall c, o <> Read c) -> forall c k', nth_error (s_links (run_step o s)) c = Some k' ->
  (nth_error (s_links s) c = None /\ exists a, k' = new_link a) \/ exists k, nth_error (s_links s) c = Some k /\ keeps_link o c k k'.
Proof.
  intros Nr x k'.
  assert (Z : forall s', s_links s' = s_links s -> nth_error (s_links s') x = Some k' -> (nth_error (s_links s) x = None /\ exists a, k' = new_link a) \/ exists k, nth_error (s_links s) x = Some k /\ keeps_link o x k k') by (intros s' -> H; right; exists k'; split; [exact H|apply keeps_self]).
  assert (F : forall i rid a n c, nth_error (s_links (send_failed i rid a n c s)) x = Some k' -> (nth_error (s_links s) x = None /\ exists a, k' = new_link a) \/ exists k, nth_error (s_links s) x = Some k /\ keeps_link o x k k').
  { intros i rid a n c. rewrite links_failed. intros G. apply upd_get in G as [(_ & G)|(<- & y & G & ->)]; right; [exists k'; split; [exact G|apply keeps_self]|exists y; split; [exact G|]]. constructor; auto. exists []. rewrite app_nil_r. reflexivity. }
  destruct o as [req ad|i|i|i|i|i|i|i|i|c bs|c|c|c|rid|]; cbn [run_step].
  - apply Z. reflexivity.
  - apply Z. destruct (nth_error (s_tasks s) i) as [t|]; [|reflexivity]. destruct (t_pc t), (t_addr t); try reflexivity. rewrite links_enter. reflexivity.
  - apply Z. destruct (nth_error (s_tasks s) i) as [t|]; [|reflexivity]. destruct (t_pc t), (t_addr t); try reflexivity. destruct (nth_error (s_locks s) l) as [[|]|]; try reflexivity. destruct (dget _ _); reflexivity.
  - destruct (nth_error (s_tasks s) i) as [t|]; [|apply Z; reflexivity]. destruct (t_pc t), (t_addr t) as [a|]; try (apply Z; reflexivity). cbv zeta. destruct (dsetdefault a (List.length (s_links s)) (s_conn _)) as (d, c').
    intros G. cbn in G. apply L_AioClient.nth_app in G as [G|(-> & ->)]; [right; exists k'; split; [exact G|apply keeps_self]|]. left. split; [apply nth_error_None; lia|eauto].
  - apply Z. destruct (nth_error (s_tasks s) i) as [t|]; [|reflexivity]. destruct (t_pc t); try reflexivity. rewrite links_abandon. reflexivity.
  - destruct (nth_error (s_tasks s) i) as [t|] eqn:Et; [|apply Z; reflexivity]. destruct (t_pc t), (t_addr t) as [a|]; try (apply Z; reflexivity); try (apply Z; apply links_sent).
    destruct (to_stream (t_req t)); [apply Z; reflexivity|apply F].
  - destruct (nth_error (s_tasks s) i) as [t|] eqn:Et; [|apply Z; reflexivity]. destruct (t_pc t), (t_addr t) as [a|]; try (apply Z; reflexivity); apply F.
  - apply Z. destruct (nth_error (s_tasks s) i) as [t|]; [|reflexivity]. destruct (t_pc t); try reflexivity. destruct (nth_error (s_events s) ev) as [[|]|]; try reflexivity. destruct (dget _ _); reflexivity.
  - apply Z. destruct (nth_error (s_tasks s) i) as [t|]; [|reflexivity]. destruct (t_pc t); reflexivity.
  - intros G. unfold on_link in G. cbn in G. apply upd_get in G as [(_ & G)|(<- & y & G & ->)]; right; [exists k'; split; [exact G|apply keeps_self]|exists y; split; [exact G|]]. constructor; auto. exists bs. reflexivity.
  - intros G. unfold on_link in G. cbn in G. apply upd_get in G as [(_ & G)|(<- & y & G & ->)]; right; [exists k'; split; [exact G|apply keeps_self]|exists y; split; [exact G|]]. constructor; auto. exists []. rewrite app_nil_r. reflexivity.
  - intros G. unfold on_link in G. cbn in G. apply upd_get in G as [(_ & G)|(<- & y & G & ->)]; right; [exists k'; split; [exact G|apply keeps_self]|exists y; split; [exact G|]]. constructor; auto. exists []. rewrite app_nil_r. reflexivity.
  - destruct (Nr c eq_refl).
  - apply Z. destruct (s_timer s); reflexivity.
  - apply Z. destruct (s_timer s); try reflexivity. destruct (nth_error (s_tasks s) i) as [t|]; [|reflexivity]. destruct (t_pc t) as [| | | | | |[| |]]; reflexivity.
Qed.
Lemma is_read o : (exists c, o = Read c) \/ forall c, o <> Read c.
Proof. destruct o; try (right; discriminate). left. eexists. reflexivity. Qed.
(** what a run of a reader does to a connection *)
Lemma links_read c s x k' : nth_error (s_links (read c s)) x = Some k' -> (nth_error (s_links s) x = Some k' /\ x <> c) \/ (x = c /\ exists k, nth_error (s_links s) c = Some k /\ k' = rd_next k).
Proof.
  destruct (nth_error (s_links s) c) as [k|] eqn:Ek.
  - rewrite (read_next c s k Ek). intros G. apply upd_get in G as [(N & G)|(E & y & G & ->)]; [left; auto|right]. subst. split; [reflexivity|]. exists k. auto.
  - unfold read. rewrite Ek. intros G. left. split; [exact G|]. intros ->. congruence.
Qed.
Lemma next_flags k : k_eof (rd_next k) = k_eof k /\ k_cancel (rd_next k) = k_cancel k /\ k_exn (rd_next k) = k_exn k /\ k_in (rd_next k) = k_in k.
Proof. unfold rd_next. destruct (k_rd k); [auto| | |auto]; (destruct (_ || _); [auto|]; destruct (_ <=? _); [auto|]; destruct (k_eof k) eqn:E; cbn; auto). Qed.

(** ** A reader that is not cut off has read all frames *)
Definition stuck (k : link) : Prop := match k_rd k with RdHead => len (k_buf k) < 20 | RdBody _ _ n => len (k_buf k) < n | _ => False end.
Lemma stuck_frames k fs tail : link_ok k -> stuck k -> k_in k = concat fs ++ tail -> Forall frame_ok fs -> exists more, k_frames k = fs ++ more.
Proof.
  intros LO St E F. assert (Nd : k_rd k <> RdDone) by (intros H; unfold stuck in St; rewrite H in St; exact St). assert (I := lo_in _ LO Nd). fold (carry k) in I.
  assert (C : (exists r, fs = k_frames k ++ r) \/ (exists r, k_frames k = fs ++ r)) by (apply (frames_comparable _ _ (carry k) tail); [apply (lo_frames _ LO)|exact F|congruence]).
  destruct C as [(r & ->)|(r & Er)]; [|eauto]. destruct r as [|a r]; [exists []; rewrite !app_nil_r; reflexivity|exfalso].
  rewrite concat_app, <- app_assoc in E. rewrite E in I. apply app_inv_head in I. apply Forall_app in F as (_ & F). inversion F as [|? ? Fa _]; subst. cbn [concat] in I. rewrite <- app_assoc in I.
  pose proof (len_nonneg (concat r ++ tail)) as P. unfold carry, stuck in *. destruct (k_rd k) as [| |fx h n|] eqn:Hr; try contradiction.
  - pose proof (f_equal (@len byte) I) as L. cbn [app] in L. rewrite !len_app in L. rewrite len_app in P. destruct Fa. lia.
  - destruct (lo_body _ LO _ _ _ Hr) as (Lf & -> & ->). assert (Tf : resp_total fx = len a) by (rewrite <- (frame_total a (concat r ++ tail) Fa), I, py_take_app' by lia; reflexivity).
    pose proof (f_equal (@len byte) I) as L. rewrite !len_app in L. rewrite len_app in P. lia.
Qed.

Definition at_ (t : timer) (h : list step) (c : nat) (k : link) : Prop := nth_error (s_links (run t h)) c = Some k.
Lemma lost_once t h c k : at_ t h c k -> k_eof k = true -> exists h1 h2 k1, h = h1 ++ Eof c :: h2 /\ at_ t h1 c k1.
Proof.
  revert c k. induction h as [|o h IH] using rev_ind; intros c k H E; [destruct c; discriminate|]. unfold at_ in H. rewrite run_snoc in H.
  assert (More : forall k0, at_ t h c k0 -> k_eof k0 = true -> exists h1 h2 k1, h ++ [o] = h1 ++ Eof c :: h2 /\ at_ t h1 c k1).
  { intros k0 H0 E0. destruct (IH c k0 H0 E0) as (h1 & h2 & k1 & -> & H1). exists h1, (h2 ++ [o]), k1. split; [rewrite <- app_assoc; reflexivity|exact H1]. }
  destruct (is_read o) as [(c0 & ->)|Nr].
  - cbn [run_step] in H. apply links_read in H as [(H & _)|(-> & k0 & H & ->)]; [exact (More k H E)|]. destruct (next_flags k0) as (N1 & _). apply (More k0 H). congruence.
  - destruct (links_any o _ Nr c k H) as [(_ & a & ->)|(k0 & H0 & K)]; [discriminate|]. destruct (kl_eof _ _ _ _ K E) as [E0| ->]; [exact (More k0 H0 E0)|]. exists h, [], k0. auto.
Qed.
Lemma arrives_more t h h2 c k k' : at_ t h c k -> at_ t (h ++ h2) c k' -> exists b, k_in k' = k_in k ++ b.
Proof.
  intros H. revert k'. induction h2 as [|o h2 IH] using rev_ind; intros k' H'; [rewrite app_nil_r in H'; unfold at_ in *; exists []; rewrite app_nil_r; congruence|]. unfold at_ in H'. rewrite app_assoc, run_snoc in H'.
  assert (Th : forall k0, at_ t (h ++ h2) c k0 -> (exists b, k_in k' = k_in k0 ++ b) -> exists b, k_in k' = k_in k ++ b).
  { intros k0 H0 (b & ->). destruct (IH k0 H0) as (b0 & ->). exists (b0 ++ b). rewrite app_assoc. reflexivity. }
  destruct (is_read o) as [(c0 & ->)|Nr].
  - cbn [run_step] in H'. apply links_read in H' as [(H' & _)|(-> & k0 & H' & ->)]; [exact (IH k' H')|]. apply (Th k0 H'). destruct (next_flags k0) as (_ & _ & _ & ->). exists []. rewrite app_nil_r. reflexivity.
  - destruct (links_any o _ Nr c k' H') as [(H0 & _)|(k0 & H0 & K)]; [|exact (Th k0 H0 (kl_in _ _ _ _ K))]. exfalso.
    clear - H H0. revert H0. induction h2 as [|o h2 IH] using rev_ind; [rewrite app_nil_r; unfold at_ in H; congruence|]. rewrite app_assoc, run_snoc. intros H0. destruct (step_links o (run t (h ++ h2))) as (L & _). apply nth_error_None in H0.
    apply IH. apply nth_error_None. lia.
Qed.
(** why a reader has ended *)
Lemma reader_ended t h c k : at_ t h c k -> k_rd k = RdDone -> k_cancel k = true \/ k_exn k = true \/
  exists h1 h2 k1, h = h1 ++ h2 /\ at_ t h1 c k1 /\ k_eof k1 = true /\ stuck k1 /\ k_frames k = k_frames k1.
Proof.
  revert c k. induction h as [|o h IH] using rev_ind; intros c k H E; [destruct c; discriminate|]. unfold at_ in H. rewrite run_snoc in H.
  assert (More : forall k0, at_ t h c k0 -> k_rd k0 = RdDone -> (k_cancel k0 = true -> k_cancel k = true) -> (k_exn k0 = true -> k_exn k = true) -> k_frames k = k_frames k0 -> k_cancel k = true \/ k_exn k = true \/
    exists h1 h2 k1, h ++ [o] = h1 ++ h2 /\ at_ t h1 c k1 /\ k_eof k1 = true /\ stuck k1 /\ k_frames k = k_frames k1).
  { intros k0 H0 E0 A B Cf. destruct (IH c k0 H0 E0) as [I|[I|(h1 & h2 & k1 & -> & H1 & E1 & S1 & F1)]]; [auto|auto|]. right. right. exists h1, (h2 ++ [o]), k1. rewrite <- app_assoc. repeat split; auto; congruence. }
  destruct (is_read o) as [(c0 & ->)|Nr].
  - cbn [run_step] in H. apply links_read in H as [(H & _)|(-> & k0 & H & ->)]; [apply (More k H E); auto|].
    assert (New : k_eof k0 = true -> stuck k0 -> k_frames (rd_next k0) = k_frames k0 -> exists h1 h2 k1, h ++ [Read c0] = h1 ++ h2 /\ at_ t h1 c0 k1 /\ k_eof k1 = true /\ stuck k1 /\ k_frames (rd_next k0) = k_frames k1) by (intros A B C; exists h, [Read c0], k0; auto 10).
    destruct (next_flags k0) as (N1 & N2 & N3 & _). destruct (k_rd k0) as [| |fx hd n|] eqn:Er; unfold stuck in New; rewrite ?Er in New.
    + left. unfold rd_next in *. rewrite Er in *. cbn in *. destruct (k_cancel k0); [reflexivity|discriminate].
    + rewrite N2, N3. destruct (k_cancel k0 || k_exn k0) eqn:Ec; [apply orb_prop in Ec as [->| ->]; auto|]. right. right. apply New; unfold rd_next in *; rewrite ?Er, ?Ec in *; destruct (Z.leb_spec 20 (len (k_buf k0))); try discriminate; destruct (k_eof k0); try reflexivity; try lia; cbn in E; congruence.
    + rewrite N2, N3. destruct (k_cancel k0 || k_exn k0) eqn:Ec; [apply orb_prop in Ec as [->| ->]; auto|]. right. right. apply New; unfold rd_next in *; rewrite ?Er, ?Ec in *; destruct (Z.leb_spec n (len (k_buf k0))); try discriminate; destruct (k_eof k0); try reflexivity; try lia; cbn in E; congruence.
    + apply (More k0 H Er); try congruence. unfold rd_next. rewrite Er. reflexivity.
  - destruct (links_any o _ Nr c k H) as [(_ & a & ->)|(k0 & H0 & K)]; [discriminate|]. apply (More k0 H0); [rewrite <- (kl_rd _ _ _ _ K); exact E|exact (kl_cancel _ _ _ _ K)|exact (kl_exn _ _ _ _ K)|exact (kl_frames _ _ _ _ K)].
Qed.
Lemma kept_frames t h c k fs tail : at_ t h c k -> k_exn k = false -> k_cancel k = false ->
  (forall h1 h2 k1, h = h1 ++ Eof c :: h2 -> nth_error (s_links (run t h1)) c = Some k1 -> k_in k1 = k_in k) ->
  run_step (Read c) (run t h) = run t h -> k_in k = concat fs ++ tail -> Forall frame_ok fs -> exists more, k_frames k = fs ++ more.
Proof.
  intros H X1 X2 Eo Q E F. assert (D : k_rd k = RdDone \/ k_rd k <> RdDone) by (destruct (k_rd k); auto; right; discriminate). destruct D as [D|D].
  - destruct (reader_ended t h c k H D) as [A|[A|(h1 & h2 & k1 & -> & H1 & E1 & S1 & F1)]]; [congruence|congruence|]. rewrite F1.
    apply (stuck_frames k1 fs tail (run_links_ok t h1 c k1 H1) S1); [|exact F]. rewrite <- E.
    destruct (lost_once t h1 c k1 H1 E1) as (ha & hb & k0 & -> & H0). assert (E0 : k_in k0 = k_in k) by (apply (Eo ha (hb ++ h2)); [rewrite <- app_assoc; reflexivity|exact H0]).
    destruct (arrives_more t ha (Eof c :: hb) c k0 k1 H0 H1) as (b & B). destruct (arrives_more t (ha ++ Eof c :: hb) h2 c k1 k H1 H) as (b' & B').
    assert (b = [] /\ b' = []) as (-> & ->); [|rewrite B', app_nil_r; reflexivity]. rewrite B', B, <- app_assoc in E0. rewrite <- (app_nil_r (k_in k0)) in E0 at 1. apply app_inv_head in E0. symmetry in E0. apply app_eq_nil in E0. exact E0.
  - apply (stuck_frames k fs tail (run_links_ok t h c k H)); try assumption. cbn [run_step] in Q. pose proof (read_next c (run t h) k H) as R. rewrite Q in R.
    assert (N : rd_next k = k). { pose proof H as H'. unfold at_ in H'. rewrite R in H'. apply upd_get in H' as [(N & _)|(_ & y & _ & Y)]; [congruence|symmetry; exact Y]. }
    unfold rd_next, stuck in *. destruct (k_rd k) as [| |fx hd n|] eqn:Er; [|..|congruence].
    + exfalso. apply (f_equal k_rd) in N. rewrite X2 in N. cbn in N. congruence.
    + rewrite X1, X2 in N. cbn [orb] in N. destruct (Z.leb_spec 20 (len (k_buf k))); [|lia]. exfalso. apply (f_equal k_rd) in N. cbn in N. congruence.
    + rewrite X1, X2 in N. cbn [orb] in N. destruct (Z.leb_spec n (len (k_buf k))); [|lia]. exfalso. apply (f_equal k_rd) in N. cbn in N. congruence.
Qed.

(** ** A reply takes the event of its request *)
Lemma seen_any o s p : seen (run_step o s) p -> seen s p \/ exists c frame, o = Read c /\ consumes c frame s (run_step o s) /\ from_stream BoltResponse frame = Ok p.
Proof.
  intros (c & k' & frame & Hk & Hi & Hf). destruct (is_read o) as [(c' & ->)|D].
  - cbn [run_step] in *. pose proof Hk as Hk'. apply links_read in Hk as [(Hk & _)|(-> & k & Ek & ->)]; [left; exists c, k', frame; auto|].
    destruct (next_frames k) as (fs & Ef & [->|(x & ->)]).
    + rewrite Ef, app_nil_r in Hi. left. exists c', k, frame. auto.
    + rewrite Ef in Hi. apply in_app_or in Hi as [Hi|[->|[]]]; [left; exists c', k, frame; auto|]. right. exists c', frame. split; [reflexivity|]. split; [|exact Hf]. exists k, (rd_next k). auto.
  - left. destruct (links_any o s D c k' Hk) as [(_ & a & ->)|(k & G & K)]; [destruct Hi|]. rewrite (kl_frames _ _ _ _ K) in Hi. exists c, k, frame. auto.
Qed.
Definition taken (s : st) (rid : Z) : Prop := forall p, seen s p -> rid_of p = rid -> dget rid (s_req s) = None.
Lemma taken_step o s rid : inv s -> (forall i t p, nth_error (s_tasks s) i = Some t -> t_pc t = Start -> rid_of (t_req t) = rid -> seen s p -> rid_of p <> rid) -> taken s rid -> taken (run_step o s) rid.
Proof.
  intros I N C p0 Sp Ep. destruct (seen_any o s p0 Sp) as [S0|(c0 & frame0 & -> & Co & Hf)].
  - pose proof (C p0 S0 Ep) as G. pose proof (step_eff o s (i_links _ I)) as X. remember (run_step o s) as s' eqn:Es. clear Es.
    destruct X as [V|t Hp Hr V|i t e Ht Hp Ha V|i t p Ht Hp Hs V|i t p Ht Hs Hs' V|i t Ht Hs Hm V|i t Ht Hs Hm V|i t ev Ht Hs Hg V|i t ev p Ho Ht Hp He Hg V|i t ev Ho Ht Hp He Hg V|i t Ho Ht Hl V|p c k frame ev Ho Hk Hi Hf Hs Hg V|p c k frame ev Ho Hk Hi Hf Hs Hg V];
      unfold view in V; injection V as V1 V2 V3 V4; rewrite V1; try exact G; try (apply gone; [apply (i_wfreq _ I)|exact G]).
    rewrite dget_dset_other; [exact G|]. intros E. apply (N i t p0 Ht Hp (eq_sym E) S0 Ep).
  - pose proof (read_consumes c0 frame0 s (i_links _ I) Co) as R. rewrite Hf in R. cbn [run_step]. rewrite <- Ep. destruct (deliver_view p0 s (decoded_cmdcode _ _ Hf)) as [(G & E)|(ev & _ & [(_ & E)|(_ & E)])]; rewrite E in R; unfold view in R; injection R as R1 _ _ _; rewrite R1.
    + exact G.
    + apply dget_ddel_same. apply (i_wfreq _ I).
    + apply dget_ddel_same. apply (i_wfreq _ I).
Qed.

(** ** A coroutine that has sent its request and can do nothing more *)
Lemma past_idle t l i tk : nth_error (s_tasks (run t l)) i = Some tk -> fresh_of (t_pc tk) = O -> run_step (DrainOk i) (run t l) = run t l -> run_step (Wake i) (run t l) = run t l ->
  (exists r, t_pc tk = Done r) \/ exists ev, t_pc tk = WaitResp ev /\ nth_error (s_events (run t l)) ev = Some false.
Proof.
  intros Hi Fr I4 I5. pose proof (inv_ev_run t l) as Ev. set (s := run t l) in *. destruct (t_pc tk) as [|n k|n k|n c|n c|ev|r] eqn:Hp; try discriminate.
  - exfalso. cbn [run_step] in I4. rewrite Hi, Hp in I4. assert (E : sent i (t_req tk) s = s) by (destruct (t_addr tk); exact I4). unfold sent in E. destruct (dget _ _) as [ev|]; [destruct (_ =? _)|];
      pose proof (goto_away _ _ _ _ _ E Hi eq_refl); congruence.
  - right. exists ev. split; [reflexivity|]. destruct (e_own _ Ev i tk ev Hi Hp) as (Le & _). fold s in Le. destruct (nth_error (s_events s) ev) as [[|]|] eqn:Ee; [|reflexivity|apply nth_error_None in Ee; lia].
    exfalso. cbn [run_step] in I5. rewrite Hi, Hp, Ee in I5. destruct (dget _ _) as [p|]; pose proof (goto_away _ _ _ _ _ I5 Hi eq_refl); congruence.
  - left. exists r. reflexivity.
Qed.

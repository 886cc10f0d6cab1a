(** Lemmas about the asyncio client when nothing fails: no step of the schedule is a cancellation, a failed dial, a
    failed drain or the loss of a connection, and every request can be encoded. *)
From Coq Require Import ZifyBool.
From Verif Require Import PyBase L_PyBase PyDict L_PyDict M_SofaHeader M_Package L_Package L_Codec S_Wire M_SyncClient M_AioClient L_AioClient L_AioClient2 L_AioClient3 L_AioClient4 L_AioClient5 L_AioClient6.
Open Scope Z_scope.

Definition calm (o : step) : Prop :=
  match o with
  | Cancel _ | DialFail _ | DrainFail _ | Eof _ | Reset _ => False
  | Call req _ => exists bs, to_stream req = Ok bs
  | Beat rid => forall p, heartbeat_new_request rid = Ok p -> exists bs, to_stream p = Ok bs
  | _ => True
  end.
Lemma calm_quiet o : calm o -> quiet o.
Proof. destruct o; cbn; tauto. Qed.
Definition encodable (s : st) : Prop := forall i t, nth_error (s_tasks s) i = Some t -> exists bs, to_stream (t_req t) = Ok bs.
Lemma dials_encodable s : dials_of s -> encodable s.
Proof. intros D i t H. exact (d_enc _ _ _ _ _ D i t H). Qed.

(** ** Connections stay as they should *)
Definition fine_link (k : link) : Prop := k_eof k = false /\ k_exn k = false /\ k_cancel k = false /\ k_rd k <> RdDone.
Definition fine (s : st) : Prop := forall c k, nth_error (s_links s) c = Some k -> fine_link k.
Lemma fine_same s s' : s_links s' = s_links s -> fine s -> fine s'.
Proof. intros E F c k. rewrite E. apply F. Qed.
Lemma fine_upd s s' x f : s_links s' = upd x f (s_links s) -> (forall k, nth_error (s_links s) x = Some k -> fine_link k -> fine_link (f k)) -> fine s -> fine s'.
Proof. intros E H F c k. rewrite E. intros G. apply upd_get in G as [(_ & G)|(<- & y & G & ->)]; [exact (F _ _ G)|]. apply H; [exact G|]. exact (F _ _ G). Qed.
Lemma fine_next k : fine_link k -> fine_link (rd_next k).
Proof.
  intros (A & B & C & D). unfold rd_next, fine_link. rewrite A, B, C. destruct (k_rd k) eqn:E; cbn; [|..|congruence].
  - rewrite A, B, C. repeat split; discriminate.
  - destruct (20 <=? len (k_buf k)); cbn; rewrite ?A, ?B, ?C, ?E; repeat split; discriminate.
  - destruct (_ <=? _); cbn; rewrite ?A, ?B, ?C, ?E; repeat split; discriminate.
Qed.
Lemma fine_step o s : calm o -> encodable s -> fine s -> fine (run_step o s).
Proof.
  intros Q En F. destruct o as [req ad|i|i|i|i|i|i|i|i|c bs|c|c|c|rid|]; cbn [calm] in Q; try contradiction; cbn [run_step].
  - exact F.
  - destruct (nth_error (s_tasks s) i) as [t|]; [|exact F]. destruct (t_pc t), (t_addr t); try exact F. eapply fine_same; [|exact F]. rewrite links_enter. reflexivity.
  - destruct (nth_error (s_tasks s) i) as [t|]; [|exact F]. destruct (t_pc t), (t_addr t); try exact F. destruct (nth_error (s_locks s) l) as [[|]|]; try exact F. destruct (dget _ _); exact F.
  - destruct (nth_error (s_tasks s) i) as [t|]; [|exact F]. destruct (t_pc t), (t_addr t) as [a|]; try exact F. cbv zeta. destruct (dsetdefault a (List.length (s_links s)) (s_conn _)) as (d, c').
    intros c k G. cbn in G. apply L_AioClient.nth_app in G as [G|(_ & ->)]; [exact (F _ _ G)|]. repeat split; discriminate.
  - destruct (nth_error (s_tasks s) i) as [t|] eqn:Et; [|exact F]. destruct (t_pc t), (t_addr t) as [a|]; try exact F; try (eapply fine_same; [apply links_sent|exact F]).
    destruct (En _ _ Et) as (bs & ->). exact F.
  - destruct (nth_error (s_tasks s) i) as [t|]; [|exact F]. destruct (t_pc t); try exact F. destruct (nth_error _ _) as [[|]|]; try exact F. destruct (dget _ _); exact F.
  - eapply fine_upd; [reflexivity| |exact F]. intros k _ (A & B & C & D). repeat split; assumption.
  - destruct (nth_error (s_links s) c) as [k|] eqn:Ek.
    + eapply fine_upd; [apply read_next; exact Ek| |exact F]. intros k' G. assert (k' = k) by congruence. subst k'. apply fine_next.
    + unfold read. rewrite Ek. exact F.
  - destruct (s_timer s); exact F.
  - destruct (s_timer s); try exact F. all: destruct (nth_error (s_tasks s) i) as [t|]; [|exact F]; destruct (t_pc t) as [| | | | | |[| |]]; exact F.
Qed.
Lemma calm_dials t l : Forall calm l -> dials_of (run t l).
Proof. intros H. apply dials_run. eapply Forall_impl; [|exact H]. exact calm_quiet. Qed.
Lemma run_snoc t l o : run t (l ++ [o]) = run_step o (run t l).
Proof. unfold run. rewrite fold_left_app. reflexivity. Qed.
Lemma fine_run t l : Forall calm l -> fine (run t l).
Proof.
  induction l as [|o l IH] using rev_ind; intros H; [intros [|c] k G; discriminate|]. apply Forall_app in H as (H & Ho). inversion_clear Ho as [|? ? Q _]. rewrite run_snoc.
  apply fine_step; [exact Q|apply dials_encodable; apply calm_dials; exact H|exact (IH H)].
Qed.

(** ** What the steps do when nothing fails *)
Definition early (p : pc) : Prop := match p with WaitLock _ _ | Dialing _ _ | Drain1 _ _ => True | _ => False end.
Inductive ceff (o : step) (s s' : st) : Prop :=
| C_same : view s' = view s -> s_written s' = s_written s -> ceff o s s'
| C_call t : t_pc t = Start -> new_rid o = Some (rid_of (t_req t)) -> view s' = (s_req s, s_resp s, s_events s, s_tasks s ++ [t]) -> s_written s' = s_written s -> ceff o s s'
| C_bad i t e : o = Run i -> nth_error (s_tasks s) i = Some t -> t_pc t = Start -> t_addr t = Raise e ->
    view s' = (s_req s, s_resp s, s_events s, moved i (Done (RetErr e)) s) -> s_written s' = s_written s -> ceff o s s'
| C_start i t p : o = Run i -> nth_error (s_tasks s) i = Some t -> t_pc t = Start -> early p ->
    view s' = (dset (rid_of (t_req t)) (List.length (s_events s)) (s_req s), s_resp s, s_events s ++ [false], moved i p s) -> s_written s' = s_written s -> ceff o s s'
| C_move i t p : nth_error (s_tasks s) i = Some t -> early (t_pc t) -> early p -> view s' = (s_req s, s_resp s, s_events s, moved i p s) -> s_written s' = s_written s -> ceff o s s'
| C_write i t n c bs : o = DrainOk i -> nth_error (s_tasks s) i = Some t -> t_pc t = Drain1 n c -> to_stream (t_req t) = Ok bs ->
    view s' = (s_req s, s_resp s, s_events s, moved i (Drain2 n c) s) -> s_written s' = s_written s ++ [(c, bs)] -> ceff o s s'
| C_oneway i t n c : o = DrainOk i -> nth_error (s_tasks s) i = Some t -> t_pc t = Drain2 n c -> p_ptype (t_req t) = PTYPE_ONEWAY ->
    view s' = (ddel (rid_of (t_req t)) (s_req s), s_resp s, s_events s, moved i (Done RetNone) s) -> s_written s' = s_written s -> ceff o s s'
| C_key i t n c : o = DrainOk i -> nth_error (s_tasks s) i = Some t -> t_pc t = Drain2 n c -> dget (rid_of (t_req t)) (s_req s) = None ->
    view s' = (s_req s, s_resp s, s_events s, moved i (Done (RetErr KeyError)) s) -> s_written s' = s_written s -> ceff o s s'
| C_sent i t n c ev : o = DrainOk i -> nth_error (s_tasks s) i = Some t -> t_pc t = Drain2 n c -> dget (rid_of (t_req t)) (s_req s) = Some ev ->
    view s' = (s_req s, s_resp s, s_events s, moved i (WaitResp ev) s) -> s_written s' = s_written s -> ceff o s s'
| C_return i t ev p : o = Wake i -> nth_error (s_tasks s) i = Some t -> t_pc t = WaitResp ev -> nth_error (s_events s) ev = Some true ->
    dget (rid_of (t_req t)) (s_resp s) = Some p ->
    view s' = (s_req s, ddel (rid_of (t_req t)) (s_resp s), s_events s, moved i (Done (RetPkg p)) s) -> s_written s' = s_written s -> ceff o s s'
| C_nothing i t ev : o = Wake i -> nth_error (s_tasks s) i = Some t -> t_pc t = WaitResp ev -> nth_error (s_events s) ev = Some true ->
    dget (rid_of (t_req t)) (s_resp s) = None ->
    view s' = (s_req s, s_resp s, s_events s, moved i (Done (RetErr KeyError)) s) -> s_written s' = s_written s -> ceff o s s'
| C_deliver p c k frame ev : o = Read c -> nth_error (s_links s') c = Some k -> In frame (k_frames k) -> from_stream BoltResponse frame = Ok p ->
    success p -> dget (rid_of p) (s_req s) = Some ev ->
    view s' = (ddel (rid_of p) (s_req s), dset (rid_of p) p (s_resp s), upd ev (fun _ => true) (s_events s), s_tasks s) -> s_written s' = s_written s -> ceff o s s'
| C_error p c k frame ev : o = Read c -> nth_error (s_links s') c = Some k -> In frame (k_frames k) -> from_stream BoltResponse frame = Ok p ->
    ~ success p -> dget (rid_of p) (s_req s) = Some ev ->
    view s' = (ddel (rid_of p) (s_req s), s_resp s, upd ev (fun _ => true) (s_events s), s_tasks s) -> s_written s' = s_written s -> ceff o s s'.

Lemma enter_early i rid a n s : n <> O -> exists p, early p /\ view (enter_send i rid a n s) = (s_req s, s_resp s, s_events s, moved i p s) /\ s_written (enter_send i rid a n s) = s_written s.
Proof.
  intros H. destruct n as [|n]; [congruence|]. cbn [enter_send]. destruct (dget a (s_conn s)) as [c|]; [exists (Drain1 (S n) c)|destruct (dget a (s_dial s)) as [k|]; [exists (WaitLock (S n) k)|exists (WaitLock (S n) (List.length (s_locks s)))]];
    (split; [exact Logic.I|split; reflexivity]).
Qed.
Lemma step_ceff o s : calm o -> links_ok s -> encodable s -> ceff o s (run_step o s).
Proof.
  intros Q L En. destruct o as [req ad|i|i|i|i|i|i|i|i|c bs|c|c|c|rid|]; cbn [calm] in Q; try contradiction; cbn [run_step]; try (apply C_same; reflexivity).
  - eapply C_call with (t := {| t_req := req; t_addr := ad; t_pc := Start |}); reflexivity.
  - destruct (nth_error (s_tasks s) i) as [t|] eqn:Et; [|apply C_same; reflexivity]. destruct (t_pc t) eqn:Ep; try (apply C_same; reflexivity). destruct (t_addr t) as [a|e] eqn:Ea.
    + match goal with |- context [enter_send ?i ?r ?a ?n ?s] => pose proof (enter_early i r a n s) as X end.
      destruct X as (p & P & V & W); [discriminate|].
      eapply C_start with (i := i) (t := t) (p := p); auto. 
    + eapply C_bad with (i := i) (t := t) (e := e); auto.
  - destruct (nth_error (s_tasks s) i) as [t|] eqn:Et; [|apply C_same; reflexivity]. destruct (t_pc t) eqn:Ep; try (apply C_same; reflexivity). destruct (t_addr t) as [a|e] eqn:Ea; [|apply C_same; reflexivity].
    destruct (nth_error (s_locks s) l) as [[|]|]; try (apply C_same; reflexivity). destruct (dget a (s_conn s)) as [c|].
    + eapply C_move with (i := i) (t := t) (p := Drain1 n c); auto; rewrite Ep; exact Logic.I.
    + eapply C_move with (i := i) (t := t) (p := Dialing n l); auto; rewrite Ep; exact Logic.I.
  - destruct (nth_error (s_tasks s) i) as [t|] eqn:Et; [|apply C_same; reflexivity]. destruct (t_pc t) eqn:Ep; try (apply C_same; reflexivity). destruct (t_addr t) as [a|e] eqn:Ea; [|apply C_same; reflexivity].
    cbv zeta. destruct (dsetdefault a (List.length (s_links s)) (s_conn _)) as (d, c').
    eapply C_move with (i := i) (t := t) (p := Drain1 n c'); auto; rewrite Ep; exact Logic.I.
  - destruct (nth_error (s_tasks s) i) as [t|] eqn:Et; [|apply C_same; reflexivity]. destruct (t_pc t) eqn:Ep; try (destruct (t_addr t); apply C_same; reflexivity).
    + destruct (t_addr t) as [a|e] eqn:Ea; [|apply C_same; reflexivity]. destruct (En _ _ Et) as (bs & Eb). rewrite Eb. eapply C_write with (i := i) (t := t) (n := n) (c := c) (bs := bs); auto.
    + assert (G : ceff (DrainOk i) s (sent i (t_req t) s)); [|destruct (t_addr t); exact G]. unfold sent. destruct (dget (rid_of (t_req t)) (s_req s)) as [ev|] eqn:Er.
      * destruct (p_ptype (t_req t) =? PTYPE_ONEWAY) eqn:Eo; [eapply C_oneway with (i := i) (t := t) (n := n) (c := c)|eapply C_sent with (i := i) (t := t) (n := n) (c := c) (ev := ev)]; auto; lia.
      * eapply C_key with (i := i) (t := t) (n := n) (c := c); auto.
  - destruct (nth_error (s_tasks s) i) as [t|] eqn:Et; [|apply C_same; reflexivity]. destruct (t_pc t) eqn:Ep; try (apply C_same; reflexivity).
    destruct (nth_error (s_events s) ev) as [[|]|] eqn:Ee; try (apply C_same; reflexivity). destruct (dget (rid_of (t_req t)) (s_resp s)) as [p|] eqn:Er.
    + eapply C_return with (i := i) (t := t) (ev := ev) (p := p); auto.
    + eapply C_nothing with (i := i) (t := t) (ev := ev); auto.
  - unfold read. destruct (nth_error (s_links s) c) as [k|] eqn:Ek; [|apply C_same; reflexivity]. pose proof (L c k Ek) as LO.
    destruct (k_rd k) as [| |fixed h n|] eqn:Er.
    + apply C_same; reflexivity.
    + destruct (k_cancel k || k_exn k); [apply C_same; reflexivity|]. destruct (bolt_header_size BoltResponse <=? len (k_buf k)).
      * destruct (bolt_header_from_stream BoltResponse _); apply C_same; reflexivity.
      * destruct (k_eof k); apply C_same; reflexivity.
    + destruct (k_cancel k || k_exn k); [apply C_same; reflexivity|]. destruct (n <=? len (k_buf k)); [|destruct (k_eof k); apply C_same; reflexivity].
      destruct (lo_body _ LO _ _ _ Er) as (L20 & -> & Hn). set (body := py_take n (k_buf k)).
      set (s1 := set_link c (rd_take k n RdHead [fixed ++ body]) s).
      unfold process. rewrite content_is_frame by exact L20. destruct (from_stream BoltResponse (fixed ++ body)) as [p|e] eqn:Ef; [|apply C_same; reflexivity].
      set (k' := rd_take k n RdHead [fixed ++ body]). assert (Hk : nth_error (s_links (deliver p s1)) c = Some k') by (rewrite links_deliver; unfold s1, set_link; cbn; rewrite (upd_same c _ _ k Ek); reflexivity).
      assert (Hi : In (fixed ++ body) (k_frames k')) by (cbn; apply in_app_iff; right; left; reflexivity).
      assert (Hv : view (deliver p s1) = view (deliver p s)) by (apply view_deliver; reflexivity).
      assert (W : s_written (deliver p s1) = s_written s) by (rewrite (proj2 (written_deliver p s1)); reflexivity).
      destruct (deliver_view p s (decoded_cmdcode _ _ Ef)) as [(_ & E)|(ev & Hev & [(Su & E)|(Su & E)])].
      * apply C_same; congruence.
      * apply (C_deliver _ _ _ p c k' (fixed ++ body) ev); auto; congruence.
      * apply (C_error _ _ _ p c k' (fixed ++ body) ev); auto; congruence.
    + apply C_same; reflexivity.
  - destruct (s_timer s) as [|a|a i|]; try (apply C_same; reflexivity). destruct (heartbeat_new_request rid) as [p|e] eqn:Eb; [|apply C_same; reflexivity].
    eapply C_call with (t := {| t_req := p; t_addr := Ok a; t_pc := Start |}); try reflexivity. cbn. f_equal. symmetry. exact (beat_rid _ _ Eb).
  - destruct (s_timer s) as [|a|a i|]; try (apply C_same; reflexivity). destruct (nth_error (s_tasks s) i) as [t|]; [|apply C_same; reflexivity]. destruct (t_pc t) as [| | | | | |[| |]]; apply C_same; reflexivity.
Qed.

Ltac split_ceff E :=
  destruct E as [V W|t Hp Hr V W|i t e Ho Ht Hp Ha V W|i t p Ho Ht Hp Hs V W|i t p Ht Hs Hs' V W|i t n c bs Ho Ht Hp Hb V W|i t n c Ho Ht Hp Hw V W|i t n c Ho Ht Hp Hg V W|i t n c ev Ho Ht Hp Hg V W|i t ev p Ho Ht Hp He Hg V W|i t ev Ho Ht Hp He Hg V W|p c k frame ev Ho Hk Hi Hf Su Hev V W|p c k frame ev Ho Hk Hi Hf Su Hev V W];
  unfold view in V; injection V as V1 V2 V3 V4.

(** ** How calls end *)
Definition ends (s : st) : Prop := forall i t, nth_error (s_tasks s) i = Some t ->
  match t_pc t with Done RetNone => p_ptype (t_req t) = PTYPE_ONEWAY | Done (RetErr e) => e = KeyError \/ t_addr t = Raise e | _ => True end.
Lemma ends_step o s : calm o -> links_ok s -> encodable s -> ends s -> ends (run_step o s).
Proof.
  intros Q L En E j t' G. pose proof (step_ceff o s Q L En) as X. split_ceff X; rewrite V4 in G;
    try (exact (E _ _ G)); try (apply moved_get in G as [(_ & G)|(<- & t0 & G & ->)]; [exact (E _ _ G)|assert (t0 = t) by congruence; subst t0; cbn [at_pc t_pc t_req t_addr]; auto]).
  - apply L_AioClient.nth_app in G as [G|(_ & ->)]; [exact (E _ _ G)|]. rewrite Hp. exact Logic.I.
  - destruct p; try contradiction; exact Logic.I.
  - destruct p; try contradiction; exact Logic.I.
Qed.
Lemma ends_run t l : Forall calm l -> ends (run t l).
Proof.
  induction l as [|o l IH] using rev_ind; intros H; [intros [|c] k G; discriminate|]. apply Forall_app in H as (H & Ho). inversion_clear Ho as [|? ? Q _]. rewrite run_snoc.
  apply ends_step; [exact Q|apply run_links_ok|apply dials_encodable; apply calm_dials; exact H|exact (IH H)].
Qed.

(** ** Frames received *)
Lemma next_frames k : exists fs, k_frames (rd_next k) = k_frames k ++ fs /\ (fs = [] \/ exists x, fs = [x]).
Proof.
  unfold rd_next. destruct (k_rd k).
  - exists []. rewrite app_nil_r. auto.
  - destruct (k_cancel k || k_exn k); [exists []; rewrite app_nil_r; auto|]. destruct (_ <=? _); [exists []; cbn; auto|]. destruct (k_eof k); exists []; rewrite app_nil_r; auto.
  - destruct (k_cancel k || k_exn k); [exists []; rewrite app_nil_r; auto|]. destruct (_ <=? _); [eexists; split; [reflexivity|right; eexists; reflexivity]|]. destruct (k_eof k); exists []; rewrite app_nil_r; auto.
  - exists []. rewrite app_nil_r. auto.
Qed.
Lemma links_other o s : calm o -> encodable s -> (forall c, o <> Read c) -> forall c k', nth_error (s_links (run_step o s)) c = Some k' ->
  k_frames k' = [] \/ exists k, nth_error (s_links s) c = Some k /\ k_frames k' = k_frames k.
Proof.
  intros Q En Nr x k'. assert (Z : forall s', s_links s' = s_links s -> nth_error (s_links s') x = Some k' -> k_frames k' = [] \/ exists k, nth_error (s_links s) x = Some k /\ k_frames k' = k_frames k) by (intros s' -> H; right; exists k'; auto).
  destruct o as [req ad|i|i|i|i|i|i|i|i|c bs|c|c|c|rid|]; cbn [calm] in Q; try contradiction; cbn [run_step].
  - apply Z. reflexivity.
  - apply Z. destruct (nth_error (s_tasks s) i) as [t|]; [|reflexivity]. destruct (t_pc t), (t_addr t); try reflexivity. rewrite links_enter. reflexivity.
  - apply Z. destruct (nth_error (s_tasks s) i) as [t|]; [|reflexivity]. destruct (t_pc t), (t_addr t); try reflexivity. destruct (nth_error (s_locks s) l) as [[|]|]; try reflexivity. destruct (dget _ _); reflexivity.
  - destruct (nth_error (s_tasks s) i) as [t|]; [|apply Z; reflexivity]. destruct (t_pc t), (t_addr t) as [a|]; try (apply Z; reflexivity). cbv zeta. destruct (dsetdefault a (List.length (s_links s)) (s_conn _)) as (d, c').
    intros G. cbn in G. apply L_AioClient.nth_app in G as [G|(_ & ->)]; [right; exists k'; auto|]. left. reflexivity.
  - apply Z. destruct (nth_error (s_tasks s) i) as [t|] eqn:Et; [|reflexivity]. destruct (t_pc t), (t_addr t) as [a|]; try reflexivity; try apply links_sent.
    destruct (En _ _ Et) as (bs & ->). reflexivity.
  - apply Z. destruct (nth_error (s_tasks s) i) as [t|]; [|reflexivity]. destruct (t_pc t); try reflexivity. destruct (nth_error (s_events s) ev) as [[|]|]; try reflexivity. destruct (dget _ _); reflexivity.
  - intros G. unfold on_link in G. cbn in G. apply upd_get in G as [(_ & G)|(<- & y & G & ->)]; right; [exists k'|exists y]; auto.
  - destruct (Nr c eq_refl).
  - apply Z. destruct (s_timer s); reflexivity.
  - apply Z. destruct (s_timer s); try reflexivity. destruct (nth_error (s_tasks s) i) as [t|]; [|reflexivity]. destruct (t_pc t) as [| | | | | |[| |]]; reflexivity.
Qed.
Lemma seen_step o s p : calm o -> encodable s -> seen (run_step o s) p -> seen s p \/ exists c frame, o = Read c /\ consumes c frame s (run_step o s) /\ from_stream BoltResponse frame = Ok p.
Proof.
  intros Q En (c & k' & frame & Hk & Hi & Hf). assert (D : (exists c', o = Read c') \/ forall c', o <> Read c') by (destruct o; try (right; discriminate); left; eexists; reflexivity).
  destruct D as [(c' & ->)|D].
  - cbn [run_step] in *. destruct (nth_error (s_links s) c') as [k|] eqn:Ek.
    + pose proof (read_next c' s k Ek) as R. pose proof Hk as Hk'. rewrite R in Hk. apply upd_get in Hk as [(_ & G)|(E & y & G & ->)]; [left; exists c, k', frame; auto|]. subst c'. assert (y = k) by congruence. subst y.
      destruct (next_frames k) as (fs & Ef & [->|(x & ->)]).
      * rewrite Ef, app_nil_r in Hi. left. exists c, k, frame. auto.
      * rewrite Ef in Hi. apply in_app_or in Hi as [Hi|[->|[]]]; [left; exists c, k, frame; auto|]. right. exists c, frame. split; [reflexivity|]. split; [|exact Hf]. exists k, (rd_next k). auto.
    + unfold read in Hk. rewrite Ek in Hk. left. exists c, k', frame. auto.
  - left. destruct (links_other o s Q En D c k' Hk) as [E|(k & G & E)]; [rewrite E in Hi; destruct Hi|]. rewrite E in Hi. exists c, k, frame. auto.
Qed.

Lemma gone {V} k k' (d : dict Z V) : wf_dict d -> dget k d = None -> dget k (ddel k' d) = None.
Proof. intros W H. destruct (Z.eq_dec k k') as [->|N]; [apply dget_ddel_same; exact W|rewrite dget_ddel_other by exact N; exact H]. Qed.
(** an id for which a frame was received is not (again) in request_mapping *)
Definition claimed (s : st) : Prop := forall p, seen s p -> dget (rid_of p) (s_req s) = None.
Lemma claimed_step o s : calm o -> inv s -> encodable s -> (forall i t p, nth_error (s_tasks s) i = Some t -> t_pc t = Start -> seen s p -> rid_of p <> rid_of (t_req t)) -> claimed s -> claimed (run_step o s).
Proof.
  intros Q I En N C p0 Sp. destruct (seen_step o s p0 Q En Sp) as [S0|(c0 & frame0 & -> & Co & Hf)].
  - pose proof (C p0 S0) as G. pose proof (step_ceff o s Q (i_links _ I) En) as X. split_ceff X; rewrite V1; try exact G.
    + rewrite dget_dset_other; [exact G|]. intros E. apply (N i t p0 Ht Hp S0). congruence.
    + apply gone; [apply (i_wfreq _ I)|exact G].
    + apply gone; [apply (i_wfreq _ I)|exact G].
    + apply gone; [apply (i_wfreq _ I)|exact G].
  - pose proof (read_consumes c0 frame0 s (i_links _ I) Co) as R. rewrite Hf in R. cbn [run_step]. destruct (deliver_view p0 s (decoded_cmdcode _ _ Hf)) as [(G & E)|(ev & _ & [(_ & E)|(_ & E)])]; rewrite E in R; unfold view in R; injection R as R1 _ _ _; rewrite R1.
    + exact G.
    + apply dget_ddel_same. apply (i_wfreq _ I).
    + apply dget_ddel_same. apply (i_wfreq _ I).
Qed.

(** ** Calls answered after they wait *)
Definition refusal (s : st) (rid : Z) : Prop := exists p, seen s p /\ rid_of p = rid /\ ~ success p.
Lemma refusal_step o s rid : refusal s rid -> refusal (run_step o s) rid.
Proof. intros (p & S & E). exists p. split; [|exact E]. eapply seen_mono; [apply step_links|exact S]. Qed.
Definition in_time (s : st) (t : task) : Prop :=
  match t_pc t with
  | Start => True
  | WaitResp ev => nth_error (s_events s) ev = Some true -> (exists p, dget (rid_of (t_req t)) (s_resp s) = Some p) \/ refusal s (rid_of (t_req t))
  | Done (RetErr e) => t_addr t = Raise e \/ refusal s (rid_of (t_req t))
  | Done _ => True
  | _ => exists ev, dget (rid_of (t_req t)) (s_req s) = Some ev
  end.
Definition all_in_time (s : st) : Prop := forall i t, nth_error (s_tasks s) i = Some t -> in_time s t.
Lemma in_time_step o s : calm o -> inv s -> inv_ev s -> inv_live s -> encodable s ->
  (forall i t p, nth_error (s_tasks (run_step o s)) i = Some t -> sending (t_pc t) -> seen (run_step o s) p -> rid_of p <> rid_of (t_req t)) -> all_in_time s -> all_in_time (run_step o s).
Proof.
  intros Q I Ev Lv En N A j t' G. pose proof (step_ceff o s Q (i_links _ I) En) as X.
  assert (R : forall r, refusal s r -> refusal (run_step o s) r) by (intros r; apply refusal_step).
  assert (K : s_req (run_step o s) = s_req s -> s_resp (run_step o s) = s_resp s -> s_events (run_step o s) = s_events s -> in_time s t' -> in_time (run_step o s) t').
  { intros E1 E2 E3 T. unfold in_time in *. rewrite E1, E2, E3. destruct (t_pc t') as [| | | | | |[| |]]; try exact T; [intros H; destruct (T H); auto|destruct T; auto]. }
  split_ceff X.
  - rewrite V4 in G. apply K; auto. exact (A _ _ G).
  - rewrite V4 in G. apply L_AioClient.nth_app in G as [G|(_ & ->)]; [apply K; auto; exact (A _ _ G)|]. unfold in_time. rewrite Hp. exact Logic.I.
  - rewrite V4 in G. apply moved_get in G as [(_ & G)|(<- & t0 & G & ->)]; [apply K; auto; exact (A _ _ G)|]. assert (t0 = t) by congruence. subst t0. left. exact Ha.
  - rewrite V4 in G. apply moved_get in G as [(_ & G)|(<- & t0 & G & ->)].
    + pose proof (A _ _ G) as T. unfold in_time in *. rewrite V1, V2, V3. assert (Y : (exists ev, dget (rid_of (t_req t')) (s_req s) = Some ev) -> exists ev, dget (rid_of (t_req t')) (dset (rid_of (t_req t)) (List.length (s_events s)) (s_req s)) = Some ev).
      { intros (ev & H). destruct (Z.eq_dec (rid_of (t_req t')) (rid_of (t_req t))) as [->|D]; [rewrite dget_dset_same; eauto|rewrite dget_dset_other by exact D; eauto]. }
      destruct (t_pc t') as [| | | | |ev|[| |]] eqn:Ep; auto; [|destruct T; auto].
      intros H. destruct (e_own _ Ev j t' ev G Ep) as (Le & _). rewrite nth_error_app1 in H by exact Le. destruct (T H); auto.
    + assert (t0 = t) by congruence. subst t0. unfold in_time. cbn [at_pc t_pc t_req]. rewrite V1, dget_dset_same. destruct p; try contradiction; eauto.
  - rewrite V4 in G. apply moved_get in G as [(_ & G)|(<- & t0 & G & ->)]; [apply K; auto; exact (A _ _ G)|]. assert (t0 = t) by congruence. subst t0.
    pose proof (A _ _ Ht) as T. unfold in_time in *. cbn [at_pc t_pc t_req]. rewrite V1. destruct (t_pc t), p; try contradiction; exact T.
  - rewrite V4 in G. apply moved_get in G as [(_ & G)|(<- & t0 & G & ->)]; [apply K; auto; exact (A _ _ G)|]. assert (t0 = t) by congruence. subst t0.
    pose proof (A _ _ Ht) as T. unfold in_time in *. cbn [at_pc t_pc t_req]. rewrite V1. rewrite Hp in T. exact T.
  - rewrite V4 in G. apply moved_get in G as [(D & G)|(<- & t0 & G & ->)]; [|exact Logic.I]. pose proof (A _ _ G) as T.
    assert (Y : live (t_pc t') -> rid_of (t_req t') <> rid_of (t_req t)). { intros H E. apply D. symmetry. apply (l_distinct _ Lv j i t' t G Ht H); [rewrite Hp; exact Logic.I|exact E]. }
    unfold in_time in *. rewrite V1, V2, V3. destruct (t_pc t') as [| | | | |ev|[| |]] eqn:Ep; try exact Logic.I; try (rewrite dget_ddel_other by (apply Y; exact Logic.I); exact T); [intros H; destruct (T H); auto|destruct T; auto].
  - exfalso. pose proof (A _ _ Ht) as T. unfold in_time in T. rewrite Hp in T. destruct T as (ev & T). congruence.
  - rewrite V4 in G. apply moved_get in G as [(_ & G)|(<- & t0 & G & ->)]; [apply K; auto; exact (A _ _ G)|]. assert (t0 = t) by congruence. subst t0.
    unfold in_time. cbn [at_pc t_pc t_req]. rewrite V3. intros H. pose proof (e_unset _ Ev _ _ Hg). congruence.
  - rewrite V4 in G. apply moved_get in G as [(D & G)|(<- & t0 & G & ->)]; [|exact Logic.I]. pose proof (A _ _ G) as T.
    assert (Y : live (t_pc t') -> rid_of (t_req t') <> rid_of (t_req t)). { intros H E. apply D. symmetry. apply (l_distinct _ Lv j i t' t G Ht H); [rewrite Hp; exact Logic.I|exact E]. }
    unfold in_time in *. rewrite V1, V2, V3. destruct (t_pc t') as [| | | | |ev'|[| |]] eqn:Ep; try exact T; [|destruct T; auto].
    rewrite dget_ddel_other by (apply Y; exact Logic.I). intros H; destruct (T H); auto.
  - rewrite V4 in G. apply moved_get in G as [(D & G)|(<- & t0 & G & ->)]; [apply K; auto; exact (A _ _ G)|]. assert (t0 = t) by congruence. subst t0.
    pose proof (A _ _ Ht) as T. unfold in_time in *. rewrite Hp in T. destruct (T He) as [(p & H)|H]; [congruence|]. right. apply R. exact H.
  - assert (Sp : seen (run_step o s) p) by (exists c, k, frame; auto). pose proof (N j t' p G) as Nj. rewrite V4 in G. pose proof (A _ _ G) as T. unfold in_time in *. rewrite V1, V2, V3.
    destruct (t_pc t') as [| | | | |ev'|[| |]] eqn:Ep; try exact T; try (rewrite dget_ddel_other; [exact T|intros E; apply (Nj Logic.I Sp); congruence]); [|destruct T; auto].
    intros H. destruct (Z.eq_dec (rid_of (t_req t')) (rid_of p)) as [->|D]; [left; rewrite dget_dset_same; eauto|]. rewrite dget_dset_other by exact D.
    apply upd_true in H as [(_ & <-)|H]; [|destruct (T H); auto]. destruct (e_own _ Ev j t' ev G Ep) as (_ & U & _). exfalso. apply D. symmetry. exact (U _ Hev).
  - assert (Sp : seen (run_step o s) p) by (exists c, k, frame; auto). pose proof (N j t' p G) as Nj. rewrite V4 in G. pose proof (A _ _ G) as T. unfold in_time in *. rewrite V1, V2, V3.
    destruct (t_pc t') as [| | | | |ev'|[| |]] eqn:Ep; try exact T; try (rewrite dget_ddel_other; [exact T|intros E; apply (Nj Logic.I Sp); congruence]); [|destruct T; auto].
    intros H. apply upd_true in H as [(_ & <-)|H]; [|destruct (T H); auto]. destruct (e_own _ Ev j t' ev G Ep) as (_ & U & _). right. exists p. split; [exact Sp|]. split; [exact (U _ Hev)|exact Su].
Qed.

(** ** Calls that end with an error have been answered *)
Definition heard (s : st) (rid : Z) : Prop := exists p, seen s p /\ rid_of p = rid.
Definition fetched (s : st) (t : task) : Prop :=
  match t_pc t with
  | Start | WaitResp _ => True
  | Done (RetErr e) => t_addr t = Raise e \/ heard s (rid_of (t_req t))
  | Done _ => True
  | _ => (exists ev, dget (rid_of (t_req t)) (s_req s) = Some ev) \/ heard s (rid_of (t_req t))
  end.
Definition all_fetched (s : st) : Prop := forall i t, nth_error (s_tasks s) i = Some t -> fetched s t.
Lemma fetched_step o s : calm o -> inv s -> inv_ev s -> inv_live s -> encodable s -> all_fetched s -> all_fetched (run_step o s).
Proof.
  intros Q I Ev Lv En A j t' G. pose proof (step_ceff o s Q (i_links _ I) En) as X.
  assert (R : forall r, heard s r -> heard (run_step o s) r) by (intros r (p & S & E); exists p; split; [|exact E]; eapply seen_mono; [apply step_links|exact S]).
  assert (K : forall x, (forall ev, dget (rid_of (t_req x)) (s_req s) = Some ev -> (exists ev', dget (rid_of (t_req x)) (s_req (run_step o s)) = Some ev') \/ heard (run_step o s) (rid_of (t_req x))) -> fetched s x -> fetched (run_step o s) x).
  { intros x E1 T. unfold fetched in *. destruct (t_pc x) as [| | | | | |[| |]]; try exact T; try (destruct T as [(ev & T)|T]; [exact (E1 ev T)|right; exact (R _ T)]). destruct T; auto. }
  assert (K0 : forall x, s_req (run_step o s) = s_req s -> fetched s x -> fetched (run_step o s) x) by (intros x E; apply K; intros ev H; rewrite E; eauto).
  split_ceff X.
  - rewrite V4 in G. apply K0; auto. exact (A _ _ G).
  - rewrite V4 in G. apply L_AioClient.nth_app in G as [G|(_ & ->)]; [apply K0; auto; exact (A _ _ G)|]. unfold fetched. rewrite Hp. exact Logic.I.
  - rewrite V4 in G. apply moved_get in G as [(_ & G)|(<- & t0 & G & ->)]; [apply K0; auto; exact (A _ _ G)|]. assert (t0 = t) by congruence. subst t0. left. exact Ha.
  - rewrite V4 in G. apply moved_get in G as [(_ & G)|(<- & t0 & G & ->)].
    + apply K; [|exact (A _ _ G)]. intros ev H. left. rewrite V1. destruct (Z.eq_dec (rid_of (t_req t')) (rid_of (t_req t))) as [->|D]; [rewrite dget_dset_same; eauto|rewrite dget_dset_other by exact D; eauto].
    + assert (t0 = t) by congruence. subst t0. unfold fetched. cbn [at_pc t_pc t_req]. rewrite V1, dget_dset_same. destruct p; try contradiction; eauto.
  - rewrite V4 in G. apply moved_get in G as [(_ & G)|(<- & t0 & G & ->)]; [apply K0; auto; exact (A _ _ G)|]. assert (t0 = t) by congruence. subst t0. pose proof (A _ _ Ht) as T. apply (K0 _ V1) in T.
    unfold fetched in *. cbn [at_pc t_pc t_req]. destruct (t_pc t), p; try contradiction; exact T.
  - rewrite V4 in G. apply moved_get in G as [(_ & G)|(<- & t0 & G & ->)]; [apply K0; auto; exact (A _ _ G)|]. assert (t0 = t) by congruence. subst t0. pose proof (A _ _ Ht) as T. apply (K0 _ V1) in T.
    unfold fetched in *. cbn [at_pc t_pc t_req]. rewrite Hp in T. exact T.
  - rewrite V4 in G. apply moved_get in G as [(D & G)|(<- & t0 & G & ->)]; [|exact Logic.I]. pose proof (A _ _ G) as T.
    unfold fetched in T. unfold fetched. destruct (t_pc t') as [| | | | |ev|[| |]] eqn:Ep; try exact Logic.I;
      try (destruct T as [(ev & T)|T]; [left; exists ev; rewrite V1, dget_ddel_other; [exact T|]; intros E; apply D; symmetry; apply (l_distinct _ Lv j i t' t G Ht); [rewrite Ep; exact Logic.I|rewrite Hp; exact Logic.I|exact E]|right; exact (R _ T)]).
    destruct T; auto.
  - rewrite V4 in G. apply moved_get in G as [(_ & G)|(<- & t0 & G & ->)]; [apply K0; auto; exact (A _ _ G)|]. assert (t0 = t) by congruence. subst t0. pose proof (A _ _ Ht) as T. unfold fetched in T. rewrite Hp in T. destruct T as [(ev & T)|T]; [congruence|]. right. exact (R _ T).
  - rewrite V4 in G. apply moved_get in G as [(_ & G)|(<- & t0 & G & ->)]; [apply K0; auto; exact (A _ _ G)|exact Logic.I].
  - rewrite V4 in G. apply moved_get in G as [(_ & G)|(<- & t0 & G & ->)]; [apply K0; auto; exact (A _ _ G)|exact Logic.I].
  - rewrite V4 in G. apply moved_get in G as [(_ & G)|(<- & t0 & G & ->)]; [apply K0; auto; exact (A _ _ G)|]. assert (t0 = t) by congruence. subst t0. right. destruct (e_own _ Ev i t ev Ht Hp) as (_ & _ & E). apply R. exact (E He).
  - assert (Sp : seen (run_step o s) p) by (exists c, k, frame; auto). rewrite V4 in G. apply K; [|exact (A _ _ G)]. intros ev' H. destruct (Z.eq_dec (rid_of (t_req t')) (rid_of p)) as [E|D]; [right; exists p; auto|left; exists ev'; rewrite V1, dget_ddel_other by exact D; exact H].
  - assert (Sp : seen (run_step o s) p) by (exists c, k, frame; auto). rewrite V4 in G. apply K; [|exact (A _ _ G)]. intros ev' H. destruct (Z.eq_dec (rid_of (t_req t')) (rid_of p)) as [E|D]; [right; exists p; auto|left; exists ev'; rewrite V1, dget_ddel_other by exact D; exact H].
Qed.

(** ** When nothing is left to do *)
Definition idle (s : st) : Prop := forall i, run_step (Run i) s = s /\ run_step (Acquire i) s = s /\ run_step (DialOk i) s = s /\ run_step (DrainOk i) s = s /\ run_step (Wake i) s = s /\ run_step (Read i) s = s.
Lemma moved_away i p s s' t : nth_error (s_tasks s) i = Some t -> s_tasks s' = moved i p s -> s' = s -> t_pc t = p.
Proof. intros Ht E ->. pose proof (f_equal (fun x => nth_error x i) E) as H. cbn beta in H. rewrite (moved_same i p s t Ht), Ht in H. injection H as H. rewrite H. reflexivity. Qed.
Lemma goto_away i p s0 s t : goto i p s0 = s -> nth_error (s_tasks s) i = Some t -> s_tasks s0 = s_tasks s -> t_pc t = p.
Proof. intros E Ht E0. apply (moved_away i p s (goto i p s0) t Ht); [|exact E]. unfold goto, moved. cbn. rewrite E0. reflexivity. Qed.
Lemma idle_tasks t l : Forall calm l -> idle (run t l) -> forall i tk, nth_error (s_tasks (run t l)) i = Some tk ->
  (exists r, t_pc tk = Done r) \/ exists ev, t_pc tk = WaitResp ev /\ nth_error (s_events (run t l)) ev = Some false.
Proof.
  intros H Id. pose proof (calm_dials t l H) as D. pose proof (dials_encodable _ D) as En. pose proof (inv_ev_run t l) as Ev. set (s := run t l) in *.
  assert (Nd : forall i tk n k, nth_error (s_tasks s) i = Some tk -> t_pc tk <> Dialing n k).
  { intros i tk n k Hi Hp. destruct (Id i) as (_ & _ & E & _). cbn [run_step] in E. rewrite Hi, Hp in E. destruct (d_addr _ _ _ _ _ D i tk Hi) as (a & Ea); [rewrite Hp; exact Logic.I|]. rewrite Ea in E.
    cbv zeta in E. destruct (dsetdefault a (List.length (s_links s)) (s_conn _)) as (d, c'). apply (f_equal s_links) in E. cbn in E. exact (app_one_neq _ _ (eq_sym E)). }
  intros i tk Hi. destruct (Id i) as (I1 & I2 & I3 & I4 & I5 & I6). destruct (t_pc tk) as [|n k|n k|n c|n c|ev|r] eqn:Hp.
  - exfalso. cbn [run_step] in I1. rewrite Hi, Hp in I1. destruct (t_addr tk) as [a|e].
    + match type of I1 with enter_send ?i ?r ?a ?n ?s = _ => pose proof (enter_early i r a n s) as X end. destruct X as (p & P & V & _); [discriminate|]. rewrite I1 in V. pose proof (f_equal snd V) as V'. change (s_tasks s = moved i p s) in V'. pose proof (moved_away i p s s tk Hi V' eq_refl). subst p. rewrite Hp in P. exact P.
    + pose proof (goto_away _ _ _ _ _ I1 Hi eq_refl). congruence.
  - exfalso. destruct (lock_progress t l i tk n k Hi Hp) as [(j & tj & m & _ & Hj & Hpj)|(tk' & m & Hi' & Hp')]; [exact (Nd _ _ _ _ Hj Hpj)|]. rewrite run_snoc in Hi'. fold s in Hi'. rewrite I2 in Hi'. assert (tk' = tk) by congruence. subst tk'. destruct Hp' as [E|(c & E)]; congruence.
  - exfalso. exact (Nd _ _ _ _ Hi Hp).
  - exfalso. cbn [run_step] in I4. rewrite Hi, Hp in I4. destruct (d_addr _ _ _ _ _ D i tk Hi) as (a & Ea); [rewrite Hp; exact Logic.I|]. rewrite Ea in I4. destruct (En _ _ Hi) as (bs & Eb). rewrite Eb in I4.
    apply (f_equal s_written) in I4. cbn in I4. exact (app_one_neq _ _ (eq_sym I4)).
  - exfalso. cbn [run_step] in I4. rewrite Hi, Hp in I4. assert (E : sent i (t_req tk) s = s) by (destruct (t_addr tk); exact I4). unfold sent in E. destruct (dget _ _) as [ev|]; [destruct (_ =? _)|];
      pose proof (goto_away _ _ _ _ _ E Hi eq_refl); congruence.
  - right. exists ev. split; [reflexivity|]. destruct (e_own _ Ev i tk ev Hi Hp) as (Le & _). fold s in Le. destruct (nth_error (s_events s) ev) as [[|]|] eqn:Ee; [|reflexivity|apply nth_error_None in Ee; lia].
    exfalso. cbn [run_step] in I5. rewrite Hi, Hp, Ee in I5. destruct (dget _ _) as [p|]; pose proof (goto_away _ _ _ _ _ I5 Hi eq_refl); congruence.
  - left. exists r. reflexivity.
Qed.
(** everything received has been looked at *)
Lemma idle_frames t l c k fs tail : Forall calm l -> idle (run t l) -> nth_error (s_links (run t l)) c = Some k -> k_in k = concat fs ++ tail -> Forall frame_ok fs -> exists more, k_frames k = fs ++ more.
Proof.
  intros H Id Hk E F. destruct (fine_run t l H c k Hk) as (A & B & C & D). destruct (catches_up (run t l) c k fs tail (run_links_ok t l) Hk) as (n & k' & more & Hk' & _ & Ef); [repeat split; assumption|exact E|exact F|].
  assert (S : from (run t l) (repeat (Read c) n) = run t l). { clear -Id. induction n as [|n IH]; [reflexivity|]. cbn [repeat]. unfold from in *. cbn [fold_left]. destruct (Id c) as (_ & _ & _ & _ & _ & R). rewrite R. exact IH. }
  rewrite S in Hk'. assert (k' = k) by congruence. subst k'. exists more. exact Ef.
Qed.

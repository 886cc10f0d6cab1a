(** Lemmas behind C124: coming to rest, and the outcome of the calls. *)
From Coq Require Import Lia ZifyBool.
From Verif Require Import PyBase L_PyBase PyDict PyInt M_SofaHeader M_Package L_Package L_Codec M_RpcId M_Trace S_Wire M_SyncClient L_SyncClient M_AioServer S_Server L_AioServer L_AioServer2 L_AioServer3 L_AioServer4 L_AioServer5 L_AioServer6 L_AioServer7 L_AioServer8 L_AioServer9
  M_SockServer S_SockServer L_SockServer M_System S_System L_System M_SyncSystem S_SyncSystem L_SyncSystem M_Listener S_Listener L_Listener M_Net S_Net L_Net S_Settle L_Settle2 M_Deploy S_Deploy L_Deploy S_Answered L_Rest L_Rest1 L_Rest2 S_NetRest L_NetRest S_DepRest L_DepRest.
From Verif Require Import L_Answered.
From Verif Require M_AioClient.
Import S_SockServer S_Server.
Open Scope nat_scope.

(** ** A deployment at rest *)
Definition stopped (s : dep) (e : peer) : Prop := exists k y v, e = PThr k /\ nth_error (d_thrs s) k = Some y /\ ending (th_net y) = Some v.
Definition up_at (s : dep) (x : wire) : Prop := forall e g, w_peer x = Some e -> end_got s e = Some g -> stopped s e \/ skipn (List.length g) (w_out x) = [].
Definition down_at (U : tables) (s : dep) (x : wire) : Prop := forall e g, w_peer x = Some e -> end_sent U s e = Some g -> skipn (List.length (w_in x)) g = [].
Definition read_at (c : scall) : Prop := forall w y, c_pc c = SRecv w y -> y_rest y = [].
Record quiet (U : tables) (t : M_AioClient.timer) (s : dep) : Prop := {
  qt_net : z_settled U t (d_net s);
  qt_send : forall i c, nth_error (d_calls s) i = Some c -> sending c = false;
  qt_up : forall w x, nth_error (d_wires s) w = Some x -> up_at s x;
  qt_down : forall w x, nth_error (d_wires s) w = Some x -> down_at U s x;
  qt_read : forall i c, nth_error (d_calls s) i = Some c -> read_at c }.
Lemma app_self {A} (a b : list A) : a ++ b = a -> b = [].
Proof. intros E. apply (f_equal (@List.length _)) in E. rewrite app_length in E. destruct b; [reflexivity|cbn in E; lia]. Qed.
Lemma first_all {A} n (l : list A) : List.length l <= n -> firstn n l = [] -> l = [].
Proof. intros L E. rewrite firstn_all2 in E by exact L. exact E. Qed.
Lemma up_settled U t s w n x : ok (d_net s) -> nth_error (d_wires s) w = Some x -> List.length (w_out x) <= n -> d_unchanged U t s (d_step U t (DUp w n) s) -> up_at s x.
Proof.
  intros K Hw L (Z & T & _) e g Hp Hg. cbn [d_step] in Z, T. rewrite Hw, Hp, Hg in Z, T. cbv zeta in Z, T. set (b := firstn n (skipn (List.length g) (w_out x))) in *.
  assert (Nil : b = [] -> skipn (List.length g) (w_out x) = []) by (apply first_all; rewrite skipn_length; lia). destruct e as [a m|k]; cbn [end_got] in Hg.
  - right. apply Nil. destruct Z as (_ & Z). cbn [with_net d_net] in Z. destruct (z_conn (d_net s) a m) as [q|] eqn:Eq; [|discriminate]. pose proof (feed_conn U (d_net s) a m b (a, m) q K Eq) as F. cbn [fst snd] in F. rewrite !Nat.eqb_refl in F. cbn [andb] in F.
    unfold z_conn in F, Eq. rewrite Z, Eq in F. injection F as F. apply (f_equal v_in) in F. cbn [srun_step set_stream v_in] in F. symmetry in F. exact (app_self _ _ F).
  - destruct (nth_error (d_thrs s) k) as [y|] eqn:Hk; [|discriminate]. destruct (ending (th_net y)) as [v|] eqn:Ee; [left; exists k, y, v; auto|right; apply Nil].
    cbn [with_thr d_thrs] in T. apply (f_equal (fun l => nth_error l k)) in T. rewrite !nth_error_map, (nth_upd_same _ _ _ _ Hk), Hk in T. cbn [option_map] in T. injection T as T _ _. cbn [th_arrive th_net] in T. rewrite received_app, Ee in T. exact (app_self _ _ T).
Qed.
Lemma up_quiet U t s w n : (forall x, nth_error (d_wires s) w = Some x -> up_at s x) -> d_unchanged U t s (d_step U t (DUp w n) s).
Proof.
  intros Q. cbn [d_step]. assert (Same : d_unchanged U t s s) by (repeat split). destruct (nth_error (d_wires s) w) as [x|] eqn:Hw; [|exact Same]. destruct (w_peer x) as [e|] eqn:Hp; [|exact Same]. destruct (end_got s e) as [g|] eqn:Hg; [|exact Same].
  cbv zeta. set (b := firstn n (skipn (List.length g) (w_out x))). specialize (Q x eq_refl e g Hp Hg). assert (Nil : skipn (List.length g) (w_out x) = [] -> b = []) by (unfold b; intros ->; apply firstn_nil). destruct e as [a m|k]; cbn [end_got] in Hg.
  - destruct Q as [(k & y & v & E & _)|Q]; [discriminate|]. rewrite (Nil Q). split; [|repeat split]. split; [reflexivity|]. cbn [with_net d_net on_server z_servers]. destruct (z_conn (d_net s) a m) as [q|] eqn:Eq; [|discriminate]. unfold z_conn in Eq. destruct (nth_error (z_servers (d_net s)) a) as [v|] eqn:Ev; [|discriminate].
    apply (L_Rest1.upd_id _ _ _ v Ev). rewrite (conn_step U m (Feed []) v q Logic.I Eq). cbn [srun_step]. rewrite L_Rest.set_same. unfold joined. rewrite Nat.sub_diag. cbn [seq map]. rewrite app_nil_r. apply same_conn. exact Eq.
  - destruct (nth_error (d_thrs s) k) as [y|] eqn:Hk; [|discriminate]. split; [split; reflexivity|]. split; [|split; reflexivity]. apply (thrs_same U k _ _ y Hk). destruct (ending (th_net y)) as [v|] eqn:Ee.
    + apply seen_same; [rewrite received_app, Ee; reflexivity|rewrite ending_app, Ee; reflexivity].
    + destruct Q as [(k' & y' & v & [= <-] & H & E)|Q]; [congruence|]. rewrite (Nil Q). apply seen_same; [rewrite received_app, Ee; apply app_nil_r|rewrite ending_app, Ee; reflexivity].
Qed.
Lemma down_settled U t s w n x : nth_error (d_wires s) w = Some x -> (forall e g, w_peer x = Some e -> end_sent U s e = Some g -> List.length g <= n) -> d_unchanged U t s (d_step U t (DDown w n) s) -> down_at U s x.
Proof.
  intros Hw L (_ & _ & W & _) e g Hp Hg. cbn [d_step] in W. rewrite Hw, Hp, Hg in W. cbv zeta in W. cbn [with_call with_wire d_wires] in W. apply (f_equal (fun l => nth_error l w)) in W. rewrite (nth_upd_same _ _ _ _ Hw), Hw in W. injection W as W. apply (f_equal w_in) in W. cbn [w_feed w_in] in W. apply app_self in W.
  apply first_all in W; [exact W|]. rewrite skipn_length. specialize (L e g Hp Hg). lia.
Qed.
Lemma down_quiet U t s w n : (forall x, nth_error (d_wires s) w = Some x -> down_at U s x) -> d_unchanged U t s (d_step U t (DDown w n) s).
Proof.
  intros Q. cbn [d_step]. assert (Same : d_unchanged U t s s) by (repeat split). destruct (nth_error (d_wires s) w) as [x|] eqn:Hw; [|exact Same]. destruct (w_peer x) as [e|] eqn:Hp; [|exact Same]. destruct (end_sent U s e) as [g|] eqn:Hg; [|exact Same].
  cbv zeta. rewrite (Q x eq_refl e g Hp Hg), firstn_nil. split; [split; reflexivity|]. split; [reflexivity|]. cbn [with_call with_wire d_wires d_calls]. split; apply upd_ident; [intros [v1 v2 v3 v4 v5]; unfold w_feed; cbn; rewrite app_nil_r; reflexivity|apply more_nil].
Qed.
Lemma read_settled U t n regs s i c k : dok U t n regs s -> nth_error (d_calls s) i = Some c -> d_unchanged U t s (d_step U t (DRecv i (Avail k)) s) -> read_at c.
Proof.
  intros D Hi (_ & _ & _ & C) w y Ep. pose proof (do_calls _ _ _ _ _ D i c Hi) as K. unfold cok in K. rewrite Ep in K. destruct K as (x & Hx & Hcx & G & L). cbn [d_step] in C. rewrite Hi, Ep in C. unfold recv in C. destruct (receive_spec _ _ k G L) as (y' & Er & G' & _). rewrite Er in C.
  assert (Pc : forall pc, upd i (c_goto pc) (d_calls s) = d_calls s -> pc = SRecv w y) by (intros pc E; apply (f_equal (fun l => nth_error l i)) in E; rewrite (nth_upd_same _ _ _ _ Hi), Hi in E; injection E as E; apply (f_equal c_pc) in E; cbn in E; congruence).
  destruct (Z.ltb_spec (len (y_buf y')) (y_total y')); cbn [with_mgrs with_call d_calls] in C; apply Pc in C; [|discriminate]. injection C as ->. destruct (receive_rest _ _ _ _ G L Er) as [(R & _)|R]; [exact R|lia].
Qed.
Lemma read_quiet U t n regs s i k : dok U t n regs s -> (forall c, nth_error (d_calls s) i = Some c -> read_at c) -> d_unchanged U t s (d_step U t (DRecv i (Avail k)) s).
Proof.
  intros D Q. cbn [d_step]. assert (Same : d_unchanged U t s s) by (repeat split). destruct (nth_error (d_calls s) i) as [c|] eqn:Hi; [|exact Same]. destruct (c_pc c) as [|w y|] eqn:Ep; try exact Same.
  pose proof (do_calls _ _ _ _ _ D i c Hi) as K. unfold cok in K. rewrite Ep in K. destruct K as (x & Hx & Hcx & G & L). unfold recv. destruct (receive_spec _ _ k G L) as (y' & Er & _). rewrite Er. destruct (receive_rest _ _ _ _ G L Er) as [(_ & ->)|R]; [|rewrite (Q c eq_refl w y Ep) in R; cbn in R; lia].
  destruct (Z.ltb_spec (len (y_buf y)) (y_total y)); [|lia]. split; [split; reflexivity|]. split; [reflexivity|]. split; [reflexivity|]. cbn [with_call d_calls]. apply (L_Rest1.upd_id _ _ _ c Hi). destruct c; cbn in *; unfold c_goto; cbn; congruence.
Qed.
Lemma net_routine U t o s : z_routine o -> d_step U t (DNet o) s = with_net (z_step U t o (d_net s)) s.
Proof. intros H. destruct o as [| | |a [| |m []|]| |]; try reflexivity; destruct H. Qed.
Lemma quiet_settled U t n regs s : dok U t n regs s -> quiet U t s -> d_settled U t s.
Proof.
  intros D [Qn Qs Qu Qd Qr] o R. destruct o as [o|d addr oneway rid back|i mk dr acc send|i ev|w k|w k|th e|addr fuel reg tr fresh call e|th b]; try destruct R.
  - rewrite net_routine by exact R. split; [exact (Qn o R)|repeat split].
  - cbn [d_step]. destruct (nth_error (d_calls s) i) as [c|] eqn:Hi; [|repeat split]. specialize (Qs i c Hi). unfold sending in Qs. destruct (c_pc c); [discriminate|repeat split|repeat split].
  - destruct ev as [k| |e]; try destruct R. apply (read_quiet U t n regs); [exact D|exact (Qr i)].
  - apply up_quiet. exact (Qu w).
  - apply down_quiet. exact (Qd w).
Qed.
Lemma settled_quiet_d U t n regs s : dok U t n regs s -> d_settled U t s -> quiet U t s.
Proof.
  intros D S. pose proof (dok_ok _ _ _ _ _ D) as K. constructor.
  - intros o R. destruct (S (DNet o) R) as (Z & _). rewrite net_routine in Z by exact R. exact Z.
  - intros i c Hi. unfold sending. destruct (c_pc c) as [r conn| |] eqn:Ep; try reflexivity. exfalso. destruct (S (DRound i (fun _ _ => true) (fun _ _ => false) ANone (Ok 0%Z))) as (_ & _ & _ & C); [intros; split; reflexivity|]. cbn [d_step] in C. rewrite Hi, Ep in C.
    pose proof (round_rank U i (fun _ _ => true) (fun _ _ => false) ANone (Ok 0%Z) c r conn s Hi Ep) as L. rewrite C in L. lia.
  - intros w x Hw. exact (up_settled U t s w _ x K Hw (Nat.le_refl _) (S (DUp w _) I)).
  - intros w x Hw. apply (down_settled U t s w (match w_peer x with Some e => olen (end_sent U s e) | None => 0 end) x Hw); [|exact (S (DDown w _) I)]. intros e g -> ->. cbn. lia.
  - intros i c Hi. exact (read_settled U t n regs s i c 0 D Hi (S (DRecv i (Avail 0)) I)).
Qed.
Lemma probe {A} (P : nat -> A -> Prop) (Q : Prop) l : (forall i x, nth_error l i = Some x -> P i x \/ Q) -> (forall i x, nth_error l i = Some x -> P i x) \/ Q.
Proof.
  intros H. destruct (bounded (fun i => forall x, nth_error l i = Some x -> P i x) Q (List.length l)) as [K|K]; [| |left; exact K|right; exact K].
  - intros i. destruct (nth_error l i) as [x|] eqn:E; [|left; discriminate]. destruct (H i x E) as [K|K]; [left; intros ? [= <-]; exact K|right; exact K].
  - intros i L x E. apply nth_error_None in L. congruence.
Qed.
Definition dprogress (U : tables) (t : M_AioClient.timer) (s : dep) : Prop := exists o, d_routine o /\ below (drank U t (d_step U t o s)) (drank U t s).
Lemma droutine_alone o : d_routine o -> d_left_alone o.
Proof. destruct o as [o|d addr oneway rid back|i mk dr acc send|i ev|w k|w k|th e|addr fuel reg tr fresh call e|th b]; cbn; try tauto. apply zroutine_alone. Qed.
Lemma dsettled_or_not U t n regs s : dok U t n regs s -> d_settled U t s \/ dprogress U t s.
Proof.
  intros D. pose proof (dok_ok _ _ _ _ _ D) as K. assert (Try_ : forall o, d_routine o -> d_unchanged U t s (d_step U t o s) \/ dprogress U t s) by (intros o R; destruct (dstep_rank U t n regs o s D (droutine_alone o R)) as [E|E]; [left; exact E|right; exists o; auto]).
  destruct (zsettled_or_not U t (d_net s) K) as [Qn|(o & R & B)].
  2: { right. exists (DNet o). split; [exact R|]. rewrite net_routine by exact R. apply drank_net; [exact B|reflexivity|]. apply usum_net. intros x. apply zgrows; [exact K|apply zroutine_alone; exact R]. }
  destruct (probe (fun _ c => sending c = false) (dprogress U t s) (d_calls s)) as [Qs|]; [|  |auto].
  { intros i c Hi. unfold sending. destruct (c_pc c) as [r conn| |] eqn:Ep; auto. right. exists (DRound i (fun _ _ => true) (fun _ _ => false) ANone (Ok 0%Z)). split; [intros; split; reflexivity|]. cbn [d_step]. rewrite Hi, Ep. apply drank_first, round_rank; assumption. }
  destruct (probe (fun _ x => up_at s x) (dprogress U t s) (d_wires s)) as [Qu|]; [| |auto].
  { intros w x Hw. destruct (Try_ (DUp w (List.length (w_out x))) I) as [E|]; [left|right; assumption]. exact (up_settled U t s w _ x K Hw (Nat.le_refl _) E). }
  destruct (probe (fun _ x => down_at U s x) (dprogress U t s) (d_wires s)) as [Qd|]; [| |auto].
  { intros w x Hw. destruct (Try_ (DDown w (match w_peer x with Some e => olen (end_sent U s e) | None => 0 end)) I) as [E|]; [left|right; assumption]. apply (down_settled U t s w _ x Hw) with (2 := E). intros e g -> ->. cbn. lia. }
  destruct (probe (fun _ c => read_at c) (dprogress U t s) (d_calls s)) as [Qr|]; [| |auto].
  { intros i c Hi. destruct (Try_ (DRecv i (Avail 0)) I) as [E|]; [left|right; assumption]. exact (read_settled U t n regs s i c 0 D Hi E). }
  left. apply (quiet_settled U t n regs s D). constructor; assumption.
Qed.
Definition d_from (U : tables) (t : M_AioClient.timer) (s : dep) (l : list dstep) : dep := fold_left (fun s o => d_step U t o s) l s.
Lemma dfrom_run U t n regs l l2 : d_from U t (d_run U t n regs l) l2 = d_run U t n regs (l ++ l2).
Proof. unfold d_from, d_run. rewrite fold_left_app. reflexivity. Qed.
Lemma dcomes_to_rest U t n regs l : exists l2, Forall d_routine l2 /\ d_settled U t (d_run U t n regs (l ++ l2)).
Proof.
  assert (K : forall r, Acc below r -> forall s, dok U t n regs s -> drank U t s = r -> exists l, Forall d_routine l /\ d_settled U t (d_from U t s l)).
  { intros r A. induction A as [r _ IH]. intros s H <-. destruct (dsettled_or_not U t n regs s H) as [S|(o & R & B)]; [exists []; split; [constructor|exact S]|].
    destruct (IH _ B _ (dok_step U t n regs o s H) eq_refl) as (l0 & Rl & S). exists (o :: l0). split; [constructor; assumption|exact S]. }
  destruct (K _ (below_wf (drank U t _)) _ (dok_run U t n regs l) eq_refl) as (l2 & F & S). exists l2. split; [exact F|]. rewrite dfrom_run in S. exact S.
Qed.

(** ** At rest, what was written has arrived and what was sent back has been read *)
Lemma rest_delivered U t n regs s i w e : dok U t n regs s -> d_settled U t s -> asked s i w e -> ~ stopped s e -> delivered U s i w.
Proof.
  intros D S (c & x & bs & Hc & Ho & Hw & Hx & Hp & Eb & Hout) Ns. destruct (settled_quiet_d U t n regs s D S) as [_ _ Qu Qd Qr].
  pose proof (wk_peer _ _ _ (do_wires _ _ _ _ _ D w x Hw)) as P. rewrite Hp in P. destruct P as (g & st & Hg & Pg & Hs & Ps). exists c, x, e. split; [exact Hc|]. split; [exact Hw|]. split; [exact Hp|].
  assert (All : forall (a b : bytes), prefix_of a b -> skipn (List.length a) b = [] -> a = b) by (intros a b (z & ->) E; rewrite skipn_app, skipn_all, Nat.sub_diag in E; cbn in E; subst z; symmetry; apply app_nil_r).
  split; [|split].
  - rewrite Hg. f_equal. apply All; [exact Pg|]. destruct (Qu w x Hw e g Hp Hg) as [Q|Q]; [destruct (Ns Q)|exact Q].
  - rewrite Hs. f_equal. symmetry. apply All; [exact Ps|]. exact (Qd w x Hw e st Hp Hs).
  - intros y Ey. exact (Qr i c Hc w y Ey).
Qed.
(** the stream of a thread is over only if that happened *)
Lemma still_open U t n regs l k y v : nth_error (d_thrs (d_run U t n regs l)) k = Some y -> ending (th_net y) = Some v -> exists e, In (DOver k e) l.
Proof.
  revert k y v. induction l as [|o l IH] using rev_ind; intros k y v; [destruct k; discriminate|]. rewrite drun_snoc. set (s := d_run U t n regs l) in *. intros Hk E.
  assert (Old : forall k y, nth_error (d_thrs s) k = Some y -> ending (th_net y) = Some v -> exists e, In (DOver k e) (l ++ [o])) by (intros k0 y0 H0 E0; destruct (IH k0 y0 v H0 E0) as (e & He); exists e; apply in_or_app; left; exact He).
  assert (New : forall x, (forall k y, nth_error (d_thrs s ++ [x]) k = Some y -> th_net x = [] -> ending (th_net y) = Some v -> exists e, In (DOver k e) (l ++ [o]))) by (intros x k0 y0 H0 Nx E0; apply snoc_inv in H0 as [(H0 & _)|(_ & ->)]; [exact (Old k0 y0 H0 E0)|rewrite Nx in E0; discriminate]).
  assert (Arr : forall k' b, nth_error (d_thrs (with_thr k' (Arrive b) s)) k = Some y -> exists e, In (DOver k e) (l ++ [o])).
  { intros k' b H. cbn [with_thr d_thrs] in H. apply nth_upd_inv in H as [(<- & y0 & H0 & ->)|(_ & H0)]; [|exact (Old k y H0 E)]. cbn [th_arrive th_net] in E. rewrite ending_app in E. apply (Old k' y0 H0). destruct (ending (th_net y0)); [exact E|discriminate]. }
  destruct o as [o|d addr oneway rid back|i mk dr acc send|i ev|w m|w m|th e|addr fuel reg tr fresh call e|th b]; cbn [d_step] in Hk.
  - apply (Old k y); [|exact E]. destruct o as [p d rid a|p i tr|p o|a lo|p c m|p c m]; try exact Hk. destruct lo as [tr|name sv|m o|]; try exact Hk. destruct o as [|b| | | | | | | | | |]; try exact Hk. destruct (sync_conn s a m); exact Hk.
  - exact (Old k y Hk E).
  - destruct (nth_error (d_calls s) i) as [c|]; [|exact (Old k y Hk E)]. destruct (c_pc c) as [r conn| |]; try exact (Old k y Hk E).
    assert (Lv : forall conn s1, d_thrs (leave i c conn s1) = d_thrs s1) by (intros conn' s1; unfold leave; destruct conn'; [destruct (c_oneway c)|]; reflexivity). assert (Ag : forall conn s1, d_thrs (again i c r conn s1) = d_thrs s1) by (intros conn' s1; unfold again; destruct (Nat.ltb (S r) 3); [reflexivity|apply Lv]).
    unfold round in Hk. destruct (fetch mk dr (c_addr c) (d_mgrs s)) as [m [id|e]]; [|apply (Old k y); [destruct e; rewrite ?Lv, ?Ag in Hk; exact Hk|exact E]].
    assert (Cn : forall k y, nth_error (d_thrs (fst (connect U id i (c_addr c) acc (with_mgrs m s)))) k = Some y -> ending (th_net y) = Some v -> exists e, In (DOver k e) (l ++ [DRound i mk dr acc send])).
    { intros k0 y0. unfold connect. destruct (find_wire _ _); [exact (Old k0 y0)|]. destruct acc as [tr|fuel reg tr fresh call e|]; [destruct (nth_error (z_servers _) _); [destruct (0 <=? _)%Z|]; exact (Old k0 y0)| |exact (Old k0 y0)]. destruct (_ <? 0)%Z; [|exact (Old k0 y0)]. intros H0. exact (New _ k0 y0 H0 eq_refl). }
    destruct (connect U id i (c_addr c) acc (with_mgrs m s)) as [s1 w]. cbn [fst] in Cn. apply (Cn k y); [|exact E].
    destruct (let! p := c_request c in to_stream p) as [bs|e]; [destruct send as [q|e]; [rewrite Lv in Hk; exact Hk|]|]; destruct e; rewrite ?Lv, ?Ag in Hk; exact Hk.
  - apply (Old k y); [|exact E]. destruct (nth_error (d_calls s) i) as [c|]; [|exact Hk]. destruct (c_pc c) as [|w z|]; try exact Hk. unfold recv in Hk. destruct ev as [q| |e]; try exact Hk. destruct (receive q z) as [z'|e]; [|exact Hk]. destruct (_ <? _)%Z; exact Hk.
  - destruct (nth_error (d_wires s) w) as [x|]; [|exact (Old k y Hk E)]. destruct (w_peer x) as [e|]; [|exact (Old k y Hk E)]. destruct (end_got s e) as [g|]; [|exact (Old k y Hk E)]. cbv zeta in Hk. destruct e as [a q|k']; [exact (Old k y Hk E)|exact (Arr _ _ Hk)].
  - apply (Old k y); [|exact E]. destruct (nth_error (d_wires s) w) as [x|]; [|exact Hk]. destruct (w_peer x) as [e|]; [|exact Hk]. destruct (end_sent U s e) as [g|]; exact Hk.
  - destruct (Nat.eq_dec th k) as [->|Ne]; [exists e; apply in_or_app; right; left; reflexivity|]. cbn [with_thr d_thrs] in Hk. rewrite nth_upd_other in Hk by exact Ne. exact (Old k y Hk E).
  - destruct (addr <? 0)%Z; [exact (New _ k y Hk eq_refl E)|exact (Old k y Hk E)].
  - destruct (sync_thr s th); [exact (Old k y Hk E)|exact (Arr _ _ Hk)].
Qed.
Lemma sync_threaded U t n regs l i w k x c v : let s := d_run U t n regs l in d_settled U t s -> asked s i w (PThr k) -> undisturbed l i -> (forall e, ~ In (DOver k e) l) -> nth_error (d_thrs s) k = Some x -> nth_error (d_calls s) i = Some c ->
  y_interface (c_what c) <> [] -> y_method (c_what c) <> [] -> clear_trace U (c_what c) -> answers_with x (c_what c) v ->
  c_pc c = SEnd (let! _ := c_back c in Ok (PBytes v)).
Proof.
  intros s S As Un No Hk Hc Ni Nm Cl Aw. apply (threaded_answered U t n regs l i w k x c v); auto. apply (rest_delivered U t n regs _ i w (PThr k) (dok_run U t n regs l) S As).
  intros (k' & y & z & [= <-] & Hy & E). destruct (still_open U t n regs l k y z Hy E) as (e & He). exact (No e He).
Qed.

(** ** The connections of asyncio listeners *)
Lemma from_more l o x o' : from_listener l x o' -> from_listener (l ++ [o]) x o'.
Proof. intros H. destruct o'; cbn [from_listener] in *; try exact H; apply in_or_app; left; exact H. Qed.
Lemma step_servers U t o z : z_servers (z_step U t o z) = z_servers z \/ exists a lo, told o a lo /\ z_servers (z_step U t o z) = z_servers (on_server U a lo z).
Proof.
  destruct o as [p d rid a|p i tr|p o|a lo|p c n|p c n]; cbn [z_step].
  - destruct (y_request d rid); left; reflexivity.
  - destruct (nth_error (z_clients z) p); [|left; reflexivity]. cbv zeta. destruct (nth_error (M_AioClient.s_links _) _) as [lk|]; [|left; reflexivity]. destruct (nth_error (z_servers z) _); [|left; reflexivity]. destruct (0 <=? _)%Z; [|left; reflexivity].
    right. exists (Z.to_nat (M_AioClient.k_addr lk)), (LAccept tr). split; [right; exact Logic.I|reflexivity].
  - left. destruct o; reflexivity.
  - assert (K : z_servers (on_server U a lo z) = z_servers z \/ exists a0 lo0, told (ZServer a lo) a0 lo0 /\ z_servers (on_server U a lo z) = z_servers (on_server U a0 lo0 z)) by (right; exists a, lo; split; [left; reflexivity|reflexivity]).
    destruct lo as [tr|name sv|m o|]; try exact K. destruct o; try exact K. destruct (owned z a m); [left; reflexivity|exact K].
  - destruct (nth_error (z_clients z) p) as [k|]; [|left; reflexivity]. destruct (nth_error (z_conns k) c) as [(a, m)|]; [|left; reflexivity]. destruct (z_conn z a m); [|left; reflexivity]. right. eexists a, (LConn m (Feed _)). split; [right; exact Logic.I|reflexivity].
  - destruct (nth_error (z_clients z) p) as [k|]; [|left; reflexivity]. destruct (nth_error (z_conns k) c) as [(a, m)|]; [|left; reflexivity]. destruct (nth_error (M_AioClient.s_links _) c); [|left; reflexivity]. destruct (z_conn z a m); left; reflexivity.
Qed.
Lemma new_conn U z a lo a' m x : z_conn z a' m = None -> z_conn (on_server U a lo z) a' m = Some x -> exists s tr, nth_error (z_servers z) a' = Some s /\ x = srun U (n_reg s) tr [].
Proof.
  unfold z_conn, on_server. cbn [z_servers]. intros N H. destruct (nth_error (upd a (lrun_step U lo) (z_servers z)) a') as [s'|] eqn:E; [|discriminate]. apply nth_upd_inv in E as [(<- & s & E & ->)|(_ & E)]; rewrite E in N; [|congruence].
  assert (La : List.length (n_conns s) <= m) by (apply nth_error_None; exact N). assert (Lb : m < List.length (n_conns (lrun_step U lo s))) by (apply nth_error_Some; congruence).
  destruct lo as [tr|name sv|c o|]; try (rewrite conns_length in Lb by exact Logic.I; lia). exists s, tr. split; [exact E|]. cbn [lrun_step n_conns] in H, Lb. rewrite app_length in Lb. cbn in Lb. replace m with (List.length (n_conns s)) in H by lia. rewrite nth_error_app2, Nat.sub_diag in H by lia. injection H as <-. reflexivity.
Qed.
Lemma conn_traced U t n regs zl a m x : z_conn (z_run U t n regs zl) a m = Some x -> exists reg tr h, x = srun U reg tr h /\ traced regs zl a reg /\ forall o, In o h -> from_listener zl (a, m) o.
Proof.
  revert x. induction zl as [|o zl IH] using rev_ind; intros x H.
  - unfold z_conn, z_run in H. cbn [fold_left z_init z_servers] in H. rewrite nth_error_map in H. destruct (nth_error regs a) as [r|]; [|discriminate]. cbn in H. destruct m; discriminate.
  - rewrite zrun_snoc in H. assert (More : forall y, z_conn (z_run U t n regs zl) a m = Some y -> exists reg tr h, y = srun U reg tr h /\ traced regs (zl ++ [o]) a reg /\ forall o', In o' h -> from_listener (zl ++ [o]) (a, m) o').
    { intros y Hy. destruct (IH y Hy) as (reg & tr & h & E & T & F). exists reg, tr, h. split; [exact E|]. split; [apply traced_more; exact T|]. intros o' Ho. apply from_more, F, Ho. }
    destruct (step_servers U t o (z_run U t n regs zl)) as [E|(a0 & lo & To & E)]; [apply More; unfold z_conn in *; rewrite E in H; exact H|].
    assert (H' : z_conn (on_server U a0 lo (z_run U t n regs zl)) a m = Some x) by (unfold z_conn in *; rewrite E in H; exact H). clear H E. destruct (z_conn (z_run U t n regs zl) a m) as [y|] eqn:Hy.
    + rewrite (server_conn U _ a0 lo a m y Hy) in H'. injection H' as <-. destruct (More y eq_refl) as (reg & tr & h & -> & T & F). exists reg, tr, (h ++ what_at (z_run U t n regs zl) a0 lo (a, m)). split; [rewrite srun_app; reflexivity|]. split; [exact T|].
      intros o' Ho. apply in_app_or in Ho as [Ho|Ho]; [exact (F o' Ho)|]. exact (what_told zl _ o a0 lo (a, m) o' To Ho).
    + destruct (new_conn U _ a0 lo a m x Hy H') as (s & tr & Hs & ->). exists (n_reg s), tr, []. split; [reflexivity|]. split; [|intros o' []]. apply traced_more. exact (nk_regs _ _ _ _ _ (netok_run U t n regs zl) a s Hs).
Qed.
Definition from_deploy (l : list dstep) (o : zstep) : Prop := In o (net_steps l) \/ match o with ZServer _ (LAccept _) | ZServer _ (LConn _ (Feed _)) => True | _ => False end.
Lemma step_net_from U t n regs o s : dok U t n regs s -> exists zl, d_net (d_step U t o s) = fold_left (fun z o => z_step U t o z) zl (d_net s) /\
  (forall p, z_ids p zl = z_ids p (net_steps [o])) /\ (forall p d rid a, In (ZCall p d rid a) (net_steps [o]) -> In (ZCall p d rid a) zl) /\ forall z, In z zl -> from_deploy [o] z.
Proof.
  intros D.
  assert (None_ : forall s', d_net s' = d_net s -> net_steps [o] = [] -> exists zl, d_net s' = fold_left (fun z o => z_step U t o z) zl (d_net s) /\
    (forall p, z_ids p zl = z_ids p (net_steps [o])) /\ (forall p d rid a, In (ZCall p d rid a) (net_steps [o]) -> In (ZCall p d rid a) zl) /\ forall z, In z zl -> from_deploy [o] z).
  { intros s' E N. exists []. rewrite N, E. split; [reflexivity|]. split; [reflexivity|]. split; [auto|intros z []]. }
  assert (One : forall s' a lo, match lo with LAccept _ | LConn _ (Feed _) => True | _ => False end -> d_net s' = z_step U t (ZServer a lo) (d_net s) -> net_steps [o] = [] -> exists zl, d_net s' = fold_left (fun z o => z_step U t o z) zl (d_net s) /\
    (forall p, z_ids p zl = z_ids p (net_steps [o])) /\ (forall p d rid a, In (ZCall p d rid a) (net_steps [o]) -> In (ZCall p d rid a) zl) /\ forall z, In z zl -> from_deploy [o] z).
  { intros s' a lo L E N. exists [ZServer a lo]. rewrite N, E. split; [reflexivity|]. split; [reflexivity|]. split; [intros ? ? ? ? []|]. intros z [<-|[]]. right. destruct lo as [tr|name sv|m o0|]; try destruct L; [exact Logic.I|]. destruct o0; try destruct L; exact Logic.I. }
  destruct o as [o|d addr oneway rid back|i mk dr acc send|i ev|w k|w k|th e|addr fuel reg tr fresh call e|th b]; cbn [d_step].
  - assert (K : exists zl, d_net (with_net (z_step U t o (d_net s)) s) = fold_left (fun z o => z_step U t o z) zl (d_net s) /\
      (forall p, z_ids p zl = z_ids p (net_steps [DNet o])) /\ (forall p d rid a, In (ZCall p d rid a) (net_steps [DNet o]) -> In (ZCall p d rid a) zl) /\ forall z, In z zl -> from_deploy [DNet o] z) by (exists [o]; split; [reflexivity|]; split; [reflexivity|]; split; [auto|]; intros z [<-|[]]; left; left; reflexivity).
    destruct o as [p d rid a|p i tr|p o|a lo|p c m|p c m]; try exact K. destruct lo as [tr|name sv|m o|]; try exact K. destruct o as [|b| | | | | | | | | |]; try exact K.
    destruct (sync_conn s a m); [|exact K]. exists []. split; [reflexivity|]. split; [reflexivity|]. split; [intros ? ? ? ? [E|[]]; discriminate|intros z []].
  - apply None_; reflexivity.
  - destruct (nth_error (d_calls s) i) as [c|]; [|apply None_; reflexivity]. destruct (c_pc c) as [r conn| |]; try (apply None_; reflexivity).
    destruct (round_net U i mk dr acc send c r conn s t) as [E|(a & tr & E)]; [apply None_; [exact E|reflexivity]|exact (One _ a (LAccept tr) Logic.I E eq_refl)].
  - destruct (nth_error (d_calls s) i) as [c|]; [|apply None_; reflexivity]. destruct (c_pc c) as [|w y|]; try (apply None_; reflexivity). apply None_; [apply recv_net|reflexivity].
  - destruct (nth_error (d_wires s) w) as [x|] eqn:Hw; [|apply None_; reflexivity]. destruct (w_peer x) as [e|] eqn:Hp; [|apply None_; reflexivity]. destruct (end_got s e) as [got|] eqn:Hg; [|apply None_; reflexivity]. cbv zeta. destruct e as [a m|th]; [|apply None_; reflexivity].
    apply (One _ a (LConn m (Feed (firstn k (skipn (List.length got) (w_out x)))))); [exact Logic.I| |reflexivity]. cbn [z_step with_net d_net]. rewrite (wk_free _ _ _ (do_wires _ _ _ _ _ D w x Hw) a m Hp). reflexivity.
  - destruct (nth_error (d_wires s) w) as [x|]; [|apply None_; reflexivity]. destruct (w_peer x) as [e|]; [|apply None_; reflexivity]. destruct (end_sent U s e) as [sent|]; apply None_; reflexivity.
  - apply None_; reflexivity.
  - destruct (addr <? 0)%Z; apply None_; reflexivity.
  - destruct (sync_thr s th); apply None_; reflexivity.
Qed.
Lemma deploy_net_from U t n regs l : exists zl, d_net (d_run U t n regs l) = z_run U t n regs zl /\ (forall p, z_ids p zl = z_ids p (net_steps l)) /\
  (forall p d rid a, In (ZCall p d rid a) (net_steps l) -> In (ZCall p d rid a) zl) /\ forall z, In z zl -> from_deploy l z.
Proof.
  induction l as [|o l (zl & A & B & C & F)] using rev_ind; [exists []; split; [reflexivity|]; split; [reflexivity|]; split; [auto|intros z []]|]. rewrite drun_snoc. destruct (step_net_from U t n regs o _ (dok_run U t n regs l)) as (zl' & A' & B' & C' & F').
  exists (zl ++ zl'). rewrite A', A. split; [unfold z_run; rewrite fold_left_app; reflexivity|]. rewrite netsteps_app. split; [|split].
  - intros p. rewrite !zids_app, B, B'. reflexivity.
  - intros p d rid a H. apply in_app_or in H as [H|H]; apply in_or_app; [left; exact (C _ _ _ _ H)|right; exact (C' _ _ _ _ H)].
  - intros z H. unfold from_deploy. rewrite netsteps_app. apply in_app_or in H as [H|H]; [destruct (F z H) as [G|G]|destruct (F' z H) as [G|G]]; try (right; exact G); left; apply in_or_app; [left|right]; exact G.
Qed.
Lemma served_from l zl regs d a : (forall z, In z zl -> from_deploy l z) -> z_served d a regs (net_steps l) -> z_served d a regs zl.
Proof. intros F (A & B & C & D). split; [exact A|]. split; [exact B|]. split; [exact C|]. intros sv H. destruct (F _ H) as [G|G]; [exact (D sv G)|exact G]. Qed.
Lemma smooth_from l zl p k : (forall z, In z zl -> from_deploy l z) -> z_smooth p (net_steps l) k -> z_smooth p zl k.
Proof.
  intros F (A & B & C). split; [|split].
  - intros d rid a q H. destruct (F _ H) as [G|G]; [exact (A _ _ _ _ G)|destruct G].
  - intros o H. destruct (F _ H) as [G|G]; [exact (B _ G)|destruct G].
  - intros a m o H Fo. destruct (F _ H) as [G|G]; [exact (C _ _ _ G Fo)|destruct o; solve [destruct G|destruct Fo]].
Qed.
Lemma zsettled_sidle U t z a m x : ok z -> z_settled U t z -> z_conn z a m = Some x -> sidle U x.
Proof.
  intros K S Zx o R. assert (J : (exists j, o = JobRun j) \/ (plain o /\ z_routine (ZServer a (LConn m o)) /\ match o with Feed _ => False | _ => True end)) by (destruct o as [| | | | |[]|j f|j []|j|j r|j|]; try destruct R; eauto; right; repeat split).
  destruct J as [(j & ->)|(J1 & J2 & J3)]; [|apply (proj1 (conn_quiet U t z a m o J1 J3) (settled_quiet U t z _ S J2)); exact Zx].
  cbn [srun_step]. destruct (nth_error (v_jobs x) j) as [b|] eqn:Hj; [|reflexivity]. destruct (j_state b) eqn:Hs; try reflexivity. exfalso. unfold z_conn in Zx. destruct (nth_error (z_servers z) a) as [s|] eqn:Es; [|discriminate].
  apply (no_queued U t z a s m j K S Es). rewrite call_jst, Zx. rewrite (jst_nth _ _ _ Hj), Hs. reflexivity.
Qed.

(** ** Synchronous calls to asyncio listeners *)
Lemma served_alone U reg tr h bs q d hd : Forall scalm h -> sidle U (srun U reg tr h) -> fed h = bs -> one bs (IRequest q) -> q_type q <> 2%Z -> q_header q = hd -> names_of d hd -> q_body q = y_content d ->
  y_interface d <> [] -> y_method d <> [] -> offers reg (y_interface d) (y_method d) -> (forall sv, ~ In (Register (y_interface d) sv) h) -> clear U hd ->
  id_ok (q_id q) /\ exists b r, In b (v_jobs (srun U reg tr h)) /\ j_service b = y_interface d /\ j_method b = y_method d /\ j_body b = y_content d /\ j_state b = JEnded r /\
    ((exists fr, concluded q r (TDrain1 fr) /\ v_out (srun U reg tr h) = [(0, fr)]) \/ (concluded q r TDone /\ v_out (srun U reg tr h) = [])).
Proof.
  intros Ca Si Fd On Nq Qh Nm Qb Ni Nme Of Rg Cl. set (x := srun U reg tr h) in *. pose proof (good_run U reg tr h) as G. fold x in G.
  destruct (run_cuts U reg tr h) as (rest & C). fold x in C. rewrite Fd in C.
  assert (It : v_items x = [] \/ v_items x = [IRequest q]) by (destruct (cuts_part _ _ _ _ _ On (fun F => F) (ex_intro _ [] (eq_sym (app_nil_r bs))) C) as [E|(E & _)]; auto).
  assert (Ta : Forall taken_item (v_items x)) by (destruct It as [-> | ->]; repeat constructor).
  pose proof (reading_run U reg tr h Ca Ta) as Rd. pose proof (reading_open _ G Rd) as Op. destruct (scalm_flags U reg tr h Ca) as (E1 & E2). destruct (calm_jobs U reg tr h Ca Op) as (Tr & Nc). fold x in Rd, E1, E2, Tr, Nc.
  assert (W : waiting x) by (split; [exact Rd|]; split; [exact E1|]; split; [exact E2|]; exact (Si Read Logic.I)).
  assert (Cu : cuts (fed h) [IRequest q] []) by (rewrite Fd, <- (app_nil_r bs); apply Cuts_cons; [exact On|intros []|constructor]).
  pose proof (waiting_item U reg tr h _ [] 0 (IRequest q) W Cu eq_refl) as N0. fold x in N0. assert (Items : v_items x = [IRequest q]) by (destruct It as [E|E]; [rewrite E in N0; discriminate|exact E]). clear It.
  destruct (answering_exists _ 0 _ G N0) as (K & _). destruct (K q eq_refl) as (u & pp & An). clear K. split; [exact (answering_id _ _ _ _ _ G An)|].
  assert (Nst : pp <> TStart) by (destruct (sidle_tasks U _ G Nc Si u 0 _ _ An) as [-> |(e & ->)]; discriminate). pose proof Nm as (N1 & N2 & N3).
  assert (Ex : In 0 (map j_frame (v_jobs x))).
  { apply (executed_any U reg tr h u 0 q pp (y_interface d) (y_method d)); try assumption; rewrite Qh; [split; [exact Ni|left; exact N1]|split; [exact Nme|exact N3]|exact Cl]. }
  apply in_map_iff in Ex as (b & Eb & Hb). apply In_nth_error in Hb as (j & Hj). destruct (sidle_jobs U _ Nc Si j b Hj) as (r & Hr). exists b, r.
  split; [eapply nth_error_In; exact Hj|]. pose proof G as ((G1 & G2 & Jo) & reg' & fin & Oo).
  destruct (jo_named _ Jo j b Hj) as (q' & Nq' & A & B & D'). rewrite Eb in Nq'. assert (q' = q) by congruence. subst q'. rewrite Qh in A, B.
  split; [exact (names_interface d hd _ Nm A)|]. split; [exact (names_the_method d hd _ Nm B)|]. split; [congruence|]. split; [exact Hr|].
  assert (Fi : fin = []) by (destruct (oo_fin _ _ _ Oo) as [F|(F & _)]; [exact F|congruence]). subst fin. pose proof (oo_split _ _ _ Oo) as Vo. rewrite app_nil_r in Vo.
  assert (Zero : forall k f, In (k, f) (v_out x) -> k = 0) by (intros k f Hk; rewrite Vo in Hk; destruct (oo_answers _ _ _ Oo k f Hk) as (y & Ny & _); rewrite Items in Ny; destruct k as [|[|k]]; [reflexivity|discriminate|discriminate]).
  assert (All : v_out x = map (fun f => (0, f)) (answers 0 x)).
  { unfold answers. revert Zero. clear. induction (v_out x) as [|(k, f) l IH]; intros Z; [reflexivity|]. pose proof (Z k f (or_introl eq_refl)) as ->. cbn. f_equal. apply IH. intros k f' H. exact (Z k f' (or_intror H)). }
  rewrite <- Eb in N0. destruct (sidle_answer U _ j b r q G Tr Nc Si Hj Hr N0 Nq) as [(fr & Co & Af)|(Co & Af)]; rewrite Eb in Af; rewrite All, Af; [left; exists fr; auto|right; auto].
Qed.

Lemma sync_asyncio U t n regs l i w a m c : let s := d_run U t n regs l in d_settled U t s -> asked s i w (PAio a m) -> undisturbed l i -> (forall o, In (DNet (ZServer a (LConn m o))) l -> ~ fails o) -> nth_error (d_calls s) i = Some c ->
  z_served (c_what c) a regs (net_steps l) -> clear_trace U (c_what c) ->
  exists r, method_ended (d_net s) a m (c_what c) r /\
    match r with
    | Raise _ => c_pc c = SEnd (let! _ := c_back c in Raise ServerError)
    | Ok v => (sendable v -> c_pc c = SEnd (let! _ := c_back c in Ok v)) /\ (~ sendable v -> exists y, c_pc c = SRecv w y)
    end.
Proof.
  intros s S As Un Nf Hc Sv Cl. pose proof (dok_run U t n regs l) as D. fold s in D. pose proof (settled_quiet_d U t n regs s D S) as Q.
  assert (De : delivered U s i w) by (apply (rest_delivered U t n regs s i w _ D S As); intros (k & y & v & E & _); discriminate).
  pose proof As as (c0 & x0 & bs & Hc0 & Ho & Hw & Hx & Hp & Eb & Hout). assert (c0 = c) by congruence. subst c0. pose proof De as (c1 & x1 & e1 & _ & Hw1 & Hp1 & Hg & Hs & _). assert (x1 = x0) by congruence. subst x1. assert (e1 = PAio a m) by congruence. subst e1.
  cbn [end_got end_sent] in Hg, Hs. destruct (z_conn (d_net s) a m) as [x|] eqn:Zx; [|discriminate]. cbn [option_map] in Hg, Hs. injection Hg as Hg. injection Hs as Hs.
  destruct (deploy_net_from U t n regs l) as (zl & Hz & _ & _ & Fr). fold s in Hz. pose proof Zx as Zx'. rewrite Hz in Zx'. destruct (conn_traced U t n regs zl a m x Zx') as (reg & tr & h & -> & Trc & From).
  assert (Ca : Forall scalm h).
  { apply Forall_forall. intros o Hin. specialize (From o Hin). assert (No : fails o -> In (ZServer a (LConn m o)) zl -> False).
    { intros Fo Hi. destruct (Fr _ Hi) as [G|G]; [|destruct o; solve [destruct G|destruct Fo]]. apply (Nf o); [|exact Fo]. unfold net_steps in G. apply in_concat in G as (g & Hg1 & Hg2). apply in_map_iff in Hg1 as (o1 & <- & Ho1). destruct o1; try destruct Hg2 as [<-|[]]; try destruct Hg2. exact Ho1. }
    destruct o as [| | | | |[]|j f|j []|j|j r|j|]; try exact Logic.I; cbn [from_listener fst snd] in From; exact (No Logic.I From). }
  assert (Sv' : z_served (c_what c) a regs zl) by (apply (served_from l); assumption). pose proof Sv' as (Ni & Nm & _ & Nr).
  destruct (wrote_all c bs Eb) as (q & hd & On & Qi & Qb & Qt & Qh & Names & Bh). rewrite Ho in Qt.
  destruct (served_alone U reg tr h bs q (c_what c) hd) as (Iok & b & r & Hb & B1 & B2 & B3 & B4 & Out); try assumption.
  - apply (zsettled_sidle U t (d_net s) a m); [exact (dok_ok _ _ _ _ _ D)|exact (qt_net _ _ _ Q)|exact Zx].
  - rewrite <- (in_run U reg tr h), Hg, Hout. reflexivity.
  - rewrite Qt. discriminate.
  - exact (traced_offers _ _ _ _ _ Trc Sv').
  - intros sv Hi. exact (Nr sv (From _ Hi)).
  - exact (Cl hd Bh).
  - exists r. split; [exists (srun U reg tr h), b; auto 10|]. rewrite Qi in *.
    assert (Reply : forall fr cmd st v, v_out (srun U reg tr h) = [(0, fr)] -> response fr (c_rid c) cmd st v -> c_pc c = SEnd (let! _ := c_back c in if (st =? 0)%Z then Ok (PBytes v) else Raise ServerError)).
    { intros fr cmd st v Vo Rs. pose proof Rs as (f & Lay & _). destruct (reply_ends U t n regs l i w (PAio a m) (fr ++ []) fr [] f As Un De) as (c2 & Hc2 & E); [cbn [end_sent]; fold s; rewrite Zx; cbn [option_map]; unfold y_replied; rewrite Vo; reflexivity|reflexivity|exact Lay|].
      fold s in Hc2. assert (c2 = c) by congruence. subst c2. rewrite E, (judge_response _ _ _ _ _ Rs). reflexivity. }
    assert (Silent : v_out (srun U reg tr h) = [] -> exists y, c_pc c = SRecv w y).
    { intros Vo. assert (Wi : w_in x0 = []) by (rewrite <- Hs; unfold y_replied; rewrite Vo; reflexivity).
      assert (Nout : w_out x0 <> []) by (rewrite Hout; intros ->; apply L_AioServer.one_unit in On; vm_compute in On; discriminate On).
      pose proof (ends_run U t n regs l i c Hc Ho Un) as A. fold s in A. unfold at_end in A. destruct (c_pc c) as [r0 conn|w' y|r0] eqn:Epc.
      - exfalso. apply Nout. apply (silent_wires U t n regs s i c D Hc) with (w := w); [unfold sending; rewrite Epc; reflexivity|exact Hw|exact Hx].
      - assert (w = w') by exact (A w x0 Hw Hx Nout). subst w'. eauto.
      - exfalso. destruct A as (w0 & A1 & A2). assert (w = w0) by exact (A1 w x0 Hw Hx Nout). subst w0. destruct A2 as [A2|(x1 & B0 & _ & (Cm & _) & _)]; [exact (Nout (A2 w x0 Hw Hx))|]. assert (x1 = x0) by congruence. subst x1. rewrite Wi in Cm. cbn in Cm. lia. }
    destruct r as [v|e].
    + destruct Out as [(fr & Co & Vo)|(Co & Vo)]; cbn [concluded] in Co; rewrite Qi in Co.
      * destruct (truthy v) eqn:Tv; [|discriminate Co]. destruct Co as [(ct & bs' & -> & Rb & Ebs)|(_ & Ebs)]; [|discriminate Ebs]. injection Ebs as <-. destruct (result_bytes_inv _ _ _ Rb) as (ct' & Ec & Lc & Re). injection Ec as <-.
        assert (Sd : sendable (PBytes ct)) by (exists ct; split; [reflexivity|]; split; [intros ->; discriminate Tv|exact Lc]). split; [intros _; exact (Reply fr 2%Z 0%Z ct Vo Re)|intros K; destruct (K Sd)].
      * assert (Ns : ~ sendable v).
        { intros (ct & -> & Nn & Lc). destruct (result_bytes_Ok ct (c_rid c) Iok Lc) as (bs' & Rb & _). destruct (truthy (PBytes ct)) eqn:Tv; [|destruct ct; [congruence|discriminate]]. destruct Co as [(? & ? & _ & _ & K)|(K & _)]; [discriminate|]. exact (K bs' Rb). }
        split; [intros K; destruct (Ns K)|]. intros _. exact (Silent Vo).
    + destruct Out as [(fr & Co & Vo)|(Co & _)]; cbn [concluded] in Co; rewrite Qi in Co; destruct Co as (bs' & Fb & Ebs); [|discriminate]. injection Ebs as <-. apply fail_bytes_inv in Fb. rewrite (Reply fr _ _ _ Vo Fb). destruct e; reflexivity.
Qed.

(** ** asyncio calls *)
Lemma asyncio_outcome U t n regs l p k d rid a : NoDup (z_ids p (net_steps l)) -> let s := d_run U t n regs l in nth_error (z_clients (d_net s)) p = Some k -> d_settled U t s -> z_smooth p (net_steps l) k -> reaches t (d_net s) k ->
  In (DNet (ZCall p d rid (Ok (Z.of_nat a)))) l -> (exists q, y_request d rid = Ok q) -> y_ptype d <> 2%Z -> z_served d a regs (net_steps l) -> clear_trace U d ->
  exists m r, In (a, m) (z_conns k) /\ method_ended (d_net s) a m d r /\
    (passed_on (z_state t k) rid r \/ ((exists v, r = Ok v /\ sendable v) /\ gives (z_state t k) rid (Raise KeyError))).
Proof.
  intros Nd s Hp S Sm Re Hc Hq Pt Sv Cl. pose proof (qt_net _ _ _ (settled_quiet_d U t n regs s (dok_run U t n regs l) S)) as Z. destruct (deploy_net_from U t n regs l) as (zl & Hz & Ids & Calls & Fr). fold s in Hz. rewrite Hz in *.
  apply (zoutcome U t n regs zl p k d rid a); auto.
  - rewrite Ids. exact Nd.
  - apply (smooth_from l); assumption.
  - apply Calls. unfold net_steps. apply in_concat. exists [ZCall p d rid (Ok (Z.of_nat a))]. split; [|left; reflexivity]. apply in_map_iff. eexists. split; [|exact Hc]. reflexivity.
  - apply (served_from l); assumption.
Qed.

(** ** A synchronous call that has been sent can be completed *)
Lemma goto_same c : c_goto (c_pc c) c = c.
Proof. destruct c. reflexivity. Qed.
Lemma calls_step U t n regs o s : dok U t n regs s -> (forall i c, nth_error (d_calls s) i = Some c -> exists pc, nth_error (d_calls (d_step U t o s)) i = Some (c_goto pc c)) /\
  forall w x, nth_error (d_wires s) w = Some x -> exists x', nth_error (d_wires (d_step U t o s)) w = Some x' /\ w_call x' = w_call x /\ w_peer x' = w_peer x /\ w_out x' = w_out x.
Proof.
  intros D. assert (Cs : forall s', d_calls s' = d_calls s -> forall i c, nth_error (d_calls s) i = Some c -> exists pc, nth_error (d_calls s') i = Some (c_goto pc c)) by (intros s' -> i c H; exists (c_pc c); rewrite goto_same; exact H).
  assert (Ws : forall s', d_wires s' = d_wires s -> forall w x, nth_error (d_wires s) w = Some x -> exists x', nth_error (d_wires s') w = Some x' /\ w_call x' = w_call x /\ w_peer x' = w_peer x /\ w_out x' = w_out x) by (intros s' -> w x H; exists x; auto).
  assert (Same : forall s', d_calls s' = d_calls s -> d_wires s' = d_wires s -> (forall i c, nth_error (d_calls s) i = Some c -> exists pc, nth_error (d_calls s') i = Some (c_goto pc c)) /\ forall w x, nth_error (d_wires s) w = Some x -> exists x', nth_error (d_wires s') w = Some x' /\ w_call x' = w_call x /\ w_peer x' = w_peer x /\ w_out x' = w_out x) by (intros s' A B; split; [apply Cs; exact A|apply Ws; exact B]).
  assert (Up : forall i0 pc0 s', d_calls s' = upd i0 (c_goto pc0) (d_calls s) -> forall i c, nth_error (d_calls s) i = Some c -> exists pc, nth_error (d_calls s') i = Some (c_goto pc c)).
  { intros i0 pc0 s' -> i c H. destruct (Nat.eq_dec i0 i) as [->|Ne]; [exists pc0; exact (nth_upd_same _ _ _ _ H)|exists (c_pc c); rewrite nth_upd_other, goto_same by exact Ne; exact H]. }
  destruct o as [o|d addr oneway rid back|i mk dr acc send|i ev|w k|w k|th e|addr fuel reg tr fresh call e|th b]; cbn [d_step].
  - destruct o as [p d rid a|p i tr|p o|a lo|p c m|p c m]; try (apply Same; reflexivity). destruct lo as [tr|name sv|m o|]; try (apply Same; reflexivity). destruct o as [|b| | | | | | | | | |]; try (apply Same; reflexivity). destruct (sync_conn s a m); apply Same; reflexivity.
  - split; [|apply Ws; reflexivity]. intros i c H. exists (c_pc c). rewrite goto_same. cbn [d_calls]. rewrite nth_error_app1; [exact H|apply nth_error_Some; congruence].
  - destruct (nth_error (d_calls s) i) as [c|] eqn:Hi; [|apply Same; reflexivity]. destruct (c_pc c) as [r conn| |]; try (apply Same; reflexivity). destruct (round_shape U t n regs i mk dr acc send c r conn s D Hi) as (pc & add & Hc & Hw & _).
    split; [exact (Up i pc _ Hc)|]. intros w x H. exists x. rewrite Hw, nth_error_app1; [auto|apply nth_error_Some; congruence].
  - destruct (nth_error (d_calls s) i) as [c|] eqn:Hi; [|apply Same; reflexivity]. destruct (c_pc c) as [|w y|]; try (apply Same; reflexivity).
    assert (Hd : d_wires (recv i c w y ev s) = d_wires s /\ exists pc, d_calls (recv i c w y ev s) = upd i (c_goto pc) (d_calls s)) by (unfold recv; destruct ev as [k| |e]; [destruct (receive k y) as [y'|e]; [destruct (len (y_buf y') <? y_total y')%Z|]| |]; split; try reflexivity; eexists; reflexivity).
    destruct Hd as (Hd & pc & Hd2). split; [exact (Up i pc _ Hd2)|apply Ws; exact Hd].
  - destruct (nth_error (d_wires s) w) as [x|]; [|apply Same; reflexivity]. destruct (w_peer x) as [e|]; [|apply Same; reflexivity]. destruct (end_got s e) as [got|]; [|apply Same; reflexivity]. cbv zeta. destruct e; apply Same; reflexivity.
  - destruct (nth_error (d_wires s) w) as [x|] eqn:Hw; [|apply Same; reflexivity]. destruct (w_peer x) as [e|]; [|apply Same; reflexivity]. destruct (end_sent U s e) as [sent|]; [|apply Same; reflexivity]. cbv zeta. set (b := firstn k _). cbn [with_call with_wire d_calls d_wires]. split.
    + intros i c H. destruct (Nat.eq_dec (w_call x) i) as [E|Ne]; [subst i; rewrite (nth_upd_same _ _ _ _ H)|exists (c_pc c); rewrite nth_upd_other, goto_same by exact Ne; exact H].
      unfold more. destruct (c_pc c) as [r conn|w' y|r] eqn:Ep; [exists (c_pc c); rewrite goto_same; reflexivity| |exists (c_pc c); rewrite goto_same; reflexivity]. destruct (Nat.eqb w' w); [eexists; reflexivity|exists (c_pc c); rewrite goto_same; reflexivity].
    + intros w' x' H. destruct (Nat.eq_dec w w') as [<-|Ne]; [rewrite (nth_upd_same _ _ _ _ H)|rewrite nth_upd_other by exact Ne]; eauto 6.
  - apply Same; reflexivity.
  - destruct (addr <? 0)%Z; apply Same; reflexivity.
  - destruct (sync_thr s th); apply Same; reflexivity.
Qed.
Lemma calls_later U t n regs l l2 : (forall i c, nth_error (d_calls (d_run U t n regs l)) i = Some c -> exists pc, nth_error (d_calls (d_run U t n regs (l ++ l2))) i = Some (c_goto pc c)) /\
  forall w x, nth_error (d_wires (d_run U t n regs l)) w = Some x -> exists x', nth_error (d_wires (d_run U t n regs (l ++ l2))) w = Some x' /\ w_call x' = w_call x /\ w_peer x' = w_peer x /\ w_out x' = w_out x.
Proof.
  induction l2 as [|o l2 (A & B)] using rev_ind; [rewrite app_nil_r; split; [intros i c H; exists (c_pc c); rewrite goto_same; exact H|intros w x H; exists x; auto]|]. rewrite app_assoc, drun_snoc. destruct (calls_step U t n regs o _ (dok_run U t n regs (l ++ l2))) as (A' & B'). split.
  - intros i c H. destruct (A i c H) as (pc & H1). destruct (A' i _ H1) as (pc' & H2). exists pc'. exact H2.
  - intros w x H. destruct (B w x H) as (x1 & H1 & E1 & E2 & E3). destruct (B' w x1 H1) as (x2 & H2 & F1 & F2 & F3). exists x2. split; [exact H2|]. split; [congruence|]. split; congruence.
Qed.
Lemma asked_later U t n regs l l2 i w e : asked (d_run U t n regs l) i w e -> asked (d_run U t n regs (l ++ l2)) i w e.
Proof.
  intros (c & x & bs & Hc & Ho & Hw & Hx & Hp & Eb & Hout). destruct (calls_later U t n regs l l2) as (A & B). destruct (A i c Hc) as (pc & Hc'). destruct (B w x Hw) as (x' & Hw' & E1 & E2 & E3).
  exists (c_goto pc c), x', bs. split; [exact Hc'|]. split; [exact Ho|]. split; [exact Hw'|]. split; [congruence|]. split; [congruence|]. split; [exact Eb|congruence].
Qed.
Lemma undisturbed_routine l i : Forall d_routine l -> undisturbed l i.
Proof. intros F ev H. rewrite Forall_forall in F. specialize (F _ H). destruct ev as [k| |e]; [eauto|destruct F|destruct F]. Qed.
Lemma net_routines l : Forall d_routine l -> forall o, In o (net_steps l) -> z_routine o.
Proof.
  intros F o H. rewrite Forall_forall in F. unfold net_steps in H. apply in_concat in H as (g & Hg & Ho). apply in_map_iff in Hg as (o1 & <- & H1). specialize (F _ H1). destruct o1; try destruct Ho as [<-|[]]; try destruct Ho. exact F.
Qed.
Lemma served_routine d a regs l l2 : Forall d_routine l2 -> z_served d a regs (net_steps l) -> z_served d a regs (net_steps (l ++ l2)).
Proof.
  intros F (A & B & C & D). split; [exact A|]. split; [exact B|]. split; [exact C|]. intros sv H. rewrite netsteps_app in H. apply in_app_or in H as [H|H]; [exact (D sv H)|exact (net_routines l2 F _ H)].
Qed.
Lemma asyncio_can_end U t n regs l i w a m c : let s := d_run U t n regs l in asked s i w (PAio a m) -> undisturbed l i -> (forall o, In (DNet (ZServer a (LConn m o))) l -> ~ fails o) -> nth_error (d_calls s) i = Some c ->
  z_served (c_what c) a regs (net_steps l) -> clear_trace U (c_what c) ->
  exists l2, Forall d_routine l2 /\ let s' := d_run U t n regs (l ++ l2) in exists c' r, nth_error (d_calls s') i = Some c' /\ c_what c' = c_what c /\ c_back c' = c_back c /\ method_ended (d_net s') a m (c_what c) r /\
    match r with
    | Raise _ => c_pc c' = SEnd (let! _ := c_back c in Raise ServerError)
    | Ok v => (sendable v -> c_pc c' = SEnd (let! _ := c_back c in Ok v)) /\ (~ sendable v -> exists y, c_pc c' = SRecv w y)
    end.
Proof.
  intros s As Un Nf Hc Sv Cl. destruct (dcomes_to_rest U t n regs l) as (l2 & F & S). exists l2. split; [exact F|]. intros s'. destruct (proj1 (calls_later U t n regs l l2) i c Hc) as (pc & Hc').
  destruct (sync_asyncio U t n regs (l ++ l2) i w a m (c_goto pc c)) as (r & Me & R); auto.
  - apply asked_later. exact As.
  - apply undisturbed_more; [exact Un|apply undisturbed_routine; exact F].
  - intros o H. apply in_app_or in H as [H|H]; [exact (Nf o H)|]. rewrite Forall_forall in F. specialize (F _ H). intros Fo. destruct o as [| | | | |[]|j f|j []|j|j r|j|]; cbn in F, Fo; contradiction.
  - apply served_routine; assumption.
  - exists (c_goto pc c), r. auto.
Qed.

(** ** For examples *)
Definition rest_dep (U : tables) (t : M_AioClient.timer) (s : dep) : Prop :=
  z_rest t (d_net s) /\ forallb (fun c => negb (sending c)) (d_calls s) = true /\
  each (fun x => match w_peer x with
                   | None => True
                   | Some e => match end_got s e, end_sent U s e with Some g, Some q => w_out x = g /\ w_in x = q | _, _ => False end
                   end) (d_wires s) /\
  each (fun c => match c_pc c with SRecv _ y => y_rest y = [] | _ => True end) (d_calls s).
Lemma rest_dep_settled U t n regs l : rest_dep U t (d_run U t n regs l) -> d_settled U t (d_run U t n regs l).
Proof.
  intros (A & B & C & D). set (s := d_run U t n regs l) in *. apply each_Forall in C. apply each_Forall in D. rewrite Forall_forall in C, D. rewrite forallb_forall in B. apply (quiet_settled U t n regs s (dok_run U t n regs l)). constructor.
  - apply zrest_settled. exact A.
  - intros i c H. apply nth_error_In in H. specialize (B c H). destruct (sending c); [discriminate|reflexivity].
  - intros w x H e g Hp Hg. apply nth_error_In in H. specialize (C x H). rewrite Hp, Hg in C. destruct (end_sent U s e); [|destruct C]. destruct C as (-> & _). right. apply skipn_all.
  - intros w x H e g Hp Hg. apply nth_error_In in H. specialize (C x H). rewrite Hp, Hg in C. destruct (end_got s e); [|destruct C]. destruct C as (_ & ->). apply skipn_all.
  - intros i c H w y E. apply nth_error_In in H. specialize (D c H). rewrite E in D. exact D.
Qed.

(** Lemmas behind C134: all the programs together come to rest, and the outcome of synchronous calls. *)
From Coq Require Import Lia ZifyBool.
From Verif Require Import PyBase L_PyBase PyDict PyInt M_SofaHeader M_Package L_Package L_Codec M_RpcId M_Trace S_Wire M_SyncClient L_SyncClient M_AioServer S_Server L_AioServer2 L_AioServer3 L_AioServer4 L_AioServer5 L_AioServer6 L_AioServer7 L_AioServer8 L_AioServer9
  M_SockServer S_SockServer L_SockServer M_System S_System L_System M_SyncSystem S_SyncSystem L_SyncSystem M_Listener S_Listener L_Listener M_Net S_Net L_Net M_Deploy S_Deploy L_Deploy S_Settle L_Settle2 L_Settle S_Answered L_Answered L_Rest L_Rest2 S_NetRest L_NetRest S_DepRest L_DepRest M_World S_World L_World S_WorldRest L_WorldRest.
From Verif Require M_AioClient L_AioClient L_Rest1 L_Front L_System1 L_DepRest2 L_DepRest3.
Open Scope nat_scope.

(** ** Coming to rest *)
Definition wquiet (U : tables) (t : M_AioClient.timer) (x : world) (o : wstep) : Prop := w_unchanged U t x (w_step U t o x).
Definition wprogress (U : tables) (t : M_AioClient.timer) (x : world) : Prop := exists o, w_routine o /\ below (wrank U t (w_step U t o x)) (wrank U t x).
Lemma wroutine_alone o : w_routine o -> w_left_alone o.
Proof. destruct o as [p d rid a|p i acc|p o|o|p c n|p c n]; cbn; try tauto; [destruct o; tauto|]. apply L_DepRest2.droutine_alone. Qed.
Lemma wattempt U t regs l x o : winv U t regs l x -> w_routine o -> wquiet U t x o \/ wprogress U t x.
Proof. intros W R. destruct (wstep_rank U t regs l o x W (wroutine_alone o R)) as [E|E]; [left; exact E|right; exists o; auto]. Qed.
Lemma wsame U t x : w_unchanged U t x x.
Proof. split; [reflexivity|apply dsame]. Qed.
Lemma wrest_is U t o x : d_left_alone o -> w_step U t (WRest o) x = on_rest U t o x.
Proof. intros H. destruct o as [[| | |a [| |m []|]| |]| | | | | | | |]; try reflexivity; destruct H. Qed.

Lemma dial_idle U t x p i : (forall acc, wquiet U t x (WDial p i acc)) \/ wprogress U t x.
Proof.
  destruct (nth_error (b_clients x) p) as [k|] eqn:Hp; [|left; intros acc; unfold wquiet; cbn [w_step]; rewrite Hp; apply wsame].
  destruct (nth_error (M_AioClient.s_links (o_state t (o_add (M_AioClient.DialOk i) k))) (List.length (M_AioClient.s_links (o_state t k)))) as [lk|] eqn:Hl; [|left; intros acc; unfold wquiet; cbn [w_step]; cbv zeta; rewrite Hp, Hl; apply wsame].
  assert (Yes : forall acc o e, accepts (M_AioClient.k_addr lk) acc (b_dep x) = Some (o, e) -> wprogress U t x).
  { intros acc o e Ha. exists (WDial p i acc). split; [exact Logic.I|]. destruct (wdial_rank U t x p i acc) as [(E & _)|E]; [exfalso|exact E]. cbn [w_step] in E. cbv zeta in E. rewrite Hp, Hl, Ha in E. cbn [on_oclient on_rest b_clients] in E. apply (f_equal (fun m => nth_error m p)) in E.
    rewrite !nth_error_map, Hp, (nth_upd_same _ _ _ _ Hp) in E. cbn [option_map] in E. injection E as E. change (o_state t {| o_hist := o_hist k ++ [M_AioClient.DialOk i]; o_conns := o_conns k ++ [e] |}) with (o_state t (o_add (M_AioClient.DialOk i) k)) in E.
    assert (Lt : List.length (M_AioClient.s_links (o_state t k)) < List.length (M_AioClient.s_links (o_state t (o_add (M_AioClient.DialOk i) k)))) by (apply nth_error_Some; congruence). rewrite E in Lt. lia. }
  destruct (accepts (M_AioClient.k_addr lk) (AAio t_init) (b_dep x)) as [(o1, e1)|] eqn:A1; [right; exact (Yes _ _ _ A1)|].
  destruct (accepts (M_AioClient.k_addr lk) (AThr 0 [] t_init [] (fun _ _ _ _ => None) None) (b_dep x)) as [(o2, e2)|] eqn:A2; [right; exact (Yes _ _ _ A2)|].
  left. intros acc. unfold wquiet. cbn [w_step]. cbv zeta. rewrite Hp, Hl. assert (N : accepts (M_AioClient.k_addr lk) acc (b_dep x) = None); [|rewrite N; apply wsame].
  destruct acc as [tr|fuel reg tr fresh call e|]; cbn [accepts] in *; [| |reflexivity].
  - destruct (nth_error (z_servers _) _); [|reflexivity]. destruct (0 <=? _)%Z; [discriminate|reflexivity].
  - destruct (_ <? 0)%Z; [discriminate|reflexivity].
Qed.
Lemma oclient_quiet U t x p o : w_routine (WClient p o) -> (wquiet U t x (WClient p o) <-> forall k, nth_error (b_clients x) p = Some k -> M_AioClient.run_step o (o_state t k) = o_state t k).
Proof.
  intros H. assert (E : w_step U t (WClient p o) x = on_oclient p (o_add o) x) by (destruct o; try destruct H; reflexivity). unfold wquiet. rewrite E. split.
  - intros (A & _) k Hk. cbn [on_oclient b_clients] in A. apply (f_equal (fun m => nth_error m p)) in A. rewrite !nth_error_map, Hk, (nth_upd_same _ _ _ _ Hk) in A. cbn [option_map] in A. rewrite ostate_add in A. congruence.
  - intros A. split; [|apply dsame]. cbn [on_oclient b_clients]. destruct (nth_error (b_clients x) p) as [k|] eqn:Hk; [exact (oadd_same t p o k _ Hk (A k eq_refl))|rewrite L_Rest1.upd_none by exact Hk; reflexivity].
Qed.
Lemma dunchanged_got U t s s' e : d_unchanged U t s s' -> end_got s' e = end_got s e.
Proof.
  intros ((_ & Z) & T & _). destruct e as [a m|k]; cbn [end_got]; [unfold z_conn; rewrite Z; reflexivity|]. apply (f_equal (fun l => nth_error l k)) in T. rewrite !nth_error_map in T.
  destruct (nth_error (d_thrs s') k) as [y'|], (nth_error (d_thrs s) k) as [y|]; cbn in *; try discriminate; try reflexivity. injection T as T _ _. f_equal. rewrite !arrived_received. exact T.
Qed.
(** bytes brought to the end of a connection either never have an effect, or they arrive *)
Lemma bring_cases U t regs s e g : dok U t 0 regs s -> apart s e -> end_got s e = Some g ->
  (exists k y v, e = PThr k /\ nth_error (d_thrs s) k = Some y /\ ending (th_net y) = Some v /\ forall b, d_unchanged U t s (d_step U t (bring e b) s)) \/ (forall b, end_got (d_step U t (bring e b) s) e = Some (g ++ b)).
Proof.
  intros D A Hg. pose proof (dok_ok _ _ _ _ _ D) as K. destruct e as [a m|th].
  - right. intros b. rewrite (bring_aio U t regs s a m b D A). cbn [end_got] in Hg |- *. destruct (z_conn (d_net s) a m) as [q|] eqn:Eq; [|discriminate]. cbn in Hg. injection Hg as Hg. cbn [with_net d_net].
    pose proof (feed_conn U (d_net s) a m b (a, m) q K Eq) as F. cbn [fst snd] in F. rewrite !Nat.eqb_refl in F. rewrite F. cbn [andb srun_step set_stream v_in option_map]. rewrite Hg. reflexivity.
  - pose proof (fun b => bring_thr U t s th b A) as Bt. cbn [end_got] in Hg. destruct (nth_error (d_thrs s) th) as [y|] eqn:Hk; [|discriminate]. cbn in Hg. injection Hg as Hg. rewrite arrived_received in Hg.
    destruct (ending (th_net y)) as [v|] eqn:Ee.
    + left. exists th, y, v. split; [reflexivity|]. split; [exact Hk|]. split; [exact Ee|]. intros b. rewrite Bt. split; [split; reflexivity|]. split; [|split; reflexivity]. apply (thrs_same U th _ _ y Hk). apply seen_same; [rewrite received_app, Ee; reflexivity|rewrite ending_app, Ee; reflexivity].
    + right. intros b. rewrite Bt. cbn [end_got with_thr d_thrs]. rewrite (nth_upd_same _ _ _ _ Hk). cbn [option_map th_arrive th_net]. rewrite arrived_received, received_app, Ee, Hg. reflexivity.
Qed.
(** nothing more can reach the end of connection c of client p *)
Definition up_done (t : M_AioClient.timer) (x : world) (p c : nat) : Prop := forall k e g, nth_error (b_clients x) p = Some k -> nth_error (o_conns k) c = Some e -> end_got (b_dep x) e = Some g ->
  L_DepRest2.stopped (b_dep x) e \/ skipn (List.length g) (y_sent (o_state t k) c) = [].
Lemma up_done_iff U t regs l x p c : winv U t regs l x -> (wquiet U t x (WUp p c 1) -> up_done t x p c) /\ (up_done t x p c -> forall n, wquiet U t x (WUp p c n)).
Proof.
  intros W. pose proof (wi_dok _ _ _ _ _ W) as D. split.
  - intros (_ & Q) k e g Hp Hc Hg. cbn [w_step] in Q. rewrite Hp, Hc, Hg in Q. cbn [on_rest b_dep] in Q. set (r := skipn _ _) in *.
    destruct (bring_cases U t regs (b_dep x) e g D (co_apart _ _ _ _ _ (wi_conn _ _ _ _ _ W p k c e Hp Hc)) Hg) as [(th & y & v & E & Hk & Ee & _)|B]; [left; exists th, y, v; auto|right].
    specialize (B (firstn 1 r)). rewrite (dunchanged_got U t _ _ e Q), Hg in B. injection B as B. symmetry in B. apply L_DepRest2.app_self in B. destruct r as [|z r]; [reflexivity|discriminate].
  - intros Q n. unfold wquiet. cbn [w_step]. destruct (nth_error (b_clients x) p) as [k|] eqn:Hp; [|apply wsame]. destruct (nth_error (o_conns k) c) as [e|] eqn:Hc; [|apply wsame]. destruct (end_got (b_dep x) e) as [g|] eqn:Hg; [|apply wsame].
    split; [reflexivity|]. cbn [on_rest b_dep]. pose proof (co_apart _ _ _ _ _ (wi_conn _ _ _ _ _ W p k c e Hp Hc)) as A. destruct (Q k e g Hp Hc Hg) as [(th & y & v & E & Hk & Ee)|Q'].
    + destruct (bring_cases U t regs (b_dep x) e g D A Hg) as [(th' & y' & v' & _ & _ & _ & B)|B]; [apply B|exfalso]. subst e. specialize (B [Byte.x00]). rewrite (bring_thr U t _ th _ A) in B. cbn [end_got with_thr d_thrs] in B, Hg. rewrite Hk in Hg. cbn in Hg. injection Hg as Hg.
      rewrite (nth_upd_same _ _ _ _ Hk) in B. cbn [option_map th_arrive th_net] in B. injection B as B. rewrite arrived_received in *. rewrite received_app, Ee, Hg in B. symmetry in B. apply L_DepRest2.app_self in B. discriminate.
    + rewrite Q', firstn_nil. destruct (bring_rank U t regs (b_dep x) e [] g D A Hg) as [E|(N & _)]; [exact E|contradiction N; reflexivity].
Qed.
Definition down_done (U : tables) (t : M_AioClient.timer) (x : world) (p c : nat) : Prop := forall k e g lk, nth_error (b_clients x) p = Some k -> nth_error (o_conns k) c = Some e -> nth_error (M_AioClient.s_links (o_state t k)) c = Some lk -> end_sent U (b_dep x) e = Some g ->
  skipn (List.length (M_AioClient.k_in lk)) g = [].
Lemma down_done_iff U t x p c : (wquiet U t x (WDown p c 1) -> down_done U t x p c) /\ (down_done U t x p c -> forall n, wquiet U t x (WDown p c n)).
Proof.
  split.
  - intros (Q & _) k e g lk Hp Hc Hl Hs. cbn [w_step] in Q. rewrite Hp, Hc, Hl, Hs in Q. cbn [on_oclient b_clients] in Q. apply (f_equal (fun m => nth_error m p)) in Q. rewrite !nth_error_map, Hp, (nth_upd_same _ _ _ _ Hp) in Q. cbn [option_map] in Q. rewrite ostate_add in Q. injection Q as Q.
    apply (feed_same c _ lk _ Hl) in Q. destruct (skipn _ g); [reflexivity|discriminate].
  - intros Q n. unfold wquiet. cbn [w_step]. destruct (nth_error (b_clients x) p) as [k|] eqn:Hp; [|apply wsame]. destruct (nth_error (o_conns k) c) as [e|] eqn:Hc; [|apply wsame]. destruct (nth_error (M_AioClient.s_links (o_state t k)) c) as [lk|] eqn:Hl; [|apply wsame]. destruct (end_sent U (b_dep x) e) as [g|] eqn:Hs; [|apply wsame].
    rewrite (Q k e g lk Hp Hc Hl Hs), firstn_nil. split; [|apply dsame]. cbn [on_oclient b_clients]. exact (oadd_same t p _ k _ Hp (feed_empty c lk _ Hl)).
Qed.

(** what is to be tried on client p *)
Definition widle (U : tables) (t : M_AioClient.timer) (x : world) (p i : nat) : Prop :=
  (forall acc, wquiet U t x (WDial p i acc)) /\ wquiet U t x (WClient p (M_AioClient.Run i)) /\ wquiet U t x (WClient p (M_AioClient.Acquire i)) /\ wquiet U t x (WClient p (M_AioClient.DrainOk i)) /\ wquiet U t x (WClient p (M_AioClient.Wake i)) /\
  wquiet U t x (WClient p (M_AioClient.Read i)) /\ (forall n, wquiet U t x (WUp p i n)) /\ forall n, wquiet U t x (WDown p i n).
Lemma widle1 U t regs l x p i : winv U t regs l x -> widle U t x p i \/ wprogress U t x.
Proof.
  intros W. destruct (dial_idle U t x p i) as [A1|]; [|auto]. destruct (wattempt U t regs l x (WClient p (M_AioClient.Run i)) W Logic.I) as [A2|]; [|auto].
  destruct (wattempt U t regs l x (WClient p (M_AioClient.Acquire i)) W Logic.I) as [A3|]; [|auto]. destruct (wattempt U t regs l x (WClient p (M_AioClient.DrainOk i)) W Logic.I) as [A4|]; [|auto].
  destruct (wattempt U t regs l x (WClient p (M_AioClient.Wake i)) W Logic.I) as [A5|]; [|auto]. destruct (wattempt U t regs l x (WClient p (M_AioClient.Read i)) W Logic.I) as [A6|]; [|auto].
  destruct (wattempt U t regs l x (WUp p i 1) W Logic.I) as [A7|]; [|auto]. destruct (wattempt U t regs l x (WDown p i 1) W Logic.I) as [A8|]; [|auto]. left. repeat (split; [assumption|]). split.
  - apply (up_done_iff U t regs l x p i W). apply (up_done_iff U t regs l x p i W). exact A7.
  - apply down_done_iff. apply down_done_iff. exact A8.
Qed.
Lemma widle_far U t x p i : (forall k, nth_error (b_clients x) p = Some k -> List.length (M_AioClient.s_tasks (o_state t k)) <= i /\ List.length (M_AioClient.s_links (o_state t k)) <= i /\ List.length (o_conns k) <= i) -> widle U t x p i.
Proof.
  intros H. assert (C : forall o, w_routine (WClient p o) -> (forall s, List.length (M_AioClient.s_tasks s) <= i -> List.length (M_AioClient.s_links s) <= i -> M_AioClient.run_step o s = s) -> wquiet U t x (WClient p o)).
  { intros o O1 O3. apply oclient_quiet; [exact O1|]. intros k Hk. destruct (H k Hk) as (A & B & _). exact (O3 _ A B). }
  split; [intros acc; unfold wquiet; cbn [w_step]; cbv zeta; destruct (nth_error (b_clients x) p) as [k|] eqn:Hk; [|apply wsame]; destruct (H k eq_refl) as (A & _); rewrite ostate_add; cbn [M_AioClient.run_step]; rewrite (nth_big _ _ A), (nth_big _ _ (Nat.le_refl _)); apply wsame|].
  repeat (split; [apply C; [exact Logic.I|intros s A B; cbn [M_AioClient.run_step]; unfold M_AioClient.read; rewrite ?(nth_big _ _ A), ?(nth_big _ _ B); reflexivity]|]).
  split; intros n; unfold wquiet; cbn [w_step]; (destruct (nth_error (b_clients x) p) as [k|] eqn:Hk; [|apply wsame]); destruct (H k eq_refl) as (_ & _ & B); rewrite (nth_big _ _ B); apply wsame.
Qed.
Lemma wclients_idle U t regs l x : winv U t regs l x -> (forall p i, widle U t x p i) \/ wprogress U t x.
Proof.
  intros W. apply (bounded (fun p => forall i, widle U t x p i) _ (List.length (b_clients x))).
  - intros p. destruct (nth_error (b_clients x) p) as [k|] eqn:Hk.
    + apply (bounded _ _ (List.length (M_AioClient.s_tasks (o_state t k)) + List.length (M_AioClient.s_links (o_state t k)) + List.length (o_conns k))); [intros i; exact (widle1 U t regs l x p i W)|]. intros i L. apply widle_far. intros k0 Hk0. assert (k0 = k) by congruence. subst k0. lia.
    + left. intros i. apply widle_far. congruence.
  - intros p L i. apply widle_far. intros k Hk. rewrite (nth_big _ _ L) in Hk. discriminate.
Qed.
Lemma wsettled_or_not U t regs l x : winv U t regs l x -> w_settled U t x \/ wprogress U t x.
Proof.
  intros W. destruct (wclients_idle U t regs l x W) as [A|]; [|auto]. destruct (L_DepRest2.dsettled_or_not U t 0 regs (b_dep x) (wi_dok _ _ _ _ _ W)) as [B|(o & R & B)].
  - left. intros o R. change (wquiet U t x o). destruct o as [p d rid a|p i acc|p o|o|p c n|p c n]; try destruct R.
    + apply (A p i).
    + destruct o as [r ad|i|i|i|i|i|i|i|i|c bs|c|c|c|rid|]; try destruct R; first [apply (A p i)|apply (A p c)].
    + unfold wquiet. rewrite wrest_is by (apply L_DepRest2.droutine_alone; exact R). split; [reflexivity|]. exact (B o R).
    + apply (A p c).
    + apply (A p c).
  - right. exists (WRest o). split; [exact R|]. pose proof (L_DepRest2.droutine_alone o R) as Al. rewrite (wrest_is U t o x Al). exact (wrest_below U t regs l x o W Al B).
Qed.
Definition w_from (U : tables) (t : M_AioClient.timer) (x : world) (l : list wstep) : world := fold_left (fun x o => w_step U t o x) l x.
Lemma wfrom_run U t n regs l l2 : w_from U t (w_run U t n regs l) l2 = w_run U t n regs (l ++ l2).
Proof. unfold w_from, w_run. rewrite fold_left_app. reflexivity. Qed.
Lemma wcomes_to_rest U t n regs l : exists l2, Forall w_routine l2 /\ w_settled U t (w_run U t n regs (l ++ l2)).
Proof.
  assert (K : forall r, Acc below r -> forall l x, winv U t regs l x -> wrank U t x = r -> exists l, Forall w_routine l /\ w_settled U t (w_from U t x l)).
  { intros r A. induction A as [r _ IH]. intros l0 x W <-. destruct (wsettled_or_not U t regs l0 x W) as [E|(o & R & B)]; [exists []; split; [constructor|exact E]|].
    destruct (IH _ B (l0 ++ [o]) _ (winv_step U t regs l0 o x W) eq_refl) as (l1 & Rl & E). exists (o :: l1). split; [constructor; assumption|exact E]. }
  destruct (K _ (below_wf (wrank U t _)) l _ (winv_run U t n regs l) eq_refl) as (l2 & F & E). exists l2. split; [exact F|]. rewrite wfrom_run in E. exact E.
Qed.
Lemma wsettled_dep U t x : w_settled U t x -> d_settled U t (b_dep x).
Proof. intros E o R. destruct (E (WRest o) R) as (_ & Q). rewrite wrest_is in Q by (apply L_DepRest2.droutine_alone; exact R). exact Q. Qed.

(** ** Synchronous calls *)
(** the rest, as a deployment: what happened to it, connections that were accepted and bytes that arrived *)
Definition by_network (o : dstep) : Prop := match o with DNet (ZServer _ (LAccept _)) | DNet (ZServer _ (LConn _ (Feed _))) | DAccept _ _ _ _ _ _ _ | DFeed _ _ => True | _ => False end.
Lemma wdep U t n regs l : exists dl, b_dep (w_run U t n regs l) = d_run U t 0 regs dl /\ forall o, In o dl -> In o (rest_steps l) \/ by_network o.
Proof.
  assert (One : forall o x, b_dep (w_step U t o x) = b_dep x \/ exists d, b_dep (w_step U t o x) = d_step U t d (b_dep x) /\ (by_network d \/ o = WRest d)).
  { intros o x. destruct o as [p d rid a|p i acc|p o|o|p c m|p c m]; cbn [w_step].
    - destruct (y_request d rid); left; reflexivity.
    - destruct (nth_error (b_clients x) p) as [k|]; [|left; reflexivity]. cbv zeta. destruct (nth_error (M_AioClient.s_links _) _) as [lk|]; [|left; reflexivity]. destruct (accepts _ acc (b_dep x)) as [(o, e)|] eqn:Ha; [|left; reflexivity]. right. exists o. split; [reflexivity|]. left.
      destruct acc as [tr|fuel reg tr fresh call er|]; cbn [accepts] in Ha; [| |discriminate]; [destruct (nth_error _ _); [|discriminate]; destruct (0 <=? _)%Z; [|discriminate]|destruct (_ <? 0)%Z; [|discriminate]]; injection Ha as <- <-; exact Logic.I.
    - left. destruct o; reflexivity.
    - assert (G : forall d, o = d -> b_dep (on_rest U t d x) = b_dep x \/ exists d0, b_dep (on_rest U t d x) = d_step U t d0 (b_dep x) /\ (by_network d0 \/ WRest o = WRest d0)) by (intros d <-; right; exists o; split; [reflexivity|right; reflexivity]).
      destruct o as [[| | |a [| |m []|]| |]| | | | | | | |]; try (apply G; reflexivity); (destruct (theirs x _); [left; reflexivity|apply G; reflexivity]).
    - destruct (nth_error (b_clients x) p) as [k|]; [|left; reflexivity]. destruct (nth_error (o_conns k) c) as [e|]; [|left; reflexivity]. destruct (end_got (b_dep x) e) as [g|]; [|left; reflexivity]. right. eexists. split; [reflexivity|]. left. destruct e; exact Logic.I.
    - left. destruct (nth_error (b_clients x) p) as [k|]; [|reflexivity]. destruct (nth_error (o_conns k) c) as [e|]; [|reflexivity]. destruct (nth_error (M_AioClient.s_links _) c); [|reflexivity]. destruct (end_sent U (b_dep x) e); reflexivity. }
  induction l as [|o l (dl & E & H)] using rev_ind; [exists []; split; [reflexivity|intros o []]|]. rewrite wrun_snoc. assert (Rs : forall d, In d (rest_steps l) -> In d (rest_steps (l ++ [o]))) by (intros d Hd; unfold rest_steps in *; rewrite map_app, concat_app; apply in_or_app; left; exact Hd).
  destruct (One o (w_run U t n regs l)) as [F|(d & F & G)]; rewrite F, E.
  - exists dl. split; [reflexivity|]. intros d Hd. destruct (H d Hd); auto.
  - exists (dl ++ [d]). split; [rewrite drun_snoc; reflexivity|]. intros d' Hd. apply in_app_or in Hd as [Hd|[<-|[]]]; [destruct (H d' Hd); auto|]. destruct G as [G| ->]; [right; exact G|left]. unfold rest_steps. rewrite map_app, concat_app. apply in_or_app. right. left. reflexivity.
Qed.
Lemma wundisturbed l dl i : (forall o, In o dl -> In o (rest_steps l) \/ by_network o) -> undisturbed (rest_steps l) i -> undisturbed dl i.
Proof. intros H Un ev Hev. destruct (H _ Hev) as [G|[]]. exact (Un ev G). Qed.
Lemma wserved d a regs l dl : (forall o, In o dl -> In o (rest_steps l) \/ by_network o) -> z_served d a regs (net_steps (rest_steps l)) -> z_served d a regs (net_steps dl).
Proof.
  intros H (A & B & C & N). split; [exact A|]. split; [exact B|]. split; [exact C|]. intros sv Hi. apply (N sv). unfold net_steps in *. apply in_concat in Hi as (y & Hy & Hi). apply in_map_iff in Hy as (o & <- & Ho).
  destruct (H o Ho) as [G|G]; [|destruct o as [[| | |a0 [| |m []|]| |]| | | | | | | |]; cbn in Hi; try contradiction; destruct Hi as [Hi|[]]; try discriminate; destruct G].
  apply in_concat. exists (match o with DNet o => [o] | _ => [] end). split; [|exact Hi]. apply in_map_iff. exists o. split; [reflexivity|exact G].
Qed.
Lemma wsync_threaded U t n regs l i w k y c v : let x := w_run U t n regs l in w_settled U t x -> asked (b_dep x) i w (PThr k) -> undisturbed (rest_steps l) i -> (forall e, ~ In (DOver k e) (rest_steps l)) -> nth_error (d_thrs (b_dep x)) k = Some y -> nth_error (d_calls (b_dep x)) i = Some c ->
  y_interface (c_what c) <> [] -> y_method (c_what c) <> [] -> clear_trace U (c_what c) -> answers_with y (c_what c) v ->
  c_pc c = SEnd (let! _ := c_back c in Ok (PBytes v)).
Proof.
  intros x E As Un No Hk Hc Ni Nm Cl Aw. apply wsettled_dep in E. unfold x in *. destruct (wdep U t n regs l) as (dl & Ed & H). rewrite Ed in *.
  apply (L_DepRest2.sync_threaded U t 0 regs dl i w k y c v E As (wundisturbed _ _ _ H Un)); auto. intros e He. destruct (H _ He) as [G|[]]. exact (No e G).
Qed.
Lemma wsync_asyncio U t n regs l i w a m c : let x := w_run U t n regs l in w_settled U t x -> asked (b_dep x) i w (PAio a m) -> undisturbed (rest_steps l) i -> (forall o, In (DNet (ZServer a (LConn m o))) (rest_steps l) -> ~ fails o) -> nth_error (d_calls (b_dep x)) i = Some c ->
  z_served (c_what c) a regs (net_steps (rest_steps l)) -> clear_trace U (c_what c) ->
  exists r, method_ended (d_net (b_dep x)) a m (c_what c) r /\
    match r with
    | Raise _ => c_pc c = SEnd (let! _ := c_back c in Raise ServerError)
    | Ok v => (sendable v -> c_pc c = SEnd (let! _ := c_back c in Ok v)) /\ (~ sendable v -> exists y, c_pc c = SRecv w y)
    end.
Proof.
  intros x E As Un No Hc Sv Cl. apply wsettled_dep in E. unfold x in *. destruct (wdep U t n regs l) as (dl & Ed & H). rewrite Ed in *.
  apply (L_DepRest2.sync_asyncio U t 0 regs dl i w a m c E As (wundisturbed _ _ _ H Un)); auto; [|exact (wserved _ _ _ _ _ H Sv)]. intros o Ho. destruct (H _ Ho) as [G|G]; [exact (No o G)|]. destruct o; try destruct G. intros [].
Qed.

(** ** For examples *)
Definition rest_oclient (U : tables) (t : M_AioClient.timer) (s : dep) (k : oclient) : Prop :=
  let v := o_state t k in Forall (rest_task v) (M_AioClient.s_tasks v) /\ each L_NetRest.rest_link (M_AioClient.s_links v) /\
  map (end_got s) (o_conns k) = map (fun c => Some (y_sent v c)) (seq 0 (List.length (o_conns k))) /\ map (end_sent U s) (o_conns k) = map (fun lk => Some (M_AioClient.k_in lk)) (M_AioClient.s_links v).
Definition rest_world (U : tables) (t : M_AioClient.timer) (x : world) : Prop := each (rest_oclient U t (b_dep x)) (b_clients x) /\ L_DepRest2.rest_dep U t (b_dep x).
Lemma rest_world_settled U t n regs l : let x := w_run U t n regs l in rest_world U t x -> w_settled U t x.
Proof.
  intros x (A & B). assert (Bd : d_settled U t (b_dep x)) by (unfold x in *; destruct (wdep U t n regs l) as (dl & Ed & _); rewrite Ed in *; apply L_DepRest2.rest_dep_settled; exact B).
  pose proof (winv_run U t n regs l) as W. fold x in W. apply each_Forall in A. rewrite Forall_forall in A. assert (Cl : forall p k, nth_error (b_clients x) p = Some k -> rest_oclient U t (b_dep x) k) by (intros p k H; apply A; eapply nth_error_In; exact H).
  intros o R. change (wquiet U t x o). destruct o as [p d rid a|p i acc|p o|o|p c m|p c m]; try destruct R.
  - unfold wquiet. cbn [w_step]. cbv zeta. destruct (nth_error (b_clients x) p) as [k|] eqn:Hp; [|apply wsame]. destruct (Cl p k Hp) as (T & _). rewrite Forall_forall in T. rewrite ostate_add.
    assert (E : M_AioClient.run_step (M_AioClient.DialOk i) (o_state t k) = o_state t k).
    { cbn [M_AioClient.run_step]. destruct (nth_error (M_AioClient.s_tasks (o_state t k)) i) as [tk|] eqn:Hi; [|reflexivity]. pose proof (T tk (nth_error_In _ _ Hi)) as Tk. unfold rest_task in Tk. destruct (M_AioClient.t_pc tk); try contradiction; reflexivity. }
    rewrite E, (nth_big _ _ (Nat.le_refl _)). apply wsame.
  - apply oclient_quiet; [exact R|]. intros k Hp. destruct (Cl p k Hp) as (T & L & _). apply each_Forall in L. rewrite Forall_forall in T, L.
    destruct o as [r ad|i|i|i|i|i|i|i|i|c bs|c|c|c|rid|]; try destruct R; cbn [M_AioClient.run_step]; try (destruct (nth_error (M_AioClient.s_tasks (o_state t k)) i) as [tk|] eqn:Hi; [|reflexivity]; pose proof (T tk (nth_error_In _ _ Hi)) as Tk; unfold rest_task in Tk; destruct (M_AioClient.t_pc tk); try contradiction; try reflexivity; rewrite ?Tk; reflexivity).
    unfold M_AioClient.read. destruct (nth_error (M_AioClient.s_links (o_state t k)) c) as [lk|] eqn:Hl; [|reflexivity]. pose proof (L lk (nth_error_In _ _ Hl)) as Lk. unfold L_NetRest.rest_link in Lk. destruct (M_AioClient.k_rd lk) eqn:Er; try contradiction; [|reflexivity]. destruct Lk as (R2 & R3 & R4 & R5). rewrite R2, R3, R4, R5. reflexivity.
  - unfold wquiet. rewrite wrest_is by (apply L_DepRest2.droutine_alone; exact R). split; [reflexivity|]. exact (Bd o R).
  - apply (up_done_iff U t regs l x p c W). intros k e g Hp Hc Hg. right. destruct (Cl p k Hp) as (_ & _ & D & _). apply (f_equal (fun m => nth_error m c)) in D. rewrite !nth_error_map, Hc in D. cbn [option_map] in D. rewrite Hg in D.
    assert (Hq : nth_error (seq 0 (List.length (o_conns k))) c = Some c). { assert (L : (c < List.length (o_conns k))%nat) by (apply nth_error_Some; congruence). rewrite (nth_error_nth' _ 0%nat) by (rewrite seq_length; exact L). rewrite seq_nth by exact L. reflexivity. }
    rewrite Hq in D. cbn in D. injection D as ->. apply skipn_all.
  - apply down_done_iff. intros k e g lk Hp Hc Hl Hs. destruct (Cl p k Hp) as (_ & _ & _ & D). apply (f_equal (fun m => nth_error m c)) in D. rewrite !nth_error_map, Hc, Hl in D. cbn [option_map] in D. rewrite Hs in D. injection D as ->. apply skipn_all.
Qed.

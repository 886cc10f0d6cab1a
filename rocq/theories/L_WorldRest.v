(** Lemmas behind C134: all the programs together, left alone, stop. *)
From Coq Require Import Lia ZifyBool.
From Verif Require Import PyBase L_PyBase PyDict PyInt M_SofaHeader M_Package L_Package L_Codec M_RpcId M_Trace S_Wire M_SyncClient L_SyncClient M_AioServer S_Server L_AioServer2 L_AioServer3 L_AioServer4 L_AioServer5 L_AioServer6 L_AioServer7 L_AioServer8 L_AioServer9
  M_SockServer S_SockServer L_SockServer M_System S_System L_System M_SyncSystem S_SyncSystem L_SyncSystem M_Listener S_Listener L_Listener M_Net S_Net L_Net M_Deploy S_Deploy L_Deploy S_Settle L_Settle2 L_Settle S_Answered L_Answered L_Rest L_Rest2 S_NetRest L_NetRest S_DepRest L_DepRest M_World S_World L_World S_WorldRest.
From Verif Require M_AioClient L_AioClient L_Rest1 L_Front L_System1.
Import L_Rest1 (total, busy, unread).
Open Scope nat_scope.

(** ** The rank *)
Definition ups (t : M_AioClient.timer) (s : dep) (k : oclient) : nat := sumi (fun c e => List.length (y_sent (o_state t k) c) - olen (end_got s e)) 0 (o_conns k).
Definition downs (U : tables) (t : M_AioClient.timer) (s : dep) (k : oclient) : nat := sumi (fun c e => olen (end_sent U s e) - L_Rest.arrived (o_state t k) c) 0 (o_conns k).
Definition wrank (U : tables) (t : M_AioClient.timer) (x : world) : list nat :=
  let s := b_dep x in
  [total srank (d_calls s); total (fun k => busy (o_state t k)) (b_clients x); total (ups t s) (b_clients x) + usum s; total l_parse (z_servers (d_net s)); total l_do (z_servers (d_net s));
   total (downw U s) (d_wires s); total yrank (d_calls s); total (downs U t s) (b_clients x); total (fun k => unread (o_state t k)) (b_clients x)].

Lemma no_clients U t regs s : dok U t 0 regs s -> z_clients (d_net s) = [].
Proof. intros D. destruct (do_net _ _ _ _ _ D) as (zl & ->). apply clients_nil. Qed.
Lemma drank_nil U t s : z_clients (d_net s) = [] -> drank U t s = [total srank (d_calls s); 0; 0; usum s; total l_parse (z_servers (d_net s)); total l_do (z_servers (d_net s)); 0; 0; total (downw U s) (d_wires s); total yrank (d_calls s)].
Proof. intros E. unfold drank, zrank. rewrite E. reflexivity. Qed.

Lemma total_in {A} (f g : A -> nat) l : (forall x, In x l -> f x = g x) -> total f l = total g l.
Proof. intros H. unfold total. rewrite (map_ext_in f g); [reflexivity|exact H]. Qed.
Lemma sumi_in {A} (f g : nat -> A -> nat) l : forall i, (forall j x, nth_error l j = Some x -> f (i + j) x = g (i + j) x) -> sumi f i l = sumi g i l.
Proof.
  induction l as [|y l IH]; intros i H; [reflexivity|]. cbn. f_equal; [specialize (H 0 y eq_refl); rewrite Nat.add_0_r in H; exact H|]. apply IH. intros j x Hj. specialize (H (S j) x Hj). replace (i + S j) with (S i + j) in H by lia. exact H.
Qed.
Lemma total_below {A} (f g : A -> nat) l : (forall x, In x l -> f x <= g x) -> forall i x, nth_error l i = Some x -> f x < g x -> total f l < total g l.
Proof.
  intros H. assert (LE : forall m, (forall x, In x m -> f x <= g x) -> total f m <= total g m).
  { intros m. unfold total, list_sum. induction m as [|y m IH]; intros Hm; cbn; [lia|]. specialize (IH (fun x Hx => Hm x (or_intror Hx))). specialize (Hm y (or_introl eq_refl)). lia. }
  induction l as [|y l IH]; intros [|i] x Hx L; cbn in Hx; try discriminate; unfold total, list_sum in *; cbn.
  - injection Hx as ->. specialize (LE l (fun z Hz => H z (or_intror Hz))). lia.
  - specialize (IH (fun z Hz => H z (or_intror Hz)) i x Hx L). specialize (H y (or_introl eq_refl)). lia.
Qed.
Lemma sumi_below {A} (f g : nat -> A -> nat) l : forall c i x, (forall j x, nth_error l j = Some x -> f (i + j) x <= g (i + j) x) -> nth_error l c = Some x -> f (i + c) x < g (i + c) x -> sumi f i l < sumi g i l.
Proof.
  assert (LE : forall l i, (forall j x, nth_error l j = Some x -> f (i + j) x <= g (i + j) x) -> sumi f i l <= sumi g i l).
  { clear l. induction l as [|y l IH]; intros i H; cbn; [lia|]. assert (T : sumi f (S i) l <= sumi g (S i) l) by (apply IH; intros j x Hj; specialize (H (S j) x Hj); replace (i + S j) with (S i + j) in H by lia; exact H). specialize (H 0 y eq_refl). rewrite Nat.add_0_r in H. lia. }
  induction l as [|y l IH]; intros [|c] i x H Hx L; cbn in *; try discriminate.
  - injection Hx as ->. rewrite Nat.add_0_r in L. assert (T : sumi f (S i) l <= sumi g (S i) l) by (apply LE; intros j z Hj; specialize (H (S j) z Hj); replace (i + S j) with (S i + j) in H by lia; exact H). lia.
  - replace (i + S c) with (S i + c) in L by lia. assert (T : sumi f (S i) l < sumi g (S i) l) by (apply (IH c (S i) x); [intros j z Hj; specialize (H (S j) z Hj); replace (i + S j) with (S i + j) in H by lia; exact H|exact Hx|exact L]). specialize (H 0 y eq_refl). rewrite Nat.add_0_r in H. lia.
Qed.

(** ** A step of the rest *)
Lemma alone_bring o e b : d_left_alone o -> o <> bring e b.
Proof. intros H ->. destruct e; exact H. Qed.
Lemma keep_got U t regs l x o p k c e : winv U t regs l x -> nth_error (b_clients x) p = Some k -> nth_error (o_conns k) c = Some e -> (forall b, o <> bring e b) -> end_got (d_step U t o (b_dep x)) e = end_got (b_dep x) e.
Proof.
  intros W Hp Hc N. pose proof (wi_conn _ _ _ _ _ W p k c e Hp Hc) as C. destruct (keeps_step U t regs o (b_dep x) e (wi_dok _ _ _ _ _ W) (co_there _ _ _ _ _ C) (co_apart _ _ _ _ _ C) N) as [K _ _].
  destruct (co_far _ _ _ _ _ C) as (g & sn & _ & A & _ & B & _). rewrite A. exact (proj1 (K g sn A B)).
Qed.
Lemma ups_rest U t regs l x o k : winv U t regs l x -> In k (b_clients x) -> d_left_alone o -> ups t (d_step U t o (b_dep x)) k = ups t (b_dep x) k.
Proof.
  intros W Hk H. apply In_nth_error in Hk as (p & Hp). unfold ups. apply sumi_in. intros j e Hj. cbn [Nat.add]. rewrite (keep_got U t regs l x o p k j e W Hp Hj); [reflexivity|]. intros b. apply alone_bring. exact H.
Qed.
Lemma wrest_below U t regs l x o : winv U t regs l x -> d_left_alone o -> below (drank U t (d_step U t o (b_dep x))) (drank U t (b_dep x)) -> below (wrank U t (on_rest U t o x)) (wrank U t x).
Proof.
  intros W H E. pose proof (wi_dok _ _ _ _ _ W) as D.
  pose proof (dok_step U t 0 regs o (b_dep x) D) as D'. rewrite (drank_nil U t _ (no_clients _ _ _ _ D)), (drank_nil U t _ (no_clients _ _ _ _ D')) in E. destruct E as (_ & E).
  assert (Up : total (ups t (d_step U t o (b_dep x))) (b_clients x) = total (ups t (b_dep x)) (b_clients x)) by (apply total_in; intros k Hk; exact (ups_rest U t regs l x o k W Hk H)).
  split; [reflexivity|]. unfold wrank. cbn [on_rest b_dep b_clients]. rewrite Up. cbn [lex] in E |- *. lia.
Qed.
Lemma wrest_rank U t regs l x o : winv U t regs l x -> d_left_alone o -> w_unchanged U t x (on_rest U t o x) \/ below (wrank U t (on_rest U t o x)) (wrank U t x).
Proof.
  intros W H. destruct (dstep_rank U t 0 regs o (b_dep x) (wi_dok _ _ _ _ _ W) H) as [E|E]; [left; split; [reflexivity|exact E]|right; exact (wrest_below U t regs l x o W H E)].
Qed.

(** ** A step of a client *)
Lemma oadd_same t p o k (l : list oclient) : nth_error l p = Some k -> M_AioClient.run_step o (o_state t k) = o_state t k -> map (o_state t) (upd p (o_add o) l) = map (o_state t) l.
Proof.
  intros H E. rewrite (L_System1.map_upd_comm (o_state t) (o_add o) (M_AioClient.run_step o)) by (intros x; apply ostate_add). apply upd_same. right. exists (o_state t k). rewrite nth_error_map, H. split; [reflexivity|exact E].
Qed.
Lemma dsame U t s : d_unchanged U t s s.
Proof. repeat split. Qed.
Lemma wclient_rank U t x p o : L_Rest1.own_step o -> w_unchanged U t x (on_oclient p (o_add o) x) \/ below (wrank U t (on_oclient p (o_add o) x)) (wrank U t x).
Proof.
  intros H. destruct (nth_error (b_clients x) p) as [k|] eqn:Hk.
  2:{ left. split; [|apply dsame]. cbn [on_oclient b_clients]. rewrite L_Rest1.upd_none by exact Hk. reflexivity. }
  destruct (L_Rest1.client_lowers o (o_state t k) H) as [E|[E|([E1 E2 E3 E4] & E)]].
  - left. split; [|apply dsame]. cbn [on_oclient b_clients]. apply (oadd_same t p o k _ Hk E).
  - right. split; [reflexivity|]. unfold wrank. cbn [on_oclient b_dep b_clients lex]. right. split; [reflexivity|]. left. pose proof (total_upd (fun k => busy (o_state t k)) (o_add o) (b_clients x) p k Hk) as V. cbn beta in V. rewrite ostate_add in V. lia.
  - right. split; [reflexivity|]. unfold wrank. cbn [on_oclient b_dep b_clients lex].
    right. split; [reflexivity|]. right. split; [apply (total_eq_upd (fun k => busy (o_state t k)) _ _ _ k Hk); rewrite ostate_add; unfold busy; rewrite E1, E2; reflexivity|].
    right. split; [f_equal; apply (total_eq_upd (ups t (b_dep x)) _ _ _ k Hk); unfold ups; cbn [o_add o_conns]; apply sumi_ext; intros c e; rewrite ostate_add; unfold y_sent; rewrite E3; reflexivity|].
    do 4 (right; split; [reflexivity|]).
    right. split; [apply (total_eq_upd (downs U t (b_dep x)) _ _ _ k Hk); unfold downs; cbn [o_add o_conns]; apply sumi_ext; intros c e; rewrite ostate_add; unfold L_Rest.arrived, L_System1.ins; rewrite E4; reflexivity|].
    left. pose proof (total_upd (fun k => unread (o_state t k)) (o_add o) (b_clients x) p k Hk) as V. cbn beta in V. rewrite ostate_add in V. lia.
Qed.
Lemma accepts_calls U t addr acc s o e : accepts addr acc s = Some (o, e) -> d_calls (d_step U t o s) = d_calls s.
Proof.
  destruct acc as [tr|fuel reg tr fresh call w|]; cbn [accepts]; [| |discriminate].
  - destruct (nth_error _ _); [|discriminate]. destruct (0 <=? addr)%Z; [|discriminate]. intros [= <- <-]. reflexivity.
  - destruct (addr <? 0)%Z eqn:E; [|discriminate]. intros [= <- <-]. cbn [d_step]. rewrite E. reflexivity.
Qed.
Lemma wdial_rank U t x p i acc : w_unchanged U t x (w_step U t (WDial p i acc) x) \/ below (wrank U t (w_step U t (WDial p i acc) x)) (wrank U t x).
Proof.
  assert (Same : w_unchanged U t x x) by (split; [reflexivity|apply dsame]).
  cbn [w_step]. cbv zeta. destruct (nth_error (b_clients x) p) as [k|] eqn:Hp; [|left; exact Same]. rewrite ostate_add.
  destruct (nth_error (M_AioClient.s_links _) _) as [lk|] eqn:Hl; [|left; exact Same]. destruct (accepts _ acc (b_dep x)) as [(o, e)|] eqn:Ha; [|left; exact Same].
  right. split; [reflexivity|]. unfold wrank. cbn [on_oclient on_rest b_dep b_clients lex]. right. split; [rewrite (accepts_calls U t _ _ _ _ _ Ha); reflexivity|]. left.
  match goal with |- total ?f (upd p ?g ?l) < _ => pose proof (total_upd f g l p k Hp) as V end. cbn beta in V.
  change (o_state t {| o_hist := o_hist (o_add (M_AioClient.DialOk i) k); o_conns := o_conns k ++ [e] |}) with (o_state t (o_add (M_AioClient.DialOk i) k)) in V. rewrite ostate_add in V.
  assert (Lt : List.length (M_AioClient.s_links (o_state t k)) < List.length (M_AioClient.s_links (M_AioClient.run_step (M_AioClient.DialOk i) (o_state t k)))) by (apply nth_error_Some; congruence).
  destruct (L_Rest1.client_lowers (M_AioClient.DialOk i) (o_state t k) Logic.I) as [E|[E|([_ _ _ E] & _)]]; [rewrite E in Lt; lia|lia|]. apply (f_equal (@List.length _)) in E. rewrite !map_length in E. lia.
Qed.

(** ** Bytes arrive *)
Lemma bring_aio U t regs s a m b : dok U t 0 regs s -> apart s (PAio a m) -> d_step U t (bring (PAio a m) b) s = with_net (on_server U a (LConn m (Feed b)) (d_net s)) s.
Proof.
  intros D A. cbn [bring d_step]. assert (Es : sync_conn s a m = false).
  { destruct (sync_conn s a m) eqn:E; [|reflexivity]. exfalso. apply existsb_exists in E as (w & Hw & E). destruct (w_peer w) as [[a' m'|]|] eqn:Hp; try discriminate. destruct (Nat.eqb_spec a' a), (Nat.eqb_spec m' m); try discriminate. subst.
    apply A. rewrite <- Hp. apply in_map. exact Hw. }
  rewrite Es. cbn [z_step]. rewrite (nobody U t regs s a m D). reflexivity.
Qed.
Lemma bring_thr U t s th b : apart s (PThr th) -> d_step U t (bring (PThr th) b) s = with_thr th (Arrive b) s.
Proof.
  intros A. cbn [bring d_step]. assert (Es : sync_thr s th = false).
  { destruct (sync_thr s th) eqn:E; [|reflexivity]. exfalso. apply existsb_exists in E as (w & Hw & E). destruct (w_peer w) as [[|t']|] eqn:Hp; try discriminate. destruct (Nat.eqb_spec t' th); try discriminate. subst. apply A. rewrite <- Hp. apply in_map. exact Hw. }
  rewrite Es. reflexivity.
Qed.
(** what bringing bytes to the end of a connection does: nothing, or they arrive and no other number of the rank that comes before rises *)
Lemma bring_rank U t regs s e b g : dok U t 0 regs s -> apart s e -> end_got s e = Some g ->
  let s' := d_step U t (bring e b) s in
  d_unchanged U t s s' \/ (b <> [] /\ end_got s' e = Some (g ++ b) /\ (forall e', olen (end_got s e') <= olen (end_got s' e')) /\ usum s' <= usum s /\ d_calls s' = d_calls s).
Proof.
  intros D A Hg. cbv zeta. pose proof (dok_ok _ _ _ _ _ D) as K. destruct e as [a m|th].
  - rewrite (bring_aio U t regs s a m b D A). cbn [end_got] in Hg. destruct (z_conn (d_net s) a m) as [q|] eqn:Eq; [|discriminate]. cbn in Hg. injection Hg as Hg.
    set (z' := on_server U a (LConn m (Feed b)) (d_net s)).
    assert (Grow : forall y, got (d_net s) y <= got z' y).
    { intros y. unfold got. destruct (z_conn (d_net s) (fst y) (snd y)) as [sy|] eqn:Ey; [|lia]. unfold z'. rewrite (feed_conn U _ a m b y sy K Ey). destruct (_ && _); [|lia]. cbn [srun_step set_stream v_in]. rewrite app_length. lia. }
    destruct b as [|b0 b].
    + left. split; [|repeat split]. split; [reflexivity|]. cbn [with_net d_net]. unfold z'. cbn [on_server z_servers]. pose proof Eq as Eq'. unfold z_conn in Eq'. destruct (nth_error (z_servers (d_net s)) a) as [v|] eqn:Ev; [|discriminate].
      apply (L_Rest1.upd_id _ _ _ v Ev). rewrite (conn_step U m (Feed []) v q Logic.I Eq'). cbn [srun_step]. rewrite L_Rest.set_same. unfold joined. rewrite Nat.sub_diag. cbn [seq map]. rewrite app_nil_r. apply same_conn. exact Eq'.
    + right. split; [discriminate|]. split; [|split; [|split; [apply usum_net; exact Grow|reflexivity]]].
      * cbn [end_got with_net d_net]. unfold z'. pose proof (feed_conn U (d_net s) a m (b0 :: b) (a, m) q K Eq) as F. cbn [fst snd] in F. rewrite !Nat.eqb_refl in F. rewrite F. cbn [andb srun_step set_stream v_in option_map]. rewrite Hg. reflexivity.
      * intros [a' m'|th']; [|cbn; lia]. rewrite !olen_got. cbn [with_net d_net]. apply Grow.
  - rewrite (bring_thr U t s th b A). cbn [end_got] in Hg. destruct (nth_error (d_thrs s) th) as [y|] eqn:Hk; [|discriminate]. cbn in Hg. injection Hg as Hg. rewrite arrived_received in Hg.
    assert (Quiet : th_seen U (th_arrive (Arrive b) y) = th_seen U y -> d_unchanged U t s (with_thr th (Arrive b) s)) by (intros Q; split; [split; reflexivity|]; split; [apply (thrs_same U th _ _ y Hk Q)|split; reflexivity]).
    destruct (ending (th_net y)) as [v|] eqn:Ee; [left; apply Quiet; apply seen_same; [rewrite received_app, Ee; reflexivity|rewrite ending_app, Ee; reflexivity]|].
    destruct b as [|b0 b]; [left; apply Quiet; apply seen_same; [rewrite received_app, Ee; apply app_nil_r|rewrite ending_app, Ee; reflexivity]|].
    right. split; [discriminate|]. split; [|split; [intros e'; apply got_thr|split; [|reflexivity]]].
    + cbn [end_got with_thr d_thrs]. rewrite (nth_upd_same _ _ _ _ Hk). cbn [option_map th_arrive th_net]. rewrite arrived_received, received_app, Ee, Hg. reflexivity.
    + unfold usum. change (d_wires (with_thr th (Arrive (b0 :: b)) s)) with (d_wires s). cbn [with_thr d_thrs].
      assert (O : total opened (upd th (th_arrive (Arrive (b0 :: b))) (d_thrs s)) = total opened (d_thrs s)) by (apply total_eq_upd with (x := y); [exact Hk|]; unfold opened; cbn [th_arrive th_net]; rewrite ending_app, Ee; reflexivity). rewrite O.
      assert (total (upw (with_thr th (Arrive (b0 :: b)) s)) (d_wires s) <= total (upw s) (d_wires s)); [|lia]. apply total_le. intros v. unfold upw. destruct (w_peer v) as [e|]; [|lia]. pose proof (got_thr s th (Arrive (b0 :: b)) e). lia.
Qed.
Lemma wup_rank U t regs l x p c n : winv U t regs l x -> w_unchanged U t x (w_step U t (WUp p c n) x) \/ below (wrank U t (w_step U t (WUp p c n) x)) (wrank U t x).
Proof.
  intros W. assert (Same : w_unchanged U t x x) by (split; [reflexivity|apply dsame]). cbn [w_step]. destruct (nth_error (b_clients x) p) as [k|] eqn:Hp; [|left; exact Same]. destruct (nth_error (o_conns k) c) as [e|] eqn:Hc; [|left; exact Same].
  destruct (end_got (b_dep x) e) as [g|] eqn:Hg; [|left; exact Same]. set (b := firstn n _). assert (Lb : List.length b <= List.length (y_sent (o_state t k) c) - List.length g) by (unfold b; rewrite firstn_length, skipn_length; lia).
  pose proof (wi_dok _ _ _ _ _ W) as D. pose proof (co_apart _ _ _ _ _ (wi_conn _ _ _ _ _ W p k c e Hp Hc)) as A.
  destruct (bring_rank U t regs (b_dep x) e b g D A Hg) as [E|(Nb & Hg' & Grow & Us & Ec)]; [left; split; [reflexivity|exact E]|right].
  split; [reflexivity|]. unfold wrank. cbn [on_rest b_dep b_clients lex]. right. split; [rewrite Ec; reflexivity|]. right. split; [reflexivity|]. left.
  assert (Up : total (ups t (d_step U t (bring e b) (b_dep x))) (b_clients x) < total (ups t (b_dep x)) (b_clients x)); [|lia].
  apply total_below with (i := p) (x := k); [|exact Hp|].
  - intros k0 _. unfold ups. apply sumi_le. intros j e'. specialize (Grow e'). lia.
  - unfold ups. apply (sumi_below _ _ _ c 0 e); [intros j e' _; specialize (Grow e'); lia|exact Hc|]. cbn [Nat.add]. rewrite Hg, Hg'. cbn [olen]. rewrite app_length. destruct b as [|b0 b']; [contradiction Nb; reflexivity|]. cbn [List.length] in *. lia.
Qed.
Lemma wdown_rank U t x p c n : w_unchanged U t x (w_step U t (WDown p c n) x) \/ below (wrank U t (w_step U t (WDown p c n) x)) (wrank U t x).
Proof.
  assert (Same : w_unchanged U t x x) by (split; [reflexivity|apply dsame]). cbn [w_step]. destruct (nth_error (b_clients x) p) as [k|] eqn:Hp; [|left; exact Same]. destruct (nth_error (o_conns k) c) as [e|] eqn:Hc; [|left; exact Same].
  destruct (nth_error (M_AioClient.s_links (o_state t k)) c) as [lk|] eqn:Hl; [|left; exact Same]. destruct (end_sent U (b_dep x) e) as [sn|] eqn:Hs; [|left; exact Same].
  set (b := firstn n _). assert (Hi : nth_error (L_System1.ins (o_state t k)) c = Some (M_AioClient.k_in lk)) by (unfold L_System1.ins; rewrite nth_error_map, Hl; reflexivity).
  destruct (Nat.eq_dec (List.length b) 0) as [Ex|Ex].
  - apply length_zero_iff_nil in Ex. left. split; [|apply dsame]. cbn [on_oclient b_clients]. apply (oadd_same t p _ k _ Hp). rewrite Ex. exact (feed_empty c lk _ Hl).
  - right. split; [reflexivity|]. unfold wrank. cbn [on_oclient b_dep b_clients lex].
    right. split; [reflexivity|]. right. split; [apply (total_eq_upd (fun k => busy (o_state t k)) _ _ _ k Hp); rewrite ostate_add; reflexivity|].
    right. split; [f_equal; apply (total_eq_upd (ups t (b_dep x)) _ _ _ k Hp); unfold ups; cbn [o_add o_conns]; apply sumi_ext; intros c0 x0; rewrite ostate_add; reflexivity|].
    do 4 (right; split; [reflexivity|]). left.
    pose proof (total_upd (downs U t (b_dep x)) (o_add (M_AioClient.Feed c b)) (b_clients x) p k Hp) as V.
    assert (Q : downs U t (b_dep x) (o_add (M_AioClient.Feed c b) k) < downs U t (b_dep x) k); [|lia]. unfold downs. cbn [o_add o_conns].
    change {| o_hist := o_hist k ++ [M_AioClient.Feed c b]; o_conns := o_conns k |} with (o_add (M_AioClient.Feed c b) k).
    assert (A1 : forall j, L_Rest.arrived (o_state t k) j <= L_Rest.arrived (o_state t (o_add (M_AioClient.Feed c b) k)) j).
    { intros j. unfold L_Rest.arrived. rewrite ostate_add, feed_ins. destruct (Nat.eq_dec c j) as [<-|Ne]; [rewrite (L_Front.upd_here _ _ _ _ Hi), Hi, app_length; lia|rewrite L_AioClient.upd_other by congruence; lia]. }
    apply (sumi_lt _ _ _ c 0 e); [intros j y; specialize (A1 j); lia|exact Hc|]. cbn [Nat.add]. rewrite Hs. cbn [olen].
    assert (A2 : L_Rest.arrived (o_state t k) c = List.length (M_AioClient.k_in lk)) by (unfold L_Rest.arrived; rewrite Hi; reflexivity).
    assert (A3 : L_Rest.arrived (o_state t (o_add (M_AioClient.Feed c b) k)) c = List.length (M_AioClient.k_in lk) + List.length b) by (unfold L_Rest.arrived; rewrite ostate_add, feed_ins, (L_Front.upd_here _ _ _ _ Hi), app_length; reflexivity).
    rewrite A2, A3. assert (M : List.length b <= List.length (skipn (List.length (M_AioClient.k_in lk)) sn)) by (unfold b; rewrite firstn_length; lia). rewrite skipn_length in M. lia.
Qed.

(** ** All steps *)
Lemma wstep_rank U t regs l o x : winv U t regs l x -> w_left_alone o -> w_unchanged U t x (w_step U t o x) \/ below (wrank U t (w_step U t o x)) (wrank U t x).
Proof.
  intros W H. assert (Same : w_unchanged U t x x) by (split; [reflexivity|apply dsame]). destruct o as [p d rid a|p i acc|p o|o|p c n|p c n].
  - destruct H.
  - apply wdial_rank.
  - cbn [w_step]. destruct o; try (left; exact Same); try (apply wclient_rank; exact Logic.I). destruct H.
  - assert (E : w_step U t (WRest o) x = on_rest U t o x) by (destruct o as [[| | |a [| |m []|]| |]| | | | | | | |]; try reflexivity; destruct H). rewrite E. exact (wrest_rank U t regs l x o W H).
  - exact (wup_rank U t regs l x p c n W).
  - apply wdown_rank.
Qed.
Lemma wterminates U t n regs l : Acc (w_goes_on U t) (w_run U t n regs l).
Proof.
  assert (K : forall r, Acc below r -> forall l x, winv U t regs l x -> wrank U t x = r -> Acc (w_goes_on U t) x); [|exact (K _ (below_wf (wrank U t _)) l _ (winv_run U t n regs l) eq_refl)].
  intros r A. induction A as [r _ IH]. intros l0 x W <-. constructor. intros x' (o & Ho & -> & N). destruct (wstep_rank U t regs l0 o x W Ho) as [E|E]; [contradiction|]. exact (IH _ E (l0 ++ [o]) _ (winv_step U t regs l0 o x W) eq_refl).
Qed.
Lemma wafter_shift U t f x n : w_after U t f (S n) x = w_after U t (fun m => f (S m)) n (w_step U t (f 0) x).
Proof. induction n as [|n IH]; [reflexivity|]. cbn [w_after] in *. rewrite IH. reflexivity. Qed.
Lemma wnot_for_ever U t n regs l f : (forall m, w_left_alone (f m)) -> exists m, w_unchanged U t (w_after U t f m (w_run U t n regs l)) (w_after U t f (S m) (w_run U t n regs l)).
Proof.
  assert (K : forall r, Acc below r -> forall l x f, winv U t regs l x -> wrank U t x = r -> (forall m, w_left_alone (f m)) -> exists m, w_unchanged U t (w_after U t f m x) (w_after U t f (S m) x)); [|exact (K _ (below_wf (wrank U t _)) l _ f (winv_run U t n regs l) eq_refl)].
  intros r A. induction A as [r _ IH]. intros l0 x g W <- Hg. destruct (wstep_rank U t regs l0 (g 0) x W (Hg 0)) as [E|E]; [exists 0; exact E|].
  destruct (IH _ E (l0 ++ [g 0]) _ (fun m => g (S m)) (winv_step U t regs l0 _ x W) eq_refl (fun m => Hg (S m))) as (m & M). exists (S m). rewrite (wafter_shift U t g x m), (wafter_shift U t g x (S m)). exact M.
Qed.

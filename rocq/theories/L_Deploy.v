(** Lemmas behind C96. *)
From Coq Require Import Lia ZifyBool.
From Verif Require Import PyBase L_PyBase PyDict PyInt M_SofaHeader M_Package L_Package L_Codec M_RpcId M_Trace S_Wire M_SyncClient L_SyncClient M_AioServer S_Server L_AioServer2 L_AioServer3 L_AioServer4 L_AioServer5 L_AioServer6 L_AioServer7 L_AioServer8 L_AioServer9
  M_SockServer S_SockServer L_SockServer M_System S_System L_System M_SyncSystem S_SyncSystem L_SyncSystem M_Listener S_Listener L_Listener M_Net S_Net L_Net M_Deploy S_Deploy.
From Verif Require M_AioClient L_Rest1.
Open Scope nat_scope.

Lemma arrived_received net : arrived net = S_SockServer.received net.
Proof. induction net as [|[b| |e] net IH]; cbn; congruence. Qed.

(** ** The threads *)
Lemma received_snoc net a : prefix_of (S_SockServer.received net) (S_SockServer.received (net ++ [a])).
Proof. induction net as [|[b| |e] net IH]; cbn; [eexists; reflexivity| |exists []; reflexivity|exists []; reflexivity]. destruct IH as (x & ->). exists x. rewrite app_assoc. reflexivity. Qed.
Lemma begins_more D i x : begins D i -> begins (D ++ x) i.
Proof. intros (a & r & -> & O). exists a, (r ++ x). rewrite app_assoc. auto. Qed.
Lemma thread_more fuel U reg tr fresh call w net a : o_sent (handle fuel U reg tr fresh call w net) = [] \/ handle fuel U reg tr fresh call w (net ++ [a]) = handle fuel U reg tr fresh call w net.
Proof.
  destruct fuel as [|f]; [left; rewrite handle_0; reflexivity|].
  assert (K : forall i, begins (S_SockServer.received net) i -> ~ (exists id st, i = IBad id st) -> ~ fatal i -> handle (S f) U reg tr fresh call w (net ++ [a]) = handle (S f) U reg tr fresh call w net).
  { intros i B N1 N2. apply (sock_first_only (S f) U reg tr fresh call w _ _ i); auto; [lia|]. destruct (received_snoc net a) as (x & ->). apply begins_more. exact B. }
  destruct (proj1 (sock_effects (S f) U reg tr fresh call w net)) as [E|(bs & _ & R)]; [auto|right].
  destruct R as [(id & B & _)|[(q & B & _)|(q & sv & m & c & v & B & _)]]; apply (K _ B); try (intros (? & ? & X); discriminate X); intros X; exact X.
Qed.
Lemma th_sent_more U x a : prefix_of (concat (o_sent (th_out U x))) (concat (o_sent (th_out U (th_arrive a x)))).
Proof. unfold th_out, th_arrive. cbn. destruct (thread_more (th_fuel x) U (th_reg x) (th_tr x) (th_fresh x) (th_call x) (th_err x) (th_net x) a) as [E|E]; rewrite E; [eexists; reflexivity|exists []; rewrite app_nil_r; reflexivity]. Qed.

(** ** The asyncio connections *)
Lemma zconn_run U t n regs zl a m x : z_conn (z_run U t n regs zl) a m = Some x -> exists reg tr h, x = srun U reg tr h.
Proof.
  unfold z_conn. destruct (nth_error (z_servers (z_run U t n regs zl)) a) as [s|] eqn:E; [|discriminate]. destruct (listener_run U t n regs zl a s E) as (reg & ll & _ & ->). intros H.
  destruct (connection U reg ll m x H) as (reg0 & tr & h & -> & _). eauto.
Qed.
Lemma out_from U l : forall s, good s -> exists y, v_out (sfrom U s l) = v_out s ++ y.
Proof.
  induction l as [|o l IH]; intros s G; [exists []; rewrite app_nil_r; reflexivity|]. change (sfrom U s (o :: l)) with (sfrom U (srun_step U o s) l).
  destruct (out_grows U o s G) as (y & E). destruct (IH (srun_step U o s)) as (y' & E'); [exact (good_from U [o] s G)|]. rewrite E', E. exists (y ++ y'). rewrite app_assoc. reflexivity.
Qed.
Lemma nofeed_fed st : nofeed st -> fed st = [].
Proof. induction 1 as [|o st H _ IH]; [reflexivity|]. destruct o; cbn in *; try exact IH. destruct H. Qed.
Lemma nofeed_keeps U x st : good x -> nofeed st -> v_in (sfrom U x st) = v_in x /\ prefix_of (y_replied x) (y_replied (sfrom U x st)).
Proof.
  intros G N. split; [rewrite in_from by exact G; rewrite nofeed_fed by exact N; apply app_nil_r|]. destruct (out_from U st x G) as (y & E). unfold y_replied. rewrite E, map_app, concat_app. eexists. reflexivity.
Qed.

(** ** The invariant *)
Definition sending (c : scall) : bool := match c_pc c with SSend _ _ => true | _ => false end.
Definition wrote_by (c : scall) (out : bytes) : Prop := exists bs k, (let! p := c_request c in to_stream p) = Ok bs /\ out = py_take k bs.
Record wok (U : tables) (s : dep) (x : wire) : Prop := {
  wk_id : fst (w_id x) < d_mgrs s;
  wk_call : exists c, nth_error (d_calls s) (w_call x) = Some c /\ (w_out x = [] \/ (wrote_by c (w_out x) /\ sending c = false)) /\ (forall e, w_peer x = Some e -> located s e (c_addr c));
  wk_peer : match w_peer x with
            | None => w_in x = []
            | Some e => exists got sent, end_got s e = Some got /\ prefix_of got (w_out x) /\ end_sent U s e = Some sent /\ prefix_of (w_in x) sent
            end;
  wk_free : forall a n, w_peer x = Some (PAio a n) -> owned (d_net s) a n = false
}.
Definition has_answer (x : wire) (rid : Z) (v : pyobj) : Prop := exists frame tail f,
  w_in x = frame ++ tail /\ response_layout frame f /\ fr_request_id f = rid /\ fr_tos f = 0%Z /\ v = PBytes (fr_content f).
Definition cok (s : dep) (i : nat) (c : scall) : Prop :=
  match c_pc c with
  | SSend r conn => forall w, conn = Some w -> exists x, nth_error (d_wires s) w = Some x /\ w_call x = i
  | SRecv w y => exists x, nth_error (d_wires s) w = Some x /\ w_call x = i /\ rgood (w_in x) y /\ (len (y_buf y) < y_total y)%Z
  | SEnd (Ok v) => c_oneway c = true \/ exists w x, nth_error (d_wires s) w = Some x /\ w_call x = i /\ has_answer x (c_rid c) v
  | SEnd (Raise _) => True
  end.
Record dok (U : tables) (t : M_AioClient.timer) (n : nat) (regs : list registry) (s : dep) : Prop := {
  do_wires : forall w x, nth_error (d_wires s) w = Some x -> wok U s x;
  do_uniq : forall w w' x x' e, nth_error (d_wires s) w = Some x -> nth_error (d_wires s) w' = Some x' -> w_peer x = Some e -> w_peer x' = Some e -> w = w';
  do_one : forall w w' x x', nth_error (d_wires s) w = Some x -> nth_error (d_wires s) w' = Some x' -> w_call x = w_call x' -> w_out x <> [] -> w_out x' <> [] -> w = w';
  do_calls : forall i c, nth_error (d_calls s) i = Some c -> cok s i c;
  do_net : exists zl, d_net s = z_run U t n regs zl
}.

(** ** Steps of the network *)
Definition same_ends (U : tables) (s s' : dep) (e : peer) : Prop :=
  forall got sent, end_got s e = Some got -> end_sent U s e = Some sent -> end_got s' e = Some got /\ exists sent', end_sent U s' e = Some sent' /\ prefix_of sent sent'.
Lemma wok_move U s s' x : wok U s x -> d_mgrs s <= d_mgrs s' -> d_calls s' = d_calls s -> (forall e addr, located s e addr -> located s' e addr) ->
  (forall e, w_peer x = Some e -> same_ends U s s' e) -> (forall a n, w_peer x = Some (PAio a n) -> owned (d_net s') a n = false) -> wok U s' x.
Proof.
  intros [A (c & B1 & B2 & B3) C D] Hm Hc Hl He Ho. constructor; [lia| | |exact Ho].
  - exists c. rewrite Hc. auto.
  - destruct (w_peer x) as [e|]; [|exact C]. destruct C as (got & sent & G & P & S & Q). destruct (He e eq_refl got sent G S) as (G' & sent' & S' & Q'). exists got, sent'. split; [exact G'|]. split; [exact P|]. split; [exact S'|].
    exact (prefix_trans _ _ _ Q Q').
Qed.
Lemma dok_alt U t n regs s s' : dok U t n regs s -> d_wires s' = d_wires s -> d_calls s' = d_calls s -> (forall w x, nth_error (d_wires s) w = Some x -> wok U s' x) ->
  (exists zl, d_net s' = z_run U t n regs zl) -> dok U t n regs s'.
Proof.
  intros [A B C D E] Hw Hc H Hz. constructor; rewrite ?Hw, ?Hc; auto.
  intros i c Hi. specialize (D i c Hi). unfold cok in *. rewrite Hw. exact D.
Qed.
Lemma dok_move U t n regs s s' : dok U t n regs s -> d_wires s' = d_wires s -> d_calls s' = d_calls s -> d_mgrs s <= d_mgrs s' -> (forall e addr, located s e addr -> located s' e addr) ->
  (forall w x e, nth_error (d_wires s) w = Some x -> w_peer x = Some e -> same_ends U s s' e) ->
  (forall w x a n, nth_error (d_wires s) w = Some x -> w_peer x = Some (PAio a n) -> owned (d_net s') a n = false) ->
  (exists zl, d_net s' = z_run U t n regs zl) -> dok U t n regs s'.
Proof.
  intros D Hw Hc Hm Hl He Ho Hz. apply (dok_alt U t n regs s); auto.
  intros w x Hx. apply (wok_move U s s' x (do_wires _ _ _ _ _ D w x Hx) Hm Hc Hl); [intros e; exact (He w x e Hx)|intros a m; exact (Ho w x a m Hx)].
Qed.
Lemma same_refl U s s' e : (forall a n, e = PAio a n -> z_conn (d_net s') a n = z_conn (d_net s) a n) -> (forall t, e = PThr t -> nth_error (d_thrs s') t = nth_error (d_thrs s) t) -> same_ends U s s' e.
Proof.
  intros A B got sent G S. destruct e as [a n|t]; cbn [end_got end_sent] in *; [rewrite (A a n eq_refl)|rewrite (B t eq_refl)]; (split; [exact G|]; exists sent; split; [exact S|exists []; symmetry; apply app_nil_r]).
Qed.
Lemma dok_mgrs U t n regs s k : dok U t n regs s -> d_mgrs s <= k -> dok U t n regs (with_mgrs k s).
Proof.
  intros D H. apply (dok_move U t n regs s); auto.
  - intros w x e _ _. apply same_refl; reflexivity.
  - intros w x a m Hx Hp. exact (wk_free _ _ _ (do_wires _ _ _ _ _ D w x Hx) a m Hp).
  - exact (do_net _ _ _ _ _ D).
Qed.

(** what a step of M_Net does to a connection that no asyncio client has, if it brings no bytes there *)
Lemma owned_conn z a n : owned z a n = true <-> exists p k, nth_error (z_clients z) p = Some k /\ In (a, n) (z_conns k).
Proof.
  unfold owned. rewrite existsb_exists. split.
  - intros (k & Hk & E). apply existsb_exists in E as ((a', n') & Hx & E). apply In_nth_error in Hk as (p & Hk). exists p, k. split; [exact Hk|].
    cbn [fst snd] in E. destruct (Nat.eqb_spec a' a), (Nat.eqb_spec n' n); try discriminate. subst. exact Hx.
  - intros (p & k & Hk & Hx). exists k. split; [exact (nth_error_In _ _ Hk)|]. apply existsb_exists. exists (a, n). split; [exact Hx|]. cbn. rewrite !Nat.eqb_refl. reflexivity.
Qed.
Lemma owned_not z a n : owned z a n = false <-> forall p k, nth_error (z_clients z) p = Some k -> ~ In (a, n) (z_conns k).
Proof.
  split.
  - intros F p k Hk Hx. assert (owned z a n = true) by (apply owned_conn; eauto). congruence.
  - intros F. destruct (owned z a n) eqn:E; [|reflexivity]. apply owned_conn in E as (p & k & Hk & Hx). destruct (F p k Hk Hx).
Qed.
Lemma owned_same z z' a n : map z_conns (z_clients z') = map z_conns (z_clients z) -> owned z' a n = owned z a n.
Proof.
  unfold owned. intros E. set (f := fun l : list (nat * nat) => existsb (fun x => Nat.eqb (fst x) a && Nat.eqb (snd x) n) l).
  assert (K : forall l, existsb (fun k => f (z_conns k)) l = existsb f (map z_conns l)) by (induction l as [|k l IH]; cbn; congruence). change (existsb (fun k => f (z_conns k)) (z_clients z') = existsb (fun k => f (z_conns k)) (z_clients z)). rewrite !K, E. reflexivity.
Qed.
Lemma map_upd_same {A B} (g : A -> B) f l : (forall x, g (f x) = g x) -> forall i, map g (upd i f l) = map g l.
Proof. intros H. induction l as [|y l IH]; intros [|i]; cbn; rewrite ?H, ?IH; reflexivity. Qed.
Lemma zstep_other U t o z a n x : z_conn z a n = Some x -> owned z a n = false -> (forall bs, o <> ZServer a (LConn n (Feed bs))) ->
  owned (z_step U t o z) a n = false /\ exists st, nofeed st /\ z_conn (z_step U t o z) a n = Some (sfrom U x st).
Proof.
  intros Hx Ho Nf.
  assert (Same : forall p f, (forall k, z_conns (f k) = z_conns k) -> owned (on_client p f z) a n = false /\ exists st, nofeed st /\ z_conn (on_client p f z) a n = Some (sfrom U x st)).
  { intros p f Hf. split; [rewrite <- Ho; apply owned_same; apply map_upd_same; exact Hf|]. exists []. split; [constructor|exact Hx]. }
  assert (Void : owned z a n = false /\ exists st, nofeed st /\ z_conn z a n = Some (sfrom U x st)) by (split; [exact Ho|]; exists []; split; [constructor|exact Hx]).
  assert (Srv : forall a0 lo, (forall m bs, lo = LConn m (Feed bs) -> (a, n) <> (a0, m)) -> owned (on_server U a0 lo z) a n = false /\ exists st, nofeed st /\ z_conn (on_server U a0 lo z) a n = Some (sfrom U x st)).
  { intros a0 lo H. split; [exact Ho|]. exists (what_at z a0 lo (a, n)). split; [apply what_nofeed; exact H|apply server_conn; exact Hx]. }
  destruct o as [p d rid addr|p i tr|p o|a0 o|p c m|p c m]; cbn [z_step].
  - destruct (y_request d rid); [|exact Void]. apply Same. reflexivity.
  - destruct (nth_error (z_clients z) p) as [k|] eqn:Hp; [|exact Void]. cbv zeta. destruct (nth_error (M_AioClient.s_links _) _) as [lk|]; [|exact Void].
    destruct (nth_error (z_servers z) (Z.to_nat (M_AioClient.k_addr lk))) as [sv|] eqn:Es; [|exact Void]. destruct (0 <=? M_AioClient.k_addr lk)%Z; [|exact Void]. set (a0 := Z.to_nat (M_AioClient.k_addr lk)) in *.
    destruct (Srv a0 (LAccept tr)) as (_ & st & Nst & Hst); [discriminate|]. split; [|exists st; split; [exact Nst|exact Hst]].
    apply owned_not. intros p' k' Hk' Hin. cbn [on_client on_server z_clients] in Hk'. apply nth_upd_inv in Hk' as [(<- & k0 & Hk0 & ->)|(_ & Hk')].
    + cbn [z_conns] in Hin. assert (k0 = k) by congruence. subst k0. apply in_app_or in Hin as [Hin|[[= E1 E2]|[]]]; [exact (proj1 (owned_not z a n) Ho p k Hp Hin)|].
      unfold z_conn in Hx. rewrite <- E1 in Hx. rewrite Es in Hx. assert (nth_error (n_conns sv) n = None) by (apply nth_error_None; lia). congruence.
    + exact (proj1 (owned_not z a n) Ho p' k' Hk' Hin).
  - destruct o; try exact Void; apply Same; reflexivity.
  - destruct o as [tr|name sv|m o|]; try (apply Srv; discriminate). destruct o; try (apply Srv; discriminate). destruct (owned z a0 m) eqn:Om; [exact Void|]. apply Srv. intros m' bs' [= -> ->] [= -> ->]. exact (Nf _ eq_refl).
  - destruct (nth_error (z_clients z) p) as [k|] eqn:Hp; [|exact Void]. destruct (nth_error (z_conns k) c) as [(a0, m0)|] eqn:Hc; [|exact Void]. destruct (z_conn z a0 m0); [|exact Void]. apply Srv. intros m' bs' E1 E2. injection E1 as E1 _. injection E2 as E2 E3. subst.
    exact (proj1 (owned_not z _ _) Ho p k Hp (nth_error_In _ _ Hc)).
  - destruct (nth_error (z_clients z) p) as [k|]; [|exact Void]. destruct (nth_error (z_conns k) c) as [(a0, m0)|]; [|exact Void]. destruct (nth_error (M_AioClient.s_links _) c); [|exact Void]. destruct (z_conn z a0 m0); [|exact Void]. apply Same. reflexivity.
Qed.

Lemma zconn_good U t n regs zl a m x : z_conn (z_run U t n regs zl) a m = Some x -> good x.
Proof. intros H. destruct (zconn_run _ _ _ _ _ _ _ _ H) as (reg & tr & h & ->). apply good_run. Qed.
(** the state after a step of the network *)
Lemma dok_net U t n regs s o : dok U t n regs s -> (forall a m bs w x, o = ZServer a (LConn m (Feed bs)) -> nth_error (d_wires s) w = Some x -> w_peer x <> Some (PAio a m)) ->
  dok U t n regs (with_net (z_step U t o (d_net s)) s).
Proof.
  intros D Nf. destruct (do_net _ _ _ _ _ D) as (zl & Hz).
  assert (K : forall w x a m, nth_error (d_wires s) w = Some x -> w_peer x = Some (PAio a m) -> exists y st, z_conn (d_net s) a m = Some y /\ nofeed st /\ owned (z_step U t o (d_net s)) a m = false /\ z_conn (z_step U t o (d_net s)) a m = Some (sfrom U y st)).
  { intros w x a m Hx Hp. pose proof (do_wires _ _ _ _ _ D w x Hx) as W. pose proof (wk_peer _ _ _ W) as P. rewrite Hp in P. destruct P as (got & _ & G & _). cbn [end_got] in G. destruct (z_conn (d_net s) a m) as [y|] eqn:Ey; [|discriminate].
    destruct (zstep_other U t o (d_net s) a m y Ey (wk_free _ _ _ W a m Hp)) as (A & st & B & C); [intros bs E; exact (Nf _ _ _ _ _ E Hx Hp)|]. exists y, st. auto. }
  apply (dok_move U t n regs s); auto.
  - intros w x [a m|th] Hx Hp; [|apply same_refl; [discriminate|reflexivity]]. destruct (K w x a m Hx Hp) as (y & st & Ey & Ns & _ & Es).
    assert (G : good y) by (rewrite Hz in Ey; exact (zconn_good _ _ _ _ _ _ _ _ Ey)). destruct (nofeed_keeps U y st G Ns) as (Ki & Kr).
    intros got sent Hg Hs. cbn [end_got end_sent with_net d_net] in *. rewrite Ey in Hg, Hs. rewrite Es. cbn [option_map] in *. injection Hg as <-. injection Hs as <-. rewrite Ki. split; [reflexivity|]. eexists. split; [reflexivity|exact Kr].
  - intros w x a m Hx Hp. destruct (K w x a m Hx Hp) as (_ & _ & _ & _ & O & _). exact O.
  - exists (zl ++ [o]). rewrite zrun_snoc, <- Hz. reflexivity.
Qed.

(** ** The calls *)
Lemma request_goto pc c : c_request (c_goto pc c) = c_request c.
Proof. reflexivity. Qed.
Lemma wok_calls U s s' x : wok U s x -> d_net s' = d_net s -> d_thrs s' = d_thrs s -> d_mgrs s' = d_mgrs s ->
  (forall c, nth_error (d_calls s) (w_call x) = Some c -> exists c', nth_error (d_calls s') (w_call x) = Some c' /\ c_request c' = c_request c /\ c_addr c' = c_addr c /\ (sending c = false -> sending c' = false)) -> wok U s' x.
Proof.
  intros [A (c & B1 & B2 & B3) C D] En Et Em H. destruct (H c B1) as (c' & H1 & H2 & H3 & H4). constructor.
  - lia.
  - exists c'. split; [exact H1|]. split.
    + destruct B2 as [B2|(B2 & B2')]; [left; exact B2|right]. split; [|exact (H4 B2')]. unfold wrote_by in *. rewrite H2. exact B2.
    + intros e He. specialize (B3 e He). rewrite H3. destruct e; cbn [located] in *; [exact B3|rewrite Et; exact B3].
  - destruct (w_peer x) as [[a m|th]|]; [| |exact C]; cbn [end_got end_sent] in *; rewrite ?En, ?Et; exact C.
  - rewrite En. exact D.
Qed.
Lemma dok_goto U t n regs s i c pc : dok U t n regs s -> nth_error (d_calls s) i = Some c -> (sending c = false -> sending (c_goto pc c) = false) -> cok s i (c_goto pc c) -> dok U t n regs (with_call i (c_goto pc) s).
Proof.
  intros D Hi Hs Hc. constructor; cbn [with_call d_wires d_calls d_net].
  - intros w x Hx. apply (wok_calls U s); try reflexivity; [exact (do_wires _ _ _ _ _ D w x Hx)|]. cbn [with_call d_calls]. intros c0 H0. destruct (Nat.eq_dec i (w_call x)) as [E|Ne].
    + rewrite <- E in *. assert (c0 = c) by congruence. subst c0. exists (c_goto pc c). rewrite (nth_upd_same _ _ _ _ Hi). auto.
    + exists c0. rewrite nth_upd_other by exact Ne. auto.
  - exact (do_uniq _ _ _ _ _ D).
  - exact (do_one _ _ _ _ _ D).
  - intros j c0 H0. apply nth_upd_inv in H0 as [(<- & c1 & H1 & ->)|(_ & H0)].
    + assert (c1 = c) by congruence. subst c1. exact Hc.
    + exact (do_calls _ _ _ _ _ D j c0 H0).
  - exact (do_net _ _ _ _ _ D).
Qed.

(** ** The connections *)
Lemma snoc_inv {A} (l : list A) y w x : nth_error (l ++ [y]) w = Some x -> (nth_error l w = Some x /\ w < List.length l) \/ (w = List.length l /\ x = y).
Proof.
  intros H. destruct (Nat.lt_ge_cases w (List.length l)) as [L|L]; [left; rewrite nth_error_app1 in H by exact L; auto|right].
  rewrite nth_error_app2 in H by exact L. destruct (w - List.length l) as [|k] eqn:E; [|destruct k; discriminate]. injection H as ->. split; [lia|reflexivity].
Qed.
Lemma snoc_old {A} (l : list A) y w x : nth_error l w = Some x -> nth_error (l ++ [y]) w = Some x.
Proof. intros H. rewrite nth_error_app1; [exact H|]. apply nth_error_Some. congruence. Qed.
Lemma snoc_new {A} (l : list A) y : nth_error (l ++ [y]) (List.length l) = Some y.
Proof. rewrite nth_error_app2, Nat.sub_diag by lia. reflexivity. Qed.
Lemma wok_wires U s s' x : wok U s x -> d_net s' = d_net s -> d_thrs s' = d_thrs s -> d_mgrs s' = d_mgrs s -> d_calls s' = d_calls s -> wok U s' x.
Proof. intros W A B C D. apply (wok_calls U s); auto. intros c H. exists c. rewrite D. auto. Qed.
Lemma cok_wires s s' i c : cok s i c -> (forall w x, nth_error (d_wires s) w = Some x -> nth_error (d_wires s') w = Some x) -> cok s' i c.
Proof.
  intros H W. unfold cok in *. destruct (c_pc c) as [r conn|w y|[v|e]]; [| | |exact I].
  - intros w E. destruct (H w E) as (x & A & B). eauto.
  - destruct H as (x & A & B). eauto.
  - destruct H as [H|(w & x & A & B)]; [left; exact H|right; eauto].
Qed.
Lemma dok_add U t n regs s x : dok U t n regs s -> w_out x = [] -> wok U s x -> (forall w y e, nth_error (d_wires s) w = Some y -> w_peer y = Some e -> w_peer x <> Some e) -> dok U t n regs (add_wire x s).
Proof.
  intros D Ho W Hu. constructor; cbn [add_wire d_wires d_calls d_net].
  - intros w y H. apply (wok_wires U s); try reflexivity. apply snoc_inv in H as [(H & _)|(_ & ->)]; [exact (do_wires _ _ _ _ _ D w y H)|exact W].
  - intros w w' y y' e H H' P P'. apply snoc_inv in H as [(H & _)|(-> & ->)]; apply snoc_inv in H' as [(H' & _)|(-> & ->)].
    + exact (do_uniq _ _ _ _ _ D w w' y y' e H H' P P').
    + destruct (Hu _ _ _ H P P').
    + destruct (Hu _ _ _ H' P' P).
    + reflexivity.
  - intros w w' y y' H H' Ec N N'. apply snoc_inv in H as [(H & _)|(-> & ->)]; [|destruct (N Ho)]. apply snoc_inv in H' as [(H' & _)|(-> & ->)]; [|destruct (N' Ho)]. exact (do_one _ _ _ _ _ D w w' y y' H H' Ec N N').
  - intros i c H. apply (cok_wires s); [exact (do_calls _ _ _ _ _ D i c H)|]. intros w y. apply snoc_old.
  - exact (do_net _ _ _ _ _ D).
Qed.

Lemma find_fresh id l : (forall w x, nth_error l w = Some x -> fst (w_id x) < fst id) -> find_wire id l = None.
Proof.
  induction l as [|x l IH]; intros H; [reflexivity|]. cbn [find_wire]. unfold pair_eqb. pose proof (H 0 x eq_refl). destruct (Nat.eqb_spec (fst (w_id x)) (fst id)); [lia|]. cbn [andb].
  rewrite IH; [reflexivity|]. intros w y Hy. exact (H (S w) y Hy).
Qed.
Lemma same_addthr U s th e : same_ends U s (add_thr th s) e.
Proof.
  intros got sent Hg Hs. destruct e as [a m|k]; cbn [end_got end_sent add_thr d_net d_thrs] in *; [split; [exact Hg|]; exists sent; split; [exact Hs|exists []; symmetry; apply app_nil_r]|].
  destruct (nth_error (d_thrs s) k) as [y|] eqn:Ey; [|discriminate]. rewrite (snoc_old _ th _ _ Ey). split; [exact Hg|]. exists sent; split; [exact Hs|exists []; symmetry; apply app_nil_r].
Qed.
Lemma located_addthr s th e addr : located s e addr -> located (add_thr th s) e addr.
Proof. destruct e as [a m|k]; cbn [located add_thr d_thrs]; [auto|]. intros (x & Hx & Hy). exists x. split; [apply snoc_old; exact Hx|exact Hy]. Qed.
Lemma dok_addthr U t n regs s th : dok U t n regs s -> dok U t n regs (add_thr th s).
Proof.
  intros D. apply (dok_move U t n regs s); auto.
  - intros e addr. apply located_addthr.
  - intros w x e Hx He. apply same_addthr.
  - intros w x a m Hx He. exact (wk_free _ _ _ (do_wires _ _ _ _ _ D w x Hx) a m He).
  - exact (do_net _ _ _ _ _ D).
Qed.
Lemma connect_ok U t n regs s id i addr c acc s' w : dok U t n regs s -> (forall w x, nth_error (d_wires s) w = Some x -> fst (w_id x) < fst id) -> fst id < d_mgrs s -> nth_error (d_calls s) i = Some c -> c_addr c = addr ->
  connect U id i addr acc s = (s', w) ->
  dok U t n regs s' /\ d_calls s' = d_calls s /\ w = List.length (d_wires s) /\ exists x, d_wires s' = d_wires s ++ [x] /\ w_call x = i /\ w_out x = [] /\ w_in x = [].
Proof.
  intros D Hf Hm Hc <- E. unfold connect in E. rewrite (find_fresh id (d_wires s) Hf) in E. destruct (do_net _ _ _ _ _ D) as (zl & Hz).
  assert (None_ : dok U t n regs (add_wire (new_wire id i None) s) /\ d_calls (add_wire (new_wire id i None) s) = d_calls s /\ List.length (d_wires s) = List.length (d_wires s) /\ exists x, d_wires (add_wire (new_wire id i None) s) = d_wires s ++ [x] /\ w_call x = i /\ w_out x = [] /\ w_in x = []).
  { split; [|split; [reflexivity|split; [reflexivity|exists (new_wire id i None); repeat split]]]. apply dok_add; [exact D|reflexivity| |discriminate].
    constructor; cbn [new_wire w_id w_call w_peer w_out w_in]; [exact Hm| |reflexivity|discriminate]. exists c. split; [exact Hc|]. split; [left; reflexivity|discriminate]. }
  destruct acc as [tr|fuel reg tr fresh call e|].
  - destruct (nth_error (z_servers (d_net s)) (Z.to_nat (c_addr c))) as [sv|] eqn:Es; [|injection E as <- <-; exact None_]. destruct (Z.leb_spec 0 (c_addr c)) as [Hp|Hp]; [|injection E as <- <-; exact None_].
    set (a := Z.to_nat (c_addr c)) in *. injection E as <- <-. split; [|split; [reflexivity|split; [reflexivity|eexists; repeat split]]].
    assert (D' : dok U t n regs (with_net (on_server U a (LAccept tr) (d_net s)) s)) by (apply (dok_net U t n regs s (ZServer a (LAccept tr)) D); discriminate).
    assert (Hk : z_conn (d_net s) a (List.length (n_conns sv)) = None) by (unfold z_conn; rewrite Es; apply nth_error_None; lia).
    assert (Hk' : z_conn (on_server U a (LAccept tr) (d_net s)) a (List.length (n_conns sv)) = Some (sinit (n_reg sv) tr)).
    { unfold z_conn, on_server. cbn [z_servers]. rewrite (nth_upd_same _ _ _ _ Es). cbn [lrun_step n_conns]. apply snoc_new. }
    apply dok_add; [exact D'|reflexivity| |].
    + constructor; cbn [new_wire w_id w_call w_peer w_out w_in with_net d_mgrs d_calls d_net]; [exact Hm| | |].
      * exists c. split; [exact Hc|]. split; [left; reflexivity|]. intros e [= <-]. cbn [located]. lia.
      * exists [], []. cbn [end_got end_sent with_net d_net]. rewrite Hk'. repeat split; exists []; reflexivity.
      * intros a' m' [= <- <-]. apply owned_not. intros p k Hpk Hin. cbn [on_server z_clients] in Hpk. rewrite Hz in Hpk, Hk. apply In_nth_error in Hin as (q & Hin). destruct (conn_exists regs U t zl _ p k q _ (netok_run U t n regs zl) Hpk Hin) as (y & Hy). cbn [fst snd] in Hy. congruence.
    + intros w y e Hy He. cbn [new_wire w_peer]. intros [= <-]. pose proof (wk_peer _ _ _ (do_wires _ _ _ _ _ D w y Hy)) as P. rewrite He in P. destruct P as (got & _ & G & _). cbn [end_got] in G. rewrite Hk in G. discriminate.
  - destruct (Z.ltb_spec (c_addr c) 0) as [Hp|Hp]; [|injection E as <- <-; exact None_]. injection E as <- <-. split; [|split; [reflexivity|split; [reflexivity|eexists; repeat split]]].
    set (th := new_thr (c_addr c) fuel reg tr fresh call e). set (s1 := add_thr th s).
    assert (D' : dok U t n regs s1) by (apply dok_addthr; exact D).
    apply dok_add; [exact D'|reflexivity| |].
    + constructor; cbn [new_wire w_id w_call w_peer w_out w_in s1 add_thr d_mgrs d_calls d_net]; [exact Hm| | |discriminate].
      * exists c. split; [exact Hc|]. split; [left; reflexivity|]. intros e0 [= <-]. cbn [located s1 add_thr d_thrs]. exists th. split; [apply snoc_new|reflexivity].
      * eexists [], _. cbn [end_got end_sent s1 add_thr d_thrs]. rewrite snoc_new. repeat split; [exists []; reflexivity|eexists; reflexivity].
    + intros w y e0 Hy He. cbn [new_wire w_peer]. intros [= <-]. pose proof (wk_peer _ _ _ (do_wires _ _ _ _ _ D w y Hy)) as P. rewrite He in P. destruct P as (got & _ & G & _). cbn [end_got] in G.
      assert (N : nth_error (d_thrs s) (List.length (d_thrs s)) = None) by (apply nth_error_None; lia). rewrite N in G. discriminate.
  - injection E as <- <-. exact None_.
Qed.

(** ** The rounds of the send loop *)
Lemma dok_write U t n regs s i c w x b : dok U t n regs s -> nth_error (d_calls s) i = Some c -> sending c = false -> wrote_by c b -> nth_error (d_wires s) w = Some x -> w_call x = i ->
  (forall w y, nth_error (d_wires s) w = Some y -> w_call y = i -> w_out y = []) -> dok U t n regs (with_wire w (w_write b) s).
Proof.
  intros D Hi Hs Hb Hw Hc Hall. pose proof (Hall w x Hw Hc) as Hx. constructor; cbn [with_wire d_wires d_calls d_net].
  - intros w' y H. apply (wok_wires U s); try reflexivity. apply nth_upd_inv in H as [(<- & z & Hz & ->)|(_ & H)]; [|exact (do_wires _ _ _ _ _ D w' y H)].
    assert (z = x) by congruence. subst z. destruct (do_wires _ _ _ _ _ D w x Hw) as [A (c' & B1 & B2 & B3) C E]. constructor; cbn [w_write w_id w_call w_peer w_out w_in].
    + exact A.
    + exists c. rewrite Hx, Hc. split; [exact Hi|]. split; [right; cbn [app]; auto|]. rewrite Hc, Hi in B1. injection B1 as <-. exact B3.
    + destruct (w_peer x) as [e|]; [|exact C]. destruct C as (got & sent & C1 & C2 & C3). exists got, sent. split; [exact C1|]. split; [|exact C3]. rewrite Hx in C2. apply prefix_nil in C2. subst got. eexists. reflexivity.
    + exact E.
  - intros w1 w2 y1 y2 e H1 H2 P1 P2.
    assert (K : forall k y, nth_error (upd w (w_write b) (d_wires s)) k = Some y -> exists z, nth_error (d_wires s) k = Some z /\ w_peer z = w_peer y).
    { intros k y H. apply nth_upd_inv in H as [(_ & z & Hz & ->)|(_ & H)]; eauto. }
    destruct (K _ _ H1) as (z1 & Z1 & E1), (K _ _ H2) as (z2 & Z2 & E2). apply (do_uniq _ _ _ _ _ D w1 w2 z1 z2 e Z1 Z2); congruence.
  - intros w1 w2 y1 y2 H1 H2 Ec N1 N2.
    apply nth_upd_inv in H1 as [(<- & z1 & Z1 & ->)|(F1 & H1)]; apply nth_upd_inv in H2 as [(<- & z2 & Z2 & ->)|(F2 & H2)]; try reflexivity.
    + assert (z1 = x) by congruence. subst z1. cbn [w_write w_call] in Ec. rewrite Hc in Ec. destruct (N2 (Hall _ _ H2 (eq_sym Ec))).
    + assert (z2 = x) by congruence. subst z2. cbn [w_write w_call] in Ec. rewrite Hc in Ec. destruct (N1 (Hall _ _ H1 Ec)).
    + exact (do_one _ _ _ _ _ D w1 w2 y1 y2 H1 H2 Ec N1 N2).
  - intros j c' H. pose proof (do_calls _ _ _ _ _ D j c' H) as K. unfold cok in *. cbn [with_wire d_wires].
    assert (Q : forall k y, nth_error (d_wires s) k = Some y -> exists z, nth_error (upd w (w_write b) (d_wires s)) k = Some z /\ w_call z = w_call y /\ w_in z = w_in y).
    { intros k y Hk. destruct (Nat.eq_dec w k) as [<-|Ne]; [rewrite (nth_upd_same _ _ _ _ Hk); eauto|rewrite nth_upd_other by exact Ne; eauto]. }
    destruct (c_pc c') as [r conn|k y|[v|e]]; [| | |exact I].
    + intros k E. destruct (K k E) as (z & A & B). destruct (Q k z A) as (z' & A' & B' & _). exists z'. split; [exact A'|congruence].
    + destruct K as (z & A & B & C). destruct (Q k z A) as (z' & A' & B' & C'). exists z'. rewrite C'. split; [exact A'|]. split; [congruence|exact C].
    + destruct K as [K|(k & z & A & B & C)]; [left; exact K|right]. destruct (Q k z A) as (z' & A' & B' & C'). exists k, z'. unfold has_answer in *. rewrite C'. split; [exact A'|]. split; [congruence|exact C].
  - exact (do_net _ _ _ _ _ D).
Qed.
Lemma dok_leave U t n regs s i c conn : dok U t n regs s -> nth_error (d_calls s) i = Some c -> (forall w, conn = Some w -> exists x, nth_error (d_wires s) w = Some x /\ w_call x = i) ->
  dok U t n regs (leave i c conn s) /\ (exists c', nth_error (d_calls (leave i c conn s)) i = Some c' /\ sending c' = false /\ c_request c' = c_request c).
Proof.
  intros D Hi Hw. unfold leave. destruct conn as [w|].
  - destruct (Hw w eq_refl) as (x & Hx & Hc). destruct (c_oneway c) eqn:Eo.
    + split.
      * apply dok_mgrs; [|cbn; lia]. apply (dok_goto U t n regs s i c); auto. unfold cok. cbn [c_goto c_pc c_oneway]. destruct (c_back c); [left; exact Eo|exact I].
      * cbn [with_mgrs with_call d_calls]. rewrite (nth_upd_same _ _ _ _ Hi). eauto.
    + rewrite Hx. split.
      * apply (dok_goto U t n regs s i c); auto. exists x. split; [exact Hx|]. split; [exact Hc|]. split; [apply rgood_init|]. cbn. lia.
      * cbn [with_mgrs with_call d_calls]. rewrite (nth_upd_same _ _ _ _ Hi). eauto.
  - split; [apply (dok_goto U t n regs s i c); auto; exact I|]. cbn [with_call d_calls]. rewrite (nth_upd_same _ _ _ _ Hi). eauto.
Qed.
Lemma dok_again U t n regs s i c r conn : dok U t n regs s -> nth_error (d_calls s) i = Some c -> sending c = true -> (forall w, conn = Some w -> exists x, nth_error (d_wires s) w = Some x /\ w_call x = i) -> dok U t n regs (again i c r conn s).
Proof.
  intros D Hi Hs Hw. unfold again. destruct (Nat.ltb (S r) 3); [|apply dok_leave; assumption]. apply (dok_goto U t n regs s i c _ D Hi); [congruence|exact Hw].
Qed.
Lemma leave_write i c w b s : leave i c (Some w) (with_wire w (w_write b) s) = with_wire w (w_write b) (leave i c (Some w) s).
Proof.
  unfold leave. destruct (c_oneway c); [reflexivity|]. cbn [with_wire d_wires]. destruct (nth_error (d_wires s) w) as [x|] eqn:E.
  - rewrite (nth_upd_same _ _ _ _ E). reflexivity.
  - rewrite L_Rest1.upd_none, E by exact E. unfold with_wire, with_call. cbn. rewrite L_Rest1.upd_none by exact E. reflexivity.
Qed.
Lemma dok_round U t n regs s i mk dr acc send c r conn : dok U t n regs s -> nth_error (d_calls s) i = Some c -> c_pc c = SSend r conn -> dok U t n regs (round U i mk dr acc send c r conn s).
Proof.
  intros D Hi Hpc. assert (Hs : sending c = true) by (unfold sending; rewrite Hpc; reflexivity).
  assert (Hconn : forall w, conn = Some w -> exists x, nth_error (d_wires s) w = Some x /\ w_call x = i) by (pose proof (do_calls _ _ _ _ _ D i c Hi) as K; unfold cok in K; rewrite Hpc in K; exact K).
  unfold round. destruct (fetch mk dr (c_addr c) (d_mgrs s)) as (m, got) eqn:Ef. destruct (fetch_names _ _ _ _ _ _ Ef) as (-> & Hid).
  assert (Dm : dok U t n regs (with_mgrs (S (d_mgrs s)) s)) by (apply dok_mgrs; [exact D|lia]).
  destruct got as [id|e].
  2: { destruct e; try (apply dok_again; assumption); apply dok_leave; assumption. }
  destruct (connect U id i (c_addr c) acc (with_mgrs (S (d_mgrs s)) s)) as (s', w) eqn:Ec. specialize (Hid id eq_refl).
  destruct (connect_ok U t n regs _ id i (c_addr c) c acc s' w Dm) as (D' & Hc' & -> & x & Hw & Hx1 & Hx2 & Hx3); [| |exact Hi|reflexivity|exact Ec|].
  { intros w' y Hy. rewrite Hid. exact (wk_id _ _ _ (do_wires _ _ _ _ _ D w' y Hy)). }
  { cbn. lia. }
  cbn [with_mgrs d_calls d_wires] in *. rewrite <- Hc' in Hi. set (w := List.length (d_wires s)) in *.
  assert (Hn : nth_error (d_wires s') w = Some x) by (rewrite Hw; apply snoc_new).
  assert (Hwc : forall w0, Some w = Some w0 -> exists y, nth_error (d_wires s') w0 = Some y /\ w_call y = i) by (intros w0 [= <-]; eauto).
  destruct (let! p := c_request c in to_stream p) as [bs|e] eqn:Eb.
  2: { destruct e; try (apply dok_again; assumption); apply dok_leave; assumption. }
  destruct send as [k|e].
  2: { destruct e; try (apply dok_again; assumption); apply dok_leave; assumption. }
  rewrite leave_write. destruct (dok_leave U t n regs s' i c (Some w) D' Hi Hwc) as (Dl & c' & Hi' & Hs' & Hr').
  assert (Hlw : d_wires (leave i c (Some w) s') = d_wires s') by (unfold leave; destruct (c_oneway c); reflexivity).
  apply (dok_write U t n regs _ i c' w x); auto.
  - exists bs, k. rewrite Hr'. auto.
  - rewrite Hlw. exact Hn.
  - intros w0 y Hy Hc0. rewrite Hlw in Hy. destruct (wk_call _ _ _ (do_wires _ _ _ _ _ D' w0 y Hy)) as (c0 & A & [B|(_ & B)] & _); [exact B|]. rewrite Hc0 in A. congruence.
Qed.

(** ** The rounds of the receive loop *)
Lemma judge_value rid frame v : judge rid frame = Ok v -> exists f, response_layout frame f /\ fr_request_id f = rid /\ fr_tos f = 0%Z /\ v = PBytes (fr_content f).
Proof.
  intros E. unfold judge in E. rewrite BoltResponse_eq in E.
  destruct (from_stream (resp_class response_class_name) frame) as [p|e] eqn:Ep; [|discriminate].
  apply from_stream_resp_iff in Ep as (f & kvs & hb & E1 & E2 & _ & E3 & E4 & ->). cbn [bind pkg_of_resp p_request_id int_value p_respstatus p_content] in E.
  exists f. split; [exact E1|]. destruct (Z.eqb_spec (fr_request_id f) rid); [|discriminate]. destruct (Z.eqb_spec (fr_tos f) ST_SUCCESS); [|discriminate].
  split; [assumption|]. split; [assumption|]. congruence.
Qed.
Lemma dok_recv U t n regs s i c w y ev : dok U t n regs s -> nth_error (d_calls s) i = Some c -> c_pc c = SRecv w y -> dok U t n regs (recv i c w y ev s).
Proof.
  intros D Hi Hpc. assert (Hs : sending c = false) by (unfold sending; rewrite Hpc; reflexivity).
  pose proof (do_calls _ _ _ _ _ D i c Hi) as K. unfold cok in K. rewrite Hpc in K. destruct K as (x & Hx & Hc & G & L).
  unfold recv. destruct ev as [k| |]; try (apply (dok_goto U t n regs s i c); auto; exact I).
  destruct (receive_spec _ _ k G L) as (y' & -> & G' & _). destruct (Z.ltb_spec (len (y_buf y')) (y_total y')) as [L'|L'].
  - apply (dok_goto U t n regs s i c); auto. exists x. auto.
  - apply dok_mgrs; [|cbn; lia]. apply (dok_goto U t n regs s i c); auto. unfold cok. cbn [c_goto c_pc c_oneway c_rid]. destruct (c_back c) as [[]|]; [|exact I]. cbn [bind]. destruct (finish (c_rid c) y') as [v|e] eqn:Ef; [|exact I]. right. exists w, x. split; [exact Hx|]. split; [exact Hc|].
    rewrite (finish_judge _ _ _ G' L') in Ef. destruct (judge_value _ _ _ Ef) as (f & A & B & C & E). exists (py_take (resp_total (w_in x)) (w_in x)), (py_drop (resp_total (w_in x)) (w_in x)), f. split; [symmetry; apply py_take_drop|]. auto.
Qed.

(** ** The bytes on their way *)
Lemma rgood_more srv y b : rgood srv y -> rgood (srv ++ b) {| y_buf := y_buf y; y_total := y_total y; y_header := y_header y; y_rest := y_rest y ++ b |}.
Proof.
  intros [(A & B & C) D E]. constructor; cbn [y_buf y_total y_header y_rest].
  - pose proof (len_nonneg (y_buf y)). assert (T : srv = y_buf y ++ y_rest y) by (rewrite B; pose proof (py_take_drop (len (y_buf y)) srv) as T; rewrite <- A in T; symmetry; exact T).
    split; [|split].
    + rewrite T, <- app_assoc, py_take_app. reflexivity.
    + rewrite T, <- app_assoc, py_drop_app. reflexivity.
    + rewrite len_app. pose proof (len_nonneg b). lia.
  - exact D.
  - intros h Hh. destruct (E h Hh) as (-> & F & G). assert (T : py_take (len srv) (srv ++ b) = srv) by apply py_take_app.
    assert (Le : (20 <= len srv)%Z) by lia. rewrite <- (resp_dict_take (len srv) (srv ++ b) Le), <- (resp_total_take (len srv) (srv ++ b) Le), T. auto.
Qed.
Lemma dok_down U t n regs s w x e sent k : dok U t n regs s -> nth_error (d_wires s) w = Some x -> w_peer x = Some e -> end_sent U s e = Some sent ->
  let b := firstn k (skipn (List.length (w_in x)) sent) in dok U t n regs (with_call (w_call x) (more w b) (with_wire w (w_feed b) s)).
Proof.
  intros D Hw Hp Hs b.
  assert (Mo : forall c, c_request (more w b c) = c_request c /\ c_addr (more w b c) = c_addr c /\ sending (more w b c) = sending c).
  { intros c. unfold more, sending. destruct (c_pc c) as [|w' y|] eqn:E; rewrite ?E; auto. destruct (Nat.eqb w' w); cbn; rewrite ?E; auto. }
  constructor; cbn [with_call with_wire d_wires d_calls d_net].
  - intros w' y H. apply (wok_calls U s); try reflexivity.
    + apply nth_upd_inv in H as [(<- & z & Hz & ->)|(_ & H)]; [|exact (do_wires _ _ _ _ _ D w' y H)]. assert (z = x) by congruence. subst z. destruct (do_wires _ _ _ _ _ D w x Hw) as [A B C E]. constructor; auto.
      cbn [w_feed w_peer w_out w_in]. rewrite Hp in *. destruct C as (got & sent' & C1 & C2 & C3 & C4). assert (sent' = sent) by congruence. subst sent'. exists got, sent. split; [exact C1|]. split; [exact C2|]. split; [exact C3|]. apply prefix_next. exact C4.
    + cbn [with_call with_wire d_calls]. intros c Hc. destruct (Nat.eq_dec (w_call x) (w_call y)) as [E|Ne].
      * rewrite E in *. rewrite (nth_upd_same _ _ _ _ Hc). exists (more w b c). destruct (Mo c) as (M1 & M2 & M3). rewrite M3. auto.
      * rewrite nth_upd_other by exact Ne. exists c. auto.
  - intros w1 w2 y1 y2 e' H1 H2 P1 P2.
    assert (K : forall j y, nth_error (upd w (w_feed b) (d_wires s)) j = Some y -> exists z, nth_error (d_wires s) j = Some z /\ w_peer z = w_peer y).
    { intros j y H. apply nth_upd_inv in H as [(_ & z & Hz & ->)|(_ & H)]; eauto. }
    destruct (K _ _ H1) as (z1 & Z1 & E1), (K _ _ H2) as (z2 & Z2 & E2). apply (do_uniq _ _ _ _ _ D w1 w2 z1 z2 e' Z1 Z2); congruence.
  - intros w1 w2 y1 y2 H1 H2 Ec N1 N2.
    assert (K : forall j y, nth_error (upd w (w_feed b) (d_wires s)) j = Some y -> exists z, nth_error (d_wires s) j = Some z /\ w_call z = w_call y /\ w_out z = w_out y).
    { intros j y H. apply nth_upd_inv in H as [(_ & z & Hz & ->)|(_ & H)]; eauto. }
    destruct (K _ _ H1) as (z1 & Z1 & E1 & F1), (K _ _ H2) as (z2 & Z2 & E2 & F2). apply (do_one _ _ _ _ _ D w1 w2 z1 z2 Z1 Z2); congruence.
  - assert (Q : forall j y, nth_error (d_wires s) j = Some y -> exists z, nth_error (upd w (w_feed b) (d_wires s)) j = Some z /\ w_call z = w_call y /\ (j = w -> w_in z = w_in y ++ b) /\ (j <> w -> w_in z = w_in y)).
    { intros j y Hj. destruct (Nat.eq_dec w j) as [<-|Ne]; [rewrite (nth_upd_same _ _ _ _ Hj)|rewrite nth_upd_other by exact Ne]; eexists; (split; [eauto|]); (split; [reflexivity|]); split; intros X; try congruence; reflexivity. }
    intros i c H. assert (exists c0, nth_error (d_calls s) i = Some c0 /\ ((i <> w_call x /\ c = c0) \/ c = more w b c0)) as (c0 & H0 & Hc).
    { apply nth_upd_inv in H as [(<- & c0 & H0 & ->)|(Ne & H)]; eexists; eauto. }
    pose proof (do_calls _ _ _ _ _ D i c0 H0) as K. unfold cok in *. cbn [with_call with_wire d_wires].
    destruct (c_pc c0) as [r conn|j y|[v|ex]] eqn:Epc.
    + assert (c = c0) by (destruct Hc as [(_ & Hc)|Hc]; [exact Hc|unfold more in Hc; rewrite Epc in Hc; exact Hc]). subst c. rewrite Epc. intros j E. destruct (K j E) as (z & A & B). destruct (Q j z A) as (z' & A' & B' & _). exists z'. split; [exact A'|congruence].
    + destruct K as (z & A & B & G & L). destruct (Q j z A) as (z' & A' & B' & C1 & C2). destruct (Nat.eq_dec j w) as [->|Nw].
      * destruct Hc as [(Ne & _)|Hc]; [assert (z = x) by congruence; subst z; congruence|]. unfold more in Hc. rewrite Epc, Nat.eqb_refl in Hc. subst c. cbn [c_goto c_pc]. exists z'. rewrite (C1 eq_refl). split; [exact A'|]. split; [congruence|]. split; [apply rgood_more; exact G|exact L].
      * assert (c = c0). { destruct Hc as [(_ & Hc)|Hc]; [exact Hc|]. unfold more in Hc. rewrite Epc in Hc. destruct (Nat.eqb_spec j w); [congruence|exact Hc]. } subst c. rewrite Epc. exists z'. rewrite (C2 Nw). split; [exact A'|]. split; [congruence|auto].
    + assert (c = c0) by (destruct Hc as [(_ & Hc)|Hc]; [exact Hc|unfold more in Hc; rewrite Epc in Hc; exact Hc]). subst c. rewrite Epc. destruct K as [K|(j & z & A & B & frame & tail & f & T & K)]; [left; exact K|right]. destruct (Q j z A) as (z' & A' & B' & C1 & C2). exists j, z'. split; [exact A'|]. split; [congruence|].
      destruct (Nat.eq_dec j w) as [Ej|Nw]; [exists frame, (tail ++ b), f; rewrite (C1 Ej), T, <- app_assoc; auto|exists frame, tail, f; rewrite (C2 Nw); auto].
    + assert (c = c0) by (destruct Hc as [(_ & Hc)|Hc]; [exact Hc|unfold more in Hc; rewrite Epc in Hc; exact Hc]). subst c. rewrite Epc. exact I.
  - exact (do_net _ _ _ _ _ D).
Qed.

Lemma arrived_snoc net a : arrived (net ++ [a]) = arrived net \/ exists b, a = Arrive b /\ arrived (net ++ [a]) = arrived net ++ b.
Proof.
  induction net as [|[b| |e] net IH]; cbn.
  - destruct a as [b| |e]; cbn; [right; exists b; split; [reflexivity|apply app_nil_r]|left; reflexivity|left; reflexivity].
  - destruct IH as [->|(b' & -> & ->)]; [left; reflexivity|right]. exists b'. split; [reflexivity|apply app_assoc].
  - left. reflexivity.
  - left. reflexivity.
Qed.
Lemma dok_thr U t n regs s th a : dok U t n regs s ->
  (forall b w x got, a = Arrive b -> nth_error (d_wires s) w = Some x -> w_peer x = Some (PThr th) -> end_got s (PThr th) = Some got -> prefix_of got (w_out x) -> prefix_of (got ++ b) (w_out x)) ->
  dok U t n regs (with_thr th a s).
Proof.
  intros D Ha. apply (dok_alt U t n regs s); auto; [|exact (do_net _ _ _ _ _ D)]. intros w x Hx. pose proof (do_wires _ _ _ _ _ D w x Hx) as [A (c & B1 & B2 & B3) C E]. constructor; cbn [with_thr d_mgrs d_calls d_net]; auto.
  - exists c. split; [exact B1|]. split; [exact B2|]. intros e He. specialize (B3 e He). destruct e as [p m|k]; cbn [located with_thr d_thrs] in *; [exact B3|]. destruct B3 as (y & Hy & Ey). destruct (Nat.eq_dec th k) as [->|Ne].
    + exists (th_arrive a y). rewrite (nth_upd_same _ _ _ _ Hy). split; [reflexivity|exact Ey].
    + exists y. rewrite nth_upd_other by exact Ne. auto.
  - destruct (w_peer x) as [[p m|k]|] eqn:Hp; [exact C| |exact C]. cbn [end_got end_sent with_thr d_thrs] in *. destruct C as (got & sent & C1 & C2 & C3 & C4). destruct (nth_error (d_thrs s) k) as [y|] eqn:Hy; [|discriminate]. cbn [option_map] in C1, C3. injection C1 as <-. injection C3 as <-.
    destruct (Nat.eq_dec th k) as [->|Ne].
    + rewrite (nth_upd_same _ _ _ _ Hy). cbn [option_map]. eexists _, _. split; [reflexivity|]. split; [|split; [reflexivity|exact (prefix_trans _ _ _ C4 (th_sent_more U y a))]]. cbn [th_arrive th_net].
      destruct (arrived_snoc (th_net y) a) as [->|(b & -> & ->)]; [exact C2|]. apply (Ha b w x _ eq_refl Hx Hp); [cbn [end_got]; rewrite Hy; reflexivity|exact C2].
    + rewrite nth_upd_other by exact Ne. rewrite Hy. eexists _, _. split; [reflexivity|]. split; [exact C2|]. split; [reflexivity|exact C4].
Qed.
Lemma dok_up U t n regs s w x a m got k : dok U t n regs s -> nth_error (d_wires s) w = Some x -> w_peer x = Some (PAio a m) -> end_got s (PAio a m) = Some got ->
  dok U t n regs (with_net (on_server U a (LConn m (Feed (firstn k (skipn (List.length got) (w_out x))))) (d_net s)) s).
Proof.
  intros D Hw Hp Hg. set (b := firstn k _). destruct (do_net _ _ _ _ _ D) as (zl & Hz).
  pose proof (do_wires _ _ _ _ _ D w x Hw) as W. assert (Ow := wk_free _ _ _ W a m Hp).
  assert (Ez : on_server U a (LConn m (Feed b)) (d_net s) = z_step U t (ZServer a (LConn m (Feed b))) (d_net s)) by (cbn [z_step]; rewrite Ow; reflexivity).
  apply (dok_alt U t n regs s); auto; [|exists (zl ++ [ZServer a (LConn m (Feed b))]); rewrite zrun_snoc, <- Hz, <- Ez; reflexivity].
  intros w' x' Hx'. destruct (Nat.eq_dec w w') as [<-|Ne].
  - assert (x' = x) by congruence. subst x'. destruct W as [A B C E]. constructor; cbn [with_net d_mgrs d_calls d_net]; [exact A|exact B| |exact E].
    rewrite Hp in *. destruct C as (got' & sent & C1 & C2 & C3 & C4). cbn [end_got end_sent with_net d_net] in *. destruct (z_conn (d_net s) a m) as [y|] eqn:Ey; [|discriminate].
    cbn [option_map] in *. injection C1 as <-. injection C3 as <-. injection Hg as <-. rewrite (server_conn U (d_net s) a (LConn m (Feed b)) a m y Ey). unfold what_at. cbn [fst snd]. rewrite Nat.eqb_refl.
    assert (Hsv : exists sv, nth_error (z_servers (d_net s)) a = Some sv) by (unfold z_conn in Ey; destruct (nth_error (z_servers (d_net s)) a); [eauto|discriminate]). destruct Hsv as (sv & ->). cbn [what]. rewrite Nat.eqb_refl. cbn [option_map].
    assert (G : good y) by (rewrite Hz in Ey; exact (zconn_good _ _ _ _ _ _ _ _ Ey)). eexists _, _. split; [reflexivity|]. split; [|split; [reflexivity|]].
    + rewrite in_from by exact G. cbn [fed map concat]. unfold fed. cbn. rewrite app_nil_r. apply prefix_next. exact C2.
    + destruct (out_from U [Feed b] y G) as (z & Eo). apply (prefix_trans _ _ _ C4). unfold y_replied. rewrite Eo, map_app, concat_app. eexists. reflexivity.
  - apply (wok_move U s); auto; [exact (do_wires _ _ _ _ _ D w' x' Hx')| |].
    + intros [a' m'|th] He; [|apply same_refl; [discriminate|reflexivity]].
      pose proof (do_wires _ _ _ _ _ D w' x' Hx') as W'. pose proof (wk_peer _ _ _ W') as P. rewrite He in P. destruct P as (got' & _ & G' & _). cbn [end_got] in G'. destruct (z_conn (d_net s) a' m') as [y|] eqn:Ey; [|discriminate].
      assert (G : good y) by (rewrite Hz in Ey; exact (zconn_good _ _ _ _ _ _ _ _ Ey)).
      assert (Nf : nofeed (what_at (d_net s) a (LConn m (Feed b)) (a', m'))) by (apply what_nofeed; intros m0 bs0 [= <- _] [= -> ->]; apply Ne; exact (do_uniq _ _ _ _ _ D w w' x x' _ Hw Hx' Hp He)).
      destruct (nofeed_keeps U y _ G Nf) as (Ki & Kr). intros g s0 Hg0 Hs0. cbn [end_got end_sent with_net d_net] in *. rewrite Ey in Hg0, Hs0. rewrite (server_conn U (d_net s) a (LConn m (Feed b)) a' m' y Ey). cbn [option_map] in *. injection Hg0 as <-. injection Hs0 as <-. rewrite Ki. split; [reflexivity|]. eexists. split; [reflexivity|exact Kr].
    + intros a' m' He. exact (wk_free _ _ _ (do_wires _ _ _ _ _ D w' x' Hx') a' m' He).
Qed.

(** ** Every step *)
Lemma dok_init U t n regs : dok U t n regs (d_init n regs).
Proof. constructor; try (intros [|?]; discriminate). exists []; reflexivity. Qed.
Lemma sync_conn_false s a m w x : sync_conn s a m = false -> nth_error (d_wires s) w = Some x -> w_peer x <> Some (PAio a m).
Proof.
  intros H Hx Hp. assert (sync_conn s a m = true); [|congruence]. apply existsb_exists. exists x. split; [exact (nth_error_In _ _ Hx)|]. rewrite Hp, !Nat.eqb_refl. reflexivity.
Qed.
Lemma sync_thr_false s th w x : sync_thr s th = false -> nth_error (d_wires s) w = Some x -> w_peer x <> Some (PThr th).
Proof.
  intros H Hx Hp. assert (sync_thr s th = true); [|congruence]. apply existsb_exists. exists x. split; [exact (nth_error_In _ _ Hx)|]. rewrite Hp, Nat.eqb_refl. reflexivity.
Qed.
Lemma dok_step U t n regs o s : dok U t n regs s -> dok U t n regs (d_step U t o s).
Proof.
  intros D. destruct o as [o|d addr oneway rid back|i mk dr acc send|i ev|w k|w k|th e|addr fuel reg tr fresh call e|th b]; cbn [d_step].
  - destruct o as [p d rid a|p i tr|p o|a lo|p c m|p c m]; try (apply dok_net; [exact D|discriminate]). destruct lo as [tr|name sv|m o|]; try (apply dok_net; [exact D|discriminate]). destruct o as [|b| | | | | | | | | |]; try (apply dok_net; [exact D|discriminate]).
    destruct (sync_conn s a m) eqn:E; [exact D|]. apply dok_net; [exact D|]. intros a0 m0 bs w x [= <- <- <-] Hx. exact (sync_conn_false s a m w x E Hx).
  - set (c := {| c_what := d; c_addr := addr; c_oneway := oneway; c_rid := rid; c_back := back; c_pc := SSend 0 None |}). set (c' := if _ : bool then _ else _).
    assert (Hc : forall s i, cok s i c').
    { intros s0 i. unfold c'. destruct (oneway || is_number (y_timeout d)); [|exact I]. destruct (c_request c); [|exact I]. unfold cok. cbn. discriminate. }
    clearbody c'. constructor; cbn [d_wires d_calls d_net].
    + intros w x Hx. apply (wok_calls U s); try reflexivity; [exact (do_wires _ _ _ _ _ D w x Hx)|]. cbn [d_calls]. intros c0 H0. exists c0. rewrite (snoc_old _ c' _ _ H0). auto.
    + exact (do_uniq _ _ _ _ _ D).
    + exact (do_one _ _ _ _ _ D).
    + intros i c0 H0. apply snoc_inv in H0 as [(H0 & _)|(_ & ->)]; [|apply Hc]. exact (cok_wires s _ i c0 (do_calls _ _ _ _ _ D i c0 H0) (fun w x H => H)).
    + exact (do_net _ _ _ _ _ D).
  - destruct (nth_error (d_calls s) i) as [c|] eqn:Hi; [|exact D]. destruct (c_pc c) as [r conn| |] eqn:Epc; try exact D. exact (dok_round U t n regs s i mk dr acc send c r conn D Hi Epc).
  - destruct (nth_error (d_calls s) i) as [c|] eqn:Hi; [|exact D]. destruct (c_pc c) as [|w y|] eqn:Epc; try exact D. exact (dok_recv U t n regs s i c w y ev D Hi Epc).
  - destruct (nth_error (d_wires s) w) as [x|] eqn:Hw; [|exact D]. destruct (w_peer x) as [e|] eqn:Hp; [|exact D]. destruct (end_got s e) as [got|] eqn:Hg; [|exact D]. cbv zeta. destruct e as [a m|th].
    + exact (dok_up U t n regs s w x a m got k D Hw Hp Hg).
    + apply dok_thr; [exact D|]. intros b w' x' got' [= <-] Hx' Hp' Hg' P. assert (w' = w) by exact (do_uniq _ _ _ _ _ D w' w x' x _ Hx' Hw Hp' Hp). subst w'. assert (x' = x) by congruence. subst x'. assert (got' = got) by congruence. subst got'. apply prefix_next. exact P.
  - destruct (nth_error (d_wires s) w) as [x|] eqn:Hw; [|exact D]. destruct (w_peer x) as [e|] eqn:Hp; [|exact D]. destruct (end_sent U s e) as [sent|] eqn:Hs; [|exact D]. exact (dok_down U t n regs s w x e sent k D Hw Hp Hs).
  - apply dok_thr; [exact D|]. intros b w x got E. destruct e; discriminate.
  - destruct (addr <? 0)%Z; [apply dok_addthr; exact D|exact D].
  - destruct (sync_thr s th) eqn:E; [exact D|]. apply dok_thr; [exact D|]. intros b' w x got _ Hx Hp. destruct (sync_thr_false s th w x E Hx Hp).
Qed.
Lemma drun_snoc U t n regs l o : d_run U t n regs (l ++ [o]) = d_step U t o (d_run U t n regs l).
Proof. unfold d_run. rewrite fold_left_app. reflexivity. Qed.
Lemma dok_run U t n regs l : dok U t n regs (d_run U t n regs l).
Proof. induction l as [|o l IH] using rev_ind; [apply dok_init|]. rewrite drun_snoc. apply dok_step. exact IH. Qed.

(** ** What the other end did *)
Lemma far_of U t n regs s e got sent : dok U t n regs s -> end_got s e = Some got -> end_sent U s e = Some sent -> exists x, far_got x = got /\ far_sent U x = sent /\
  (forall d bs, far_returned U x (y_interface d) (y_method d) (y_content d) bs -> returned_at U s e d bs) /\
  (far_calls U x = [] -> forall j, ~ any_started_at U s e j) /\
  (forall d, far_calls U x = [(y_interface d, y_method d, y_content d)] -> forall j, any_started_at U s e j -> started_at U s e j d /\ forall j', any_started_at U s e j' -> j' = j).
Proof.
  intros D Hg Hs. destruct e as [a m|k]; cbn [end_got end_sent] in *.
  - destruct (z_conn (d_net s) a m) as [y|] eqn:Ey; [|discriminate]. destruct (do_net _ _ _ _ _ D) as (zl & Hz). assert (Ey' := Ey). rewrite Hz in Ey'. destruct (zconn_run _ _ _ _ _ _ _ _ Ey') as (reg & tr & h & ->). clear Ey' Hz zl.
    cbn [option_map] in *. injection Hg as <-. injection Hs as <-. exists (Asyncio reg tr h). cbn [far_got far_sent far_returned far_calls]. split; [symmetry; apply in_run|]. split; [reflexivity|].
    pose proof (good_run U reg tr h) as G. pose proof G as ((_ & _ & J) & _).
    assert (St : forall j b, nth_error (v_jobs (srun U reg tr h)) j = Some b -> (j_state b = JRunning \/ exists r, j_state b = JEnded r) -> In (j_frame b, j_service b, j_method b, j_body b) (executions U (sinit reg tr) h)).
    { intros j b Hb Sb. destruct (started_executed U h _ j b (good_init reg tr) Hb Sb) as [Ex|(y & Hy & _)]; [exact Ex|destruct j; discriminate]. }
    split; [|split].
    + intros d bs (f & Hx & b & Hb & Hf & He). destruct (executions_job U h _ _ _ _ _ (good_init reg tr) Hx) as (j & b' & Hb' & F1 & F2 & F3 & F4 & _). change (sfrom U (sinit reg tr) h) with (srun U reg tr h) in Hb'.
      apply In_nth_error in Hb as (j' & Hb). assert (j' = j) by (apply (NoDup_nth_map j_frame _ j' j b b' (jo_frames _ J) Hb Hb'); congruence). subst j'. assert (b' = b) by congruence. subst b'.
      exists (srun U reg tr h), b. split; [exact Ey|]. split; [exact (nth_error_In _ _ Hb)|]. auto.
    + intros E j (x & b & Hx & Hb & Sb). assert (x = srun U reg tr h) by congruence. subst x. pose proof (St j b Hb Sb) as H. destruct (executions U (sinit reg tr) h); [destruct H|discriminate].
    + intros d E j (x & b & Hx & Hb & Sb). assert (x = srun U reg tr h) by congruence. subst x. pose proof (St j b Hb Sb) as H. destruct (executions U (sinit reg tr) h) as [|ex [|? ?]] eqn:Ex; [discriminate| |discriminate]. destruct H as [->|[]]. cbn [map fst snd] in E. injection E as E1 E2 E3. split.
      * exists (srun U reg tr h), b. auto 8.
      * intros j' (x & b' & Hx' & Hb' & Sb'). assert (x = srun U reg tr h) by congruence. subst x. pose proof (St j' b' Hb' Sb') as H. destruct H as [[= H _ _ _]|[]]. exact (NoDup_nth_map j_frame _ j' j b' b (jo_frames _ J) Hb' Hb (eq_sym H)).
  - destruct (nth_error (d_thrs s) k) as [y|] eqn:Ey; [|discriminate]. cbn [option_map] in *. injection Hg as <-. injection Hs as <-.
    exists (Threaded (th_fuel y) (th_reg y) (th_tr y) (th_fresh y) (th_call y) (th_err y) (th_net y)). cbn [far_got far_sent far_returned far_calls]. split; [symmetry; apply arrived_received|]. split; [reflexivity|].
    change (handle (th_fuel y) U (th_reg y) (th_tr y) (th_fresh y) (th_call y) (th_err y) (th_net y)) with (th_out U y). split; [|split].
    + intros d bs (c & A & B). exists y, c. auto.
    + intros E j (x & c & Hx & Hc). assert (x = y) by congruence. subst x. destruct (o_calls (th_out U y)); [destruct j; discriminate|discriminate].
    + intros d E j (x & c & Hx & Hc). assert (x = y) by congruence. subst x. destruct (o_calls (th_out U y)) as [|((sm, b), c0) [|? ?]] eqn:Eo; [discriminate| |discriminate]. destruct j as [|j]; [|destruct j; discriminate].
      cbn in E. injection E as -> ->. split.
      * exists y, c0. rewrite Eo. auto.
      * intros j' (x & c' & Hx' & Hc'). assert (x = y) by congruence. subst x. rewrite Eo in Hc'. destruct j' as [|j']; [reflexivity|destruct j'; discriminate].
Qed.
(** what a call writes is a part of one request, its own *)
Lemma wrote_unit c out : wrote_by c out -> exists bs q, one bs (IRequest q) /\ q_body q = y_content (c_what c) /\ names_of (c_what c) (q_header q) /\ prefix_of out bs.
Proof.
  intros (bs & k & E & ->). apply bind_Ok in E as (p & E & T). unfold c_request in E. set (d := c_what c) in *. cbv zeta in E.
  set (pt := if c_oneway c then PTYPE_ONEWAY else PTYPE_REQUEST) in *. set (tm := py_or (if c_oneway c then PNone else y_timeout d) (PInt (-1))) in *.
  set (d' := {| y_baggage := y_baggage d; y_interface := y_interface d; y_method := y_method d; y_app := y_app d; y_uid := y_uid d; y_extra := y_extra d; y_content := y_content d; y_ptype := pt; y_timeout := tm |}).
  destruct (call_unit d' (c_rid c) p bs E T) as (q & O & A & B & C). exists bs, q. split; [exact O|]. split; [exact B|]. split; [exact C|apply take_prefix].
Qed.

(** ** C96 *)
Lemma deploy_value U t n regs l i c v : let s := d_run U t n regs l in nth_error (d_calls s) i = Some c -> c_oneway c = false -> c_pc c = SEnd (Ok v) ->
  exists w e bs, connection_of s i w e /\ located s e (c_addr c) /\ returned_at U s e (c_what c) bs /\ v = PBytes bs.
Proof.
  intros s Hi Ho Hpc. pose proof (dok_run U t n regs l) as D. fold s in D. pose proof (do_calls _ _ _ _ _ D i c Hi) as K. unfold cok in K. rewrite Hpc in K. destruct K as [K|(w & x & Hx & Hc & frame & tail & f & Hin & Lay & _ & Hst & ->)]; [congruence|].
  pose proof (do_wires _ _ _ _ _ D w x Hx) as [_ (c0 & B1 & B2 & B3) P _]. rewrite Hc in B1. assert (c0 = c) by congruence. subst c0. destruct (w_peer x) as [e|] eqn:Hp.
  2: { exfalso. rewrite Hin in P. apply app_eq_nil in P as (P & _). exact (layout_len _ _ Lay P). }
  destruct P as (got & sent & Hg & Pg & Hs & Ps). destruct (far_of U t n regs s e got sent D Hg Hs) as (y & <- & <- & R & _ & _).
  exists w, e, (fr_content f). split; [exists x; auto|]. split; [apply B3; reflexivity|]. split; [|reflexivity]. apply R. apply (far_value U (c_what c) y frame tail f); [|exact Lay|exact Hst|rewrite <- Hin; exact Ps].
  destruct B2 as [B2|(B2 & _)]; [left; rewrite B2 in Pg; exact (prefix_nil _ Pg)|right]. destruct (wrote_unit c _ B2) as (bs & q & O & B & N & Pb). exists bs, q. split; [exact O|]. split; [exact B|]. split; [exact N|]. exact (prefix_trans _ _ _ Pg Pb).
Qed.
Lemma started_what U s e j d : started_at U s e j d -> any_started_at U s e j.
Proof. destruct e as [a m|k]; cbn; [intros (x & b & A & B & C & _); eauto|intros (x & c & A & B); eauto]. Qed.
Lemma wire_calls U t n regs s w x c e : dok U t n regs s -> nth_error (d_wires s) w = Some x -> nth_error (d_calls s) (w_call x) = Some c -> w_peer x = Some e ->
  (w_out x = [] -> forall j, ~ any_started_at U s e j) /\
  (forall j, any_started_at U s e j -> started_at U s e j (c_what c) /\ forall j', any_started_at U s e j' -> j' = j).
Proof.
  intros D Hx Hc Hp. pose proof (do_wires _ _ _ _ _ D w x Hx) as [_ (c0 & B1 & B2 & _) P _]. assert (c0 = c) by congruence. subst c0. rewrite Hp in P. destruct P as (got & sent & Hg & Pg & Hs & _).
  destruct (far_of U t n regs s e got sent D Hg Hs) as (y & <- & _ & _ & N & O).
  assert (E0 : w_out x = [] -> far_calls U y = []) by (intros E; apply far_nothing; rewrite E in Pg; exact (prefix_nil _ Pg)).
  split; [intros E; exact (N (E0 E))|]. intros j Hj. destruct B2 as [B2|(B2 & _)]; [destruct (N (E0 B2) j Hj)|]. destruct (wrote_unit c _ B2) as (bs & q & U1 & B & C & Pb).
  destruct (far_one U y (c_what c) bs q U1 B C (prefix_trans _ _ _ Pg Pb)) as [F|F]; [destruct (N F j Hj)|]. exact (O (c_what c) F j Hj).
Qed.
Lemma deploy_executed U t n regs l i c w e j : let s := d_run U t n regs l in nth_error (d_calls s) i = Some c -> connection_of s i w e -> any_started_at U s e j ->
  started_at U s e j (c_what c) /\ forall w' e' j', connection_of s i w' e' -> any_started_at U s e' j' -> w' = w /\ j' = j.
Proof.
  intros s Hi (x & Hx & <- & Hp) Hj. pose proof (dok_run U t n regs l) as D. fold s in D. destruct (wire_calls U t n regs s w x c e D Hx Hi Hp) as (N & O). destruct (O j Hj) as (O1 & O2). split; [exact O1|].
  intros w' e' j' (x' & Hx' & Hc' & Hp') Hj'. rewrite <- Hc' in Hi. destruct (wire_calls U t n regs s w' x' c e' D Hx' Hi Hp') as (N' & O').
  assert (w' = w). { apply (do_one _ _ _ _ _ D w' w x' x Hx' Hx Hc'); intros E; [exact (N' E j' Hj')|exact (N E j Hj)]. } subst w'. assert (x' = x) by congruence. subst x'. assert (e' = e) by congruence. subst e'. auto.
Qed.
Lemma deploy_separate U t n regs l : let s := d_run U t n regs l in
  (forall i i' w w' e, connection_of s i w e -> connection_of s i' w' e -> w = w' /\ i = i') /\
  (forall i w a m p k, connection_of s i w (PAio a m) -> nth_error (z_clients (d_net s)) p = Some k -> ~ In (a, m) (z_conns k)).
Proof.
  intros s. pose proof (dok_run U t n regs l) as D. fold s in D. split.
  - intros i i' w w' e (x & Hx & <- & Hp) (x' & Hx' & <- & Hp'). assert (w = w') by exact (do_uniq _ _ _ _ _ D w w' x x' e Hx Hx' Hp Hp'). subst w'. split; [reflexivity|congruence].
  - intros i w a m p k (x & Hx & _ & Hp) Hk. exact (proj1 (owned_not _ a m) (wk_free _ _ _ (do_wires _ _ _ _ _ D w x Hx) a m Hp) p k Hk).
Qed.

(** ** The asyncio clients *)
Lemma connect_net U id i addr acc s t : d_net (fst (connect U id i addr acc s)) = d_net s \/ exists a tr, d_net (fst (connect U id i addr acc s)) = z_step U t (ZServer a (LAccept tr)) (d_net s).
Proof.
  unfold connect. destruct (find_wire id (d_wires s)); [left; reflexivity|]. destruct acc as [tr|fuel reg tr fresh call e|]; [| |left; reflexivity].
  - destruct (nth_error (z_servers (d_net s)) (Z.to_nat addr)); [|left; reflexivity]. destruct (0 <=? addr)%Z; [right; exists (Z.to_nat addr), tr; reflexivity|left; reflexivity].
  - destruct (addr <? 0)%Z; left; reflexivity.
Qed.
Lemma leave_net i c conn s : d_net (leave i c conn s) = d_net s.
Proof. unfold leave. destruct conn; [destruct (c_oneway c)|]; reflexivity. Qed.
Lemma again_net i c r conn s : d_net (again i c r conn s) = d_net s.
Proof. unfold again. destruct (Nat.ltb (S r) 3); [reflexivity|apply leave_net]. Qed.
Lemma round_net U i mk dr acc send c r conn s t : let s' := round U i mk dr acc send c r conn s in d_net s' = d_net s \/ exists a tr, d_net s' = z_step U t (ZServer a (LAccept tr)) (d_net s).
Proof.
  cbv zeta. unfold round. destruct (fetch mk dr (c_addr c) (d_mgrs s)) as (m, got). destruct got as [id|e].
  2: { left. destruct e; rewrite ?again_net, ?leave_net; reflexivity. }
  pose proof (connect_net U id i (c_addr c) acc (with_mgrs m s) t) as H. destruct (connect U id i (c_addr c) acc (with_mgrs m s)) as (s1, w). cbn [fst with_mgrs d_net] in H.
  assert (K : forall s2, d_net s2 = d_net s1 -> d_net s2 = d_net s \/ exists a tr, d_net s2 = z_step U t (ZServer a (LAccept tr)) (d_net s)).
  { intros s2 E. rewrite E. exact H. }
  destruct (let! p := c_request c in to_stream p) as [bs|e]; [destruct send as [k|e]|]; [apply K; rewrite leave_net; reflexivity| |]; apply K; destruct e; rewrite ?again_net, ?leave_net; reflexivity.
Qed.
Lemma recv_net i c w y ev s : d_net (recv i c w y ev s) = d_net s.
Proof. unfold recv. destruct ev; try reflexivity. destruct (receive n y) as [r|e]; [|reflexivity]. destruct (len (y_buf r) <? y_total r)%Z; reflexivity. Qed.
(** what a step does to the network is nothing, or a step of the network; it draws the same request ids *)
Lemma step_net U t n regs o s : dok U t n regs s -> exists zl, d_net (d_step U t o s) = fold_left (fun z o => z_step U t o z) zl (d_net s) /\
  (forall p, z_ids p zl = z_ids p (net_steps [o])) /\ (forall p d rid a, In (ZCall p d rid a) (net_steps [o]) -> In (ZCall p d rid a) zl).
Proof.
  intros D.
  assert (None_ : forall s', d_net s' = d_net s -> net_steps [o] = [] -> exists zl, d_net s' = fold_left (fun z o => z_step U t o z) zl (d_net s) /\
    (forall p, z_ids p zl = z_ids p (net_steps [o])) /\ (forall p d rid a, In (ZCall p d rid a) (net_steps [o]) -> In (ZCall p d rid a) zl)).
  { intros s' E N. exists []. rewrite N, E. auto. }
  assert (One : forall s' a lo, d_net s' = z_step U t (ZServer a lo) (d_net s) -> net_steps [o] = [] -> exists zl, d_net s' = fold_left (fun z o => z_step U t o z) zl (d_net s) /\
    (forall p, z_ids p zl = z_ids p (net_steps [o])) /\ (forall p d rid a, In (ZCall p d rid a) (net_steps [o]) -> In (ZCall p d rid a) zl)).
  { intros s' a lo E N. exists [ZServer a lo]. rewrite N, E. split; [reflexivity|]. split; [reflexivity|intros ? ? ? ? []]. }
  destruct o as [o|d addr oneway rid back|i mk dr acc send|i ev|w k|w k|th e|addr fuel reg tr fresh call e|th b]; cbn [d_step].
  - assert (K : exists zl, d_net (with_net (z_step U t o (d_net s)) s) = fold_left (fun z o => z_step U t o z) zl (d_net s) /\
      (forall p, z_ids p zl = z_ids p (net_steps [DNet o])) /\ (forall p d rid a, In (ZCall p d rid a) (net_steps [DNet o]) -> In (ZCall p d rid a) zl)) by (exists [o]; auto).
    destruct o as [p d rid a|p i tr|p o|a lo|p c m|p c m]; try exact K. destruct lo as [tr|name sv|m o|]; try exact K. destruct o as [|b| | | | | | | | | |]; try exact K.
    destruct (sync_conn s a m); [|exact K]. exists []. split; [reflexivity|]. split; [reflexivity|]. intros ? ? ? ? [E|[]]. discriminate.
  - apply None_; reflexivity.
  - destruct (nth_error (d_calls s) i) as [c|]; [|apply None_; reflexivity]. destruct (c_pc c) as [r conn| |]; try (apply None_; reflexivity).
    destruct (round_net U i mk dr acc send c r conn s t) as [E|(a & tr & E)]; [apply None_; [exact E|reflexivity]|exact (One _ _ _ E eq_refl)].
  - destruct (nth_error (d_calls s) i) as [c|]; [|apply None_; reflexivity]. destruct (c_pc c) as [|w y|]; try (apply None_; reflexivity). apply None_; [apply recv_net|reflexivity].
  - destruct (nth_error (d_wires s) w) as [x|] eqn:Hw; [|apply None_; reflexivity]. destruct (w_peer x) as [e|] eqn:Hp; [|apply None_; reflexivity]. destruct (end_got s e) as [got|] eqn:Hg; [|apply None_; reflexivity]. cbv zeta. destruct e as [a m|th]; [|apply None_; reflexivity].
    apply (One _ a (LConn m (Feed (firstn k (skipn (List.length got) (w_out x)))))); [|reflexivity]. cbn [z_step with_net d_net]. rewrite (wk_free _ _ _ (do_wires _ _ _ _ _ D w x Hw) a m Hp). reflexivity.
  - destruct (nth_error (d_wires s) w) as [x|]; [|apply None_; reflexivity]. destruct (w_peer x) as [e|]; [|apply None_; reflexivity]. destruct (end_sent U s e) as [sent|]; apply None_; reflexivity.
  - apply None_; reflexivity.
  - destruct (addr <? 0)%Z; apply None_; reflexivity.
  - destruct (sync_thr s th); apply None_; reflexivity.
Qed.
Lemma netsteps_app a b : net_steps (a ++ b) = net_steps a ++ net_steps b.
Proof. unfold net_steps. rewrite map_app, concat_app. reflexivity. Qed.
Lemma zids_app p a b : z_ids p (a ++ b) = z_ids p a ++ z_ids p b.
Proof. unfold z_ids. rewrite map_app, concat_app. reflexivity. Qed.
Lemma deploy_net U t n regs l : exists zl, d_net (d_run U t n regs l) = z_run U t n regs zl /\ (forall p, z_ids p zl = z_ids p (net_steps l)) /\
  (forall p d rid a, In (DNet (ZCall p d rid a)) l -> In (ZCall p d rid a) zl).
Proof.
  assert (K : exists zl, d_net (d_run U t n regs l) = z_run U t n regs zl /\ (forall p, z_ids p zl = z_ids p (net_steps l)) /\ (forall p d rid a, In (ZCall p d rid a) (net_steps l) -> In (ZCall p d rid a) zl)).
  { induction l as [|o l (zl & A & B & C)] using rev_ind; [exists []; repeat split; auto|]. rewrite drun_snoc. destruct (step_net U t n regs o _ (dok_run U t n regs l)) as (zl' & A' & B' & C').
    exists (zl ++ zl'). rewrite A', A. split; [unfold z_run; rewrite fold_left_app; reflexivity|]. rewrite netsteps_app. split.
    - intros p. rewrite !zids_app, B, B'. reflexivity.
    - intros p d rid a H. apply in_app_or in H as [H|H]; apply in_or_app; [left; exact (C _ _ _ _ H)|right; exact (C' _ _ _ _ H)]. }
  destruct K as (zl & A & B & C). exists zl. split; [exact A|]. split; [exact B|]. intros p d rid a H. apply C. unfold net_steps. apply in_concat. exists [ZCall p d rid a]. split; [|left; reflexivity]. apply in_map_iff. exists (DNet (ZCall p d rid a)). auto.
Qed.
Lemma deploy_aio_value U t n regs l p k d rid a v : NoDup (z_ids p (net_steps l)) -> let s := d_run U t n regs l in nth_error (z_clients (d_net s)) p = Some k ->
  In (DNet (ZCall p d rid a)) l -> gives (z_state t k) rid (Ok v) ->
  exists sv m bs, In (sv, m) (z_conns k) /\ a = Ok (Z.of_nat sv) /\ method_returned (d_net s) sv m d v /\ v = PBytes bs /\ bs <> [].
Proof.
  intros Nd s Hp Hc Hg. destruct (deploy_net U t n regs l) as (zl & A & B & C). fold s in A. rewrite A in *. apply (net_value U t n regs zl p k d rid a v); auto. rewrite B. exact Nd.
Qed.
Lemma deploy_aio_executions U t n regs l p k rid i tk L : NoDup (z_ids p (net_steps l)) -> let s := d_run U t n regs l in nth_error (z_clients (d_net s)) p = Some k ->
  nth_error (M_AioClient.s_tasks (z_state t k)) i = Some tk -> p_request_id (M_AioClient.t_req tk) = PInt rid ->
  NoDup L -> (forall c j, In (c, j) L -> started_for (d_net s) k rid c j) -> List.length L <= 1 + failed_flushes i k /\ List.length L <= 3.
Proof.
  intros Nd s Hp Hi Hr NL HL. destruct (deploy_net U t n regs l) as (zl & A & B & C). fold s in A. rewrite A in *. apply (net_executions U t n regs zl p k rid i tk L); auto. rewrite B. exact Nd.
Qed.
Lemma deploy_bound U t n regs l a sv x : nth_error (z_servers (d_net (d_run U t n regs l))) a = Some sv -> executing sv x -> List.length x <= 30.
Proof. destruct (deploy_net U t n regs l) as (zl & -> & _). apply net_bound. Qed.

(** ** A synchronous call takes at most three connections *)
Definition takes (i : nat) (s : dep) : nat := count_occ Nat.eq_dec (map w_call (d_wires s)) i.
Definition allowed (c : scall) : nat := match c_pc c with SSend r _ => r | _ => 3 end.
Definition tri (s : dep) : Prop :=
  (forall i, takes i s <= match nth_error (d_calls s) i with Some c => allowed c | None => 0 end) /\
  (forall i c r conn, nth_error (d_calls s) i = Some c -> c_pc c = SSend r conn -> r < 3).
Lemma tri_same s s' : tri s -> map w_call (d_wires s') = map w_call (d_wires s) -> d_calls s' = d_calls s -> tri s'.
Proof. intros (A & B) E C. unfold tri, takes in *. rewrite E, C. auto. Qed.
Lemma tri_goto s s' i c pc k : tri s -> nth_error (d_calls s) i = Some c -> (forall j, takes j s' <= takes j s + if Nat.eqb j i then k else 0) -> d_calls s' = upd i (c_goto pc) (d_calls s) ->
  (forall r conn, pc = SSend r conn -> r < 3) -> allowed c + k <= allowed (c_goto pc c) -> tri s'.
Proof.
  intros (A & B) Hi T C P Q. split.
  - intros j. specialize (A j). specialize (T j). rewrite C. destruct (Nat.eqb_spec j i) as [->|N].
    + rewrite (nth_upd_same _ _ _ _ Hi). rewrite Hi in A. lia.
    + rewrite nth_upd_other by congruence. lia.
  - intros j d r conn Hj Ep. rewrite C in Hj. destruct (Nat.eq_dec j i) as [->|N].
    + rewrite (nth_upd_same _ _ _ _ Hi) in Hj. injection Hj as <-. exact (P _ _ Ep).
    + rewrite nth_upd_other in Hj by congruence. exact (B j d r conn Hj Ep).
Qed.
Definition took (i : nat) (s s' : dep) : Prop := (forall j, takes j s' <= takes j s + if Nat.eqb j i then 1 else 0) /\ d_calls s' = d_calls s.
Lemma took_not i s s' : map w_call (d_wires s') = map w_call (d_wires s) -> d_calls s' = d_calls s -> took i s s'.
Proof. intros E C. split; [|exact C]. intros j. unfold takes. rewrite E. lia. Qed.
Lemma took_then i s s' s2 : took i s s' -> map w_call (d_wires s2) = map w_call (d_wires s') -> d_calls s2 = d_calls s' -> took i s s2.
Proof. intros (A & B) E C. split; [|congruence]. intros j. unfold takes in *. rewrite E. apply A. Qed.
Lemma took_add i s x s2 : w_call x = i -> d_wires s2 = d_wires s ++ [x] -> d_calls s2 = d_calls s -> took i s s2.
Proof.
  intros E W C. split; [|exact C]. intros j. unfold takes. rewrite W, map_app, count_occ_app. cbn [map count_occ]. rewrite E. destruct (Nat.eq_dec i j) as [->|N]; [rewrite Nat.eqb_refl; lia|].
  destruct (Nat.eqb_spec j i); lia.
Qed.
Lemma took_connect U id i addr acc s : took i s (fst (connect U id i addr acc s)).
Proof.
  unfold connect. destruct (find_wire id (d_wires s)); [apply took_not; reflexivity|].
  destruct acc as [tr|fuel reg tr fresh call e|].
  - destruct (nth_error (z_servers (d_net s)) (Z.to_nat addr)) as [x|]; [destruct (0 <=? addr)%Z|]; (eapply took_add; [|reflexivity|reflexivity]); reflexivity.
  - destruct (addr <? 0)%Z; (eapply took_add; [|reflexivity|reflexivity]); reflexivity.
  - eapply took_add; [|reflexivity|reflexivity]; reflexivity.
Qed.
Lemma tri_leave s s1 i c r conn0 conn : tri s -> nth_error (d_calls s) i = Some c -> c_pc c = SSend r conn0 -> took i s s1 -> tri (leave i c conn s1).
Proof.
  intros T Hi Ep (A & B). pose proof (proj2 T i c r conn0 Hi Ep) as Lr.
  assert (G : forall pc s2, (forall r conn, pc <> SSend r conn) -> map w_call (d_wires s2) = map w_call (d_wires s1) -> d_calls s2 = upd i (c_goto pc) (d_calls s1) -> tri s2).
  { intros pc s2 Np W C. apply (tri_goto s s2 i c pc 1 T Hi); [intros j; specialize (A j); unfold takes in *; rewrite W; exact A|congruence|intros r' conn' E; contradiction (Np _ _ E)|].
    unfold allowed. rewrite Ep. destruct pc as [r' conn'| |]; [contradiction (Np _ _ eq_refl)| |]; cbn; lia. }
  unfold leave. destruct conn as [w|]; [destruct (c_oneway c)|]; (eapply G; [|reflexivity|reflexivity]); intros ? ? ?; discriminate.
Qed.
Lemma tri_again s s1 i c r conn0 conn : tri s -> nth_error (d_calls s) i = Some c -> c_pc c = SSend r conn0 -> took i s s1 -> tri (again i c r conn s1).
Proof.
  intros T Hi Ep K. unfold again. destruct (Nat.ltb_spec (S r) 3) as [L|L]; [|exact (tri_leave s s1 i c r conn0 conn T Hi Ep K)]. destruct K as (A & B).
  eapply (tri_goto s _ i c _ 1 T Hi); [exact A|cbn; rewrite B; reflexivity|intros r' conn' [= <- _]; exact L|unfold allowed; rewrite Ep; cbn; lia].
Qed.
Lemma calls_upd w f l : (forall x, w_call (f x) = w_call x) -> map w_call (upd w f l) = map w_call l.
Proof. intros H. revert w. induction l as [|x l IH]; intros [|w]; cbn; rewrite ?H, ?IH; reflexivity. Qed.
Lemma tri_round U s i mk dr acc send c r conn : tri s -> nth_error (d_calls s) i = Some c -> c_pc c = SSend r conn -> tri (round U i mk dr acc send c r conn s).
Proof.
  intros T Hi Ep. unfold round. destruct (fetch mk dr (c_addr c) (d_mgrs s)) as [m got]. assert (K0 : took i s (with_mgrs m s)) by (apply took_not; reflexivity).
  assert (L : forall s1 conn', took i s s1 -> tri (leave i c conn' s1)) by (intros s1 conn'; apply tri_leave with (r := r) (conn0 := conn); assumption).
  assert (A : forall s1 conn', took i s s1 -> tri (again i c r conn' s1)) by (intros s1 conn'; apply tri_again with (conn0 := conn); assumption).
  destruct got as [id|e]; [|destruct e; first [apply A; exact K0|apply L; exact K0]].
  pose proof (took_connect U id i (c_addr c) acc (with_mgrs m s)) as K1. destruct (connect U id i (c_addr c) acc (with_mgrs m s)) as [s1 w]. cbn [fst] in K1.
  assert (K : took i s s1) by (destruct K1 as (X & Y); split; [exact X|exact Y]).
  destruct (let! p := c_request c in to_stream p) as [bs|e]; [|destruct e; first [apply A; exact K|apply L; exact K]].
  destruct send as [k|e]; [|destruct e; first [apply A; exact K|apply L; exact K]].
  apply L. eapply took_then; [exact K| |reflexivity]. apply calls_upd. reflexivity.
Qed.
Lemma tri_end s s1 i c pc : tri s -> nth_error (d_calls s) i = Some c -> sending c = false -> (forall r conn, pc <> SSend r conn) -> map w_call (d_wires s1) = map w_call (d_wires s) -> d_calls s1 = upd i (c_goto pc) (d_calls s) -> tri s1.
Proof.
  intros T Hi Sd Np W C. apply (tri_goto s s1 i c pc 0 T Hi); [intros j; unfold takes; rewrite W; lia|exact C|intros r conn E; contradiction (Np _ _ E)|].
  unfold allowed. unfold sending in Sd. destruct pc as [r' conn'| |]; [contradiction (Np _ _ eq_refl)| |]; destruct (c_pc c); try discriminate Sd; cbn; lia.
Qed.
Lemma tri_recv s i c w x ev : tri s -> nth_error (d_calls s) i = Some c -> c_pc c = SRecv w x -> tri (recv i c w x ev s).
Proof.
  intros T Hi Ep. assert (Sd : sending c = false) by (unfold sending; rewrite Ep; reflexivity).
  unfold recv. destruct ev as [n| |]; [destruct (receive n x) as [x'|e]; [destruct (len (y_buf x') <? y_total x')%Z|]| |]; (eapply (tri_end s _ i c _ T Hi Sd); [|reflexivity|reflexivity]); intros ? ? ?; discriminate.
Qed.
Lemma tri_more s j w b : tri s -> tri (with_call j (more w b) s).
Proof.
  intros (A & B). assert (M : forall c, allowed (more w b c) = allowed c /\ (forall r conn, c_pc (more w b c) = SSend r conn -> c_pc c = SSend r conn)).
  { intros c. unfold more, allowed. destruct (c_pc c) as [r conn|w' x|r] eqn:Ep; [rewrite Ep; auto| |rewrite Ep; auto]. destruct (Nat.eqb w' w); [cbn; split; [reflexivity|discriminate]|rewrite Ep; auto]. }
  split.
  - intros i. specialize (A i). cbn [with_call d_calls]. change (takes i s <= match nth_error (upd j (more w b) (d_calls s)) i with Some c => allowed c | None => 0 end). destruct (nth_error (d_calls s) i) as [c|] eqn:Hi; [|lia].
    destruct (Nat.eq_dec j i) as [->|N]; [rewrite (nth_upd_same _ _ _ _ Hi), (proj1 (M c)); exact A|rewrite nth_upd_other by exact N; rewrite Hi; exact A].
  - intros i c r conn Hi Ep. cbn [with_call d_calls] in Hi. destruct (nth_upd_inv _ _ _ _ _ Hi) as [(_ & x & Hx & ->)|(_ & Hx)]; [|exact (B i c r conn Hx Ep)]. exact (B i x r conn Hx (proj2 (M x) r conn Ep)).
Qed.
Lemma tri_step U t o s : tri s -> tri (d_step U t o s).
Proof.
  intros T. pose proof T as (A & B). assert (V : forall s', d_wires s' = d_wires s -> d_calls s' = d_calls s -> tri s') by (intros s' W C; apply (tri_same s); [exact T|rewrite W; reflexivity|exact C]).
  destruct o as [o|d addr ow rid|i mk dr acc send|i ev|w n|w n|th e|addr fuel reg tr fresh call e|th b]; cbn [d_step].
  - destruct o as [| | |a lo| |]; try (apply V; reflexivity). destruct lo as [| |n o|]; try (apply V; reflexivity). destruct o; try (apply V; reflexivity). destruct (sync_conn s a n); apply V; reflexivity.
  - cbv zeta. match goal with |- tri {| d_net := _; d_thrs := _; d_mgrs := _; d_wires := _; d_calls := d_calls s ++ [?x] |} => set (c0 := x) end. split.
    + intros i. cbn [d_calls]. specialize (A i). change (takes i s <= match nth_error (d_calls s ++ [c0]) i with Some c => allowed c | None => 0 end).
      destruct (nth_error (d_calls s) i) as [c|] eqn:Hi; [rewrite (snoc_old _ _ _ _ Hi); exact A|]. lia.
    + intros i c r conn Hi Ep. cbn [d_calls] in Hi. destruct (snoc_inv _ _ _ _ Hi) as [(Hi' & _)|(_ & ->)]; [exact (B i c r conn Hi' Ep)|].
      unfold c0 in Ep. destruct (ow || is_number (y_timeout d)); [destruct (c_request _)|]; cbn in Ep; try discriminate Ep; injection Ep as <- _; lia.
  - destruct (nth_error (d_calls s) i) as [c|] eqn:Hi; [|exact T]. destruct (c_pc c) as [r conn| |] eqn:Ep; try exact T. apply tri_round; assumption.
  - destruct (nth_error (d_calls s) i) as [c|] eqn:Hi; [|exact T]. destruct (c_pc c) as [|w x|] eqn:Ep; try exact T. apply tri_recv; assumption.
  - destruct (nth_error (d_wires s) w) as [x|]; [|exact T]. destruct (w_peer x) as [e|]; [|exact T]. destruct (end_got s e); [|exact T]. destruct e; apply V; reflexivity.
  - destruct (nth_error (d_wires s) w) as [x|]; [|exact T]. destruct (w_peer x) as [e|]; [|exact T]. destruct (end_sent U s e); [|exact T]. cbv zeta. set (b0 := firstn n _). apply (tri_more (with_wire w (w_feed b0) s)).
    apply (tri_same s); [exact T|apply calls_upd; reflexivity|reflexivity].
  - apply V; reflexivity.
  - destruct (addr <? 0)%Z; apply V; reflexivity.
  - destruct (sync_thr s th); apply V; reflexivity.
Qed.
(** the connections that one call has taken from its pools *)
Lemma deploy_three U t n regs l i : takes i (d_run U t n regs l) <= 3.
Proof.
  assert (T : tri (d_run U t n regs l)).
  { induction l as [|o l IH] using rev_ind; [|rewrite drun_snoc; apply tri_step; exact IH]. split; [intros j; cbn; lia|intros j c r conn Hj; destruct j; discriminate Hj]. }
  destruct T as (A & B). specialize (A i). destruct (nth_error (d_calls (d_run U t n regs l)) i) as [c|] eqn:Hi; [|lia]. unfold allowed in A. destruct (c_pc c) as [r conn| |] eqn:Ep; try lia. pose proof (B i c r conn Hi Ep). lia.
Qed.
Lemma deploy_taken U t n regs l i W : NoDup W -> (forall w, In w W -> exists x, nth_error (d_wires (d_run U t n regs l)) w = Some x /\ w_call x = i) -> List.length W <= 3.
Proof.
  intros N H. eapply Nat.le_trans; [|exact (deploy_three U t n regs l i)]. unfold takes. generalize dependent (d_wires (d_run U t n regs l)). clear - N. intros D H.
  assert (P : List.length W <= List.length (filter (fun w => match nth_error D w with Some x => Nat.eqb (w_call x) i | None => false end) (seq 0 (List.length D)))).
  { apply NoDup_incl_length; [assumption|]. intros w Hw. destruct (H w Hw) as (x & Hx & Hc). apply filter_In. split; [apply in_seq; pose proof (proj1 (nth_error_Some D w) ltac:(congruence)); lia|]. rewrite Hx. apply Nat.eqb_eq. exact Hc. }
  eapply Nat.le_trans; [exact P|]. clear. induction D as [|x D IH] using rev_ind; [cbn; lia|].
  rewrite app_length, seq_app, filter_app, app_length, map_app, count_occ_app. cbn [List.length seq Nat.add]. 
  assert (E : filter (fun w => match nth_error (D ++ [x]) w with Some x => Nat.eqb (w_call x) i | None => false end) (seq 0 (List.length D)) = filter (fun w => match nth_error D w with Some x => Nat.eqb (w_call x) i | None => false end) (seq 0 (List.length D))).
  { apply filter_ext_in. intros w Hw. apply in_seq in Hw. rewrite nth_error_app1 by lia. reflexivity. }
  rewrite E. assert (F : List.length (filter (fun w => match nth_error (D ++ [x]) w with Some x => Nat.eqb (w_call x) i | None => false end) [List.length D]) <= count_occ Nat.eq_dec (map w_call [x]) i).
  { cbn [filter map count_occ]. rewrite snoc_new. destruct (Nat.eqb_spec (w_call x) i) as [->|Ne]; [destruct (Nat.eq_dec i i); [cbn; lia|congruence]|]. destruct (Nat.eq_dec (w_call x) i); cbn; lia. }
  lia.
Qed.
(** bytes of other programs are not held back *)
Lemma others_reach U t s a m b : (forall w x, nth_error (d_wires s) w = Some x -> w_peer x <> Some (PAio a m)) ->
  (forall p k, nth_error (z_clients (d_net s)) p = Some k -> ~ In (a, m) (z_conns k)) ->
  d_net (d_step U t (DNet (ZServer a (LConn m (Feed b)))) s) = on_server U a (LConn m (Feed b)) (d_net s).
Proof.
  intros H K. cbn [d_step]. assert (E : sync_conn s a m = false).
  { apply not_true_is_false. intros E. apply existsb_exists in E as (x & Hx & E). apply In_nth_error in Hx as (w & Hw). destruct (w_peer x) as [[a' m'|]|] eqn:Hp; try discriminate. apply andb_prop in E as [E1 E2].
    apply Nat.eqb_eq in E1, E2. subst. exact (H w x Hw Hp). }
  rewrite E. cbn [with_net d_net z_step]. assert (O : owned (d_net s) a m = false).
  { apply not_true_is_false. intros O. unfold owned in O. apply existsb_exists in O as (k & Hk & O). apply In_nth_error in Hk as (p & Hp). apply existsb_exists in O as ((a' & m') & Hc & O). apply andb_prop in O as [E1 E2].
    cbn [fst snd] in E1, E2. apply Nat.eqb_eq in E1, E2. subst. exact (K p k Hp Hc). }
  rewrite O. reflexivity.
Qed.
Lemma others_reach_thr U t s n b : (forall w x, nth_error (d_wires s) w = Some x -> w_peer x <> Some (PThr n)) -> d_step U t (DFeed n b) s = with_thr n (Arrive b) s.
Proof.
  intros H. cbn [d_step]. assert (E : sync_thr s n = false).
  { apply not_true_is_false. intros E. apply existsb_exists in E as (x & Hx & E). apply In_nth_error in Hx as (w & Hw). destruct (w_peer x) as [[|n']|] eqn:Hp; try discriminate. apply Nat.eqb_eq in E. subst. exact (H w x Hw Hp). }
  rewrite E. reflexivity.
Qed.

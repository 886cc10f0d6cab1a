(** Lemmas behind C121: a network of clients and listeners that is left alone comes to rest. *)
From Coq Require Import Lia ZifyBool.
From Verif Require Import PyBase L_PyBase PyDict L_PyDict PyInt M_SofaHeader M_Package M_RpcId M_Trace M_SyncClient M_AioServer S_Server L_AioServer2 L_AioServer3 L_AioServer4 L_AioServer5 L_AioServer6 L_AioServer7 L_AioServer8 M_System S_System L_System S_Settle L_Settle2 L_Settle S_Rest L_Rest2 L_Rest M_Listener S_Listener L_Listener M_Net S_Net L_Net S_NetRest.
From Verif Require M_AioClient L_AioClient L_AioClient6 L_System1 L_Settle1 L_Front L_Rest1.
Import L_Rest1 (total, total_app, busy, unread).
Open Scope nat_scope.

(** ** One listener *)
Definition l_parse (s : lst) : nat := total unparsed (n_conns s).
Definition l_do (s : lst) : nat := 2 * total undone (n_conns s) + List.length (n_queue s).
Definition own_lstep (o : lstep) : Prop := match o with LAccept _ | LRegister _ _ | LConn _ (Feed _) => False | _ => True end.
Lemma jobs_grow U o k : good k -> plain o -> List.length (v_jobs (srun_step U o k)) <= S (List.length (v_jobs k)).
Proof.
  intros G P. rewrite <- !jst_length. destruct (jst_plain U o k G P) as [b [| |j E]|j r E]; rewrite ?app_length, ?L_AioServer2.length_upd; cbn; lia.
Qed.
Lemma same_conn s c k : nth_error (n_conns s) c = Some k -> {| n_reg := n_reg s; n_conns := upd c (fun _ => k) (n_conns s); n_queue := n_queue s |} = s.
Proof. intros H. rewrite upd_same by (right; eauto). destruct s; reflexivity. Qed.
Lemma listener_lowers U o s : lok s -> own_lstep o -> lrun_step U o s = s \/ l_parse (lrun_step U o s) < l_parse s \/ (l_parse (lrun_step U o s) = l_parse s /\ l_do (lrun_step U o s) < l_do s).
Proof.
  intros L H. destruct o as [tr|name sv|c o|]; try destruct H.
  - assert (P : plain o \/ ~ plain o) by (destruct o; cbn; tauto). destruct P as [P|P]; [|left; apply conn_ignored; exact P].
    destruct (nth_error (n_conns s) c) as [k|] eqn:Hk; [|left; apply conn_none; exact Hk]. rewrite (conn_step U c o s k P Hk). destruct (nth_good s c k L Hk) as (G & _).
    assert (Ow : own_sstep o) by (destruct o; try destruct P; try destruct H; exact Logic.I).
    pose proof (total_upd unparsed (fun _ => srun_step U o k) (n_conns s) c k Hk) as A. pose proof (total_upd undone (fun _ => srun_step U o k) (n_conns s) c k Hk) as B.
    pose proof (jobs_grow U o k G P) as J. unfold l_parse, l_do. cbn [n_conns n_queue]. rewrite app_length. unfold joined. rewrite map_length, seq_length.
    destruct (server_lowers U o k Ow) as [E|[E|(E1 & E2)]]; [left; rewrite E; rewrite Nat.sub_diag; cbn [seq map]; rewrite app_nil_r; apply same_conn; exact Hk|right; left; lia|right; right; lia].
  - cbn [lrun_step]. destruct (Nat.ltb (workers s) MAX_WORKER); [|left; reflexivity]. destruct (n_queue s) as [|(c, j) q] eqn:Q; [left; reflexivity|]. right. right. unfold l_parse, l_do. cbn [on_conn n_conns n_queue]. rewrite Q. cbn [List.length].
    destruct (nth_error (n_conns s) c) as [k|] eqn:Hk; [|rewrite L_Rest1.upd_none by exact Hk; lia].
    pose proof (total_upd unparsed (srun_step U (JobRun j)) (n_conns s) c k Hk) as A. pose proof (total_upd undone (srun_step U (JobRun j)) (n_conns s) c k Hk) as B.
    assert (E : srun_step U (JobRun j) k = k \/ (unparsed (srun_step U (JobRun j) k) = unparsed k /\ undone (srun_step U (JobRun j) k) < undone k)).
    { cbn [srun_step]. destruct (nth_error (v_jobs k) j) as [b|] eqn:Hb; [|left; reflexivity]. destruct (j_state b) eqn:Hs; try (left; reflexivity). right. apply (jstate_undone j _ k b Hb). rewrite Hs. cbn. lia. }
    destruct E as [E|(E1 & E2)]; [rewrite E in A, B|]; lia.
Qed.
Lemma conns_length U o s : match o with LAccept _ => False | _ => True end -> List.length (n_conns (lrun_step U o s)) = List.length (n_conns s).
Proof.
  intros H. destruct o as [tr|name sv|c o|]; try destruct H; cbn [lrun_step].
  - cbn [n_conns]. apply map_length.
  - destruct o; try reflexivity; destruct (nth_error (n_conns s) c); try reflexivity; cbn [n_conns]; apply L_AioServer2.length_upd.
  - destruct (Nat.ltb _ _); [|reflexivity]. destruct (n_queue s) as [|(c, j) q]; [reflexivity|]. cbn [on_conn n_conns]. apply L_AioServer2.length_upd.
Qed.

(** ** The measure *)
Definition ok (z : net) : Prop := Forall lok (z_servers z).
Definition got (z : net) (x : nat * nat) : nat := match z_conn z (fst x) (snd x) with Some s => List.length (v_in s) | None => 0 end.
Definition rep (z : net) (x : nat * nat) : nat := match z_conn z (fst x) (snd x) with Some s => List.length (y_replied s) | None => 0 end.
Definition c_up (t : M_AioClient.timer) (z : net) (k : zclient) : nat := sumi (fun c x => List.length (y_sent (z_state t k) c) - got z x) 0 (z_conns k).
Definition c_down (t : M_AioClient.timer) (z : net) (k : zclient) : nat := sumi (fun c x => rep z x - arrived (z_state t k) c) 0 (z_conns k).
Definition zrank (t : M_AioClient.timer) (z : net) : list nat :=
  [total (fun k => busy (z_state t k)) (z_clients z); total (c_up t z) (z_clients z); total l_parse (z_servers z); total l_do (z_servers z); total (c_down t z) (z_clients z); total (fun k => unread (z_state t k)) (z_clients z)].
Lemma total_ext {A} (f g : A -> nat) l : (forall x, f x = g x) -> total f l = total g l.
Proof. intros H. unfold total. rewrite (map_ext f g H). reflexivity. Qed.
Lemma total_le {A} (f g : A -> nat) l : (forall x, f x <= g x) -> total f l <= total g l.
Proof. intros H. unfold total, list_sum. induction l as [|x l IH]; cbn; [lia|]. specialize (H x). lia. Qed.
Lemma total_lt {A} (f g : A -> nat) l : (forall x, f x <= g x) -> forall i x, nth_error l i = Some x -> f x < g x -> total f l < total g l.
Proof.
  intros H. induction l as [|y l IH]; intros [|i] x Hx L; cbn in Hx; try discriminate; unfold total, list_sum in *; cbn.
  - injection Hx as ->. pose proof (total_le f g l H) as M. unfold total, list_sum in M. lia.
  - specialize (IH i x Hx L). specialize (H y). lia.
Qed.
Lemma total_eq_upd {A} (f : A -> nat) g l i x : nth_error l i = Some x -> f (g x) = f x -> total f (upd i g l) = total f l.
Proof. intros H E. pose proof (total_upd f g l i x H). lia. Qed.

Lemma state_same t p k k' (l : list zclient) : nth_error l p = Some k -> z_state t k' = z_state t k -> map (z_state t) (upd p (fun _ => k') l) = map (z_state t) l.
Proof.
  intros H E. rewrite (L_System1.map_upd_comm (z_state t) (fun _ => k') (fun _ => z_state t k')) by reflexivity. apply upd_same. right. exists (z_state t k). rewrite nth_error_map, H. split; [reflexivity|exact E].
Qed.
Lemma add_same t p o k (l : list zclient) : nth_error l p = Some k -> M_AioClient.run_step o (z_state t k) = z_state t k -> map (z_state t) (upd p (z_add o) l) = map (z_state t) l.
Proof.
  intros H E. rewrite (L_System1.map_upd_comm (z_state t) (z_add o) (M_AioClient.run_step o)) by (intros x; apply state_add). apply upd_same. right. exists (z_state t k). rewrite nth_error_map, H. split; [reflexivity|exact E].
Qed.

(** ** A step of a client *)
Lemma zclient_rank t z p o : L_Rest1.own_step o -> z_unchanged t z (on_client p (z_add o) z) \/ below (zrank t (on_client p (z_add o) z)) (zrank t z).
Proof.
  intros H. destruct (nth_error (z_clients z) p) as [k|] eqn:Hk.
  2:{ left. split; [|reflexivity]. cbn [on_client z_clients]. rewrite L_Rest1.upd_none by exact Hk. reflexivity. }
  set (z' := on_client p (z_add o) z).
  assert (Gt : forall x, got z' x = got z x) by reflexivity. assert (Rp : forall x, rep z' x = rep z x) by reflexivity.
  destruct (L_Rest1.client_lowers o (z_state t k) H) as [E|[E|([E1 E2 E3 E4] & E)]].
  - left. split; [|reflexivity]. cbn [z' on_client z_clients]. apply (add_same t p o k _ Hk E).
  - right. split; [reflexivity|]. left. cbn [z' on_client z_clients]. pose proof (total_upd (fun k => busy (z_state t k)) (z_add o) (z_clients z) p k Hk) as V. cbn beta in V. rewrite state_add in V. lia.
  - right. split; [reflexivity|]. cbn [zrank lex z' on_client z_clients z_servers].
    right. split; [apply (total_eq_upd (fun k => busy (z_state t k)) _ _ _ k Hk); rewrite state_add; unfold busy; rewrite E1, E2; reflexivity|].
    right. split; [apply (total_eq_upd (c_up t z) _ _ _ k Hk); unfold c_up; cbn [z_add z_conns]; apply sumi_ext; intros c x; rewrite state_add; unfold y_sent; rewrite E3; reflexivity|].
    right. split; [reflexivity|]. right. split; [reflexivity|].
    right. split; [apply (total_eq_upd (c_down t z) _ _ _ k Hk); unfold c_down; cbn [z_add z_conns]; apply sumi_ext; intros c x; rewrite state_add; unfold arrived, L_System1.ins; rewrite E4; reflexivity|].
    left. pose proof (total_upd (fun k => unread (z_state t k)) (z_add o) (z_clients z) p k Hk) as V. cbn beta in V. rewrite state_add in V. lia.
Qed.

(** ** A step of a listener *)
Lemma got_server U z a o x : ok z -> own_lstep o -> got (on_server U a o z) x = got z x.
Proof.
  intros K H. unfold got. destruct (z_conn z (fst x) (snd x)) as [s|] eqn:E.
  - rewrite (server_conn U z a o _ _ s E). f_equal. assert (G : good s).
    { unfold z_conn in E. destruct (nth_error (z_servers z) (fst x)) as [q|] eqn:Eq; [|discriminate]. apply nth_error_In in Eq. unfold ok in K. rewrite Forall_forall in K. exact (proj1 (nth_good q _ _ (K _ Eq) E)). }
    rewrite (in_from U _ s G). replace (fed _) with (@nil byte); [apply app_nil_r|]. unfold what_at. destruct (Nat.eqb _ a); [|reflexivity]. destruct (nth_error (z_servers z) a) as [q|]; [|reflexivity].
    destruct o as [tr|name sv|c o|]; try destruct H; cbn [what].
    + destruct (Nat.eqb c _); [|reflexivity]. destruct o; try reflexivity. destruct H.
    + destruct (Nat.ltb _ _); [|reflexivity]. destruct (n_queue q) as [|(c, j) q']; [reflexivity|]. destruct (Nat.eqb c _); reflexivity.
  - unfold z_conn, on_server in *. cbn [z_servers]. destruct (Nat.eq_dec a (fst x)) as [->|Ne].
    + destruct (nth_error (z_servers z) (fst x)) as [q|] eqn:Eq; [|rewrite L_Rest1.upd_none by exact Eq; rewrite Eq; reflexivity]. rewrite (nth_upd_same _ _ _ _ Eq).
      apply nth_error_None in E. destruct (nth_error (n_conns (lrun_step U o q)) (snd x)) as [s|] eqn:Es; [|reflexivity]. exfalso. assert (Lt : snd x < List.length (n_conns (lrun_step U o q))) by (apply nth_error_Some; congruence).
      rewrite conns_length in Lt by (destruct o; try destruct H; exact Logic.I). lia.
    + rewrite nth_upd_other by exact Ne. destruct (nth_error (z_servers z) (fst x)); [rewrite E|]; reflexivity.
Qed.
Lemma zserver_rank U t z a o : ok z -> own_lstep o -> z_unchanged t z (on_server U a o z) \/ below (zrank t (on_server U a o z)) (zrank t z).
Proof.
  intros K H. destruct (nth_error (z_servers z) a) as [s|] eqn:Hs.
  2:{ left. split; [reflexivity|]. cbn [on_server z_servers]. apply L_Rest1.upd_none. exact Hs. }
  assert (L : lok s) by (apply nth_error_In in Hs; unfold ok in K; rewrite Forall_forall in K; exact (K _ Hs)).
  pose proof (total_upd l_parse (lrun_step U o) (z_servers z) a s Hs) as A. pose proof (total_upd l_do (lrun_step U o) (z_servers z) a s Hs) as B.
  destruct (listener_lowers U o s L H) as [E|E].
  - left. split; [reflexivity|]. cbn [on_server z_servers]. apply (L_Rest1.upd_id _ _ _ s Hs E).
  - right. split; [reflexivity|]. cbn [zrank lex]. right. split; [reflexivity|]. right. split; [change (z_clients (on_server U a o z)) with (z_clients z); apply total_ext; intros k; unfold c_up; apply sumi_ext; intros c x; rewrite got_server by assumption; reflexivity|].
    cbn [on_server z_servers]. destruct E as [E|(E1 & E2)]; [left; lia|right; split; [lia|left; lia]].
Qed.

(** ** Bytes arrive *)
Lemma sumi_le {A} (f g : nat -> A -> nat) l : forall i, (forall j x, f j x <= g j x) -> sumi f i l <= sumi g i l.
Proof. induction l as [|y l IH]; intros i H; cbn; [lia|]. specialize (IH (S i) H). specialize (H i y). lia. Qed.
Lemma sumi_lt {A} (f g : nat -> A -> nat) l : forall c i x, (forall j x, f j x <= g j x) -> nth_error l c = Some x -> f (i + c) x < g (i + c) x -> sumi f i l < sumi g i l.
Proof.
  induction l as [|y l IH]; intros [|c] i x H Hx L; cbn in *; try discriminate.
  - injection Hx as ->. rewrite Nat.add_0_r in L. pose proof (sumi_le f g l (S i) H). lia.
  - replace (i + S c) with (S i + c) in L by lia. specialize (IH c (S i) x H Hx L). specialize (H i y). lia.
Qed.
Lemma feed_conn U z a m bs x s : ok z -> z_conn z (fst x) (snd x) = Some s ->
  z_conn (on_server U a (LConn m (Feed bs)) z) (fst x) (snd x) = Some (if Nat.eqb (fst x) a && Nat.eqb m (snd x) then srun_step U (Feed bs) s else s).
Proof.
  intros _ E. rewrite (server_conn U z a _ _ _ s E). f_equal. unfold what_at. cbn [fst snd]. unfold z_conn in E. destruct (Nat.eqb_spec (fst x) a) as [Ef|Ne]; [|reflexivity]. rewrite Ef in E.
  destruct (nth_error (z_servers z) a) as [q|]; [|discriminate]. cbn [what andb]. destruct (Nat.eqb m (snd x)); reflexivity.
Qed.
Lemma zup_rank U t z p c n : ok z -> z_unchanged t z (z_step U t (ZUp p c n) z) \/ below (zrank t (z_step U t (ZUp p c n) z)) (zrank t z).
Proof.
  intros K. cbn [z_step]. destruct (nth_error (z_clients z) p) as [k|] eqn:Hp; [|left; split; reflexivity]. destruct (nth_error (z_conns k) c) as [(a, m)|] eqn:Hc; [|left; split; reflexivity].
  destruct (z_conn z a m) as [s|] eqn:Hs; [|left; split; reflexivity]. set (x := firstn n _). set (z' := on_server U a (LConn m (Feed x)) z).
  destruct (Nat.eq_dec (List.length x) 0) as [Ex|Ex].
  - apply length_zero_iff_nil in Ex. left. split; [reflexivity|]. cbn [z' on_server z_servers]. unfold z_conn in Hs. destruct (nth_error (z_servers z) a) as [q|] eqn:Eq; [|discriminate].
    apply (L_Rest1.upd_id _ _ _ q Eq). rewrite Ex. rewrite (conn_step U m (Feed []) q s Logic.I Hs). cbn [srun_step]. rewrite set_same. unfold joined. rewrite Nat.sub_diag. cbn [seq map]. rewrite app_nil_r. apply same_conn. exact Hs.
  - right. split; [reflexivity|]. cbn [zrank lex]. right. split; [reflexivity|]. left. change (z_clients z') with (z_clients z).
    assert (G : forall y, got z y <= got z' y).
    { intros y. unfold got. destruct (z_conn z (fst y) (snd y)) as [sy|] eqn:Ey; [|lia]. unfold z'. rewrite (feed_conn U z a m x y sy K Ey). destruct (_ && _); [|lia]. cbn [srun_step set_stream v_in]. rewrite app_length. lia. }
    apply (total_lt _ _ _ ) with (i := p) (x := k); [|exact Hp|].
    + intros k0. unfold c_up. apply sumi_le. intros j y. specialize (G y). lia.
    + unfold c_up. apply (sumi_lt _ _ _ c 0 (a, m)); [intros j y; specialize (G y); lia|exact Hc|]. cbn [Nat.add].
      assert (G1 : got z (a, m) = List.length (v_in s)) by (unfold got; cbn [fst snd]; rewrite Hs; reflexivity).
      assert (G2 : got z' (a, m) = List.length (v_in s) + List.length x). { unfold got, z'. rewrite (feed_conn U z a m x (a, m) s K Hs). cbn [fst snd]. rewrite !Nat.eqb_refl. cbn [andb srun_step set_stream v_in]. apply app_length. }
      rewrite G1, G2. assert (M : List.length x <= List.length (skipn (List.length (v_in s)) (y_sent (z_state t k) c))) by (unfold x; rewrite firstn_length; lia). rewrite skipn_length in M. lia.
Qed.
Lemma feed_ins c x s : L_System1.ins (M_AioClient.run_step (M_AioClient.Feed c x) s) = upd c (fun b => b ++ x) (L_System1.ins s).
Proof. exact (proj1 (L_System1.step_moves (M_AioClient.Feed c x) s)). Qed.
Lemma feed_empty c lk s : nth_error (M_AioClient.s_links s) c = Some lk -> M_AioClient.run_step (M_AioClient.Feed c []) s = s.
Proof.
  intros H. cbn [M_AioClient.run_step]. unfold M_AioClient.on_link. rewrite upd_same; [destruct s; reflexivity|]. right. exists lk. split; [exact H|]. rewrite !app_nil_r. destruct lk. reflexivity.
Qed.
Lemma feed_same c x lk s : nth_error (M_AioClient.s_links s) c = Some lk -> M_AioClient.run_step (M_AioClient.Feed c x) s = s -> x = [].
Proof.
  intros H E. pose proof (feed_ins c x s) as I. rewrite E in I. assert (Hi : nth_error (L_System1.ins s) c = Some (M_AioClient.k_in lk)) by (unfold L_System1.ins; rewrite nth_error_map, H; reflexivity).
  apply (f_equal (fun m => nth_error m c)) in I. rewrite (L_Front.upd_here _ _ _ _ Hi), Hi in I. injection I as I. apply (f_equal (@List.length _)) in I. rewrite app_length in I. destruct x; [reflexivity|cbn in I; lia].
Qed.
Lemma zdown_rank U t z p c n : z_unchanged t z (z_step U t (ZDown p c n) z) \/ below (zrank t (z_step U t (ZDown p c n) z)) (zrank t z).
Proof.
  cbn [z_step]. destruct (nth_error (z_clients z) p) as [k|] eqn:Hp; [|left; split; reflexivity]. destruct (nth_error (z_conns k) c) as [(a, m)|] eqn:Hc; [|left; split; reflexivity].
  destruct (nth_error (M_AioClient.s_links (z_state t k)) c) as [lk|] eqn:Hl; [|left; split; reflexivity]. destruct (z_conn z a m) as [s|] eqn:Hs; [|left; split; reflexivity].
  set (x := firstn n _). set (z' := on_client p (z_add (M_AioClient.Feed c x)) z). assert (Hi : nth_error (L_System1.ins (z_state t k)) c = Some (M_AioClient.k_in lk)) by (unfold L_System1.ins; rewrite nth_error_map, Hl; reflexivity).
  destruct (Nat.eq_dec (List.length x) 0) as [Ex|Ex].
  - apply length_zero_iff_nil in Ex. left. split; [|reflexivity]. cbn [z' on_client z_clients]. apply (add_same t p _ k _ Hp). rewrite Ex. exact (feed_empty c lk _ Hl).
  - right. split; [reflexivity|]. cbn [zrank lex z' on_client z_clients z_servers].
    right. split; [apply (total_eq_upd (fun k => busy (z_state t k)) _ _ _ k Hp); rewrite state_add; reflexivity|].
    right. split; [apply (total_eq_upd (c_up t z) _ _ _ k Hp); unfold c_up; cbn [z_add z_conns]; apply sumi_ext; intros c0 x0; rewrite state_add; reflexivity|].
    right. split; [reflexivity|]. right. split; [reflexivity|]. left. fold z'.
    pose proof (total_upd (c_down t z) (z_add (M_AioClient.Feed c x)) (z_clients z) p k Hp) as V.
    change (total (c_down t z') (upd p (z_add (M_AioClient.Feed c x)) (z_clients z))) with (total (c_down t z) (upd p (z_add (M_AioClient.Feed c x)) (z_clients z))).
    assert (W : c_down t z (z_add (M_AioClient.Feed c x) k) < c_down t z k); [|lia]. unfold c_down. cbn [z_add z_conns].
    assert (A1 : forall j, arrived (z_state t k) j <= arrived (z_state t (z_add (M_AioClient.Feed c x) k)) j).
    { intros j. unfold arrived. rewrite state_add, feed_ins. destruct (Nat.eq_dec c j) as [<-|Ne]; [rewrite (L_Front.upd_here _ _ _ _ Hi), Hi, app_length; lia|rewrite L_AioClient.upd_other by congruence; lia]. }
    apply (sumi_lt _ _ _ c 0 (a, m)); [intros j y; specialize (A1 j); lia|exact Hc|]. cbn [Nat.add].
    assert (R : rep z (a, m) = List.length (y_replied s)) by (unfold rep; cbn [fst snd]; rewrite Hs; reflexivity). rewrite R.
    assert (A2 : arrived (z_state t k) c = List.length (M_AioClient.k_in lk)) by (unfold arrived; rewrite Hi; reflexivity).
    assert (A3 : arrived (z_state t (z_add (M_AioClient.Feed c x) k)) c = List.length (M_AioClient.k_in lk) + List.length x) by (unfold arrived; rewrite state_add, feed_ins, (L_Front.upd_here _ _ _ _ Hi), app_length; reflexivity).
    change {| z_hist := z_hist k ++ [M_AioClient.Feed c x]; z_conns := z_conns k |} with (z_add (M_AioClient.Feed c x) k). rewrite A2, A3.
    assert (M : List.length x <= List.length (skipn (List.length (M_AioClient.k_in lk)) (y_replied s))) by (unfold x; rewrite firstn_length; lia). rewrite skipn_length in M. lia.
Qed.
Lemma zdial_rank U t z p i tr : z_unchanged t z (z_step U t (ZDial p i tr) z) \/ below (zrank t (z_step U t (ZDial p i tr) z)) (zrank t z).
Proof.
  cbn [z_step]. cbv zeta. destruct (nth_error (z_clients z) p) as [k|] eqn:Hp; [|left; split; reflexivity]. rewrite state_add.
  destruct (nth_error (M_AioClient.s_links _) _) as [lk|] eqn:Hl; [|left; split; reflexivity]. destruct (nth_error (z_servers z) _) as [s|]; [|left; split; reflexivity]. destruct (0 <=? _)%Z; [|left; split; reflexivity].
  right. split; [reflexivity|]. left. cbn [on_client on_server z_clients]. match goal with |- total ?f (upd p ?g ?l) < _ => pose proof (total_upd f g l p k Hp) as V end. cbn beta in V.
  change (z_state t {| z_hist := z_hist (z_add (M_AioClient.DialOk i) k); z_conns := z_conns k ++ [(Z.to_nat (M_AioClient.k_addr lk), List.length (n_conns s))] |}) with (z_state t (z_add (M_AioClient.DialOk i) k)) in V. rewrite state_add in V.
  assert (Lt : List.length (M_AioClient.s_links (z_state t k)) < List.length (M_AioClient.s_links (M_AioClient.run_step (M_AioClient.DialOk i) (z_state t k)))) by (apply nth_error_Some; congruence).
  destruct (L_Rest1.client_lowers (M_AioClient.DialOk i) (z_state t k) Logic.I) as [E|[E|([_ _ _ E] & _)]]; [rewrite E in Lt; lia|lia|]. apply (f_equal (@List.length _)) in E. rewrite !map_length in E. lia.
Qed.
Lemma zstep_rank U t o z : ok z -> z_left_alone o -> z_unchanged t z (z_step U t o z) \/ below (zrank t (z_step U t o z)) (zrank t z).
Proof.
  intros K H. destruct o as [p d rid a|p i tr|p o|a o|p c n|p c n]; [destruct H|apply zdial_rank| | |apply zup_rank; exact K|apply zdown_rank].
  - destruct o; try destruct H; cbn [z_step]; try (left; split; reflexivity); apply zclient_rank; exact Logic.I.
  - destruct o as [tr|name sv|c o|]; try destruct H; cbn [z_step]; [|apply zserver_rank; [exact K|exact Logic.I]].
    destruct o; try destruct H; apply zserver_rank; try exact K; exact Logic.I.
Qed.
Lemma ok_server U a o z : ok z -> ok (on_server U a o z).
Proof.
  intros K. unfold ok, on_server in *. cbn [z_servers]. apply Forall_upd; [|exact K]. intros s Hs. apply lok_step. apply nth_error_In in Hs. rewrite Forall_forall in K. exact (K s Hs).
Qed.
Lemma ok_step U t o z : ok z -> ok (z_step U t o z).
Proof.
  intros K. destruct o as [p d rid a|p i tr|p o|a o|p c n|p c n]; cbn [z_step].
  - destruct (y_request d rid); exact K.
  - destruct (nth_error (z_clients z) p); [|exact K]. cbv zeta. destruct (nth_error (M_AioClient.s_links _) _); [|exact K]. destruct (nth_error (z_servers z) _); [|exact K]. destruct (0 <=? _)%Z; [|exact K]. exact (ok_server U _ (LAccept tr) z K).
  - destruct o; exact K.
  - destruct o as [tr|name sv|c o|]; try (apply ok_server; exact K). destruct o; try (apply ok_server; exact K). destruct (owned z a c); [exact K|apply ok_server; exact K].
  - destruct (nth_error (z_clients z) p) as [k|]; [|exact K]. destruct (nth_error (z_conns k) c) as [(a, m)|]; [|exact K]. destruct (z_conn z a m); [apply ok_server; exact K|exact K].
  - destruct (nth_error (z_clients z) p) as [k|]; [|exact K]. destruct (nth_error (z_conns k) c) as [(a, m)|]; [|exact K]. destruct (nth_error (M_AioClient.s_links _) c); [|exact K]. destruct (z_conn z a m); exact K.
Qed.
Lemma ok_run U t n regs l : ok (z_run U t n regs l).
Proof.
  induction l as [|o l IH] using rev_ind; [|rewrite zrun_snoc; apply ok_step; exact IH]. unfold ok, z_run. cbn [fold_left z_init z_servers]. apply Forall_forall. intros s H. apply in_map_iff in H as (r & <- & _). apply lok_init.
Qed.
Lemma zterminates_ok U t z : ok z -> Acc (z_goes_on U t) z.
Proof.
  assert (K : forall r, Acc below r -> forall z, ok z -> zrank t z = r -> Acc (z_goes_on U t) z); [|intros H; exact (K _ (below_wf (zrank t z)) z H eq_refl)].
  intros r A. induction A as [r _ IH]. intros z0 H <-. constructor. intros z' (o & Ho & -> & N). destruct (zstep_rank U t o z0 H Ho) as [E|E]; [contradiction|]. exact (IH _ E _ (ok_step U t o z0 H) eq_refl).
Qed.
Lemma zterminates U t n regs l : Acc (z_goes_on U t) (z_run U t n regs l).
Proof. apply zterminates_ok, ok_run. Qed.
Lemma zafter_shift U t f z n : z_after U t f (S n) z = z_after U t (fun m => f (S m)) n (z_step U t (f 0) z).
Proof. induction n as [|n IH]; [reflexivity|]. cbn [z_after] in *. rewrite IH. reflexivity. Qed.
Lemma znot_for_ever U t n regs l f : (forall m, z_left_alone (f m)) -> exists m, z_unchanged t (z_after U t f m (z_run U t n regs l)) (z_after U t f (S m) (z_run U t n regs l)).
Proof.
  assert (K : forall r, Acc below r -> forall z f, ok z -> zrank t z = r -> (forall m, z_left_alone (f m)) -> exists m, z_unchanged t (z_after U t f m z) (z_after U t f (S m) z)); [|exact (K _ (below_wf (zrank t _)) _ f (ok_run U t n regs l) eq_refl)].
  intros r A. induction A as [r _ IH]. intros z g H <- Hg. destruct (zstep_rank U t (g 0) z H (Hg 0)) as [E|E]; [exists 0; exact E|].
  destruct (IH _ E _ (fun m => g (S m)) (ok_step U t _ z H) eq_refl (fun m => Hg (S m))) as (m & M). exists (S m). rewrite (zafter_shift U t g z m), (zafter_shift U t g z (S m)). exact M.
Qed.

(** ** Coming to rest *)
Lemma bounded (P : nat -> Prop) (Q : Prop) N : (forall n, P n \/ Q) -> (forall n, N <= n -> P n) -> (forall n, P n) \/ Q.
Proof.
  intros A B. assert (K : forall m, (forall n, n < m -> P n) \/ Q).
  { induction m as [|m [IH|IH]]; [left; lia| |right; exact IH]. destruct (A m) as [Pm|]; [left|right; assumption]. intros n L. destruct (Nat.eq_dec n m) as [->|]; [exact Pm|apply IH; lia]. }
  destruct (K N) as [H|]; [left|right; assumption]. intros n. destruct (Nat.lt_ge_cases n N); auto.
Qed.
Definition progress (U : tables) (t : M_AioClient.timer) (z : net) : Prop := exists o, z_routine o /\ below (zrank t (z_step U t o z)) (zrank t z).
Definition zquiet (U : tables) (t : M_AioClient.timer) (z : net) (o : zstep) : Prop := z_unchanged t z (z_step U t o z).
Lemma zroutine_alone o : z_routine o -> z_left_alone o.
Proof. destruct o as [p d rid a|p i tr|p o|a o|p c n|p c n]; cbn; try tauto; [destruct o; tauto|]. destruct o as [tr|name sv|c o|]; try tauto. destruct o; tauto. Qed.
Lemma attempt U t z o : ok z -> z_routine o -> zquiet U t z o \/ progress U t z.
Proof. intros K R. destruct (zstep_rank U t o z K (zroutine_alone o R)) as [E|E]; [left; exact E|right; exists o; auto]. Qed.
Lemma client_quiet U t z p o : L_Rest1.own_step o -> match o with M_AioClient.DialOk _ => False | _ => True end ->
  (zquiet U t z (ZClient p o) <-> forall k, nth_error (z_clients z) p = Some k -> M_AioClient.run_step o (z_state t k) = z_state t k).
Proof.
  intros H H2. assert (E : z_step U t (ZClient p o) z = on_client p (z_add o) z) by (destruct o; try destruct H; try destruct H2; reflexivity). unfold zquiet. rewrite E. split.
  - intros (A & _) k Hk. cbn [on_client z_clients] in A. apply (f_equal (fun m => nth_error m p)) in A. rewrite !nth_error_map, Hk, (nth_upd_same _ _ _ _ Hk) in A. cbn [option_map] in A. rewrite state_add in A. congruence.
  - intros A. split; [|reflexivity]. cbn [on_client z_clients]. destruct (nth_error (z_clients z) p) as [k|] eqn:Hk; [exact (add_same t p o k _ Hk (A k eq_refl))|rewrite L_Rest1.upd_none by exact Hk; reflexivity].
Qed.
Lemma server_quiet U t z a o : match o with LConn _ (Feed _) => False | _ => True end -> (zquiet U t z (ZServer a o) <-> forall s, nth_error (z_servers z) a = Some s -> lrun_step U o s = s).
Proof.
  intros H. assert (E : z_step U t (ZServer a o) z = on_server U a o z) by (destruct o as [tr|name sv|c o|]; try reflexivity; destruct o; try reflexivity; destruct H). unfold zquiet. rewrite E. split.
  - intros (_ & A) s Hs. cbn [on_server z_servers] in A. apply (f_equal (fun m => nth_error m a)) in A. rewrite Hs, (nth_upd_same _ _ _ _ Hs) in A. congruence.
  - intros A. split; [reflexivity|]. cbn [on_server z_servers]. destruct (nth_error (z_servers z) a) as [s|] eqn:Hs; [exact (L_Rest1.upd_id _ _ _ s Hs (A s eq_refl))|apply L_Rest1.upd_none; exact Hs].
Qed.
Lemma conn_same U c o s k : plain o -> nth_error (n_conns s) c = Some k -> (lrun_step U (LConn c o) s = s <-> srun_step U o k = k).
Proof.
  intros P Hk. rewrite (conn_step U c o s k P Hk). split.
  - intros E. apply (f_equal n_conns) in E. cbn [n_conns] in E. apply (f_equal (fun m => nth_error m c)) in E. rewrite (nth_upd_same _ _ _ _ Hk), Hk in E. congruence.
  - intros E. rewrite E. unfold joined. rewrite Nat.sub_diag. cbn [seq map]. rewrite app_nil_r. apply same_conn. exact Hk.
Qed.
Lemma conn_quiet U t z a c o : plain o -> match o with Feed _ => False | _ => True end -> (zquiet U t z (ZServer a (LConn c o)) <-> forall k, z_conn z a c = Some k -> srun_step U o k = k).
Proof.
  intros P F. rewrite server_quiet by (destruct o; try exact Logic.I; destruct F). unfold z_conn. destruct (nth_error (z_servers z) a) as [s|] eqn:Hs; [|split; intros _ x; discriminate]. split.
  - intros A k Hk. apply (conn_same U c o s k P Hk). exact (A s eq_refl).
  - intros A s0 [= <-]. destruct (nth_error (n_conns s) c) as [k|] eqn:Hk; [apply (conn_same U c o s k P Hk); exact (A k eq_refl)|apply conn_none; exact Hk].
Qed.
Lemma dial_quiet U t z p i tr tr' : zquiet U t z (ZDial p i tr) -> zquiet U t z (ZDial p i tr').
Proof.
  unfold zquiet. cbn [z_step]. cbv zeta. destruct (nth_error (z_clients z) p) as [k|] eqn:Hp; [|auto]. rewrite state_add.
  destruct (nth_error (M_AioClient.s_links _) _) as [lk|] eqn:Hl; [|auto]. destruct (nth_error (z_servers z) _) as [s|]; [|auto]. destruct (0 <=? _)%Z; [|auto].
  intros (A & _). exfalso. cbn [on_client on_server z_clients] in A. apply (f_equal (fun m => nth_error m p)) in A. rewrite !nth_error_map, Hp, (nth_upd_same _ _ _ _ Hp) in A. cbn [option_map] in A. injection A as A.
  change (z_state t {| z_hist := z_hist k ++ [M_AioClient.DialOk i]; z_conns := z_conns k ++ [(Z.to_nat (M_AioClient.k_addr lk), List.length (n_conns s))] |}) with (z_state t (z_add (M_AioClient.DialOk i) k)) in A. rewrite state_add in A. rewrite A in Hl.
  assert (Lt : List.length (M_AioClient.s_links (z_state t k)) < List.length (M_AioClient.s_links (z_state t k))) by (apply nth_error_Some; congruence). lia.
Qed.
Lemma up_quiet U t z p c n : zquiet U t z (ZUp p c n) <-> forall k a m s, nth_error (z_clients z) p = Some k -> nth_error (z_conns k) c = Some (a, m) -> z_conn z a m = Some s -> firstn n (skipn (List.length (v_in s)) (y_sent (z_state t k) c)) = [].
Proof.
  unfold zquiet. cbn [z_step]. destruct (nth_error (z_clients z) p) as [k|] eqn:Hp; [|split; [discriminate|split; reflexivity]]. destruct (nth_error (z_conns k) c) as [(a, m)|] eqn:Hc; [|split; [intros _ k0 a m s [= <-]; congruence|split; reflexivity]].
  destruct (z_conn z a m) as [s|] eqn:Hs; [|split; [intros _ k0 a0 m0 s0 [= <-]; rewrite Hc; intros [= <- <-]; congruence|split; reflexivity]]. set (x := firstn n _). unfold z_conn in Hs. destruct (nth_error (z_servers z) a) as [q|] eqn:Eq; [|discriminate]. split.
  - intros (_ & A) k0 a0 m0 s0 [= <-]. rewrite Hc. intros [= <- <-]. unfold z_conn. rewrite Eq, Hs. intros [= <-]. fold x. cbn [on_server z_servers] in A. apply (f_equal (fun l => nth_error l a)) in A. rewrite Eq, (nth_upd_same _ _ _ _ Eq) in A. injection A as A.
    apply (conn_same U m (Feed x) q s Logic.I Hs) in A. exact (feed_nil U x s A).
  - intros A. specialize (A k a m s eq_refl Hc). unfold z_conn in A. rewrite Eq in A. specialize (A Hs). fold x in A. split; [reflexivity|]. cbn [on_server z_servers]. apply (L_Rest1.upd_id _ _ _ q Eq). rewrite A. apply (conn_same U m (Feed []) q s Logic.I Hs). apply set_same.
Qed.
Lemma down_quiet U t z p c n : zquiet U t z (ZDown p c n) <-> forall k a m s lk, nth_error (z_clients z) p = Some k -> nth_error (z_conns k) c = Some (a, m) -> nth_error (M_AioClient.s_links (z_state t k)) c = Some lk -> z_conn z a m = Some s ->
  firstn n (skipn (List.length (M_AioClient.k_in lk)) (y_replied s)) = [].
Proof.
  unfold zquiet. cbn [z_step]. destruct (nth_error (z_clients z) p) as [k|] eqn:Hp; [|split; [discriminate|split; reflexivity]]. destruct (nth_error (z_conns k) c) as [(a, m)|] eqn:Hc; [|split; [intros _ k0 a m s lk [= <-]; congruence|split; reflexivity]].
  destruct (nth_error (M_AioClient.s_links (z_state t k)) c) as [lk|] eqn:Hl; [|split; [intros _ k0 a0 m0 s lk [= <-]; congruence|split; reflexivity]].
  destruct (z_conn z a m) as [s|] eqn:Hs; [|split; [intros _ k0 a0 m0 s0 lk0 [= <-]; rewrite Hc; intros [= <- <-]; congruence|split; reflexivity]]. set (x := firstn n _). split.
  - intros (A & _) k0 a0 m0 s0 lk0 [= <-]. rewrite Hc, Hl. intros [= <- <-] [= <-]. rewrite Hs. intros [= <-]. fold x. cbn [on_client z_clients] in A. apply (f_equal (fun l => nth_error l p)) in A. rewrite !nth_error_map, Hp, (nth_upd_same _ _ _ _ Hp) in A. cbn [option_map] in A. rewrite state_add in A. injection A as A. exact (feed_same c x lk _ Hl A).
  - intros A. specialize (A k a m s lk eq_refl Hc Hl Hs). fold x in A. split; [|reflexivity]. cbn [on_client z_clients]. rewrite A. exact (add_same t p _ k _ Hp (feed_empty c lk _ Hl)).
Qed.

(** what is to be tried on client p, and on listener a *)
Definition idle_client (U : tables) (t : M_AioClient.timer) (z : net) (p i : nat) : Prop :=
  (forall tr, zquiet U t z (ZDial p i tr)) /\ zquiet U t z (ZClient p (M_AioClient.Run i)) /\ zquiet U t z (ZClient p (M_AioClient.Acquire i)) /\ zquiet U t z (ZClient p (M_AioClient.DrainOk i)) /\ zquiet U t z (ZClient p (M_AioClient.Wake i)) /\
  zquiet U t z (ZClient p (M_AioClient.Read i)) /\ (forall n, zquiet U t z (ZUp p i n)) /\ forall n, zquiet U t z (ZDown p i n).
Definition idle_conn (U : tables) (t : M_AioClient.timer) (z : net) (a c : nat) : Prop := zquiet U t z (ZServer a (LConn c Read)) /\ zquiet U t z (ZServer a (LConn c (DrainR true))) /\
  forall j, (forall f, zquiet U t z (ZServer a (LConn c (Dispatch j f)))) /\ zquiet U t z (ZServer a (LConn c (Drain j true))) /\ zquiet U t z (ZServer a (LConn c (Result j))) /\ forall r, zquiet U t z (ZServer a (LConn c (JobEnd j r))).
Lemma client_idle1 U t z p i : ok z -> idle_client U t z p i \/ progress U t z.
Proof.
  intros K. destruct (attempt U t z (ZDial p i t_init) K Logic.I) as [A1|]; [|auto]. destruct (attempt U t z (ZClient p (M_AioClient.Run i)) K Logic.I) as [A2|]; [|auto].
  destruct (attempt U t z (ZClient p (M_AioClient.Acquire i)) K Logic.I) as [A3|]; [|auto]. destruct (attempt U t z (ZClient p (M_AioClient.DrainOk i)) K Logic.I) as [A4|]; [|auto].
  destruct (attempt U t z (ZClient p (M_AioClient.Wake i)) K Logic.I) as [A5|]; [|auto]. destruct (attempt U t z (ZClient p (M_AioClient.Read i)) K Logic.I) as [A6|]; [|auto].
  destruct (attempt U t z (ZUp p i 1) K Logic.I) as [A7|]; [|auto]. destruct (attempt U t z (ZDown p i 1) K Logic.I) as [A8|]; [|auto]. left. repeat (split; [assumption || (intros tr; exact (dial_quiet U t z p i _ tr A1))|]). split; intros n.
  - apply up_quiet. intros k a m s H1 H2 H3. apply first_nil. exact (proj1 (up_quiet U t z p i 1) A7 k a m s H1 H2 H3).
  - apply down_quiet. intros k a m s lk H1 H2 H3 H4. apply first_nil. exact (proj1 (down_quiet U t z p i 1) A8 k a m s lk H1 H2 H3 H4).
Qed.
Lemma client_far U t z p i : (forall k, nth_error (z_clients z) p = Some k -> List.length (M_AioClient.s_tasks (z_state t k)) <= i /\ List.length (M_AioClient.s_links (z_state t k)) <= i /\ List.length (z_conns k) <= i) -> idle_client U t z p i.
Proof.
  intros H. assert (C : forall o, L_Rest1.own_step o -> match o with M_AioClient.DialOk _ => False | _ => True end -> (forall s, List.length (M_AioClient.s_tasks s) <= i -> List.length (M_AioClient.s_links s) <= i -> M_AioClient.run_step o s = s) -> zquiet U t z (ZClient p o)).
  { intros o O1 O2 O3. apply client_quiet; [exact O1|exact O2|]. intros k Hk. destruct (H k Hk) as (A & B & _). exact (O3 _ A B). }
  split; [intros tr; unfold zquiet; cbn [z_step]; cbv zeta; destruct (nth_error (z_clients z) p) as [k|] eqn:Hk; [|split; reflexivity]; destruct (H k eq_refl) as (A & _); rewrite state_add; cbn [M_AioClient.run_step]; rewrite (nth_big _ _ A), (nth_big _ _ (Nat.le_refl _)); split; reflexivity|].
  repeat (split; [apply C; [exact Logic.I|exact Logic.I|intros s A B; cbn [M_AioClient.run_step]; unfold M_AioClient.read; rewrite ?(nth_big _ _ A), ?(nth_big _ _ B); reflexivity]|]).
  split; intros n; [apply up_quiet; intros k a m s Hk Hc|apply down_quiet; intros k a m s lk Hk Hc]; destruct (H k Hk) as (_ & _ & B); rewrite (nth_big _ _ B) in Hc; discriminate.
Qed.
Lemma clients_idle U t z : ok z -> (forall p i, idle_client U t z p i) \/ progress U t z.
Proof.
  intros K. apply (bounded (fun p => forall i, idle_client U t z p i) _ (List.length (z_clients z))).
  - intros p. destruct (nth_error (z_clients z) p) as [k|] eqn:Hk.
    + apply (bounded _ _ (List.length (M_AioClient.s_tasks (z_state t k)) + List.length (M_AioClient.s_links (z_state t k)) + List.length (z_conns k))); [intros i; apply client_idle1; exact K|]. intros i L. apply client_far. intros k0 Hk0. assert (k0 = k) by congruence. subst k0. lia.
    + left. intros i. apply client_far. congruence.
  - intros p L i. apply client_far. intros k Hk. rewrite (nth_big _ _ L) in Hk. discriminate.
Qed.
Lemma conn_idle1 U t z a c : ok z -> idle_conn U t z a c \/ progress U t z.
Proof.
  intros K. destruct (attempt U t z (ZServer a (LConn c Read)) K Logic.I) as [A1|]; [|auto]. destruct (attempt U t z (ZServer a (LConn c (DrainR true))) K Logic.I) as [A2|]; [|auto].
  destruct (bounded (fun j => (forall f, zquiet U t z (ZServer a (LConn c (Dispatch j f)))) /\ zquiet U t z (ZServer a (LConn c (Drain j true))) /\ zquiet U t z (ZServer a (LConn c (Result j))) /\ forall r, zquiet U t z (ZServer a (LConn c (JobEnd j r)))) (progress U t z)
    (match z_conn z a c with Some k => List.length (v_tasks k) + List.length (v_jobs k) | None => 0 end)) as [A3|]; [| |left; split; [exact A1|split; [exact A2|exact A3]]|auto].
  - intros j. destruct (attempt U t z (ZServer a (LConn c (Dispatch j []))) K Logic.I) as [B1|]; [|auto]. destruct (attempt U t z (ZServer a (LConn c (Drain j true))) K Logic.I) as [B2|]; [|auto].
    destruct (attempt U t z (ZServer a (LConn c (Result j))) K Logic.I) as [B3|]; [|auto]. destruct (attempt U t z (ZServer a (LConn c (JobEnd j (Ok PNone)))) K Logic.I) as [B4|]; [|auto]. left. split.
    + intros f. apply conn_quiet; [exact Logic.I|exact Logic.I|]. intros k Hk. pose proof (proj1 (conn_quiet U t z a c (Dispatch j []) Logic.I Logic.I) B1 k Hk) as H. cbn [srun_step] in *. destruct (nth_error (v_tasks k) j) as [tk|] eqn:Hi; [|reflexivity]. destruct (a_pc tk) eqn:Hp; try reflexivity. destruct (a_req tk) as [q|]; [|reflexivity].
      pose proof (dispatch_undone U j (a_frame tk) q [] k tk Hi Hp) as (_ & L). rewrite H in L. lia.
    + split; [exact B2|]. split; [exact B3|]. intros r. apply conn_quiet; [exact Logic.I|exact Logic.I|]. intros k Hk. pose proof (proj1 (conn_quiet U t z a c (JobEnd j (Ok PNone)) Logic.I Logic.I) B4 k Hk) as H. cbn [srun_step] in *. destruct (nth_error (v_jobs k) j) as [b|] eqn:Hj; [|reflexivity]. destruct (j_state b) eqn:Hs; try reflexivity.
      destruct (jstate_undone j (JEnded (Ok PNone)) k b Hj) as (_ & L); [rewrite Hs; cbn; lia|]. rewrite H in L. lia.
  - intros j L. assert (C : forall o, plain o -> match o with Feed _ => False | _ => True end -> (forall k, List.length (v_tasks k) <= j -> List.length (v_jobs k) <= j -> srun_step U o k = k) -> zquiet U t z (ZServer a (LConn c o))).
    { intros o P F E. apply conn_quiet; [exact P|exact F|]. intros k Hk. rewrite Hk in L. apply E; lia. }
    split; [intros f|split; [|split; [|intros r]]]; apply C; try exact Logic.I; intros k T J; cbn [srun_step]; rewrite ?(nth_big _ _ T), ?(nth_big _ _ J); reflexivity.
Qed.
Lemma servers_idle U t z : ok z -> (forall a, zquiet U t z (ZServer a LTake) /\ forall c, idle_conn U t z a c) \/ progress U t z.
Proof.
  intros K. apply (bounded _ _ (List.length (z_servers z))).
  - intros a. destruct (attempt U t z (ZServer a LTake) K Logic.I) as [A|]; [|auto].
    destruct (bounded (idle_conn U t z a) (progress U t z) (match nth_error (z_servers z) a with Some s => List.length (n_conns s) | None => 0 end)) as [B|]; [| |left; split; [exact A|exact B]|auto].
    + intros c. apply conn_idle1. exact K.
    + intros c L. assert (C : forall o, plain o -> match o with Feed _ => False | _ => True end -> zquiet U t z (ZServer a (LConn c o))).
      { intros o P F. apply conn_quiet; [exact P|exact F|]. intros k Hk. unfold z_conn in Hk. destruct (nth_error (z_servers z) a) as [s|]; [|discriminate]. rewrite (nth_big _ _ L) in Hk. discriminate. }
      split; [apply C; exact Logic.I|]. split; [apply C; exact Logic.I|]. intros j. repeat split; try intros f; apply C; exact Logic.I.
  - intros a L. assert (C : forall o, match o with LConn _ (Feed _) => False | _ => True end -> zquiet U t z (ZServer a o)) by (intros o F; apply server_quiet; [exact F|]; intros s Hs; rewrite (nth_big _ _ L) in Hs; discriminate).
    split; [apply C; exact Logic.I|]. intros c. split; [apply C; exact Logic.I|]. split; [apply C; exact Logic.I|]. intros j. repeat split; try intros f; apply C; exact Logic.I.
Qed.
Lemma zsettled_or_not U t z : ok z -> z_settled U t z \/ progress U t z.
Proof.
  intros K. destruct (clients_idle U t z K) as [A|]; [|auto]. destruct (servers_idle U t z K) as [B|]; [|auto]. left. intros o R. change (zquiet U t z o).
  destruct o as [p d rid a|p i tr|p o|a o|p c n|p c n]; try destruct R.
  - apply (A p i).
  - destruct o as [r ad|i|i|i|i|i|i|i|i|c bs|c|c|c|rid|]; try destruct R; first [apply (A p i)|apply (A p c)].
  - destruct o as [tr|name sv|c o|]; try destruct R; [|apply (B a)]. destruct (B a) as (_ & Bc). destruct (Bc c) as (B1 & B2 & B3). destruct o as [| | | | |[]|j f|j []|j|j r|j|]; try destruct R; try assumption; apply (B3 j).
  - apply (A p c).
  - apply (A p c).
Qed.
Definition z_from (U : tables) (t : M_AioClient.timer) (z : net) (l : list zstep) : net := fold_left (fun z o => z_step U t o z) l z.
Lemma zfrom_run U t n regs l l2 : z_from U t (z_run U t n regs l) l2 = z_run U t n regs (l ++ l2).
Proof. unfold z_from, z_run. rewrite fold_left_app. reflexivity. Qed.
Lemma zcomes_to_rest U t n regs l : exists l2, Forall z_routine l2 /\ z_settled U t (z_run U t n regs (l ++ l2)).
Proof.
  assert (K : forall r, Acc below r -> forall z, ok z -> zrank t z = r -> exists l, Forall z_routine l /\ z_settled U t (z_from U t z l)).
  { intros r A. induction A as [r _ IH]. intros z H <-. destruct (zsettled_or_not U t z H) as [S|(o & R & B)]; [exists []; split; [constructor|exact S]|].
    destruct (IH _ B _ (ok_step U t o z H) eq_refl) as (l0 & Rl & S). exists (o :: l0). split; [constructor; assumption|exact S]. }
  destruct (K _ (below_wf (zrank t _)) _ (ok_run U t n regs l) eq_refl) as (l2 & F & S). exists l2. split; [exact F|]. rewrite zfrom_run in S. exact S.
Qed.

(** ** At rest *)
Lemma settled_quiet U t z o : z_settled U t z -> z_routine o -> zquiet U t z o.
Proof. intros S R. exact (S o R). Qed.
(** at rest no method is running or waiting for a worker *)
Lemma no_runner U t z a s c j : ok z -> z_settled U t z -> nth_error (z_servers z) a = Some s -> call_state s c j <> Some JRunning.
Proof.
  intros K S Hs E. rewrite call_jst in E. destruct (nth_error (n_conns s) c) as [k|] eqn:Hk; [|discriminate].
  assert (Q : srun_step U (JobEnd j (Ok PNone)) k = k).
  { apply (proj1 (conn_quiet U t z a c (JobEnd j (Ok PNone)) Logic.I Logic.I) (settled_quiet U t z (ZServer a (LConn c (JobEnd j (Ok PNone)))) S Logic.I)). unfold z_conn. rewrite Hs. exact Hk. }
  apply (f_equal jst) in Q. rewrite jst_end, E in Q. apply (f_equal (fun m => nth_error m j)) in Q. rewrite (nth_upd_same _ _ _ _ E), E in Q. discriminate.
Qed.
Lemma no_queued U t z a s c j : ok z -> z_settled U t z -> nth_error (z_servers z) a = Some s -> call_state s c j <> Some JQueued.
Proof.
  intros K S Hs E. assert (L : lok s) by (unfold ok in K; rewrite Forall_forall in K; apply K; apply nth_error_In in Hs; exact Hs). apply (lk_queued s L) in E.
  assert (W : workers s = 0). { rewrite <- all_running_length. destruct (all_running s) as [|(c0, j0) r] eqn:R; [reflexivity|]. exfalso. apply (no_runner U t z a s c0 j0 K S Hs). apply all_running_in. rewrite R. left. reflexivity. }
  assert (Q : lrun_step U LTake s = s) by (apply (proj1 (server_quiet U t z a LTake Logic.I) (settled_quiet U t z (ZServer a LTake) S Logic.I)); exact Hs).
  apply (f_equal (fun s => List.length (n_queue s))) in Q. cbn [lrun_step] in Q. rewrite W in Q. change (Nat.ltb 0 MAX_WORKER) with true in Q. cbn iota in Q. destruct (n_queue s) as [|(c0, j0) q] eqn:Eq; [destruct E|]. cbn [on_conn n_queue] in Q. cbn in Q. lia.
Qed.
Lemma dial_addr s i lk : nth_error (M_AioClient.s_links (M_AioClient.run_step (M_AioClient.DialOk i) s)) (List.length (M_AioClient.s_links s)) = Some lk ->
  exists tk, nth_error (M_AioClient.s_tasks s) i = Some tk /\ M_AioClient.t_addr tk = Ok (M_AioClient.k_addr lk).
Proof.
  cbn [M_AioClient.run_step]. intros H. assert (N : nth_error (M_AioClient.s_links s) (List.length (M_AioClient.s_links s)) = None) by (apply nth_error_None; lia).
  destruct (nth_error (M_AioClient.s_tasks s) i) as [tk|] eqn:Hi; [|congruence]. destruct (M_AioClient.t_pc tk) as [|n l|n l|n c|n c| |o]; try congruence. destruct (M_AioClient.t_addr tk) as [a|e] eqn:Ha; [|congruence].
  exists tk. split; [reflexivity|]. destruct (dsetdefault _ _ _) as (d, c'). cbn in H. rewrite nth_error_app2, Nat.sub_diag in H by lia. injection H as <-. exact Ha.
Qed.
Lemma view_settled regs U t p l z k yl : ok z -> z_settled U t z -> nth_error (z_clients z) p = Some k -> reaches t z k -> view regs U t p l z k yl -> settled U t (y_run U t yl).
Proof.
  intros K S Hp Re V. set (y := y_run U t yl). assert (St : y_client t y = z_state t k) by exact (view_state _ _ _ _ _ _ _ _ V).
  assert (Cn : forall c ky, nth_error (y_conns y) c = Some ky -> exists a m, nth_error (z_conns k) c = Some (a, m) /\ z_conn z a m = Some (y_server U ky)).
  { intros c ky Hc. assert (Lc : c < List.length (z_conns k)) by (rewrite <- (vw_len _ _ _ _ _ _ _ _ V); apply nth_error_Some; fold y; congruence). destruct (nth_error (z_conns k) c) as [(a, m)|] eqn:Hx; [|apply nth_error_None in Hx; lia].
    destruct (vw_conns _ _ _ _ _ _ _ _ V c _ Hx) as (ky' & Ky & Zx). fold y in Ky. exists a, m. split; [reflexivity|]. cbn [fst snd] in Zx. congruence. }
  intros o R. change (unchanged U t y (y_step U t o y)). destruct o as [d rid a|i rg tr|o|c o|c m|c m]; try destruct R; cbn [y_step].
  - cbv zeta. rewrite client_snoc. destruct (dialok_grows (y_client t y) i) as [E|E]; [rewrite E, Nat.ltb_irrefl; split; reflexivity|]. exfalso. rewrite St in E.
    destruct (nth_error (M_AioClient.s_links (M_AioClient.run_step (M_AioClient.DialOk i) (z_state t k))) (List.length (M_AioClient.s_links (z_state t k)))) as [lk|] eqn:Hl; [|apply nth_error_None in Hl; lia].
    destruct (dial_addr _ _ _ Hl) as (tk & Hi & Ha). apply nth_error_In in Hi. pose proof (Re tk _ Hi Ha) as Rg. pose proof (settled_quiet U t z (ZDial p i t_init) S Logic.I) as Q. unfold zquiet in Q. cbn [z_step] in Q. cbv zeta in Q. rewrite Hp, state_add, Hl in Q.
    destruct (nth_error (z_servers z) (Z.to_nat (M_AioClient.k_addr lk))) as [s|] eqn:Hs; [|apply nth_error_None in Hs; lia]. replace (0 <=? M_AioClient.k_addr lk)%Z with true in Q by lia.
    destruct Q as (Q & _). cbn [on_client on_server z_clients] in Q. apply (f_equal (fun m => nth_error m p)) in Q. rewrite !nth_error_map, Hp, (nth_upd_same _ _ _ _ Hp) in Q. cbn [option_map] in Q. injection Q as Q.
    change (z_state t {| z_hist := z_hist k ++ [M_AioClient.DialOk i]; z_conns := z_conns k ++ [(Z.to_nat (M_AioClient.k_addr lk), List.length (n_conns s))] |}) with (z_state t (z_add (M_AioClient.DialOk i) k)) in Q. rewrite state_add in Q. rewrite Q in E. lia.
  - assert (W : y_step U t (YClient o) y = y_client_step o y) by (destruct o; try destruct R; reflexivity). cbn [y_step] in W. rewrite W. apply unchanged_client. rewrite St.
    apply (proj1 (client_quiet U t z p o ltac:(destruct o; try destruct R; exact Logic.I) ltac:(destruct o; try destruct R; exact Logic.I))); [|exact Hp]. apply settled_quiet; [exact S|]. destruct o; try destruct R; exact Logic.I.
  - assert (W : y_step U t (YServer c o) y = y_server_step c o y) by (destruct o; try destruct R; reflexivity). cbn [y_step] in W. rewrite W. apply unchanged_server. intros ky Hc. destruct (Cn c ky Hc) as (a & m & Hx & Zx).
    assert (J : (exists j, o = JobRun j) \/ (plain o /\ z_routine (ZServer a (LConn m o)) /\ match o with Feed _ => False | _ => True end)) by (destruct o as [| | | | |[]|j f|j []|j|j r|j|]; try destruct R; eauto; right; repeat split).
    destruct J as [(j & ->)|(J1 & J2 & J3)]; [|apply (proj1 (conn_quiet U t z a m o J1 J3) (settled_quiet U t z _ S J2)); exact Zx].
    cbn [srun_step]. destruct (nth_error (v_jobs (y_server U ky)) j) as [b|] eqn:Hj; [|reflexivity]. destruct (j_state b) eqn:Hs; try reflexivity. exfalso. unfold z_conn in Zx. destruct (nth_error (z_servers z) a) as [s|] eqn:Es; [|discriminate].
    apply (no_queued U t z a s m j K S Es). rewrite call_jst, Zx. rewrite (jst_nth _ _ _ Hj), Hs. reflexivity.
  - destruct (nth_error (y_conns y) c) as [ky|] eqn:Hc; [|split; reflexivity]. destruct (Cn c ky Hc) as (a & q & Hx & Zx). pose proof (proj1 (up_quiet U t z p c m) (settled_quiet U t z (ZUp p c m) S Logic.I) k a q _ Hp Hx Zx) as Q. rewrite St.
    assert (G : v_in (y_server U ky) = y_got ky) by (unfold y_server; rewrite in_run; reflexivity). rewrite G in Q. rewrite Q. apply unchanged_server. intros k' _. apply set_same.
  - destruct (nth_error (y_conns y) c) as [ky|] eqn:Hc; [|split; reflexivity]. destruct (nth_error (M_AioClient.s_links (y_client t y)) c) as [lk|] eqn:Hl; [|split; reflexivity]. destruct (Cn c ky Hc) as (a & q & Hx & Zx). pose proof Hl as Hl'. rewrite St in Hl'.
    pose proof (proj1 (down_quiet U t z p c m) (settled_quiet U t z (ZDown p c m) S Logic.I) k a q _ lk Hp Hx Hl' Zx) as Q. rewrite Q. apply unchanged_client. exact (feed_empty c lk _ Hl).
Qed.
Lemma view_smooth regs U t p l z k yl : view regs U t p l z k yl -> z_smooth p l k -> Forall smooth yl.
Proof.
  intros V (A & B & C). apply Forall_forall. intros o H. pose proof (vw_src _ _ _ _ _ _ _ _ V o H) as Sr. destruct o as [d rid a|i rg tr|o|c o|c m|c m]; try exact Logic.I; cbn [source] in Sr.
  - intros q E. exact (A _ _ _ _ Sr E).
  - pose proof (B _ Sr) as B'. destruct o; try exact Logic.I; exact B'.
  - destruct Sr as (x & Hx & F). apply nth_error_In in Hx. destruct x as (a, n). cbn [fst snd] in F. destruct o as [| | | | |[]|j f|j []|j|j r|j|j]; try exact Logic.I; cbn [from_listener fst snd] in F; first [exact (C _ _ Eof F Logic.I Hx)|exact (C _ _ Reset F Logic.I Hx)|exact (C _ _ (DrainR false) F Logic.I Hx)|exact (C _ _ (Drain j false) F Logic.I Hx)|exact (C _ _ (Expire j) F Logic.I Hx)].
Qed.
Lemma traced_offers regs l a reg d : traced regs l a reg -> z_served d a regs l -> offers reg (y_interface d) (y_method d).
Proof.
  intros (r0 & ll & H & -> & N) (_ & _ & (r1 & H1 & O) & Nr). assert (r1 = r0) by congruence. subst r1. assert (Nl : forall x, In x ll -> fst x <> y_interface d) by (intros (nm, sv) Hx E; cbn in E; subst nm; exact (Nr sv (N _ _ Hx))).
  clear H H1 N Nr. revert r0 O. induction ll as [|(nm, sv) ll IH]; intros r0 O; [exact O|]. cbn [fold_left]. apply IH; [intros x Hx; apply Nl; right; exact Hx|]. destruct O as (x & E & O). exists x. split; [|exact O]. cbn [fst snd].
  assert (Ne : nm <> y_interface d) by (exact (Nl (nm, sv) (or_introl eq_refl))). rewrite dget_dset_other; [exact E|]. congruence.
Qed.
Lemma view_served regs U t p l z k yl d a : view regs U t p l z k yl -> Forall smooth yl -> z_served d a regs l -> served_at t d (Z.of_nat a) (y_run U t yl).
Proof.
  intros V Sm Sv. pose proof Sv as (A & B & _ & D). split; [exact A|]. split; [exact B|]. intros c ky lk Hc Hl Ha. rewrite (view_state _ _ _ _ _ _ _ _ V) in Hl.
  assert (Lc : c < List.length (z_conns k)) by (rewrite <- (vw_len _ _ _ _ _ _ _ _ V); apply nth_error_Some; congruence). destruct (nth_error (z_conns k) c) as [x|] eqn:Hx; [|apply nth_error_None in Hx; lia].
  assert (E : fst x = a). { assert (E : nth_error (addrs (z_state t k)) c = Some (M_AioClient.k_addr lk)) by (unfold L_AioClient6.addrs; rewrite nth_error_map, Hl; reflexivity). rewrite (vw_addrs _ _ _ _ _ _ _ _ V), nth_error_map, Hx in E. cbn in E. injection E as E. lia. }
  pose proof (vw_regs _ _ _ _ _ _ _ _ V c x ky Hx Hc) as T. rewrite E in T. split; [exact (traced_offers _ _ _ _ _ T Sv)|]. intros sv Hi. destruct (conns_ok U t yl Sm c ky Hc) as [_ _ Cs].
  destruct (vw_src _ _ _ _ _ _ _ _ V _ (Cs _ Hi)) as (x' & Hx' & F). assert (x' = x) by congruence. subst x'. cbn [from_listener] in F. rewrite E in F. exact (D sv F).
Qed.
Lemma zoutcome U t n regs l p k d rid a : NoDup (z_ids p l) -> let z := z_run U t n regs l in nth_error (z_clients z) p = Some k -> z_settled U t z -> z_smooth p l k -> reaches t z k ->
  In (ZCall p d rid (Ok (Z.of_nat a))) l -> (exists q, y_request d rid = Ok q) -> y_ptype d <> 2%Z -> z_served d a regs l -> clear_trace U d ->
  exists m r, In (a, m) (z_conns k) /\ method_ended z a m d r /\
    (passed_on (z_state t k) rid r \/ ((exists v, r = Ok v /\ sendable v) /\ gives (z_state t k) rid (Raise KeyError))).
Proof.
  intros Nd z Hp S Sm Re Hc Hq Pt Sv Cl. destruct (nk_view _ _ _ _ _ (netok_run U t n regs l) p k Hp) as (yl & V). fold z in V. pose proof (view_state _ _ _ _ _ _ _ _ V) as St.
  pose proof (view_smooth _ _ _ _ _ _ _ _ V Sm) as Ys. pose proof (view_settled _ _ _ _ _ _ _ _ (ok_run U t n regs l) S Hp Re V) as Yr.
  destruct (outcome_any U t yl d rid (Z.of_nat a) Ys) as (c & ky & lk & f & r & Kc & Kl & Ka & Ke & En & F).
  - rewrite (vw_ids _ _ _ _ _ _ _ _ V). exact Nd.
  - exact Yr.
  - exact (vw_calls _ _ _ _ _ _ _ _ V d rid _ Hc).
  - exact Hq.
  - exact Pt.
  - exact (view_served _ _ _ _ _ _ _ _ _ _ V Ys Sv).
  - exact Cl.
  - rewrite St in F, Kl. assert (Lc : c < List.length (z_conns k)) by (rewrite <- (vw_len _ _ _ _ _ _ _ _ V); apply nth_error_Some; congruence).
    destruct (nth_error (z_conns k) c) as [(s, m)|] eqn:Hx; [|apply nth_error_None in Hx; lia].
    destruct (vw_conns _ _ _ _ _ _ _ _ V c _ Hx) as (ky' & Ky & Zx). assert (ky' = ky) by congruence. subst ky'. cbn [fst snd] in Zx.
    assert (s = a). { assert (E : nth_error (addrs (z_state t k)) c = Some (M_AioClient.k_addr lk)) by (unfold L_AioClient6.addrs; rewrite nth_error_map, Kl; reflexivity). rewrite (vw_addrs _ _ _ _ _ _ _ _ V), nth_error_map, Hx in E. cbn in E. injection E as E. lia. }
    subst s. exists m, r. split; [apply nth_error_In in Hx; exact Hx|]. split; [|exact F]. assert (G : good (y_server U ky)) by apply good_run. destruct En as (b & Hb & Hf & Hs).
    destruct (executions_job U (y_steps ky) _ _ _ _ _ (good_init _ _) Ke) as (j & b' & Hb' & F1 & F2 & F3 & F4 & _). change (sfrom U (sinit (y_reg ky) (y_tr ky)) (y_steps ky)) with (y_server U ky) in Hb'.
    apply In_nth_error in Hb as (j' & Hb). pose proof G as ((_ & _ & J) & _).
    assert (j' = j) by (apply (NoDup_nth_map j_frame _ j' j b b' (jo_frames _ J) Hb Hb'); congruence). subst j'. assert (b' = b) by congruence. subst b'.
    exists (y_server U ky), b. split; [exact Zx|]. split; [apply nth_error_In in Hb; exact Hb|]. auto.
Qed.

(** ** A call that is under way *)
Lemma specs_same o s : L_Rest1.own_step o \/ (exists c bs, o = M_AioClient.Feed c bs) -> L_System1.specs (M_AioClient.run_step o s) = L_System1.specs s.
Proof. intros [H|(c & bs & ->)]; [|exact (proj2 (L_System1.step_moves (M_AioClient.Feed c bs) s))]. pose proof (L_System1.step_moves o s) as M. destruct o; try destruct H; apply M. Qed.
Definition zspecs (t : M_AioClient.timer) (z : net) : list (list (pkg * res Z)) := map (fun k => L_System1.specs (z_state t k)) (z_clients z).
Lemma specs_upd t p f (l : list zclient) : (forall k, nth_error l p = Some k -> L_System1.specs (z_state t (f k)) = L_System1.specs (z_state t k)) -> map (fun k => L_System1.specs (z_state t k)) (upd p f l) = map (fun k => L_System1.specs (z_state t k)) l.
Proof. revert p. induction l as [|k l IH]; intros [|p] H; cbn in *; try reflexivity; [rewrite (H k eq_refl); reflexivity|]. rewrite (IH p H). reflexivity. Qed.
Lemma zspecs_step U t o z : z_routine o -> zspecs t (z_step U t o z) = zspecs t z /\ List.length (z_servers (z_step U t o z)) = List.length (z_servers z).
Proof.
  intros R. unfold zspecs. destruct o as [p d rid a|p i tr|p o|a o|p c n|p c n]; try destruct R; cbn [z_step].
  - destruct (nth_error (z_clients z) p) as [k|] eqn:Hk; [|auto]. cbv zeta. destruct (nth_error (M_AioClient.s_links _) _) as [lk|]; [|auto]. destruct (nth_error (z_servers z) _) as [s|]; [|auto]. destruct (0 <=? _)%Z; [|auto].
    cbn [on_client on_server z_clients z_servers]. rewrite L_AioServer2.length_upd. split; [|reflexivity]. apply specs_upd. intros k0 Hk0. assert (k0 = k) by congruence. subst k0.
    change (z_state t {| z_hist := z_hist (z_add (M_AioClient.DialOk i) k); z_conns := z_conns k ++ [(Z.to_nat (M_AioClient.k_addr lk), List.length (n_conns s))] |}) with (z_state t (z_add (M_AioClient.DialOk i) k)). rewrite state_add. apply specs_same. left. exact Logic.I.
  - assert (E : z_step U t (ZClient p o) z = on_client p (z_add o) z) by (destruct o; try destruct R; reflexivity). cbn [z_step] in E. rewrite E. split; [|reflexivity]. cbn [on_client z_clients]. apply specs_upd. intros k _. rewrite state_add. apply specs_same. left. destruct o; try destruct R; exact Logic.I.
  - assert (E : z_step U t (ZServer a o) z = on_server U a o z) by (destruct o as [tr|name sv|c o|]; try destruct R; try reflexivity; destruct o; try destruct R; reflexivity). cbn [z_step] in E. rewrite E. cbn [on_server z_clients z_servers]. rewrite L_AioServer2.length_upd. auto.
  - destruct (nth_error (z_clients z) p) as [k|]; [|auto]. destruct (nth_error (z_conns k) c) as [(a, m)|]; [|auto]. destruct (z_conn z a m); [|auto]. cbn [on_server z_clients z_servers]. rewrite L_AioServer2.length_upd. auto.
  - destruct (nth_error (z_clients z) p) as [k|]; [|auto]. destruct (nth_error (z_conns k) c) as [(a, m)|]; [|auto]. destruct (nth_error (M_AioClient.s_links _) c); [|auto]. destruct (z_conn z a m); [|auto].
    cbn [on_client z_clients z_servers]. split; [|reflexivity]. apply specs_upd. intros k0 _. rewrite state_add. apply specs_same. right. eauto.
Qed.
Lemma zspecs_from U t l : forall z, Forall z_routine l -> zspecs t (z_from U t z l) = zspecs t z /\ List.length (z_servers (z_from U t z l)) = List.length (z_servers z).
Proof.
  induction l as [|o l IH]; intros z F; [auto|]. cbn [z_from fold_left]. destruct (zspecs_step U t o z (Forall_inv F)) as (A & B). destruct (IH (z_step U t o z) (Forall_inv_tail F)) as (C & D). unfold z_from in C, D. rewrite C, D. auto.
Qed.
Lemma reaches_specs t z z' p k k' : zspecs t z' = zspecs t z -> List.length (z_servers z') = List.length (z_servers z) -> nth_error (z_clients z) p = Some k -> nth_error (z_clients z') p = Some k' -> reaches t z k -> reaches t z' k'.
Proof.
  intros E L H H' R tk a Hi Ha. rewrite L. apply (f_equal (fun m => nth_error m p)) in E. unfold zspecs in E. rewrite !nth_error_map, H, H' in E. cbn [option_map] in E. injection E as E.
  assert (I : In (M_AioClient.t_req tk, M_AioClient.t_addr tk) (L_System1.specs (z_state t k'))) by (unfold L_System1.specs; apply in_map_iff; exists tk; auto). rewrite E in I. unfold L_System1.specs in I. apply in_map_iff in I as (tk' & X & Hi'). injection X as _ X. apply (R tk' a Hi'). congruence.
Qed.
Lemma conn_stays U t o z a n : z_conn z a n <> None -> z_conn (z_step U t o z) a n <> None.
Proof.
  intros H. destruct (z_conn z a n) as [x|] eqn:E; [clear H|congruence]. assert (S : forall b lo, z_conn (on_server U b lo z) a n <> None) by (intros b lo; rewrite (server_conn U z b lo a n x E); discriminate).
  assert (N : z_conn z a n <> None) by congruence. destruct o as [q d rid ad|q i tr|q o|b o|q c m|q c m]; cbn [z_step].
  - destruct (y_request d rid); exact N.
  - destruct (nth_error (z_clients z) q); [|exact N]. cbv zeta. destruct (nth_error (M_AioClient.s_links _) _) as [lk|]; [|exact N]. destruct (nth_error (z_servers z) _) as [s|]; [|exact N]. destruct (0 <=? _)%Z; [|exact N]. exact (S (Z.to_nat (M_AioClient.k_addr lk)) (LAccept tr)).
  - destruct o; exact N.
  - destruct o as [tr|name sv|c o|]; try apply S. destruct o; try apply S. destruct (owned z b c); [exact N|apply S].
  - destruct (nth_error (z_clients z) q) as [k|]; [|exact N]. destruct (nth_error (z_conns k) c) as [(b, m')|]; [|exact N]. destruct (z_conn z b m'); [apply S|exact N].
  - destruct (nth_error (z_clients z) q) as [k|]; [|exact N]. destruct (nth_error (z_conns k) c) as [(b, m')|]; [|exact N]. destruct (nth_error (M_AioClient.s_links _) c); [|exact N]. destruct (z_conn z b m'); exact N.
Qed.
Lemma conns_step U t o z p k : nth_error (z_clients z) p = Some k -> exists k', nth_error (z_clients (z_step U t o z)) p = Some k' /\ forall a n, In (a, n) (z_conns k') -> In (a, n) (z_conns k) \/ z_conn z a n = None.
Proof.
  intros H. assert (N : exists k', Some k = Some k' /\ forall a n, In (a, n) (z_conns k') -> In (a, n) (z_conns k) \/ z_conn z a n = None) by (exists k; auto).
  assert (C : forall q f, (forall k0, nth_error (z_clients z) q = Some k0 -> forall a n, In (a, n) (z_conns (f k0)) -> In (a, n) (z_conns k0) \/ z_conn z a n = None) ->
    exists k', nth_error (upd q f (z_clients z)) p = Some k' /\ forall a n, In (a, n) (z_conns k') -> In (a, n) (z_conns k) \/ z_conn z a n = None).
  { intros q f F. destruct (Nat.eq_dec q p) as [->|Ne]; [rewrite (nth_upd_same _ _ _ _ H); exists (f k); auto|rewrite nth_upd_other by exact Ne; rewrite H; exact N]. }
  destruct o as [q d rid a|q i tr|q o|a o|q c n|q c n]; cbn [z_step].
  - destruct (y_request d rid); [apply C; auto|rewrite H; exact N].
  - destruct (nth_error (z_clients z) q) as [k0|] eqn:Hq; [|rewrite H; exact N]. cbv zeta. destruct (nth_error (M_AioClient.s_links _) _) as [lk|]; [|rewrite H; exact N]. destruct (nth_error (z_servers z) _) as [s|] eqn:Hs; [|rewrite H; exact N]. destruct (0 <=? _)%Z; [|rewrite H; exact N].
    cbn [on_client on_server z_clients]. apply C. intros k1 Hk1 a n Hi. assert (k1 = k0) by congruence. subst k1. cbn [z_conns] in Hi. apply in_app_or in Hi as [Hi|[Hi|[]]]; [auto|]. injection Hi as <- <-. right. unfold z_conn. rewrite Hs. apply nth_error_None. lia.
  - destruct o; try (rewrite H; exact N); apply C; auto.
  - assert (E : z_clients (match o with LConn n0 (Feed _) => if owned z a n0 then z else on_server U a o z | _ => on_server U a o z end) = z_clients z) by (destruct o as [| |c o|]; try reflexivity; destruct o; try reflexivity; destruct (owned z a c); reflexivity). rewrite E, H. exact N.
  - destruct (nth_error (z_clients z) q) as [k0|]; [|rewrite H; exact N]. destruct (nth_error (z_conns k0) c) as [(a, m)|]; [|rewrite H; exact N]. destruct (z_conn z a m); cbn [on_server z_clients]; rewrite H; exact N.
  - destruct (nth_error (z_clients z) q) as [k0|]; [|rewrite H; exact N]. destruct (nth_error (z_conns k0) c) as [(a, m)|]; [|rewrite H; exact N]. destruct (nth_error (M_AioClient.s_links _) c); [|rewrite H; exact N]. destruct (z_conn z a m) as [s|]; [|rewrite H; exact N]. apply C. auto.
Qed.
Lemma conns_from U t l : forall z p k, nth_error (z_clients z) p = Some k -> exists k', nth_error (z_clients (z_from U t z l)) p = Some k' /\ forall a n, In (a, n) (z_conns k') -> In (a, n) (z_conns k) \/ z_conn z a n = None.
Proof.
  induction l as [|o l IH]; intros z p k H; [exists k; auto|]. destruct (conns_step U t o z p k H) as (k1 & H1 & F1). destruct (IH _ p k1 H1) as (k2 & H2 & F2). exists k2. split; [exact H2|]. intros a n Hi.
  destruct (F2 a n Hi) as [X|X]; [exact (F1 a n X)|right]. destruct (z_conn z a n) as [x|] eqn:E; [|reflexivity]. exfalso. apply (conn_stays U t o z a n); congruence.
Qed.
Lemma zids_routine p l : Forall z_routine l -> z_ids p l = [].
Proof.
  induction l as [|o l IH]; intros F; [reflexivity|]. pose proof (Forall_inv F) as R. unfold z_ids in *. cbn [map concat]. rewrite (IH (Forall_inv_tail F)). destruct o as [q d rid a|q i tr|q o|a o|q c n|q c n]; try destruct R; try reflexivity. destruct o; try destruct R; reflexivity.
Qed.
Lemma zids_app p l l2 : z_ids p (l ++ l2) = z_ids p l ++ z_ids p l2.
Proof. unfold z_ids. rewrite map_app, concat_app. reflexivity. Qed.
Lemma zcall_can_end U t n regs l p k d rid a : NoDup (z_ids p l) -> let z := z_run U t n regs l in nth_error (z_clients z) p = Some k -> z_smooth p l k -> (forall b m o, In (ZServer b (LConn m o)) l -> fails o -> z_conn z b m <> None) -> reaches t z k ->
  In (ZCall p d rid (Ok (Z.of_nat a))) l -> (exists q, y_request d rid = Ok q) -> y_ptype d <> 2%Z -> z_served d a regs l -> clear_trace U d ->
  exists l2, Forall z_routine l2 /\ let z' := z_run U t n regs (l ++ l2) in exists k' m r, nth_error (z_clients z') p = Some k' /\ In (a, m) (z_conns k') /\ method_ended z' a m d r /\
    (passed_on (z_state t k') rid r \/ ((exists v, r = Ok v /\ sendable v) /\ gives (z_state t k') rid (Raise KeyError))).
Proof.
  intros Nd z Hp (Sm1 & Sm2 & Sm3) Ex Re Hc Hq Pt (Sv1 & Sv2 & Sv3 & Sv4) Cl. destruct (zcomes_to_rest U t n regs l) as (l2 & F & S). exists l2. split; [exact F|]. cbv zeta. set (z' := z_run U t n regs (l ++ l2)) in *.
  assert (Ez : z_from U t z l2 = z') by apply zfrom_run. destruct (conns_from U t l2 z p k Hp) as (k' & Hp' & Cn). rewrite Ez in Hp'. destruct (zspecs_from U t l2 z F) as (Sp & Ln). rewrite Ez in Sp, Ln.
  assert (R : forall o, In o l2 -> z_routine o) by (rewrite Forall_forall in F; exact F).
  destruct (zoutcome U t n regs (l ++ l2) p k' d rid a) as (m & r & A & B & C).
  - rewrite zids_app, (zids_routine p l2 F), app_nil_r. exact Nd.
  - exact Hp'.
  - exact S.
  - split; [|split].
    + intros d0 rid0 a0 q H. apply in_app_or in H as [H|H]; [exact (Sm1 _ _ _ _ H)|destruct (R _ H)].
    + intros o H. apply in_app_or in H as [H|H]; [exact (Sm2 _ H)|]. pose proof (R _ H) as Ro. destruct o; try destruct Ro; exact Logic.I.
    + intros b m o H Fo Hi. apply in_app_or in H as [H|H].
      * destruct (Cn b m Hi) as [X|X]; [exact (Sm3 _ _ _ H Fo X)|exact (Ex _ _ _ H Fo X)].
      * pose proof (R _ H) as Ro. destruct o as [| | | | |[]|j f|j []|j|j r|j|]; cbn in Ro, Fo; contradiction.
  - exact (reaches_specs t z z' p k k' Sp Ln Hp Hp' Re).
  - apply in_or_app. left. exact Hc.
  - exact Hq.
  - exact Pt.
  - split; [exact Sv1|]. split; [exact Sv2|]. split; [exact Sv3|]. intros sv H. apply in_app_or in H as [H|H]; [exact (Sv4 sv H)|exact (R _ H)].
  - exact Cl.
  - exists k', m, r. auto.
Qed.

(** ** For examples *)
Definition rest_conn (s : sst) : Prop := match v_rd s with RFixed => v_buf s = [] /\ v_eof s = false /\ v_exn s = false | REnd | RDied => True | _ => False end /\
  Forall (fun x => match a_pc x with TDone | TRaised _ => True | _ => False end) (v_tasks s) /\ Forall (fun b => match j_state b with JEnded _ => True | _ => False end) (v_jobs s).
Definition rest_link (k : M_AioClient.link) : Prop := match M_AioClient.k_rd k with M_AioClient.RdHead => M_AioClient.k_buf k = [] /\ M_AioClient.k_cancel k = false /\ M_AioClient.k_exn k = false /\ M_AioClient.k_eof k = false | M_AioClient.RdDone => True | _ => False end.
Definition rest_zclient (t : M_AioClient.timer) (z : net) (k : zclient) : Prop :=
  Forall (rest_task (z_state t k)) (M_AioClient.s_tasks (z_state t k)) /\ Forall rest_link (M_AioClient.s_links (z_state t k)) /\
  map (fun x => option_map v_in (z_conn z (fst x) (snd x))) (z_conns k) = map (fun c => Some (y_sent (z_state t k) c)) (seq 0 (List.length (z_conns k))) /\
  map (fun k => Some (M_AioClient.k_in k)) (M_AioClient.s_links (z_state t k)) = map (fun x => option_map y_replied (z_conn z (fst x) (snd x))) (z_conns k).
Fixpoint each {A} (f : A -> Prop) (l : list A) : Prop := match l with [] => True | x :: l => f x /\ each f l end.
Lemma each_Forall {A} (f : A -> Prop) l : each f l -> Forall f l.
Proof. induction l as [|x l IH]; intros H; constructor; [apply H|apply IH, H]. Qed.
Definition z_rest (t : M_AioClient.timer) (z : net) : Prop := each (rest_zclient t z) (z_clients z) /\ Forall (fun s => n_queue s = [] /\ Forall rest_conn (n_conns s)) (z_servers z).
Lemma restc_step U s o : rest_conn s -> schores o -> srun_step U o s = s.
Proof.
  intros (R1 & C & D) R. rewrite Forall_forall in C, D. destruct o as [| | | | |[]|i f|i []|j|j r|i|]; cbn in R; try contradiction; cbn [srun_step].
  - unfold sread, ready, starved. destruct (v_rd s) eqn:E; try contradiction; try reflexivity. destruct R1 as (R2 & R3 & R4). rewrite R2, R3, R4. reflexivity.
  - unfold sdrain. destruct (v_rd s); try contradiction; reflexivity.
  - destruct (nth_error (v_tasks s) i) as [x|] eqn:E; [|reflexivity]. pose proof (C x (nth_error_In _ _ E)) as K. destruct (a_pc x); try contradiction; reflexivity.
  - destruct (nth_error (v_tasks s) i) as [x|] eqn:E; [|reflexivity]. pose proof (C x (nth_error_In _ _ E)) as K. destruct (a_pc x); try contradiction; reflexivity.
  - destruct (nth_error (v_jobs s) j) as [x|] eqn:E; [|reflexivity]. pose proof (D x (nth_error_In _ _ E)) as K. destruct (j_state x); try contradiction; reflexivity.
  - destruct (nth_error (v_jobs s) j) as [x|] eqn:E; [|reflexivity]. pose proof (D x (nth_error_In _ _ E)) as K. destruct (j_state x); try contradiction; reflexivity.
  - destruct (nth_error (v_tasks s) i) as [x|] eqn:E; [|reflexivity]. pose proof (C x (nth_error_In _ _ E)) as K. destruct (a_pc x); try contradiction; reflexivity.
Qed.
Lemma zrest_settled U t z : z_rest t z -> z_settled U t z.
Proof.
  intros (A & B) o R. change (zquiet U t z o). apply each_Forall in A. rewrite Forall_forall in A, B.
  assert (Cl : forall p k, nth_error (z_clients z) p = Some k -> rest_zclient t z k) by (intros p k H; apply A; eapply nth_error_In; exact H).
  destruct o as [p d rid a|p i tr|p o|a o|p c n|p c n]; try destruct R.
  - unfold zquiet. cbn [z_step]. cbv zeta. destruct (nth_error (z_clients z) p) as [k|] eqn:Hp; [|split; reflexivity]. destruct (Cl p k Hp) as (T & _). rewrite Forall_forall in T. rewrite state_add.
    assert (E : M_AioClient.run_step (M_AioClient.DialOk i) (z_state t k) = z_state t k).
    { cbn [M_AioClient.run_step]. destruct (nth_error (M_AioClient.s_tasks (z_state t k)) i) as [tk|] eqn:Hi; [|reflexivity]. pose proof (T tk (nth_error_In _ _ Hi)) as Tk. unfold rest_task in Tk. destruct (M_AioClient.t_pc tk); try contradiction; reflexivity. }
    rewrite E, (nth_big _ _ (Nat.le_refl _)). split; reflexivity.
  - apply client_quiet; [destruct o; try destruct R; exact Logic.I|destruct o; try destruct R; exact Logic.I|]. intros k Hp. destruct (Cl p k Hp) as (T & L & _). rewrite Forall_forall in T, L.
    destruct o as [r ad|i|i|i|i|i|i|i|i|c bs|c|c|c|rid|]; try destruct R; cbn [M_AioClient.run_step]; try (destruct (nth_error (M_AioClient.s_tasks (z_state t k)) i) as [tk|] eqn:Hi; [|reflexivity]; pose proof (T tk (nth_error_In _ _ Hi)) as Tk; unfold rest_task in Tk; destruct (M_AioClient.t_pc tk); try contradiction; try reflexivity; rewrite ?Tk; reflexivity).
    unfold M_AioClient.read. destruct (nth_error (M_AioClient.s_links (z_state t k)) c) as [lk|] eqn:Hl; [|reflexivity]. pose proof (L lk (nth_error_In _ _ Hl)) as Lk. unfold rest_link in Lk. destruct (M_AioClient.k_rd lk) eqn:Er; try contradiction; [|reflexivity]. destruct Lk as (R2 & R3 & R4 & R5). rewrite R2, R3, R4, R5. reflexivity.
  - destruct o as [tr|name sv|c o|]; try destruct R.
    + assert (P : plain o /\ schores o /\ match o with Feed _ => False | _ => True end) by (destruct o as [| | | | |[]|j f|j []|j|j r|j|]; try destruct R; repeat split). destruct P as (P1 & P2 & P3). apply conn_quiet; [exact P1|exact P3|]. intros k Hk. apply restc_step; [|exact P2].
      unfold z_conn in Hk. destruct (nth_error (z_servers z) a) as [s|] eqn:Hs; [|discriminate]. destruct (B s (nth_error_In _ _ Hs)) as (_ & F). rewrite Forall_forall in F. apply F. eapply nth_error_In. exact Hk.
    + apply server_quiet; [exact Logic.I|]. intros s Hs. destruct (B s (nth_error_In _ _ Hs)) as (F & _). apply take_empty. exact F.
  - apply up_quiet. intros k a m s Hp Hc Hs. destruct (Cl p k Hp) as (_ & _ & D & _). apply (f_equal (fun m => nth_error m c)) in D. rewrite !nth_error_map, Hc in D. cbn [option_map fst snd] in D. rewrite Hs in D.
    assert (Hq : nth_error (seq 0 (List.length (z_conns k))) c = Some c). { assert (L : (c < List.length (z_conns k))%nat) by (apply nth_error_Some; congruence). rewrite (nth_error_nth' _ 0%nat) by (rewrite seq_length; exact L). rewrite seq_nth by exact L. reflexivity. }
    rewrite Hq in D. cbn in D. injection D as D. rewrite D, skipn_all. apply firstn_nil.
  - apply down_quiet. intros k a m s lk Hp Hc Hl Hs. destruct (Cl p k Hp) as (_ & _ & _ & D). apply (f_equal (fun m => nth_error m c)) in D. rewrite !nth_error_map, Hc, Hl in D. cbn [option_map fst snd] in D. rewrite Hs in D. cbn in D. injection D as D. rewrite D, skipn_all. apply firstn_nil.
Qed.
(** [reaches], [z_smooth] and [z_served], to be computed *)
Lemma reaches_intro t z k : each (fun tk => match M_AioClient.t_addr tk with Ok a => (0 <= a < Z.of_nat (List.length (z_servers z)))%Z | Raise _ => True end) (M_AioClient.s_tasks (z_state t k)) -> reaches t z k.
Proof. intros F tk a Hi Ha. apply each_Forall in F. rewrite Forall_forall in F. specialize (F tk Hi). rewrite Ha in F. exact F. Qed.
Definition step_smooth (p : nat) (conns : list (nat * nat)) (o : zstep) : Prop :=
  match o with
  | ZCall q d rid _ => q = p -> match y_request d rid with Ok x => match to_stream x with Ok _ => True | Raise _ => False end | Raise _ => True end
  | ZClient q o => q = p -> match o with
    | M_AioClient.Cancel _ | M_AioClient.DialFail _ | M_AioClient.DrainFail _ | M_AioClient.Eof _ | M_AioClient.Reset _ | M_AioClient.Beat _ => False | _ => True end
  | ZServer a (LConn n o) => fails o -> ~ In (a, n) conns
  | _ => True
  end.
Lemma smooth_intro p l k : Forall (step_smooth p (z_conns k)) l -> z_smooth p l k.
Proof.
  intros F. rewrite Forall_forall in F. split; [|split].
  - intros d rid a q H E. pose proof (F _ H eq_refl) as G. rewrite E in G. destruct (to_stream q) as [bs|]; [eauto|destruct G].
  - intros o H. pose proof (F _ H eq_refl) as G. destruct o; try exact Logic.I; destruct G.
  - intros a n o H. exact (F _ H).
Qed.

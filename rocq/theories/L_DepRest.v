(** Lemmas behind C124: the rank. *)
From Coq Require Import Lia ZifyBool.
From Verif Require Import PyBase L_PyBase PyDict PyInt M_SofaHeader M_Package L_Package L_Codec M_RpcId M_Trace S_Wire M_SyncClient L_SyncClient M_AioServer S_Server L_AioServer2 L_AioServer3 L_AioServer4 L_AioServer5 L_AioServer6 L_AioServer7 L_AioServer8 L_AioServer9
  M_SockServer S_SockServer L_SockServer M_System S_System L_System M_SyncSystem S_SyncSystem L_SyncSystem M_Listener S_Listener L_Listener M_Net S_Net L_Net M_Deploy S_Deploy L_Deploy S_Answered L_Answered L_Rest L_Rest1 L_Rest2 S_NetRest L_NetRest S_DepRest.
From Verif Require M_AioClient.
Import S_SockServer.
Open Scope nat_scope.

(** ** What a thread does depends only on what it has received and how its stream ended *)
Lemma read_same fuel n b1 n1 b2 n2 : 1 <= fuel -> b1 ++ received n1 = b2 ++ received n2 -> ending n1 = ending n2 ->
  (exists x b1' n1' b2' n2', readexactly fuel n [] b1 n1 = Got x b1' n1' /\ readexactly fuel n [] b2 n2 = Got x b2' n2' /\ b1' ++ received n1' = b2' ++ received n2' /\ ending n1' = ending n2') \/
  exists e, stuck (readexactly fuel n [] b1 n1) = Some e /\ stuck (readexactly fuel n [] b2 n2) = Some e.
Proof.
  intros F D E. destruct (Z_lt_le_dec n 0) as [Ng|P].
  - left. exists [], b1, n1, b2, n2. assert (K : forall b m, readexactly fuel n [] b m = Got [] b m) by (intros b m; destruct fuel; cbn [readexactly]; change (len (@nil byte)) with 0%Z; destruct (Z.ltb_spec 0 n); [lia|reflexivity|lia|reflexivity]). rewrite !K. auto.
  - destruct (read_cases fuel n b1 n1 _ F P eq_refl) as [(L1 & b1' & m1 & A1 & A2 & A3)|(L1 & S1)], (read_cases fuel n b2 n2 _ F P (eq_sym D)) as [(L2 & b2' & m2 & B1 & B2 & B3)|(L2 & S2)]; try lia.
    + left. exists (py_take n (b1 ++ received n1)), b1', m1, b2', m2. rewrite A2, B2. split; [exact A1|]. split; [exact B1|]. split; [reflexivity|congruence].
    + right. exists (starve (ending n1)). rewrite S1, S2, E. auto.
Qed.
Lemma handle_same fuel U reg tr fresh call w n1 n2 : received n1 = received n2 -> ending n1 = ending n2 -> handle fuel U reg tr fresh call w n1 = handle fuel U reg tr fresh call w n2.
Proof.
  intros D E. destruct fuel as [|f]; [rewrite !handle_0; reflexivity|]. assert (F : 1 <= S f) by lia. unfold handle.
  assert (St : forall (r : rread bytes) e (k : bytes -> bytes -> list arrival -> sout), stuck r = Some e ->
     match r with Got x b n => k x b n | Blocked => sdone tr SBlocked | Failed e => sfails tr e | Unfinished => sdone tr SUnfinished end = sdone tr e).
  { intros r e k H. destruct r; cbn [stuck] in H; try discriminate; injection H as <-; reflexivity. }
  destruct (read_same (S f) (bolt_header_size BoltRequest) [] n1 [] n2 F D E) as [(x & b1 & m1 & b2 & m2 & -> & -> & D1 & E1)|(e & A & B)]; [|rewrite (St _ e _ A), (St _ e _ B); reflexivity].
  destruct (bolt_header_from_stream BoltRequest x) as [h|]; [|reflexivity].
  destruct (read_same (S f) (int_of f_class_len h) b1 m1 b2 m2 F D1 E1) as [(x2 & b3 & m3 & b4 & m4 & -> & -> & D2 & E2)|(e & A & B)]; [|rewrite (St _ e _ A), (St _ e _ B); reflexivity].
  destruct (read_same (S f) (int_of f_header_len h) b3 m3 b4 m4 F D2 E2) as [(x3 & b5 & m5 & b6 & m6 & -> & -> & D3 & E3)|(e & A & B)]; [|rewrite (St _ e _ A), (St _ e _ B); reflexivity].
  destruct (from_bytes x3) as [sofa|]; [|reflexivity].
  destruct (read_same (S f) (int_of f_content_len h) b5 m5 b6 m6 F D3 E3) as [(x4 & b7 & m7 & b8 & m8 & -> & -> & D4 & E4)|(e & A & B)]; [reflexivity|rewrite (St _ e _ A), (St _ e _ B); reflexivity].
Qed.
Lemma received_app n x : received (n ++ [x]) = match ending n with None => received n ++ match x with Arrive b => b | _ => [] end | Some _ => received n end.
Proof.
  induction n as [|[b| |e] n IH]; cbn [app received ending]; [destruct x; cbn [received]; rewrite ?app_nil_r; reflexivity| |reflexivity|reflexivity]. rewrite IH. destruct (ending n); [reflexivity|]. apply app_assoc.
Qed.
Lemma ending_app n x : ending (n ++ [x]) = match ending n with None => match x with Arrive _ => None | _ => Some x end | Some e => Some e end.
Proof. induction n as [|[b| |e] n IH]; cbn [app ending]; [destruct x; reflexivity|exact IH|reflexivity|reflexivity]. Qed.
Lemma seen_same U a x : received (th_net x ++ [a]) = received (th_net x) -> ending (th_net x ++ [a]) = ending (th_net x) -> th_seen U (th_arrive a x) = th_seen U x.
Proof. intros R E. unfold th_seen, th_out. cbn [th_arrive th_net th_fuel th_reg th_tr th_fresh th_call th_err]. rewrite R, E, (handle_same _ U _ _ _ _ _ _ _ R E). reflexivity. Qed.

(** ** The rank *)
Definition srank (c : scall) : nat := match c_pc c with SSend r _ => S (3 - r) | _ => 0 end.
Definition yrank (c : scall) : nat := match c_pc c with SRecv _ y => S (List.length (y_rest y)) | _ => 0 end.
Definition olen (o : option bytes) : nat := match o with Some b => List.length b | None => 0 end.
Definition upw (s : dep) (x : wire) : nat := match w_peer x with None => 0 | Some e => List.length (w_out x) - olen (end_got s e) end.
Definition downw (U : tables) (s : dep) (x : wire) : nat := match w_peer x with None => 0 | Some e => olen (end_sent U s e) - List.length (w_in x) end.
Definition opened (x : thr) : nat := match ending (th_net x) with None => 1 | Some _ => 0 end.
Definition usum (s : dep) : nat := total (upw s) (d_wires s) + total opened (d_thrs s).
Definition drank (U : tables) (t : M_AioClient.timer) (s : dep) : list nat :=
  total srank (d_calls s) :: match zrank t (d_net s) with a :: b :: r => a :: b :: usum s :: r ++ [total (downw U s) (d_wires s); total yrank (d_calls s)] | r => r end.
Lemma zrank_shape t z : exists a b c d e f, zrank t z = [a; b; c; d; e; f].
Proof. unfold zrank. repeat eexists. Qed.
Lemma drank_net U t s s' : below (zrank t (d_net s')) (zrank t (d_net s)) -> total srank (d_calls s') = total srank (d_calls s) -> usum s' <= usum s -> below (drank U t s') (drank U t s).
Proof.
  destruct (zrank_shape t (d_net s)) as (a & b & c & d & e & f & E), (zrank_shape t (d_net s')) as (a' & b' & c' & d' & e' & f' & E'). unfold below, drank. rewrite E, E'. intros (_ & L) A B. split; [reflexivity|]. cbn [lex app] in *. lia.
Qed.
Lemma drank_same U t s s' : zrank t (d_net s') = zrank t (d_net s) -> total srank (d_calls s') = total srank (d_calls s) -> lex [usum s'; total (downw U s') (d_wires s'); total yrank (d_calls s')] [usum s; total (downw U s) (d_wires s); total yrank (d_calls s)] -> below (drank U t s') (drank U t s).
Proof.
  destruct (zrank_shape t (d_net s)) as (a & b & c & d & e & f & E). unfold below, drank. intros -> A. rewrite E, A. intros L. split; [reflexivity|]. cbn [lex app] in *. lia.
Qed.
Lemma drank_first U t s s' : total srank (d_calls s') < total srank (d_calls s) -> below (drank U t s') (drank U t s).
Proof.
  destruct (zrank_shape t (d_net s)) as (a & b & c & d & e & f & E), (zrank_shape t (d_net s')) as (a' & b' & c' & d' & e' & f' & E'). unfold below, drank. rewrite E, E'. intros L. split; [reflexivity|]. cbn [lex]. left. exact L.
Qed.

(** ** Steps of the network *)
Lemma zgrows U t o z x : ok z -> z_left_alone o -> got z x <= got (z_step U t o z) x.
Proof.
  intros K H. destruct (z_conn z (fst x) (snd x)) as [s|] eqn:E; [|unfold got at 1; rewrite E; apply Nat.le_0_l].
  assert (Own : forall a o, own_lstep o -> got z x <= got (on_server U a o z) x) by (intros a o' Ho; rewrite got_server by assumption; lia).
  destruct o as [p d rid a|p i tr|p o|a o|p c n|p c n]; try destruct H; cbn [z_step].
  - destruct (nth_error (z_clients z) p); [|lia]. cbv zeta. destruct (nth_error (M_AioClient.s_links _) _) as [lk|]; [|apply Nat.le_refl]. destruct (nth_error (z_servers z) _); [|apply Nat.le_refl]. destruct (0 <=? _)%Z; [|apply Nat.le_refl].
    match goal with |- _ <= got (on_client _ _ ?z1) _ => change (got z x <= got z1 x) end. unfold got. rewrite (server_conn U z _ (LAccept tr) _ _ s E), E. unfold what_at. destruct (Nat.eqb _ _); [|cbn; lia]. destruct (nth_error (z_servers z) _); cbn; lia.
  - destruct o; apply Nat.le_refl.
  - destruct o as [tr|name sv|c o|]; try destruct H; [|apply Own; exact I]. destruct o; try destruct H; apply Own; exact I.
  - destruct (nth_error (z_clients z) p) as [k|]; [|lia]. destruct (nth_error (z_conns k) c) as [(a, m)|]; [|lia]. destruct (z_conn z a m) as [s0|] eqn:E0; [|lia].
    unfold got. rewrite E, (feed_conn U z a m _ x s K E). destruct (_ && _); [|lia]. cbn [srun_step set_stream v_in]. rewrite app_length. lia.
  - destruct (nth_error (z_clients z) p) as [k|]; [|lia]. destruct (nth_error (z_conns k) c) as [(a, m)|]; [|lia]. destruct (nth_error (M_AioClient.s_links _) c); [|lia]. destruct (z_conn z a m); apply Nat.le_refl.
Qed.
Lemma olen_got s a n : olen (end_got s (PAio a n)) = got (d_net s) (a, n).
Proof. cbn [end_got]. unfold got, z_conn. cbn [fst snd]. destruct (nth_error (z_servers (d_net s)) a) as [q|]; [|reflexivity]. destruct (nth_error (n_conns q) n); reflexivity. Qed.
Lemma usum_net s z : (forall x, got (d_net s) x <= got z x) -> usum (with_net z s) <= usum s.
Proof.
  intros H. unfold usum. cbn [with_net d_wires d_thrs]. assert (total (upw (with_net z s)) (d_wires s) <= total (upw s) (d_wires s)); [|lia]. apply total_le. intros x. unfold upw. destruct (w_peer x) as [[a n|k]|]; [|cbn; lia|lia].
  rewrite !olen_got. cbn [with_net d_net]. specialize (H (a, n)). lia.
Qed.
Lemma dnet_rank U t o s : ok (d_net s) -> z_left_alone o -> d_unchanged U t s (d_step U t (DNet o) s) \/ below (drank U t (d_step U t (DNet o) s)) (drank U t s).
Proof.
  intros K H. assert (E : d_step U t (DNet o) s = with_net (z_step U t o (d_net s)) s) by (destruct o as [| | |a [| |m []|]| |]; try reflexivity; destruct H). rewrite E.
  destruct (zstep_rank U t o (d_net s) K H) as [Z|Z]; [left; split; [exact Z|]; repeat split|right]. apply drank_net; [exact Z|reflexivity|]. apply usum_net. intros x. apply zgrows; assumption.
Qed.

(** ** Steps of the send loop *)
Lemma leave_rank i c r conn conn' s : nth_error (d_calls s) i = Some c -> c_pc c = SSend r conn -> total srank (d_calls (leave i c conn' s)) < total srank (d_calls s).
Proof.
  intros Hi Ep. assert (K : forall pc, srank (c_goto pc c) = 0 -> total srank (upd i (c_goto pc) (d_calls s)) < total srank (d_calls s)).
  { intros pc E. pose proof (total_upd srank (c_goto pc) (d_calls s) i c Hi) as V. rewrite E in V. unfold srank at 2 in V. rewrite Ep in V. lia. }
  unfold leave. destruct conn' as [w|]; [destruct (c_oneway c)|]; apply K; reflexivity.
Qed.
Lemma again_rank i c r conn conn' s : nth_error (d_calls s) i = Some c -> c_pc c = SSend r conn -> total srank (d_calls (again i c r conn' s)) < total srank (d_calls s).
Proof.
  intros Hi Ep. unfold again. destruct (Nat.ltb_spec (S r) 3) as [L|L]; [|exact (leave_rank i c r conn conn' s Hi Ep)]. cbn [with_call d_calls].
  pose proof (total_upd srank (c_goto (SSend (S r) conn')) (d_calls s) i c Hi) as V. unfold srank at 2 4 in V. cbn [c_goto c_pc] in V. rewrite Ep in V. lia.
Qed.
Lemma round_rank U i mk dr acc send c r conn s : nth_error (d_calls s) i = Some c -> c_pc c = SSend r conn -> total srank (d_calls (round U i mk dr acc send c r conn s)) < total srank (d_calls s).
Proof.
  intros Hi Ep. assert (L : forall conn' s1, d_calls s1 = d_calls s -> total srank (d_calls (leave i c conn' s1)) < total srank (d_calls s)) by (intros conn' s1 H1; rewrite <- H1; apply leave_rank with (r := r) (conn := conn); [rewrite H1; exact Hi|exact Ep]).
  assert (A : forall conn' s1, d_calls s1 = d_calls s -> total srank (d_calls (again i c r conn' s1)) < total srank (d_calls s)) by (intros conn' s1 H1; rewrite <- H1; apply again_rank with (conn := conn); [rewrite H1; exact Hi|exact Ep]).
  unfold round. destruct (fetch mk dr (c_addr c) (d_mgrs s)) as [m [id|e]]; [|destruct e; first [apply A|apply L]; reflexivity].
  pose proof (proj2 (took_connect U id i (c_addr c) acc (with_mgrs m s))) as K. destruct (connect U id i (c_addr c) acc (with_mgrs m s)) as [s1 w]. cbn [fst] in K.
  destruct (let! p := c_request c in to_stream p) as [bs|e]; [|destruct e; first [apply A; exact K|apply L; exact K]]. destruct send as [k|e]; [apply L; exact K|destruct e; first [apply A; exact K|apply L; exact K]].
Qed.

(** ** Steps of the receive loop *)
Lemma receive_rest srv y n y' : rgood srv y -> (len (y_buf y) < y_total y)%Z -> receive n y = Ok y' -> (y_rest y = [] /\ y' = y) \/ List.length (y_rest y') < List.length (y_rest y).
Proof.
  intros G L E. destruct (y_rest y) as [|b r] eqn:Er.
  - left. split; [reflexivity|]. unfold receive in E. cbv zeta in E. rewrite Er in E. replace (py_take _ (@nil byte)) with (@nil byte) in E by (rewrite py_take_firstn, firstn_nil; reflexivity). replace (py_drop _ (@nil byte)) with (@nil byte) in E by (rewrite py_drop_skipn, skipn_nil; reflexivity). rewrite app_nil_r in E.
    destruct (y_header y) as [h|] eqn:Eh; [destruct y; cbn in *; congruence|]. destruct (Z.leb_spec (y_total y) (len (y_buf y))); [lia|]. destruct y; cbn in *; congruence.
  - right. destruct (receive_spec _ _ n G L) as (y2 & E2 & G2 & Ln). assert (y2 = y') by congruence. subst y2. destruct (rg_split _ _ G) as (_ & A & A0), (rg_split _ _ G2) as (_ & B & C). rewrite Er in A. pose proof (len_nonneg (y_buf y)) as P. pose proof (len_nonneg (y_buf y')) as P'.
    assert (L1 : len (b :: r) = (len srv - len (y_buf y))%Z) by (rewrite A, len_py_drop; lia). assert (L2 : len (y_rest y') = (len srv - len (y_buf y'))%Z) by (rewrite B, len_py_drop; lia). unfold len in *. cbn [List.length] in *. lia.
Qed.
Lemma drecv_rank U t n regs i ev s : dok U t n regs s -> d_unchanged U t s (d_step U t (DRecv i ev) s) \/ below (drank U t (d_step U t (DRecv i ev) s)) (drank U t s).
Proof.
  intros D. cbn [d_step]. assert (Same : d_unchanged U t s s) by (repeat split). destruct (nth_error (d_calls s) i) as [c|] eqn:Hi; [|left; exact Same]. destruct (c_pc c) as [|w y|] eqn:Ep; try (left; exact Same).
  pose proof (do_calls _ _ _ _ _ D i c Hi) as K. unfold cok in K. rewrite Ep in K. destruct K as (x & Hx & Hcx & G & L).
  assert (Lower : forall pc s', srank (c_goto pc c) = 0 -> yrank (c_goto pc c) < yrank c -> d_net s' = d_net s -> d_thrs s' = d_thrs s -> d_wires s' = d_wires s -> d_calls s' = upd i (c_goto pc) (d_calls s) -> below (drank U t s') (drank U t s)).
  { intros pc s' R Y E1 E2 E3 E4. apply drank_same; [rewrite E1; reflexivity| |].
    - rewrite E4. apply total_eq_upd with (x := c); [exact Hi|]. rewrite R. unfold srank. rewrite Ep. reflexivity.
    - assert (G1 : forall e, end_got s' e = end_got s e) by (intros [a m|k]; cbn [end_got]; rewrite ?E1, ?E2; reflexivity). assert (G2 : forall e, end_sent U s' e = end_sent U s e) by (intros [a m|k]; cbn [end_sent]; rewrite ?E1, ?E2; reflexivity).
      cbn [lex]. right. split; [unfold usum; rewrite E2, E3; f_equal; apply total_ext; intros z; unfold upw; destruct (w_peer z); [rewrite G1|]; reflexivity|].
      right. split; [rewrite E3; apply total_ext; intros z; unfold downw; destruct (w_peer z); [rewrite G2|]; reflexivity|].
      left. rewrite E4. pose proof (total_upd yrank (c_goto pc) (d_calls s) i c Hi). lia. }
  assert (Yc : yrank c = S (List.length (y_rest y))) by (unfold yrank; rewrite Ep; reflexivity).
  assert (End : forall r s', d_net s' = d_net s -> d_thrs s' = d_thrs s -> d_wires s' = d_wires s -> d_calls s' = upd i (c_goto (SEnd r)) (d_calls s) -> below (drank U t s') (drank U t s)) by (intros r s'; apply Lower; [reflexivity|rewrite Yc; cbn; lia]).
  unfold recv. destruct ev as [k| |e]; [|right; eapply End; reflexivity|right; eapply End; reflexivity].
  destruct (receive k y) as [y'|e] eqn:Er; [|right; eapply End; reflexivity]. destruct (Z.ltb_spec (len (y_buf y')) (y_total y')); [|right; eapply End; reflexivity].
  destruct (receive_rest _ _ _ _ G L Er) as [(_ & ->)|Lt].
  - left. split; [split; reflexivity|]. split; [reflexivity|]. split; [reflexivity|]. cbn [with_call d_calls]. apply (L_Rest1.upd_id _ _ _ c Hi). destruct c; cbn in *; unfold c_goto; cbn; congruence.
  - right. eapply (Lower (SRecv w y')); try reflexivity. rewrite Yc. cbn. lia.
Qed.

(** ** Steps of a connection *)
Lemma thrs_same U k a (l : list thr) x : nth_error l k = Some x -> th_seen U (th_arrive a x) = th_seen U x -> map (th_seen U) (upd k (th_arrive a) l) = map (th_seen U) l.
Proof.
  intros H E. revert k H. induction l as [|y l IH]; intros [|k] H; cbn in *; try discriminate; [injection H as ->; rewrite E; reflexivity|]. rewrite (IH k H). reflexivity.
Qed.
Lemma got_thr s k a e : olen (end_got s e) <= olen (end_got (with_thr k a s) e).
Proof.
  destruct e as [b m|j]; cbn [end_got with_thr d_net d_thrs]; [lia|]. destruct (nth_error (d_thrs s) j) as [x|] eqn:E; [|cbn; lia]. destruct (Nat.eq_dec k j) as [->|Ne]; [rewrite (nth_upd_same _ _ _ _ E)|rewrite nth_upd_other by exact Ne; rewrite E; lia].
  cbn [option_map olen th_arrive th_net]. rewrite !arrived_received, received_app. destruct (ending (th_net x)); [lia|]. rewrite app_length. lia.
Qed.
Lemma thr_rank U t k a x s : nth_error (d_thrs s) k = Some x -> usum (with_thr k a s) < usum s -> below (drank U t (with_thr k a s)) (drank U t s).
Proof. intros Hk L. apply drank_same; [reflexivity|reflexivity|]. left. exact L. Qed.
Lemma dup_rank U t w n s : ok (d_net s) -> d_unchanged U t s (d_step U t (DUp w n) s) \/ below (drank U t (d_step U t (DUp w n) s)) (drank U t s).
Proof.
  intros K. cbn [d_step]. assert (Same : d_unchanged U t s s) by (repeat split). destruct (nth_error (d_wires s) w) as [x|] eqn:Hw; [|left; exact Same]. destruct (w_peer x) as [e|] eqn:Hp; [|left; exact Same]. destruct (end_got s e) as [g|] eqn:Hg; [|left; exact Same].
  cbv zeta. set (b := firstn n (skipn (List.length g) (w_out x))). assert (Lb : List.length b <= List.length (w_out x) - List.length g) by (unfold b; rewrite firstn_length, skipn_length; lia).
  destruct e as [a m|k].
  - set (z' := on_server U a (LConn m (Feed b)) (d_net s)). pose proof Hg as Hz. cbn [end_got] in Hz. destruct (z_conn (d_net s) a m) as [q|] eqn:Eq; [|discriminate]. cbn in Hz. injection Hz as Hz.
    assert (Grow : forall y, got (d_net s) y <= got z' y).
    { intros y. unfold got. destruct (z_conn (d_net s) (fst y) (snd y)) as [sy|] eqn:Ey; [|lia]. unfold z'. rewrite (feed_conn U _ a m b y sy K Ey). destruct (_ && _); [|lia]. cbn [srun_step set_stream v_in]. rewrite app_length. lia. }
    destruct (Nat.eq_dec (List.length b) 0) as [Eb|Eb].
    + left. split; [|repeat split]. split; [reflexivity|]. cbn [with_net d_net]. unfold z'. apply length_zero_iff_nil in Eb. rewrite Eb. cbn [on_server z_servers]. pose proof Eq as Eq'. unfold z_conn in Eq'. destruct (nth_error (z_servers (d_net s)) a) as [v|] eqn:Ev; [|discriminate].
      apply (L_Rest1.upd_id _ _ _ v Ev). rewrite (conn_step U m (Feed []) v q Logic.I Eq'). cbn [srun_step]. rewrite L_Rest.set_same. unfold joined. rewrite Nat.sub_diag. cbn [seq map]. rewrite app_nil_r. apply same_conn. exact Eq'.
    + right. assert (Ult : usum (with_net z' s) < usum s).
      { unfold usum. cbn [with_net d_wires d_thrs]. assert (total (upw (with_net z' s)) (d_wires s) < total (upw s) (d_wires s)); [|lia]. apply total_lt with (i := w) (x := x); [|exact Hw|].
        - intros y. unfold upw. destruct (w_peer y) as [[a0 n0|k0]|]; [|cbn; lia|lia]. rewrite !olen_got. cbn [with_net d_net]. specialize (Grow (a0, n0)). lia.
        - unfold upw. rewrite Hp, Hg. cbn [olen]. rewrite olen_got. cbn [with_net d_net]. assert (G2 : got z' (a, m) = List.length g + List.length b). { unfold got, z'. rewrite (feed_conn U _ a m b (a, m) q K Eq). cbn [fst snd]. rewrite !Nat.eqb_refl. cbn [andb srun_step set_stream v_in]. rewrite app_length, Hz. reflexivity. } rewrite G2. lia. }
      assert (Up : total (c_up t z') (z_clients z') <= total (c_up t (d_net s)) (z_clients (d_net s))) by (change (z_clients z') with (z_clients (d_net s)); apply total_le; intros k0; unfold c_up; apply sumi_le; intros j y; specialize (Grow y); lia).
      split; [reflexivity|]. unfold drank. cbn [with_net d_net d_calls d_wires]. unfold zrank. change (z_clients z') with (z_clients (d_net s)) in *. cbn [lex app]. right. split; [reflexivity|]. right. split; [reflexivity|].
      destruct (Nat.eq_dec (total (c_up t z') (z_clients (d_net s))) (total (c_up t (d_net s)) (z_clients (d_net s)))) as [Ec|Ec]; [right; split; [exact Ec|left; exact Ult]|left; lia].
  - cbn [end_got] in Hg. destruct (nth_error (d_thrs s) k) as [y|] eqn:Hk; [|discriminate]. cbn in Hg. injection Hg as Hg. rewrite arrived_received in Hg.
    assert (Quiet : th_seen U (th_arrive (Arrive b) y) = th_seen U y -> d_unchanged U t s (with_thr k (Arrive b) s)) by (intros Q; split; [split; reflexivity|]; split; [apply (thrs_same U k _ _ y Hk Q)|split; reflexivity]).
    destruct (ending (th_net y)) as [v|] eqn:Ee; [left; apply Quiet; apply seen_same; [rewrite received_app, Ee; reflexivity|rewrite ending_app, Ee; reflexivity]|].
    destruct (Nat.eq_dec (List.length b) 0) as [Eb|Eb]; [left; apply length_zero_iff_nil in Eb; apply Quiet; apply seen_same; [rewrite received_app, Ee, Eb; apply app_nil_r|rewrite ending_app, Ee; reflexivity]|].
    right. apply (thr_rank U t k _ y s Hk). unfold usum. change (d_wires (with_thr k (Arrive b) s)) with (d_wires s). cbn [with_thr d_thrs].
    assert (O : total opened (upd k (th_arrive (Arrive b)) (d_thrs s)) = total opened (d_thrs s)) by (apply total_eq_upd with (x := y); [exact Hk|]; unfold opened; cbn [th_arrive th_net]; rewrite ending_app, Ee; reflexivity). rewrite O.
    assert (total (upw (with_thr k (Arrive b) s)) (d_wires s) < total (upw s) (d_wires s)); [|lia]. apply total_lt with (i := w) (x := x); [|exact Hw|].
    + intros v. unfold upw. destruct (w_peer v) as [e|]; [|lia]. pose proof (got_thr s k (Arrive b) e). lia.
    + unfold upw. rewrite Hp. cbn [end_got with_thr d_thrs]. rewrite (nth_upd_same _ _ _ _ Hk), Hk. cbn [option_map olen th_arrive th_net]. rewrite !arrived_received, received_app, Ee, app_length. rewrite (arrived_received (th_net y)), Hg. lia.
Qed.
Lemma dover_rank U t k e s : d_unchanged U t s (d_step U t (DOver k e) s) \/ below (drank U t (d_step U t (DOver k e) s)) (drank U t s).
Proof.
  cbn [d_step]. set (a := match e with Some e => Err e | None => Fin end). assert (Ha : match a with Arrive _ => False | _ => True end) by (unfold a; destruct e; exact I). clearbody a.
  destruct (nth_error (d_thrs s) k) as [y|] eqn:Hk; [|left; split; [split; reflexivity|]; split; [cbn [with_thr d_thrs]; rewrite L_Rest1.upd_none by exact Hk; reflexivity|split; reflexivity]].
  destruct (ending (th_net y)) as [v|] eqn:Ee; [left; split; [split; reflexivity|]; split; [apply (thrs_same U k _ _ y Hk), seen_same; [rewrite received_app, Ee; reflexivity|rewrite ending_app, Ee; reflexivity]|split; reflexivity]|].
  right. apply (thr_rank U t k _ y s Hk). unfold usum. change (d_wires (with_thr k a s)) with (d_wires s). cbn [with_thr d_thrs].
  pose proof (total_upd opened (th_arrive a) (d_thrs s) k y Hk) as V. unfold opened at 2 4 in V. cbn [th_arrive th_net] in V. rewrite ending_app, Ee in V.
  assert (total (upw (with_thr k a s)) (d_wires s) <= total (upw s) (d_wires s)) by (apply total_le; intros v; unfold upw; destruct (w_peer v) as [p|]; [|lia]; pose proof (got_thr s k a p); lia).
  destruct a; [destruct Ha|lia|lia].
Qed.
Lemma more_srank w b c : srank (more w b c) = srank c.
Proof. unfold more, srank. destruct (c_pc c) as [r conn|w' y|r] eqn:E; rewrite ?E; try reflexivity. destruct (Nat.eqb w' w); cbn; rewrite ?E; reflexivity. Qed.
Lemma more_nil w c : more w [] c = c.
Proof. unfold more. destruct c as [d a o i k [r conn|w' [y1 y2 y3 y4]|r]]; cbn; try reflexivity. destruct (Nat.eqb w' w); [|reflexivity]. unfold c_goto. cbn. rewrite app_nil_r. reflexivity. Qed.
Lemma upd_ident {A} (f : A -> A) l i : (forall x, f x = x) -> upd i f l = l.
Proof. intros H. revert i. induction l as [|y l IH]; intros [|i]; cbn; rewrite ?H, ?IH; reflexivity. Qed.
Lemma ddown_rank U t w n s : d_unchanged U t s (d_step U t (DDown w n) s) \/ below (drank U t (d_step U t (DDown w n) s)) (drank U t s).
Proof.
  cbn [d_step]. assert (Same : d_unchanged U t s s) by (repeat split). destruct (nth_error (d_wires s) w) as [x|] eqn:Hw; [|left; exact Same]. destruct (w_peer x) as [e|] eqn:Hp; [|left; exact Same]. destruct (end_sent U s e) as [g|] eqn:Hg; [|left; exact Same].
  cbv zeta. set (b := firstn n (skipn (List.length (w_in x)) g)). assert (Lb : List.length b <= List.length g - List.length (w_in x)) by (unfold b; rewrite firstn_length, skipn_length; lia).
  destruct (Nat.eq_dec (List.length b) 0) as [Eb|Eb].
  - left. apply length_zero_iff_nil in Eb. rewrite Eb. split; [split; reflexivity|]. split; [reflexivity|]. cbn [with_call with_wire d_wires d_calls]. split; apply upd_ident; [intros [v1 v2 v3 v4 v5]; unfold w_feed; cbn; rewrite app_nil_r; reflexivity|apply more_nil].
  - right. set (s' := with_call (w_call x) (more w b) (with_wire w (w_feed b) s)). apply drank_same; [reflexivity| |].
    + cbn [s' with_call with_wire d_calls]. destruct (nth_error (d_calls s) (w_call x)) as [c|] eqn:Hc; [apply total_eq_upd with (x := c); [exact Hc|apply more_srank]|rewrite L_Rest1.upd_none by exact Hc; reflexivity].
    + assert (Us : usum s' = usum s).
      { unfold usum. cbn [s' with_call with_wire d_wires d_thrs]. f_equal. rewrite (total_ext (upw _) (upw s)) by reflexivity. apply total_eq_upd with (x := x); [exact Hw|reflexivity]. }
      cbn [lex]. right. split; [exact Us|]. left. cbn [s' with_call with_wire d_wires]. rewrite (total_ext (downw U _) (downw U s)) by reflexivity. pose proof (total_upd (downw U s) (w_feed b) (d_wires s) w x Hw) as V. unfold downw at 2 4 in V. cbn [w_feed w_peer w_in] in V. rewrite Hp, Hg in V. cbn [olen] in V. rewrite app_length in V. lia.
Qed.

(** ** All steps *)
Lemma dok_ok U t n regs s : dok U t n regs s -> ok (d_net s).
Proof. intros D. destruct (do_net _ _ _ _ _ D) as (zl & ->). apply ok_run. Qed.
Lemma dstep_rank U t n regs o s : dok U t n regs s -> d_left_alone o -> d_unchanged U t s (d_step U t o s) \/ below (drank U t (d_step U t o s)) (drank U t s).
Proof.
  intros D H. pose proof (dok_ok _ _ _ _ _ D) as K. destruct o as [o|d addr oneway rid back|i mk dr acc send|i ev|w k|w k|th e|addr fuel reg tr fresh call e|th b]; try destruct H.
  - apply dnet_rank; assumption.
  - cbn [d_step]. destruct (nth_error (d_calls s) i) as [c|] eqn:Hi; [|left; repeat split]. destruct (c_pc c) as [r conn| |] eqn:Ep; [|left; repeat split|left; repeat split]. right. apply drank_first, round_rank; assumption.
  - exact (drecv_rank U t n regs i ev s D).
  - apply dup_rank. exact K.
  - apply ddown_rank.
  - apply dover_rank.
Qed.
Lemma dterminates_ok U t n regs s : dok U t n regs s -> Acc (d_goes_on U t) s.
Proof.
  assert (K : forall r, Acc below r -> forall s, dok U t n regs s -> drank U t s = r -> Acc (d_goes_on U t) s); [|intros H; exact (K _ (below_wf (drank U t s)) s H eq_refl)].
  intros r A. induction A as [r _ IH]. intros s0 H <-. constructor. intros s' (o & Ho & -> & N). destruct (dstep_rank U t n regs o s0 H Ho) as [E|E]; [contradiction|]. exact (IH _ E _ (dok_step U t n regs o s0 H) eq_refl).
Qed.
Lemma dterminates U t n regs l : Acc (d_goes_on U t) (d_run U t n regs l).
Proof. apply (dterminates_ok U t n regs), dok_run. Qed.
Lemma dafter_shift U t f s n : d_after U t f (S n) s = d_after U t (fun m => f (S m)) n (d_step U t (f 0) s).
Proof. induction n as [|n IH]; [reflexivity|]. cbn [d_after] in *. rewrite IH. reflexivity. Qed.
Lemma dnot_for_ever U t n regs l f : (forall m, d_left_alone (f m)) -> exists m, d_unchanged U t (d_after U t f m (d_run U t n regs l)) (d_after U t f (S m) (d_run U t n regs l)).
Proof.
  assert (K : forall r, Acc below r -> forall s f, dok U t n regs s -> drank U t s = r -> (forall m, d_left_alone (f m)) -> exists m, d_unchanged U t (d_after U t f m s) (d_after U t f (S m) s)); [|exact (K _ (below_wf (drank U t _)) _ f (dok_run U t n regs l) eq_refl)].
  intros r A. induction A as [r _ IH]. intros s g H <- Hg. destruct (dstep_rank U t n regs (g 0) s H (Hg 0)) as [E|E]; [exists 0; exact E|].
  destruct (IH _ E _ (fun m => g (S m)) (dok_step U t n regs _ s H) eq_refl (fun m => Hg (S m))) as (m & M). exists (S m). rewrite (dafter_shift U t g s m), (dafter_shift U t g s (S m)). exact M.
Qed.

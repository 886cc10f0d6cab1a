(** Lemmas behind C102. *)
From Coq Require Import Lia ZifyBool.
From Verif Require Import PyBase L_PyBase PyDict PyInt M_SofaHeader M_Package L_Package L_Codec M_RpcId M_Trace S_Wire M_SyncClient L_SyncClient M_AioServer S_Server L_AioServer L_AioServer2 L_AioServer3 L_AioServer4 L_AioServer5 L_AioServer6 L_AioServer7 L_AioServer8 L_AioServer9
  M_SockServer S_SockServer L_SockServer M_System S_System L_System M_SyncSystem S_SyncSystem L_SyncSystem M_Listener S_Listener L_Listener M_Net S_Net L_Net M_Deploy S_Deploy L_Deploy M_World S_World.
From Verif Require M_AioClient L_AioClient L_AioClient4 L_AioClient6 L_System1 L_Rest1 L_AioSock.
Open Scope nat_scope.

(** ** What a step of the rest does to the other end of a connection of an asyncio client *)
Definition apart (s : dep) (e : peer) : Prop := ~ In (Some e) (map w_peer (d_wires s)).
Record keeps (U : tables) (s s' : dep) (e : peer) : Prop := {
  ke_ends : same_ends U s s' e;
  ke_apart : apart s e -> apart s' e;
  ke_loc : forall addr, located s e addr -> located s' e addr
}.
Lemma keeps_trans U s1 s2 s3 e : keeps U s1 s2 e -> keeps U s2 s3 e -> keeps U s1 s3 e.
Proof.
  intros [A B C] [A' B' C']. constructor; auto. intros got sent Hg Hs. destruct (A got sent Hg Hs) as (Hg' & sent' & Hs' & P). destruct (A' got sent' Hg' Hs') as (Hg2 & sent2 & Hs2 & P').
  split; [exact Hg2|]. exists sent2. split; [exact Hs2|exact (prefix_trans _ _ _ P P')].
Qed.
Lemma keeps_frame U s s' e : d_net s' = d_net s -> d_thrs s' = d_thrs s -> map w_peer (d_wires s') = map w_peer (d_wires s) -> keeps U s s' e.
Proof.
  intros En Et Ew. constructor.
  - apply same_refl; intros; rewrite ?En, ?Et; reflexivity.
  - unfold apart. rewrite Ew. auto.
  - intros addr. destruct e; cbn [located]; rewrite ?Et; auto.
Qed.
Lemma clients_nil U t regs zl : z_clients (z_run U t 0 regs zl) = [].
Proof.
  induction zl as [|o zl IH] using rev_ind; [reflexivity|]. rewrite zrun_snoc. revert IH. generalize (z_run U t 0 regs zl). intros z Hz.
  assert (K : forall p f, z_clients (on_client p f z) = []) by (intros p f; cbn; rewrite Hz; destruct p; reflexivity).
  assert (N : forall p, nth_error (z_clients z) p = None) by (intros p; rewrite Hz; destruct p; reflexivity).
  destruct o as [p d rid addr|p i tr|p o|a o|p c m|p c m]; cbn [z_step]; rewrite ?N; try exact Hz.
  - destruct (y_request d rid); [apply K|exact Hz].
  - destruct o; try exact Hz; apply K.
  - destruct o as [tr|name sv|m o|]; try exact Hz. destruct o; try exact Hz. destruct (owned z a m); exact Hz.
Qed.
Lemma nobody U t regs s a m : dok U t 0 regs s -> owned (d_net s) a m = false.
Proof. intros D. destruct (do_net _ _ _ _ _ D) as (zl & ->). unfold owned. rewrite clients_nil. reflexivity. Qed.
Lemma keeps_net U t regs s o e : dok U t 0 regs s -> (forall a m b, o = ZServer a (LConn m (Feed b)) -> e <> PAio a m) -> keeps U s (with_net (z_step U t o (d_net s)) s) e.
Proof.
  intros D Nf. constructor; [|auto|destruct e; auto].
  destruct e as [a m|th]; [|apply same_refl; [discriminate|reflexivity]]. intros got sent Hg Hs. cbn [end_got end_sent with_net d_net] in *. destruct (z_conn (d_net s) a m) as [y|] eqn:Ey; [|discriminate].
  destruct (zstep_other U t o (d_net s) a m y Ey (nobody U t regs s a m D)) as (_ & st & Ns & Es); [intros bs E; exact (Nf _ _ _ E eq_refl)|].
  destruct (do_net _ _ _ _ _ D) as (zl & Hz). assert (G : good y) by (rewrite Hz in Ey; exact (zconn_good _ _ _ _ _ _ _ _ Ey)). destruct (nofeed_keeps U y st G Ns) as (Ki & Kr).
  rewrite Es. cbn [option_map] in *. injection Hg as <-. injection Hs as <-. rewrite Ki. split; [reflexivity|]. eexists. split; [reflexivity|exact Kr].
Qed.
Lemma keeps_thr U s th a e : (forall b, a = Arrive b -> e <> PThr th) -> keeps U s (with_thr th a s) e.
Proof.
  intros H. constructor; [|auto|].
  - destruct e as [p m|k]; [apply same_refl; [reflexivity|discriminate]|]. intros got sent Hg Hs. cbn [end_got end_sent with_thr d_thrs] in *. destruct (nth_error (d_thrs s) k) as [y|] eqn:Hy; [|discriminate].
    cbn [option_map] in *. injection Hg as <-. injection Hs as <-. destruct (Nat.eq_dec th k) as [->|Ne].
    + rewrite (nth_upd_same _ _ _ _ Hy). cbn [option_map th_arrive th_net]. split; [|eexists; split; [reflexivity|apply th_sent_more]].
      destruct (arrived_snoc (th_net y) a) as [->|(b & E & _)]; [reflexivity|]. destruct (H b E eq_refl).
    + rewrite nth_upd_other by exact Ne. rewrite Hy. split; [reflexivity|]. eexists. split; [reflexivity|]. exists []. symmetry. apply app_nil_r.
  - intros addr. destruct e as [p m|k]; cbn [located with_thr d_thrs]; [auto|]. intros (y & Hy & Ey). destruct (Nat.eq_dec th k) as [->|Ne].
    + exists (th_arrive a y). rewrite (nth_upd_same _ _ _ _ Hy). split; [reflexivity|exact Ey].
    + exists y. rewrite nth_upd_other by exact Ne. auto.
Qed.
Lemma keeps_addwire U s x e : w_peer x <> Some e -> keeps U s (add_wire x s) e.
Proof.
  intros H. constructor; [apply same_refl; reflexivity| |destruct e; auto]. unfold apart. cbn [add_wire d_wires]. rewrite map_app, in_app_iff. cbn. tauto.
Qed.
Lemma keeps_addthr U s th e : keeps U s (add_thr th s) e.
Proof. constructor; [apply same_addthr|auto|intros addr; apply located_addthr]. Qed.
(** the end of a new connection was not there before *)
Definition there (s : dep) (e : peer) : Prop := exists got, end_got s e = Some got.
Lemma aio_new s a v : nth_error (z_servers (d_net s)) a = Some v -> ~ there s (PAio a (List.length (n_conns v))).
Proof. intros Ev (g & H). cbn [end_got] in H. unfold z_conn in H. rewrite Ev in H. assert (N : nth_error (n_conns v) (List.length (n_conns v)) = None) by (apply nth_error_None; lia). rewrite N in H. discriminate. Qed.
Lemma thr_new s : ~ there s (PThr (List.length (d_thrs s))).
Proof. intros (g & H). cbn [end_got] in H. assert (N : nth_error (d_thrs s) (List.length (d_thrs s)) = None) by (apply nth_error_None; lia). rewrite N in H. discriminate. Qed.
Lemma keeps_connect U t regs id i addr acc s e : dok U t 0 regs s -> there s e -> keeps U s (fst (connect U id i addr acc s)) e.
Proof.
  intros D T. unfold connect. destruct (find_wire id (d_wires s)); [apply keeps_frame; reflexivity|].
  assert (N : keeps U s (add_wire (new_wire id i None) s) e) by (apply keeps_addwire; discriminate).
  destruct acc as [tr|fuel reg tr fresh call w|]; [| |exact N].
  - destruct (nth_error (z_servers (d_net s)) (Z.to_nat addr)) as [v|] eqn:Ev; [|exact N]. destruct (0 <=? addr)%Z; [|exact N]. cbn [fst].
    apply (keeps_trans U s (with_net (on_server U (Z.to_nat addr) (LAccept tr) (d_net s)) s)).
    + apply (keeps_net U t regs s (ZServer (Z.to_nat addr) (LAccept tr)) e D). discriminate.
    + apply keeps_addwire. cbn. intros [= <-]. exact (aio_new _ _ _ Ev T).
  - destruct (addr <? 0)%Z; [|exact N]. cbn [fst]. apply (keeps_trans U s (add_thr (new_thr addr fuel reg tr fresh call w) s)); [apply keeps_addthr|]. apply keeps_addwire. cbn. intros [= <-]. exact (thr_new _ T).
Qed.
Lemma keeps_leave U i c conn s e : keeps U s (leave i c conn s) e.
Proof. unfold leave. destruct conn; [destruct (c_oneway c)|]; apply keeps_frame; reflexivity. Qed.
Lemma keeps_again U i c r conn s e : keeps U s (again i c r conn s) e.
Proof. unfold again. destruct (Nat.ltb (S r) 3); [apply keeps_frame; reflexivity|apply keeps_leave]. Qed.
Lemma keeps_wire U w f s e : (forall x, w_peer (f x) = w_peer x) -> keeps U s (with_wire w f s) e.
Proof. intros H. apply keeps_frame; try reflexivity. cbn [with_wire d_wires]. apply map_upd_same. exact H. Qed.
Lemma keeps_round U t regs i mk dr acc send c r conn s e : dok U t 0 regs s -> there s e -> keeps U s (round U i mk dr acc send c r conn s) e.
Proof.
  intros D T. unfold round. destruct (fetch mk dr (c_addr c) (d_mgrs s)) as (m, got) eqn:Ef. destruct (fetch_names _ _ _ _ _ _ Ef) as (-> & _).
  assert (K0 : keeps U s (with_mgrs (S (d_mgrs s)) s) e) by (apply keeps_frame; reflexivity).
  destruct got as [id|ex]; [|apply (keeps_trans _ _ _ _ _ K0); destruct ex; try apply keeps_again; apply keeps_leave].
  assert (D0 : dok U t 0 regs (with_mgrs (S (d_mgrs s)) s)) by (apply dok_mgrs; [exact D|lia]).
  pose proof (keeps_connect U t regs id i (c_addr c) acc (with_mgrs (S (d_mgrs s)) s) e D0 T) as K1. destruct (connect U id i (c_addr c) acc (with_mgrs (S (d_mgrs s)) s)) as (s1, w). cbn [fst] in K1. pose proof (keeps_trans _ _ _ _ _ K0 K1) as K.
  destruct (let! p := c_request c in to_stream p) as [bs|ex]; [|apply (keeps_trans _ _ _ _ _ K); destruct ex; try apply keeps_again; apply keeps_leave].
  destruct send as [k|ex]; [|apply (keeps_trans _ _ _ _ _ K); destruct ex; try apply keeps_again; apply keeps_leave].
  apply (keeps_trans _ _ _ _ _ K). apply (keeps_trans U s1 (with_wire w (w_write (py_take k bs)) s1)); [apply keeps_wire; reflexivity|apply keeps_leave].
Qed.
Lemma keeps_recv U i c w y ev s e : keeps U s (recv i c w y ev s) e.
Proof. unfold recv. destruct ev; try (apply keeps_frame; reflexivity). destruct (receive n y) as [r|ex]; [|apply keeps_frame; reflexivity]. destruct (len (y_buf r) <? y_total r)%Z; apply keeps_frame; reflexivity. Qed.
Lemma peer_in s w y : nth_error (d_wires s) w = Some y -> In (w_peer y) (map w_peer (d_wires s)).
Proof. intros H. apply in_map. exact (nth_error_In _ _ H). Qed.
Lemma keeps_step U t regs o s e : dok U t 0 regs s -> there s e -> apart s e -> (forall b, o <> bring e b) -> keeps U s (d_step U t o s) e.
Proof.
  intros D T A Nb. assert (Z : keeps U s s e) by (apply keeps_frame; reflexivity).
  destruct o as [o|d addr oneway rid|i mk dr acc send|i ev|w k|w k|th x|addr fuel reg tr fresh call x|th b]; cbn [d_step].
  - assert (K : (forall a m b, o = ZServer a (LConn m (Feed b)) -> e <> PAio a m) -> keeps U s (with_net (z_step U t o (d_net s)) s) e) by apply (keeps_net U t regs s o e D).
    destruct o as [p d rid a|p i tr|p o|a lo|p c m|p c m]; try (apply K; discriminate). destruct lo as [tr|name sv|m o|]; try (apply K; discriminate). destruct o as [|b| | | | | | | | | |]; try (apply K; discriminate).
    destruct (sync_conn s a m); [exact Z|]. apply K. intros a' m' b' [= <- <- <-] ->. exact (Nb b eq_refl).
  - apply keeps_frame; reflexivity.
  - destruct (nth_error (d_calls s) i) as [c|]; [|exact Z]. destruct (c_pc c) as [r conn| |]; try exact Z. exact (keeps_round U t regs _ _ _ _ _ _ _ _ _ _ D T).
  - destruct (nth_error (d_calls s) i) as [c|]; [|exact Z]. destruct (c_pc c) as [|w y|]; try exact Z. apply keeps_recv.
  - destruct (nth_error (d_wires s) w) as [y|] eqn:Hw; [|exact Z]. destruct (w_peer y) as [e'|] eqn:Hp; [|exact Z]. destruct (end_got s e') as [got|]; [|exact Z]. cbv zeta.
    assert (Ne : e <> e') by (intros <-; apply A; rewrite <- Hp; exact (peer_in _ _ _ Hw)). destruct e' as [a m|th].
    + pose proof (keeps_net U t regs s (ZServer a (LConn m (Feed (firstn k (skipn (List.length got) (w_out y)))))) e D) as K. cbn [z_step] in K. rewrite (nobody U t regs s a m D) in K. apply K. intros a' m' b' [= <- <- _]. exact Ne.
    + apply keeps_thr. intros b _. exact Ne.
  - destruct (nth_error (d_wires s) w) as [y|] eqn:Hw; [|exact Z]. destruct (w_peer y) as [e'|] eqn:Hp; [|exact Z]. destruct (end_sent U s e') as [sent|]; [|exact Z]. apply keeps_frame; try reflexivity. cbn [with_call with_wire d_wires]. apply map_upd_same. reflexivity.
  - apply keeps_thr. intros b E. destruct x; discriminate.
  - destruct (addr <? 0)%Z; [apply keeps_addthr|exact Z].
  - destruct (sync_thr s th); [exact Z|]. apply keeps_thr. intros b' _ ->. exact (Nb b eq_refl).
Qed.
(** bytes that are brought there arrive *)
Lemma bring_step U t regs s e b got sent : dok U t 0 regs s -> apart s e -> end_got s e = Some got -> end_sent U s e = Some sent -> let s' := d_step U t (bring e b) s in
  (end_got s' e = Some got \/ end_got s' e = Some (got ++ b)) /\ (exists sent', end_sent U s' e = Some sent' /\ prefix_of sent sent') /\ apart s' e /\ (forall addr, located s e addr -> located s' e addr).
Proof.
  intros D A Hg Hs. cbv zeta. destruct e as [a m|th]; cbn [bring d_step].
  - assert (Es : sync_conn s a m = false).
    { destruct (sync_conn s a m) eqn:E; [|reflexivity]. exfalso. apply existsb_exists in E as (w & Hw & E). destruct (w_peer w) as [[a' m'|]|] eqn:Hp; try discriminate. destruct (Nat.eqb_spec a' a), (Nat.eqb_spec m' m); try discriminate. subst.
      apply A. rewrite <- Hp. apply in_map. exact Hw. }
    rewrite Es. cbn [z_step]. rewrite (nobody U t regs s a m D). cbn [end_got end_sent with_net d_net] in *. destruct (z_conn (d_net s) a m) as [y|] eqn:Ey; [|discriminate]. cbn [option_map] in Hg, Hs. injection Hg as <-. injection Hs as <-.
    rewrite (server_conn U (d_net s) a (LConn m (Feed b)) a m y Ey). unfold what_at. cbn [fst snd]. rewrite Nat.eqb_refl.
    assert (Hsv : exists sv, nth_error (z_servers (d_net s)) a = Some sv) by (unfold z_conn in Ey; destruct (nth_error (z_servers (d_net s)) a); [eauto|discriminate]). destruct Hsv as (sv & ->). cbn [what]. rewrite Nat.eqb_refl. cbn [option_map].
    destruct (do_net _ _ _ _ _ D) as (zl & Hz). assert (G : good y) by (rewrite Hz in Ey; exact (zconn_good _ _ _ _ _ _ _ _ Ey)). split; [|split; [|split; [exact A|auto]]].
    + right. rewrite in_from by exact G. cbn [fed map concat]. unfold fed. cbn. rewrite app_nil_r. reflexivity.
    + eexists. split; [reflexivity|]. destruct (out_from U [Feed b] y G) as (z & Eo). unfold y_replied. rewrite Eo, map_app, concat_app. eexists. reflexivity.
  - assert (Es : sync_thr s th = false).
    { destruct (sync_thr s th) eqn:E; [|reflexivity]. exfalso. apply existsb_exists in E as (w & Hw & E). destruct (w_peer w) as [[|t']|] eqn:Hp; try discriminate. destruct (Nat.eqb_spec t' th); try discriminate. subst. apply A. rewrite <- Hp. apply in_map. exact Hw. }
    rewrite Es. cbn [end_got end_sent with_thr d_thrs] in *. destruct (nth_error (d_thrs s) th) as [y|] eqn:Hy; [|discriminate]. rewrite (nth_upd_same _ _ _ _ Hy). cbn [option_map th_arrive th_net] in *. injection Hg as <-. injection Hs as <-.
    split; [|split; [eexists; split; [reflexivity|apply th_sent_more]|split; [exact A|]]].
    2: { intros addr (z & Hz & Ez). exists (th_arrive (Arrive b) y). cbn [with_thr d_thrs]. rewrite (nth_upd_same _ _ _ _ Hy). split; [reflexivity|]. assert (z = y) by congruence. subst z. exact Ez. }
    destruct (arrived_snoc (th_net y) (Arrive b)) as [->|(b' & [= <-] & ->)]; auto.
Qed.

(** ** What the steps are for one client *)
Definition lab1 (p : nat) (o : wstep) : list ystep :=
  match o with WCall p' d rid a => if Nat.eqb p' p then [YCall d rid a] else [] | WClient p' o => if Nat.eqb p' p then [YClient o] else [] | _ => [] end.
Definition lab (p : nat) (l : list wstep) : list ystep := concat (map (lab1 p) l).
Lemma lab_snoc p l o : lab p (l ++ [o]) = lab p l ++ lab1 p o.
Proof. unfold lab. rewrite map_app, concat_app. cbn. rewrite app_nil_r. reflexivity. Qed.
Lemma lab_ids p l : y_ids (lab p l) = w_ids p l.
Proof.
  induction l as [|o l IH]; [reflexivity|]. change (lab p (o :: l)) with (lab1 p o ++ lab p l). rewrite L_AioSock.ids_app, IH. unfold w_ids. cbn [map concat]. f_equal. destruct o as [p' d rid a|p' i acc|p' o|o|p' c n|p' c n]; try reflexivity; cbn [lab1]; destruct (Nat.eqb p' p); try reflexivity.
  - unfold y_ids. cbn. destruct o; reflexivity.
  - destruct o; reflexivity.
Qed.
Lemma lab_call p l d rid a : In (YCall d rid a) (lab p l) <-> In (WCall p d rid a) l.
Proof.
  unfold lab. rewrite in_concat. split.
  - intros (x & H & K). apply in_map_iff in H as (o & <- & H). destruct o as [p' d' rid' a'|p' i acc|p' o|o|p' c n|p' c n]; cbn [lab1] in K; try contradiction; destruct (Nat.eqb_spec p' p) as [->|]; try contradiction; destruct K as [K|[]]; [injection K as -> -> ->; exact H|discriminate].
  - intros H. exists [YCall d rid a]. split; [|left; reflexivity]. apply in_map_iff. exists (WCall p d rid a). split; [cbn [lab1]; rewrite Nat.eqb_refl; reflexivity|exact H].
Qed.
Lemma ids_left (l m : list ystep) : NoDup (y_ids (l ++ m)) -> NoDup (y_ids l).
Proof. rewrite L_AioSock.ids_app. apply NoDup_left. Qed.

(** where the calls of a client come from *)
Record from (l : list ystep) (k : M_AioClient.st) : Prop := {
  fr_from : forall x, In x (specs k) -> origin l x;
  fr_ids : NoDup (y_ids l) -> NoDup (map (fun x => rid_of (fst x)) (specs k))
}.
Lemma from_more l m k k' : from l k -> specs k' = specs k -> from (l ++ m) k'.
Proof. intros [A B] E. constructor; rewrite E; [intros x H; apply L_AioSock.origin_app, A; exact H|intros N; apply B; exact (ids_left _ _ N)]. Qed.
Lemma from_new l y k k' x : from l k -> specs k' = specs k ++ [x] -> origin (l ++ [y]) x -> y_ids [y] = [rid_of (fst x)] -> from (l ++ [y]) k'.
Proof.
  intros [A B] E O I. constructor; rewrite E.
  - intros z H. apply in_app_iff in H as [H|[<-|[]]]; [apply L_AioSock.origin_app, A; exact H|exact O].
  - intros N. pose proof (B (ids_left _ _ N)) as B'. rewrite L_AioSock.ids_app, I in N. rewrite map_app. cbn [map]. apply NoDup_last in N. apply NoDup_snoc; [exact B'|].
    intros H. apply N. apply in_map_iff in H as (w & <- & Hw). apply origin_id. apply A. exact Hw.
Qed.

(** ** The invariant *)
Record connok (U : tables) (s : dep) (k : M_AioClient.st) (c : nat) (e : peer) : Prop := {
  co_far : exists got sent b, end_got s e = Some got /\ prefix got (y_sent k c) /\ end_sent U s e = Some sent /\ nth_error (ins k) c = Some b /\ prefix b sent;
  co_addr : exists addr, nth_error (L_AioClient6.addrs k) c = Some addr /\ located s e addr;
  co_apart : apart s e
}.
Record winv (U : tables) (t : M_AioClient.timer) (regs : list registry) (l : list wstep) (x : world) : Prop := {
  wi_dep : exists dl, b_dep x = d_run U t 0 regs dl;
  wi_len : forall p k, nth_error (b_clients x) p = Some k -> List.length (o_conns k) = List.length (ins (o_state t k));
  wi_conn : forall p k c e, nth_error (b_clients x) p = Some k -> nth_error (o_conns k) c = Some e -> connok U (b_dep x) (o_state t k) c e;
  wi_own : forall p p' k k' c c' e, nth_error (b_clients x) p = Some k -> nth_error (b_clients x) p' = Some k' -> nth_error (o_conns k) c = Some e -> nth_error (o_conns k') c' = Some e -> p = p' /\ c = c';
  wi_from : forall p k, nth_error (b_clients x) p = Some k -> from (lab p l) (o_state t k)
}.
Lemma ostate_add t o k : o_state t (o_add o k) = M_AioClient.run_step o (o_state t k).
Proof. unfold o_state, o_add, M_AioClient.run. cbn [o_hist]. rewrite fold_left_app. reflexivity. Qed.
Lemma wi_dok U t regs l x : winv U t regs l x -> dok U t 0 regs (b_dep x).
Proof. intros W. destruct (wi_dep _ _ _ _ _ W) as (dl & ->). apply dok_run. Qed.
Lemma co_there U s k c e : connok U s k c e -> there s e.
Proof. intros [(g & _ & _ & H & _) _ _]. exists g. exact H. Qed.
Lemma prefix_sync {A} (a b c : list A) : prefix a b -> prefix_of b c -> prefix a c.
Proof. intros (x & ->) (y & ->). exists (x ++ y). rewrite app_assoc. reflexivity. Qed.
Lemma connok_keeps U s s' k c e : connok U s k c e -> keeps U s s' e -> connok U s' k c e.
Proof.
  intros [(g & sn & b & A & B & C & D & E) (ad & F & G) H] [K L M]. constructor; [|exists ad; auto|auto].
  destruct (K g sn A C) as (A' & sn' & C' & P). exists g, sn', b. split; [exact A'|]. split; [exact B|]. split; [exact C'|]. split; [exact D|exact (prefix_sync _ _ _ E P)].
Qed.
Lemma sent_prefix o k c x : prefix x (y_sent k c) -> prefix x (y_sent (M_AioClient.run_step o k) c).
Proof. intros H. destruct (sent_grows o k c) as (z & ->). apply prefix_app. exact H. Qed.
(** a step of a client that changes nothing but its own state *)
Lemma connok_client U s k c e o : connok U s k c e -> (forall b, nth_error (ins k) c = Some b -> nth_error (ins (M_AioClient.run_step o k)) c = Some b) -> connok U s (M_AioClient.run_step o k) c e.
Proof.
  intros [(g & sn & b & A & B & C & D & E) (ad & F & G) H] I. constructor; [|exists ad; split; [exact (L_AioClient6.addrs_keep _ _ _ _ (L_AioClient6.step_conns o k) F)|exact G]|exact H].
  exists g, sn, b. split; [exact A|]. split; [exact (sent_prefix o k c g B)|]. auto.
Qed.
Lemma winv_label U t regs l o x : winv U t regs l x -> (forall p k, nth_error (b_clients x) p = Some k -> from (lab p (l ++ [o])) (o_state t k)) -> winv U t regs (l ++ [o]) x.
Proof. intros [A B C D _] H. constructor; auto. Qed.
Lemma winv_void U t regs l o x : winv U t regs l x -> winv U t regs (l ++ [o]) x.
Proof. intros W. apply winv_label; [exact W|]. intros p k Hp. rewrite lab_snoc. exact (from_more _ _ _ _ (wi_from _ _ _ _ _ W p k Hp) eq_refl). Qed.
Lemma winv_client U t regs l o x p co : winv U t regs l x ->
  (forall k, nth_error (b_clients x) p = Some k -> let s := o_state t k in let s' := M_AioClient.run_step co s in
     List.length (ins s') = List.length (ins s) /\ from (lab p (l ++ [o])) s' /\ forall c e, nth_error (o_conns k) c = Some e -> connok U (b_dep x) s' c e) ->
  (forall p', p' <> p -> lab1 p' o = []) ->
  winv U t regs (l ++ [o]) (on_oclient p (o_add co) x).
Proof.
  intros W H Hl. constructor; cbn [on_oclient b_dep b_clients].
  - exact (wi_dep _ _ _ _ _ W).
  - intros q k Hq. apply nth_upd_inv in Hq as [(<- & k0 & H0 & ->)|(_ & Hq)]; [|exact (wi_len _ _ _ _ _ W q k Hq)]. rewrite ostate_add. destruct (H k0 H0) as (E & _). cbv zeta in E. rewrite E. exact (wi_len _ _ _ _ _ W p k0 H0).
  - intros q k c e Hq Hc. apply nth_upd_inv in Hq as [(<- & k0 & H0 & ->)|(_ & Hq)]; [|exact (wi_conn _ _ _ _ _ W q k c e Hq Hc)]. rewrite ostate_add. destruct (H k0 H0) as (_ & _ & E). exact (E c e Hc).
  - assert (K : forall q k, nth_error (upd p (o_add co) (b_clients x)) q = Some k -> exists k0, nth_error (b_clients x) q = Some k0 /\ o_conns k0 = o_conns k).
    { intros q k Hq. apply nth_upd_inv in Hq as [(<- & k0 & H0 & ->)|(_ & Hq)]; eauto. }
    intros q q' k k' c c' e Hq Hq' Hc Hc'. destruct (K q k Hq) as (k0 & K0 & E0), (K q' k' Hq') as (k1 & K1 & E1). rewrite <- E0 in Hc. rewrite <- E1 in Hc'. exact (wi_own _ _ _ _ _ W q q' k0 k1 c c' e K0 K1 Hc Hc').
  - intros q k Hq. apply nth_upd_inv in Hq as [(<- & k0 & H0 & ->)|(Ne & Hq)].
    + rewrite ostate_add. exact (proj1 (proj2 (H k0 H0))).
    + rewrite lab_snoc, (Hl q (fun E => Ne (eq_sym E))), app_nil_r. exact (wi_from _ _ _ _ _ W q k Hq).
Qed.
(** a step of the rest *)
Lemma winv_rest U t regs l o x do : winv U t regs l x -> (forall p, lab1 p o = []) ->
  (forall p k c e, nth_error (b_clients x) p = Some k -> nth_error (o_conns k) c = Some e -> connok U (d_step U t do (b_dep x)) (o_state t k) c e) -> winv U t regs (l ++ [o]) (on_rest U t do x).
Proof.
  intros W Hl H. constructor; cbn [on_rest b_dep b_clients].
  - destruct (wi_dep _ _ _ _ _ W) as (dl & ->). exists (dl ++ [do]). rewrite drun_snoc. reflexivity.
  - exact (wi_len _ _ _ _ _ W).
  - exact H.
  - exact (wi_own _ _ _ _ _ W).
  - intros p k Hp. rewrite lab_snoc, Hl, app_nil_r. exact (wi_from _ _ _ _ _ W p k Hp).
Qed.
Lemma theirs_false x p k c e : theirs x e = false -> nth_error (b_clients x) p = Some k -> nth_error (o_conns k) c = Some e -> False.
Proof.
  intros H Hp Hc. assert (theirs x e = true); [|congruence]. apply existsb_exists. exists k. split; [exact (nth_error_In _ _ Hp)|]. apply existsb_exists. exists e. split; [exact (nth_error_In _ _ Hc)|].
  destruct e; cbn; rewrite !Nat.eqb_refl; reflexivity.
Qed.
Lemma bring_inj e e' b b' : bring e b = bring e' b' -> e = e'.
Proof. destruct e, e'; cbn; intros E; congruence. Qed.
(** a new connection *)
Lemma accepts_step U t regs s addr acc o e : dok U t 0 regs s -> accepts addr acc s = Some (o, e) ->
  ~ there s e /\ (forall e' b, o <> bring e' b) /\ let s' := d_step U t o s in end_got s' e = Some [] /\ (exists sent, end_sent U s' e = Some sent) /\ apart s' e /\ located s' e addr.
Proof.
  intros D E.
  assert (Ap : forall s', map w_peer (d_wires s') = map w_peer (d_wires s) -> ~ there s e -> apart s' e).
  { intros s' Ew N H. rewrite Ew in H. apply in_map_iff in H as (y & Hp & Hy). apply In_nth_error in Hy as (w & Hy). pose proof (wk_peer _ _ _ (do_wires _ _ _ _ _ D w y Hy)) as P. rewrite Hp in P. destruct P as (g & _ & G & _). apply N. exists g. exact G. }
  destruct acc as [tr|fuel reg tr fresh call w|]; [| |discriminate]; cbn [accepts] in E.
  - destruct (nth_error (z_servers (d_net s)) (Z.to_nat addr)) as [v|] eqn:Ev; [|discriminate]. destruct (Z.leb_spec 0 addr) as [Ha|]; [|discriminate]. injection E as <- <-. pose proof (aio_new s _ v Ev) as N.
    split; [exact N|]. split; [intros [|]; discriminate|]. cbv zeta. cbn [d_step z_step].
    assert (K : z_conn (on_server U (Z.to_nat addr) (LAccept tr) (d_net s)) (Z.to_nat addr) (List.length (n_conns v)) = Some (sinit (n_reg v) tr)).
    { unfold z_conn, on_server. cbn [z_servers]. rewrite (nth_upd_same _ _ _ _ Ev). cbn [lrun_step n_conns]. apply snoc_new. }
    cbn [end_got end_sent with_net d_net]. rewrite K. split; [reflexivity|]. split; [eexists; reflexivity|]. split; [apply Ap; [reflexivity|exact N]|]. cbn [located]. lia.
  - destruct (Z.ltb_spec addr 0) as [Ha|]; [|discriminate]. injection E as <- <-. pose proof (thr_new s) as N. split; [exact N|]. split; [intros [|]; discriminate|]. cbv zeta. cbn [d_step]. destruct (Z.ltb_spec addr 0); [|lia].
    cbn [end_got end_sent add_thr d_thrs]. rewrite snoc_new. split; [reflexivity|]. split; [eexists; reflexivity|]. split; [apply Ap; [reflexivity|exact N]|]. cbn [located add_thr d_thrs]. eexists. split; [apply snoc_new|reflexivity].
Qed.
Lemma winv_step U t regs l o x : winv U t regs l x -> winv U t regs (l ++ [o]) (w_step U t o x).
Proof.
  intros W. pose proof (wi_dok _ _ _ _ _ W) as D.
  assert (Rest : forall do, (forall p, lab1 p o = []) -> (forall p k c e b, nth_error (b_clients x) p = Some k -> nth_error (o_conns k) c = Some e -> do <> bring e b) -> winv U t regs (l ++ [o]) (on_rest U t do x)).
  { intros do Hl Hb. apply winv_rest; [exact W|exact Hl|]. intros p k c e Hp Hc. pose proof (wi_conn _ _ _ _ _ W p k c e Hp Hc) as C. apply (connok_keeps U (b_dep x)); [exact C|].
    apply (keeps_step U t regs); [exact D|exact (co_there _ _ _ _ _ C)|exact (co_apart _ _ _ _ _ C)|]. intros b. exact (Hb p k c e b Hp Hc). }
  destruct o as [p d rid a|p i acc|p o|o|p c n|p c n]; cbn [w_step].
  - destruct (y_request d rid) as [q|ex] eqn:Er; [|apply winv_void; exact W]. apply winv_client; [exact W| |].
    + intros k Hp. cbv zeta. destruct (L_System1.step_moves (M_AioClient.Call q a) (o_state t k)) as (I & S). split; [rewrite I; reflexivity|]. split.
      * rewrite lab_snoc. cbn [lab1]. rewrite Nat.eqb_refl. apply (from_new _ _ (o_state t k) _ (q, a)); [exact (wi_from _ _ _ _ _ W p k Hp)|exact S| |].
        { left. exists d, rid. split; [apply in_or_app; right; left; reflexivity|exact Er]. }
        { cbn. apply request_id in Er as (-> & _). reflexivity. }
      * intros c e Hc. apply connok_client; [exact (wi_conn _ _ _ _ _ W p k c e Hp Hc)|]. rewrite I. auto.
    + intros p' Ne. cbn [lab1]. destruct (Nat.eqb_spec p p'); [congruence|reflexivity].
  - destruct (nth_error (b_clients x) p) as [k|] eqn:Hp; [|apply winv_void; exact W]. cbv zeta. destruct (nth_error (M_AioClient.s_links (o_state t (o_add (M_AioClient.DialOk i) k))) _) as [lk|] eqn:Ek; [|apply winv_void; exact W].
    destruct (accepts (M_AioClient.k_addr lk) acc (b_dep x)) as [(do, e)|] eqn:Ea; [|apply winv_void; exact W].
    destruct (accepts_step U t regs _ _ _ _ _ D Ea) as (Nt & Nb & G & (sn & Sn) & Ap & Lo). cbv zeta in G, Sn, Ap, Lo.
    destruct (L_System1.step_moves (M_AioClient.DialOk i) (o_state t k)) as (I & S). rewrite ostate_add in Ek. rewrite links_ins in Ek. set (s' := M_AioClient.run_step (M_AioClient.DialOk i) (o_state t k)) in *.
    destruct I as [I|I].
    { exfalso. assert (L : nth_error (M_AioClient.s_links s') (List.length (ins (o_state t k))) = None) by (apply nth_error_None; rewrite links_ins, I; lia). congruence. }
    pose proof (wi_len _ _ _ _ _ W p k Hp) as Ln.
    set (k' := {| o_hist := o_hist (o_add (M_AioClient.DialOk i) k); o_conns := o_conns k ++ [e] |}).
    assert (Es : o_state t k' = s') by (change (o_state t k') with (o_state t (o_add (M_AioClient.DialOk i) k)); apply ostate_add).
    assert (Kp : forall q k0 c e0, nth_error (b_clients x) q = Some k0 -> nth_error (o_conns k0) c = Some e0 -> connok U (d_step U t do (b_dep x)) (o_state t k0) c e0).
    { intros q k0 c e0 Hq Hc. pose proof (wi_conn _ _ _ _ _ W q k0 c e0 Hq Hc) as C. apply (connok_keeps U (b_dep x)); [exact C|]. apply (keeps_step U t regs); [exact D|exact (co_there _ _ _ _ _ C)|exact (co_apart _ _ _ _ _ C)|]. intros b. apply Nb. }
    constructor; cbn [on_oclient on_rest b_dep b_clients].
    + destruct (wi_dep _ _ _ _ _ W) as (dl & ->). exists (dl ++ [do]). rewrite drun_snoc. reflexivity.
    + intros q k0 Hq. apply nth_upd_inv in Hq as [(<- & k1 & _ & ->)|(_ & Hq)]; [|exact (wi_len _ _ _ _ _ W q k0 Hq)]. fold k'. rewrite Es, I. cbn [k' o_conns]. rewrite !app_length, Ln. reflexivity.
    + intros q k0 c e0 Hq Hc. apply nth_upd_inv in Hq as [(<- & k1 & _ & ->)|(_ & Hq)]; [|exact (Kp q k0 c e0 Hq Hc)]. fold k' in Hc |- *. rewrite Es. cbn [k' o_conns] in Hc. apply snoc_inv in Hc as [(Hc & Lc)|(-> & ->)].
      * apply connok_client; [exact (Kp p k c e0 Hp Hc)|]. fold s'. rewrite I. intros b Hb. apply snoc_old. exact Hb.
      * constructor; [|exists (M_AioClient.k_addr lk); split; [unfold L_AioClient6.addrs; rewrite nth_error_map, Ln, Ek; reflexivity|exact Lo]|exact Ap].
        exists [], sn, []. split; [exact G|]. split; [eexists; reflexivity|]. split; [exact Sn|]. split; [rewrite I, Ln; apply snoc_new|eexists; reflexivity].
    + assert (Q : forall q k0 c e0, nth_error (upd p (fun _ => k') (b_clients x)) q = Some k0 -> nth_error (o_conns k0) c = Some e0 ->
        (exists k1, nth_error (b_clients x) q = Some k1 /\ nth_error (o_conns k1) c = Some e0 /\ e0 <> e) \/ (q = p /\ c = List.length (o_conns k) /\ e0 = e)).
      { intros q k0 c e0 Hq Hc. assert (Nx : forall k1, nth_error (b_clients x) q = Some k1 -> nth_error (o_conns k1) c = Some e0 -> e0 <> e) by (intros k1 A B ->; exact (Nt (co_there _ _ _ _ _ (wi_conn _ _ _ _ _ W q k1 c e A B)))).
        apply nth_upd_inv in Hq as [(<- & k1 & _ & ->)|(_ & Hq)]; [|left; eauto]. cbn [k' o_conns] in Hc. apply snoc_inv in Hc as [(Hc & _)|(-> & ->)]; [left; eauto|right; auto]. }
      intros q q' k0 k1 c c' e0 Hq Hq' Hc Hc'. destruct (Q q k0 c e0 Hq Hc) as [(a0 & A1 & A2 & A3)|(A1 & A2 & A3)], (Q q' k1 c' e0 Hq' Hc') as [(b0 & B1 & B2 & B3)|(B1 & B2 & B3)]; try congruence; [|subst; auto].
      exact (wi_own _ _ _ _ _ W q q' a0 b0 c c' e0 A1 B1 A2 B2).
    + intros q k0 Hq. apply nth_upd_inv in Hq as [(<- & k1 & _ & ->)|(_ & Hq)]; rewrite lab_snoc; cbn [lab1]; rewrite app_nil_r; [|exact (wi_from _ _ _ _ _ W q k0 Hq)].
      fold k'. rewrite Es. rewrite <- (app_nil_r (lab p l)). exact (from_more _ _ _ _ (wi_from _ _ _ _ _ W p k Hp) S).
  - pose proof (fun k => L_System1.step_moves o (o_state t k)) as M.
    assert (Q : (forall k, nth_error (b_clients x) p = Some k -> ins (M_AioClient.run_step o (o_state t k)) = ins (o_state t k) /\ from (lab p (l ++ [WClient p o])) (M_AioClient.run_step o (o_state t k))) -> winv U t regs (l ++ [WClient p o]) (on_oclient p (o_add o) x)).
    { intros H. apply winv_client; [exact W| |intros p' Ne; cbn [lab1]; destruct (Nat.eqb_spec p p'); [congruence|reflexivity]]. intros k Hp. cbv zeta. destruct (H k Hp) as (I & F). split; [rewrite I; reflexivity|]. split; [exact F|].
      intros c e Hc. apply connok_client; [exact (wi_conn _ _ _ _ _ W p k c e Hp Hc)|]. rewrite I. auto. }
    destruct o as [r ad|i|i|i|i|i|i|i|i|c bs|c|c|c|rid|]; cbn [L_System1.moves] in M; try (apply winv_void; exact W);
      try (apply Q; intros k Hp; split; [exact (proj1 (M k))|rewrite lab_snoc; exact (from_more _ _ _ _ (wi_from _ _ _ _ _ W p k Hp) (proj2 (M k)))]).
    apply Q. intros k Hp. destruct (M k) as (I & S). split; [exact I|]. rewrite lab_snoc. cbn [lab1]. rewrite Nat.eqb_refl. destruct S as [S|(q & ad & Hq & S)]; [exact (from_more _ _ _ _ (wi_from _ _ _ _ _ W p k Hp) S)|].
    apply (from_new _ _ (o_state t k) _ (q, Ok ad)); [exact (wi_from _ _ _ _ _ W p k Hp)|exact S| |].
    + right. exists rid. split; [apply in_or_app; right; left; reflexivity|exact Hq].
    + cbn. apply beat_id in Hq as (-> & _). reflexivity.
  - assert (R : (forall p k c e b, nth_error (b_clients x) p = Some k -> nth_error (o_conns k) c = Some e -> o <> bring e b) -> winv U t regs (l ++ [WRest o]) (on_rest U t o x)) by (intros H; apply Rest; [reflexivity|exact H]).
    destruct o as [o|d addr oneway rid|i mk dr acc send|i ev|w k|w k|th ex|addr fuel reg tr fresh call ex|th b]; try (apply R; intros ? ? ? [|] ? _ _; discriminate).
    + destruct o as [p d rid a|p i tr|p o|a lo|p c m|p c m]; try (apply R; intros ? ? ? [|] ? _ _; discriminate). destruct lo as [tr|name sv|m o|]; try (apply R; intros ? ? ? [|] ? _ _; discriminate).
      destruct o as [|b| | | | | | | | | |]; try (apply R; intros ? ? ? [|] ? _ _; discriminate). destruct (theirs x (PAio a m)) eqn:E; [apply winv_void; exact W|]. apply R. intros p k c e b' Hp Hc Eb. change (bring (PAio a m) b = bring e b') in Eb. apply bring_inj in Eb. subst e. exact (theirs_false _ _ _ _ _ E Hp Hc).
    + destruct (theirs x (PThr th)) eqn:E; [apply winv_void; exact W|]. apply R. intros p k c e b' Hp Hc Eb. change (bring (PThr th) b = bring e b') in Eb. apply bring_inj in Eb. subst e. exact (theirs_false _ _ _ _ _ E Hp Hc).
  - destruct (nth_error (b_clients x) p) as [k|] eqn:Hp; [|apply winv_void; exact W]. destruct (nth_error (o_conns k) c) as [e|] eqn:Hc; [|apply winv_void; exact W]. destruct (end_got (b_dep x) e) as [got|] eqn:Hg; [|apply winv_void; exact W].
    set (b := firstn n _). apply winv_rest; [exact W|reflexivity|]. intros q k0 c0 e0 Hq Hc0. pose proof (wi_conn _ _ _ _ _ W q k0 c0 e0 Hq Hc0) as C.
    assert (Dec : e0 = e \/ e0 <> e) by (destruct e as [a m|th], e0 as [a0 m0|th0]; try (right; discriminate); [destruct (Nat.eq_dec a0 a), (Nat.eq_dec m0 m)|destruct (Nat.eq_dec th0 th)]; subst; try (left; reflexivity); right; congruence).
    destruct Dec as [->|Ne].
    + destruct (wi_own _ _ _ _ _ W q p k0 k c0 c e Hq Hp Hc0 Hc) as (-> & ->). assert (k0 = k) by congruence. subst k0. destruct C as [(g & sn & bb & A & B & S & I & P) (ad & F & L) H].
      assert (g = got) by congruence. subst g. destruct (bring_step U t regs (b_dep x) e b got sn D H Hg S) as (G' & (sn' & S' & P') & H' & L'). cbv zeta in G', S', H', L'.
      constructor; [|exists ad; auto|exact H']. destruct G' as [G'|G'].
      * exists got, sn', bb. split; [exact G'|]. split; [exact B|]. split; [exact S'|]. split; [exact I|exact (prefix_sync _ _ _ P P')].
      * exists (got ++ b), sn', bb. split; [exact G'|]. split; [apply prefix_next; exact B|]. split; [exact S'|]. split; [exact I|exact (prefix_sync _ _ _ P P')].
    + apply (connok_keeps U (b_dep x)); [exact C|]. apply (keeps_step U t regs); [exact D|exact (co_there _ _ _ _ _ C)|exact (co_apart _ _ _ _ _ C)|]. intros b' E. apply bring_inj in E. congruence.
  - destruct (nth_error (b_clients x) p) as [k|] eqn:Hp; [|apply winv_void; exact W]. destruct (nth_error (o_conns k) c) as [e|] eqn:Hc; [|apply winv_void; exact W]. destruct (nth_error (M_AioClient.s_links (o_state t k)) c) as [lk|] eqn:Hk; [|apply winv_void; exact W].
    destruct (end_sent U (b_dep x) e) as [sent|] eqn:Hs; [|apply winv_void; exact W]. set (b := firstn n _). apply winv_client; [exact W| |reflexivity]. intros k0 H0. assert (k0 = k) by congruence. subst k0. cbv zeta.
    destruct (L_System1.step_moves (M_AioClient.Feed c b) (o_state t k)) as (I & S). split; [rewrite I; clear; generalize (ins (o_state t k)) as v; intros v; revert c; induction v as [|z v IH]; intros [|c]; cbn; congruence|].
    split; [rewrite lab_snoc; exact (from_more _ _ _ _ (wi_from _ _ _ _ _ W p k Hp) S)|]. intros c0 e0 Hc0. pose proof (wi_conn _ _ _ _ _ W p k c0 e0 Hp Hc0) as [(g & sn & bb & A & B & Sn & In_ & P) (ad & F & L) H].
    constructor; [|exists ad; split; [exact (L_AioClient6.addrs_keep _ _ _ _ (L_AioClient6.step_conns _ _) F)|exact L]|exact H]. exists g, sn.
    destruct (Nat.eq_dec c0 c) as [->|Ne].
    + assert (e0 = e) by congruence. subst e0. assert (sn = sent) by congruence. subst sn. assert (Ei : bb = M_AioClient.k_in lk) by (unfold L_System1.ins in In_; rewrite nth_error_map, Hk in In_; cbn in In_; congruence). subst bb.
      exists (M_AioClient.k_in lk ++ b). split; [exact A|]. split; [exact (sent_prefix _ _ _ _ B)|]. split; [exact Sn|]. split; [|apply prefix_next; exact P].
      rewrite I. clear - In_. revert In_. generalize (ins (o_state t k)) as v. revert c. intros c v. revert c. induction v as [|z v IH]; intros [|c] H; cbn in *; try discriminate; [injection H as ->; reflexivity|exact (IH c H)].
    + exists bb. split; [exact A|]. split; [exact (sent_prefix _ _ _ _ B)|]. split; [exact Sn|]. split; [|exact P]. rewrite I.
      clear - In_ Ne. revert In_ Ne. generalize (ins (o_state t k)) as v. revert c c0. intros c c0 v. revert c c0. induction v as [|z v IH]; intros [|c] [|c0] H Ne; cbn in *; try discriminate; try congruence. apply (IH c c0 H). congruence.
Qed.
Lemma wrun_snoc U t n regs l o : w_run U t n regs (l ++ [o]) = w_step U t o (w_run U t n regs l).
Proof. unfold w_run. rewrite fold_left_app. reflexivity. Qed.
Lemma winv_run U t n regs l : winv U t regs l (w_run U t n regs l).
Proof.
  induction l as [|o l IH] using rev_ind; [|rewrite wrun_snoc; apply winv_step; exact IH].
  assert (K : forall p k, nth_error (b_clients (b_init n regs)) p = Some k -> k = {| o_hist := []; o_conns := [] |}) by (intros p k H; apply nth_error_In in H; exact (repeat_spec _ _ _ H)).
  constructor; cbn [w_run fold_left].
  - exists []. reflexivity.
  - intros p k H. rewrite (K p k H). reflexivity.
  - intros p k c e H Hc. rewrite (K p k H) in Hc. destruct c; discriminate.
  - intros p p' k k' c c' e H _ Hc. rewrite (K p k H) in Hc. destruct c; discriminate.
  - intros p k H. rewrite (K p k H). constructor; [intros x []|constructor].
Qed.

(** ** What is on the connections of a client *)
Definition owritten (t : M_AioClient.timer) (k : oclient) (c : nat) : list (nat * (nat * bytes)) := filter (on c) (L_System1.wlog (M_AioClient.init t) (o_hist k)).
Lemma osent_written t k c : y_sent (o_state t k) c = concat (map (fun w => snd (snd w)) (owritten t k c)).
Proof.
  unfold y_sent, owritten, o_state. rewrite L_System1.run_written. generalize (L_System1.wlog (M_AioClient.init t) (o_hist k)). intros w. f_equal.
  induction w as [|x w IH]; [reflexivity|]. cbn [map filter]. unfold on at 1. destruct (Nat.eqb (fst (snd x)) c); [cbn [map]; rewrite IH; reflexivity|exact IH].
Qed.
Lemma owrites_are_units t l k : from l (o_state t k) -> forall w, In w (L_System1.wlog (M_AioClient.init t) (o_hist k)) -> exists i, unit_written l (o_state t k) w i.
Proof.
  intros F (i, (c, bs)) H. apply In_nth_error in H as (p & H). destruct (L_System1.wlog_task _ _ _ _ _ _ H) as (tk & Hi & _ & T). fold (M_AioClient.run t (o_hist k)) in Hi. fold (o_state t k) in Hi.
  assert (Hx : In (M_AioClient.t_req tk, M_AioClient.t_addr tk) (specs (o_state t k))) by (unfold L_System1.specs; apply in_map_iff; exists tk; split; [reflexivity|eapply nth_error_In; exact Hi]).
  destruct (fr_from _ _ F _ Hx) as [(d & rid & In1 & Er)|(rid & In1 & Er)]; cbn [fst snd] in *.
  - destruct (call_unit d rid _ bs Er T) as (q & O & Q). exists (IRequest q). split; [exact O|]. exists tk. split; [exact Hi|]. left. exists d, rid, q. auto 10.
  - pose proof (beat_unit _ _ _ Er T) as O. exists (IHeartbeat rid). split; [exact O|]. exists tk. split; [exact Hi|]. right. exists rid. auto.
Qed.
Lemma ounit_is_write t l k c D items rest n x : from l (o_state t k) -> prefix D (y_sent (o_state t k) c) -> cuts D items rest -> nth_error items n = Some x ->
  exists w, nth_error (owritten t k c) n = Some w /\ unit_written l (o_state t k) w x.
Proof.
  intros Fr (post & E) C Nx. rewrite osent_written in E.
  destruct (stream_units l (o_state t k) (owritten t k c)) as (all & F & Ca); [intros w Hw; apply filter_In in Hw as (Hw & _); exact (owrites_are_units t l k Fr w Hw)|].
  pose proof (cuts_more _ _ _ post C) as Cm. rewrite <- E in Cm. apply (Forall2_nth _ _ _ n x F).
  destruct (cuts_comparable _ _ _ _ _ Cm Ca) as [(m & ->)|(m & ->)]; [apply nth_app_some; exact Nx|].
  assert (m = []); [|subst m; rewrite app_nil_r in Nx; exact Nx]. apply (cuts_all _ _ _ _ Ca) with (2 := Cm). clear - F. induction F as [|w i ws is H F IH]; constructor; [exact (unit_nonfatal _ _ _ _ H)|exact IH].
Qed.
Lemma owrite_addr t k c w tk : In w (owritten t k c) -> nth_error (M_AioClient.s_tasks (o_state t k)) (fst w) = Some tk ->
  exists ad, nth_error (L_AioClient6.addrs (o_state t k)) c = Some ad /\ M_AioClient.t_addr tk = Ok ad.
Proof.
  destruct w as (j, (c', bs)). intros Hw Htk. apply filter_In in Hw as (Hw & Hon). unfold on in Hon. cbn in Hon. apply Nat.eqb_eq in Hon. subst c'.
  apply In_nth_error in Hw as (pp & Hw). destruct (L_System1.wlog_task _ _ _ _ _ _ Hw) as (tk2 & Htk2 & Sd & _). cbn [fst] in Htk. fold (M_AioClient.run t (o_hist k)) in Htk2. fold (o_state t k) in Htk2. assert (tk2 = tk) by congruence. subst tk2.
  destruct (L_AioClient6.o_sent _ _ _ _ (L_AioClient6.w_tasks _ _ (L_AioClient6.wr_run t (o_hist k)) j tk Htk2) c bs Sd) as (_ & ad & Ead & Lad). exists ad. auto.
Qed.

(** ** What is done at the other end, and for which unit of the stream *)
(** method call j is for unit n *)
Definition for_unit (s : dep) (e : peer) (j n : nat) : Prop :=
  match e with PAio a m => exists x b, z_conn (d_net s) a m = Some x /\ nth_error (v_jobs x) j = Some b /\ j_frame b = n | PThr _ => j = 0 /\ n = 0 end.
Lemma for_unit_inj U t regs s e j j' n : dok U t 0 regs s -> for_unit s e j n -> for_unit s e j' n -> j = j'.
Proof.
  intros D. destruct e as [a m|th]; cbn; [|lia]. intros (x & b & Hx & Hb & F) (x' & b' & Hx' & Hb' & F'). assert (x' = x) by congruence. subst x'.
  destruct (do_net _ _ _ _ _ D) as (zl & Hz). rewrite Hz in Hx. destruct (zconn_good _ _ _ _ _ _ _ _ Hx) as ((_ & _ & J) & _). exact (NoDup_nth_map j_frame _ j j' b b' (jo_frames _ J) Hb Hb' ltac:(congruence)).
Qed.
Lemma begins_cuts D q : begins D (IRequest q) -> exists rest, cuts D [IRequest q] rest.
Proof. intros (a & rest & -> & O). exists rest. apply Cuts_cons; [exact O|intros []|constructor]. Qed.
(** every method call at an end is for a request that has arrived there *)
Lemma end_started U t regs s e D j : dok U t 0 regs s -> end_got s e = Some D -> any_started_at U s e j ->
  exists n items rest q sv m, for_unit s e j n /\ cuts D items rest /\ nth_error items n = Some (IRequest q) /\ names_service (q_header q) sv /\ names_method (q_header q) m /\
    forall d, sv = y_interface d -> m = y_method d -> q_body q = y_content d -> started_at U s e j d.
Proof.
  intros Dk Hg Hj. destruct e as [a m|th]; cbn [end_got any_started_at for_unit started_at] in *.
  - destruct Hj as (x & b & Hx & Hb & Sb). rewrite Hx in Hg. cbn [option_map] in Hg. injection Hg as <-. destruct (do_net _ _ _ _ _ Dk) as (zl & Hz). assert (Hx' := Hx). rewrite Hz in Hx'. destruct (zconn_run _ _ _ _ _ _ _ _ Hx') as (reg & tr & h & ->).
    destruct (good_run U reg tr h) as ((_ & _ & J) & _). destruct (jo_named _ J j b Hb) as (q & Nq & A & B & C). destruct (run_cuts U reg tr h) as (rest & Cu).
    exists (j_frame b), (v_items (srun U reg tr h)), rest, q, (j_service b), (j_method b). split; [exists (srun U reg tr h), b; auto|]. rewrite in_run. split; [exact Cu|]. split; [exact Nq|]. split; [exact A|]. split; [exact B|].
    intros d E1 E2 E3. exists (srun U reg tr h), b. rewrite C. auto 10.
  - destruct Hj as (x & cl & Hx & Hc). rewrite Hx in Hg. cbn [option_map] in Hg. injection Hg as <-.
    pose proof (sock_effects (th_fuel x) U (th_reg x) (th_tr x) (th_fresh x) (th_call x) (th_err x) (th_net x)) as (_ & Ce). fold (th_out U x) in Ce. destruct Ce as [Ce|(q & sv & m & c' & Bq & Ns & Nm & _ & _ & Ce)]; [rewrite Ce in Hc; destruct j; discriminate|].
    assert (j = 0) by (rewrite Ce in Hc; destruct j as [|[|]]; [reflexivity|discriminate..]). subst j. rewrite <- arrived_received in Bq. destruct (begins_cuts _ _ Bq) as (rest & Cu).
    exists 0, [IRequest q], rest, q, sv, m. split; [auto|]. split; [exact Cu|]. split; [reflexivity|]. split; [exact Ns|]. split; [exact Nm|]. intros d -> -> <-. exists x, c'. rewrite Ce. auto.
Qed.
(** what an end has sent are responses; a successful one carries what the method called for that request returned *)
Lemma end_sent_frames U t regs s e D sent : dok U t 0 regs s -> end_got s e = Some D -> end_sent U s e = Some sent -> exists fs, prefix sent (concat fs) /\
  (forall f, In f fs -> exists id cmd st c, response f id cmd st c) /\
  (forall f id c, In f fs -> response f id 2 0 c -> exists n items rest q sv m, cuts D items rest /\ nth_error items n = Some (IRequest q) /\ q_id q = id /\ names_service (q_header q) sv /\ names_method (q_header q) m /\
    forall d, sv = y_interface d -> m = y_method d -> q_body q = y_content d -> returned_at U s e d c).
Proof.
  intros Dk Hg Hs. destruct e as [a m|th]; cbn [end_got end_sent returned_at] in *.
  - destruct (z_conn (d_net s) a m) as [x|] eqn:Hx; [|discriminate]. cbn [option_map] in *. injection Hg as <-. injection Hs as <-. destruct (do_net _ _ _ _ _ Dk) as (zl & Hz). assert (Hx' := Hx). rewrite Hz in Hx'. destruct (zconn_run _ _ _ _ _ _ _ _ Hx') as (reg & tr & h & ->).
    exists (map snd (v_out (srun U reg tr h))). split; [exists []; rewrite app_nil_r; reflexivity|]. split.
    + intros f Hf. apply in_map_iff in Hf as ((n, f') & <- & Hf). exact (outs_response _ _ _ _ _ _ Hf).
    + intros f id c Hf R. apply in_map_iff in Hf as ((n, f') & <- & Hf). cbn [snd] in R. destruct (success_any U reg tr h n f' id c Hf R) as (q & sv & mm & b & rest & C & Nq & Q & Ex & Ns & Nm & Eb & (y & Hy & Fy & Sy) & _).
      exists n, (v_items (srun U reg tr h)), rest, q, sv, mm. rewrite in_run. repeat (split; [assumption|]). intros d E1 E2 E3.
      destruct (executions_job U h _ _ _ _ _ (good_init reg tr) Ex) as (j & b' & Hb' & F1 & F2 & F3 & F4 & _). change (sfrom U (sinit reg tr) h) with (srun U reg tr h) in Hb'.
      destruct (good_run U reg tr h) as ((_ & _ & J) & _). apply In_nth_error in Hy as (j' & Hy). assert (j' = j) by (apply (NoDup_nth_map j_frame _ j' j y b' (jo_frames _ J) Hy Hb'); congruence). subst j'. assert (b' = y) by congruence. subst b'.
      exists (srun U reg tr h), y. split; [exact Hx|]. split; [exact (nth_error_In _ _ Hy)|]. split; [congruence|]. split; [congruence|]. split; [congruence|exact Sy].
  - destruct (nth_error (d_thrs s) th) as [x|] eqn:Hx; [|discriminate]. cbn [option_map] in *. injection Hg as <-. injection Hs as <-.
    pose proof (sock_effects (th_fuel x) U (th_reg x) (th_tr x) (th_fresh x) (th_call x) (th_err x) (th_net x)) as (Se & _). fold (th_out U x) in Se.
    destruct Se as [Se|(bs & (p & more & Se & Eb & _) & Rp)]; rewrite Se; [exists []; split; [exists []; reflexivity|split; intros ? *; intros []]|]. exists [bs]. split; [exists more; cbn; rewrite !app_nil_r; exact Eb|]. split.
    + intros f [<-|[]]. exact (L_AioSock.reply_frame _ _ _ _ _ Rp).
    + intros f id c [<-|[]] R.
      destruct Rp as [(id' & _ & R' & _)|[(q & _ & _ & R' & _)|(q & sv & m & ctx & v & Bq & Ns & Nm & _ & Oc & Ca & R')]]; destruct (response_fun _ _ _ _ _ _ _ _ _ R R') as (E1 & E2 & E3 & E4); try discriminate.
      subst v. rewrite <- arrived_received in Bq. destruct (begins_cuts _ _ Bq) as (rest & Cu). exists 0, [IRequest q], rest, q, sv, m. split; [exact Cu|]. split; [reflexivity|]. split; [auto|]. split; [exact Ns|]. split; [exact Nm|].
      intros d -> -> E. rewrite E in Oc, Ca. exists x, ctx. split; [reflexivity|]. split; [rewrite Oc; left; reflexivity|exact Ca].
Qed.
(** a frame that a client has consumed is one that the other end has sent *)
Lemma frame_sent t k c lk frame sent fs : nth_error (M_AioClient.s_links (o_state t k)) c = Some lk -> In frame (M_AioClient.k_frames lk) -> prefix (M_AioClient.k_in lk) sent -> prefix sent (concat fs) ->
  (forall f, In f fs -> exists id cmd st c, response f id cmd st c) -> In frame fs.
Proof.
  intros Hk Hf (post & E) (post' & Es) R. pose proof (L_AioClient.run_links_ok t (o_hist k) c lk Hk) as LO. destruct (L_AioClient.lo_prefix _ LO) as (rest & P). rewrite P in E.
  assert (Fo : Forall L_AioClient.frame_ok fs) by (apply Forall_forall; intros f H; apply L_AioClient4.frame_ok_iff; destruct (R f H) as (? & ? & ? & ? & f0 & Lay & _); eauto).
  assert (E' : concat (M_AioClient.k_frames lk) ++ (rest ++ post ++ post') = concat fs ++ []) by (rewrite app_nil_r, Es, E, !app_assoc; reflexivity). clear E Es.
  destruct (L_AioClient4.frames_comparable _ _ _ _ (L_AioClient.lo_frames _ LO) Fo E') as [(r & Q)|(r & Q)].
  - rewrite Q. apply in_or_app. left. exact Hf.
  - assert (r = []); [|subst r; rewrite app_nil_r in Q; rewrite Q in Hf; exact Hf]. rewrite Q, concat_app, <- app_assoc in E'. apply app_inv_head in E'. apply app_eq_nil in E' as (E' & _).
    pose proof (L_AioClient.lo_frames _ LO) as F. rewrite Q in F. apply Forall_app in F as (_ & F). destruct r as [|a r]; [reflexivity|]. inversion F as [|? ? (A & _) _]; subst.
    cbn [concat] in E'. apply app_eq_nil in E' as (-> & _). cbv in A. congruence.
Qed.

(** ** The theorems *)
Lemma world_value U t n regs l p k d rid a v : NoDup (w_ids p l) -> let x := w_run U t n regs l in nth_error (b_clients x) p = Some k ->
  In (WCall p d rid a) l -> gives (o_state t k) rid (Ok v) ->
  exists e addr bs, In e (o_conns k) /\ a = Ok addr /\ located (b_dep x) e addr /\ returned_at U (b_dep x) e d bs /\ v = PBytes bs.
Proof.
  intros N x Hp Hd (i & tk & o & Hi & Hr & Ho & Hv). destruct o as [|pk|e]; try discriminate. cbn in Hv. injection Hv as Hv.
  pose proof (winv_run U t n regs l) as W. fold x in W. pose proof (wi_dok _ _ _ _ _ W) as Dk. pose proof (wi_from _ _ _ _ _ W p k Hp) as Fr.
  destruct (L_AioClient.i_done _ (L_AioClient.inv_run t (o_hist k)) i tk pk Hi Ho) as (A & (B1 & B2) & (c & lk & frame & Hk & Hf & Hs)). fold (o_state t k) in Hk.
  assert (Hb : nth_error (ins (o_state t k)) c = Some (M_AioClient.k_in lk)) by (unfold L_System1.ins; rewrite nth_error_map, Hk; reflexivity).
  destruct (nth_error (o_conns k) c) as [e|] eqn:He; [|exfalso; apply nth_error_None in He; rewrite (wi_len _ _ _ _ _ W p k Hp) in He; apply nth_error_None in He; congruence].
  destruct (wi_conn _ _ _ _ _ W p k c e Hp He) as [(D & sent & b & Hg & Pg & Hse & Hb' & Pb) (ad & Had & Lo) _]. assert (b = M_AioClient.k_in lk) by congruence. subst b.
  destruct (end_sent_frames U t regs _ e D sent Dk Hg Hse) as (fs & Efs & Rf & Vf). pose proof (frame_sent t k c lk frame sent fs Hk Hf Pb Efs Rf) as Hin.
  destruct (Rf frame Hin) as (id & cmd & st & ct & R). pose proof R as (f & Lay & _ & _ & F1 & F2 & F3 & F4 & _).
  change BoltResponse with (resp_class (cls_name BoltResponse)) in Hs. apply from_stream_resp_iff in Hs as (f' & kvs & hb & Lay' & _ & _ & _ & _ & ->).
  assert (f' = f) by (apply resp_layout_iff in Lay as (_ & _ & ->); apply resp_layout_iff in Lay' as (_ & _ & ->); reflexivity). subst f'. cbn in A, B1, B2, Hv.
  assert (H : id = rid) by (unfold M_AioClient.rid_of in A; rewrite Hr in A; cbn in A; congruence). assert (H0 : cmd = 2%Z) by (rewrite <- F1; exact B1). assert (H1 : st = 0%Z) by (rewrite <- F3; exact B2). rewrite H, H0, H1 in R.
  destruct (Vf frame rid ct Hin R) as (u & items & rest & q & sv & m & C & Nq & Q & Ns & Nm & Ret).
  destruct (ounit_is_write t _ k c D items rest u _ Fr Pg C Nq) as (w & Hw & _ & tk' & Htk & Un). apply nth_error_In in Hw. destruct (owrite_addr t k c w tk' Hw Htk) as (ad' & Had' & Ea). assert (ad' = ad) by congruence. subst ad'.
  destruct Un as [(d' & rid' & q' & Hd' & _ & Eq & Q1 & Q2 & Q3)|(rid' & _ & _ & Eq)]; [|discriminate]. injection Eq as <-. cbn [fst snd] in Hd'.
  assert (E : rid' = rid) by congruence. rewrite E in Hd'. rewrite <- lab_call in Hd. rewrite <- lab_ids in N. destruct (label_unique _ d rid a d' _ N Hd Hd') as (<- & ->).
  exists e, ad, ct. split; [exact (nth_error_In _ _ He)|]. split; [exact Ea|]. split; [exact Lo|]. split; [apply Ret; [exact (names_interface _ _ _ Q3 Ns)|exact (names_the_method _ _ _ Q3 Nm)|exact Q2]|]. rewrite F4 in Hv. congruence.
Qed.
Lemma world_executed U t n regs l p k e j : let x := w_run U t n regs l in nth_error (b_clients x) p = Some k -> In e (o_conns k) -> any_started_at U (b_dep x) e j ->
  exists d rid addr, In (WCall p d rid (Ok addr)) l /\ located (b_dep x) e addr /\ started_at U (b_dep x) e j d.
Proof.
  intros x Hp He Hj. pose proof (winv_run U t n regs l) as W. fold x in W. pose proof (wi_dok _ _ _ _ _ W) as Dk. pose proof (wi_from _ _ _ _ _ W p k Hp) as Fr. apply In_nth_error in He as (c & He).
  destruct (wi_conn _ _ _ _ _ W p k c e Hp He) as [(D & sent & b & Hg & Pg & _) (ad & Had & Lo) _].
  destruct (end_started U t regs _ e D j Dk Hg Hj) as (u & items & rest & q & sv & m & _ & C & Nq & Ns & Nm & St).
  destruct (ounit_is_write t _ k c D items rest u _ Fr Pg C Nq) as (w & Hw & _ & tk' & Htk & Un). apply nth_error_In in Hw. destruct (owrite_addr t k c w tk' Hw Htk) as (ad' & Had' & Ea). assert (ad' = ad) by congruence. subst ad'.
  destruct Un as [(d & rid & q' & Hd & _ & Eq & Q1 & Q2 & Q3)|(rid & _ & _ & Eq)]; [|discriminate]. injection Eq as <-. cbn [fst snd] in Hd. rewrite Ea in Hd. apply lab_call in Hd.
  exists d, rid, ad. split; [exact Hd|]. split; [exact Lo|]. apply St; [exact (names_interface _ _ _ Q3 Ns)|exact (names_the_method _ _ _ Q3 Nm)|exact Q2].
Qed.
(** which unit a method call that was started is for *)
Lemma started_by_unit U t regs s k rid c j : dok U t 0 regs s -> started_by U s k rid c j ->
  exists e D n items rest q, nth_error (o_conns k) c = Some e /\ end_got s e = Some D /\ for_unit s e j n /\ cuts D items rest /\ nth_error items n = Some (IRequest q) /\ q_id q = rid.
Proof.
  intros Dk (e & q & He & Q & H). destruct e as [a m|th].
  - destruct H as (x & b & items & rest & Hx & Hb & _ & C & Nq). exists (PAio a m), (v_in x), (j_frame b), items, rest, q. split; [exact He|]. cbn [end_got for_unit]. split; [rewrite Hx; reflexivity|]. split; [exists x, b; auto|]. auto.
  - destruct H as (x & Hx & Lj & Bq). destruct (begins_cuts _ _ Bq) as (rest & C). exists (PThr th), (arrived (th_net x)), 0, [IRequest q], rest, q. split; [exact He|]. cbn [end_got for_unit]. split; [rewrite Hx; reflexivity|].
    split; [|auto]. split; [|reflexivity]. pose proof (sock_effects (th_fuel x) U (th_reg x) (th_tr x) (th_fresh x) (th_call x) (th_err x) (th_net x)) as (_ & Ce). fold (th_out U x) in Ce.
    destruct Ce as [Ce|(q' & sv & mm & c' & _ & _ & _ & _ & _ & Ce)]; rewrite Ce in Lj; cbn in Lj; lia.
Qed.
Lemma world_position U t n regs l p k rid i tk c j : NoDup (w_ids p l) -> let x := w_run U t n regs l in nth_error (b_clients x) p = Some k ->
  nth_error (M_AioClient.s_tasks (o_state t k)) i = Some tk -> p_request_id (M_AioClient.t_req tk) = PInt rid -> started_by U (b_dep x) k rid c j ->
  exists e u pp bs, nth_error (o_conns k) c = Some e /\ for_unit (b_dep x) e j u /\ nth_error (L_System1.wlog (M_AioClient.init t) (o_hist k)) pp = Some (i, (c, bs)) /\
    List.length (filter (on c) (firstn pp (L_System1.wlog (M_AioClient.init t) (o_hist k)))) = u.
Proof.
  intros N x Hp Hi Hr H. pose proof (winv_run U t n regs l) as W. fold x in W. pose proof (wi_dok _ _ _ _ _ W) as Dk. pose proof (wi_from _ _ _ _ _ W p k Hp) as Fr.
  destruct (started_by_unit U t regs _ k rid c j Dk H) as (e & D & u & items & rest & q & He & Hg & Fu & C & Nq & Q).
  destruct (wi_conn _ _ _ _ _ W p k c e Hp He) as [(D' & sent & b & Hg' & Pg & _) _ _]. assert (D' = D) by congruence. subst D'.
  destruct (ounit_is_write t _ k c D items rest u _ Fr Pg C Nq) as ((i', (c', bs)) & Hw & _ & tk' & Htk & Un).
  cbn [fst] in Htk. apply L_System1.filter_nth in Hw as (pp & Hpp & Hon & Hl). unfold on in Hon. cbn in Hon. apply Nat.eqb_eq in Hon. subst c'.
  destruct Un as [(d' & rid' & q' & Hd' & Er & Eq & Q1 & _)|(rid' & _ & _ & Eq)]; [|discriminate]. injection Eq as <-. cbn [fst] in Er. apply request_id in Er as (Er & _).
  exists e, u, pp, bs. assert (i' = i); [|subst i'; auto]. rewrite <- lab_ids in N. pose proof (fr_ids _ _ Fr N) as Nd.
  assert (G : forall v tku, nth_error (M_AioClient.s_tasks (o_state t k)) v = Some tku -> nth_error (map (fun x => rid_of (fst x)) (specs (o_state t k))) v = Some (rid_of (M_AioClient.t_req tku))).
  { intros v tku Hu. unfold L_System1.specs. rewrite map_map, nth_error_map, Hu. reflexivity. }
  pose proof (G _ _ Hi) as G1. pose proof (G _ _ Htk) as G2. rewrite NoDup_nth_error in Nd. apply Nd; [apply nth_error_Some; congruence|]. rewrite G1, G2. f_equal. unfold M_AioClient.rid_of at 2. rewrite Hr. cbn. congruence.
Qed.
Lemma world_executions U t n regs l p k rid i tk L : NoDup (w_ids p l) -> let x := w_run U t n regs l in nth_error (b_clients x) p = Some k ->
  nth_error (M_AioClient.s_tasks (o_state t k)) i = Some tk -> p_request_id (M_AioClient.t_req tk) = PInt rid ->
  NoDup L -> (forall c j, In (c, j) L -> started_by U (b_dep x) k rid c j) -> List.length L <= 1 + flushes_failed i k /\ List.length L <= 3.
Proof.
  intros N x Hp Hi Hr Nd HL. set (w := L_System1.wlog (M_AioClient.init t) (o_hist k)). pose proof (wi_dok _ _ _ _ _ (winv_run U t n regs l)) as Dk. fold x in Dk.
  destruct (choose (fun cj pp => exists e u bs, nth_error (o_conns k) (fst cj) = Some e /\ for_unit (b_dep x) e (snd cj) u /\ nth_error w pp = Some (i, (fst cj, bs)) /\ List.length (filter (on (fst cj)) (firstn pp w)) = u) L) as (ps & F).
  { intros (c, j) H. destruct (world_position U t n regs l p k rid i tk c j N Hp Hi Hr (HL c j H)) as (e & u & pp & bs & A & B & C & E). exists pp, e, u, bs. auto. }
  assert (Lp : List.length L = List.length ps) by (clear - F; induction F; cbn; congruence).
  assert (B : List.length ps <= List.length (L_AioClient6.sends i (M_AioClient.init t) (o_hist k))).
  { rewrite <- L_System1.wlog_sends, map_length. fold w. rewrite <- L_System1.positions_length. apply NoDup_incl_length.
    - clear Lp HL. induction F as [|cj pp L' ps' (e & u & bs & A1 & A2 & A3 & A4) F IH]; [constructor|]. inversion Nd as [|? ? N1 N2]; subst. constructor; [|exact (IH N2)]. intros H. destruct (Forall2_In_l _ _ _ _ F H) as (cj' & H1 & e' & u' & bs' & B1 & B2 & B3 & B4).
      apply N1. assert (cj' = cj); [|subst cj'; exact H1]. destruct cj as (c1, j1), cj' as (c2, j2). cbn [fst snd] in *. rewrite A3 in B3. injection B3 as -> _. assert (e' = e) by congruence. subst e'. f_equal. rewrite <- B4 in B2. exact (for_unit_inj U t regs _ e j2 j1 _ Dk B2 A2).
    - intros pp H. destruct (Forall2_In_l _ _ _ _ F H) as (cj & _ & e & u & bs & _ & _ & A & _). apply (L_System1.positions_in _ _ _ _ A). cbn. apply Nat.eqb_refl. }
  pose proof (L_AioClient6.w_tasks _ _ (L_AioClient6.wr_run t (o_hist k)) i tk Hi) as Wt.
  pose proof (L_AioClient6.o_fails _ _ _ _ Wt) as Ff. pose proof (L_AioClient6.o_three _ _ _ _ Wt) as T. unfold L_AioClient6.fails in Ff. unfold flushes_failed. lia.
Qed.
Lemma world_separate U t n regs l : let x := w_run U t n regs l in
  (forall p p' k k' e, nth_error (b_clients x) p = Some k -> nth_error (b_clients x) p' = Some k' -> In e (o_conns k) -> In e (o_conns k') -> p = p') /\
  (forall p k e i w, nth_error (b_clients x) p = Some k -> In e (o_conns k) -> ~ connection_of (b_dep x) i w e) /\
  (forall i i' w w' e, connection_of (b_dep x) i w e -> connection_of (b_dep x) i' w' e -> w = w' /\ i = i').
Proof.
  intros x. pose proof (winv_run U t n regs l) as W. fold x in W. split; [|split].
  - intros p p' k k' e Hp Hp' H H'. apply In_nth_error in H as (c & H). apply In_nth_error in H' as (c' & H'). exact (proj1 (wi_own _ _ _ _ _ W p p' k k' c c' e Hp Hp' H H')).
  - intros p k e i w Hp H (y & Hy & _ & Ey). apply In_nth_error in H as (c & H). apply (co_apart _ _ _ _ _ (wi_conn _ _ _ _ _ W p k c e Hp H)). apply in_map_iff. exists y. split; [exact Ey|exact (nth_error_In _ _ Hy)].
  - destruct (wi_dep _ _ _ _ _ W) as (dl & ->). exact (proj1 (deploy_separate U t 0 regs dl)).
Qed.
(** the synchronous calls and the listeners *)
Lemma world_sync_value U t n regs l i c v : let x := w_run U t n regs l in nth_error (d_calls (b_dep x)) i = Some c -> c_oneway c = false -> c_pc c = SEnd (Ok v) ->
  exists w e bs, connection_of (b_dep x) i w e /\ located (b_dep x) e (c_addr c) /\ returned_at U (b_dep x) e (c_what c) bs /\ v = PBytes bs.
Proof. intros x. destruct (wi_dep _ _ _ _ _ (winv_run U t n regs l)) as (dl & E). fold x in E. rewrite E. apply deploy_value. Qed.
Lemma world_sync_executed U t n regs l i c w e j : let x := w_run U t n regs l in nth_error (d_calls (b_dep x)) i = Some c -> connection_of (b_dep x) i w e -> any_started_at U (b_dep x) e j ->
  started_at U (b_dep x) e j (c_what c) /\ forall w' e' j', connection_of (b_dep x) i w' e' -> any_started_at U (b_dep x) e' j' -> w' = w /\ j' = j.
Proof. intros x. destruct (wi_dep _ _ _ _ _ (winv_run U t n regs l)) as (dl & E). fold x in E. rewrite E. apply deploy_executed. Qed.
Lemma world_bound U t n regs l a sv js : nth_error (z_servers (d_net (b_dep (w_run U t n regs l)))) a = Some sv -> executing sv js -> List.length js <= 30.
Proof. destruct (wi_dep _ _ _ _ _ (winv_run U t n regs l)) as (dl & ->). apply deploy_bound. Qed.

(** ** For examples *)
Lemma thread_request U x : 0 < List.length (o_calls (th_out U x)) -> exists q, begins (arrived (th_net x)) (IRequest q).
Proof.
  intros H. pose proof (sock_effects (th_fuel x) U (th_reg x) (th_tr x) (th_fresh x) (th_call x) (th_err x) (th_net x)) as (_ & Ce). fold (th_out U x) in Ce.
  destruct Ce as [Ce|(q & sv & m & c' & Bq & _)]; [rewrite Ce in H; cbn in H; lia|]. rewrite arrived_received. eauto.
Qed.
Lemma thread_id U t n regs l p k c th y q : let x := w_run U t n regs l in nth_error (b_clients x) p = Some k -> nth_error (o_conns k) c = Some (PThr th) -> nth_error (d_thrs (b_dep x)) th = Some y ->
  begins (arrived (th_net y)) (IRequest q) -> exists d rid a, In (WCall p d rid a) l /\ rid = q_id q.
Proof.
  intros x Hp He Hy Bq. pose proof (winv_run U t n regs l) as W. fold x in W. destruct (wi_conn _ _ _ _ _ W p k c _ Hp He) as [(D & sent & b & Hg & Pg & _) _ _]. cbn [end_got] in Hg. rewrite Hy in Hg. cbn [option_map] in Hg. injection Hg as <-.
  destruct (begins_cuts _ _ Bq) as (rest & C). destruct (ounit_is_write t _ k c _ _ rest 0 _ (wi_from _ _ _ _ _ W p k Hp) Pg C eq_refl) as (w & _ & _ & tk & _ & Un).
  destruct Un as [(d & rid & q' & Hd & _ & Eq & Q1 & _)|(rid & _ & _ & Eq)]; [|discriminate]. injection Eq as <-. apply lab_call in Hd. exists d, rid, (M_AioClient.t_addr tk). auto.
Qed.

(** ** Other programs are free to send what they like *)
Lemma peer_eqb_eq x y : peer_eqb x y = true -> x = y.
Proof. destruct x as [a n|u], y as [a' n'|u']; cbn; try discriminate; intros H; [apply andb_true_iff in H as (H1 & H2); apply Nat.eqb_eq in H1, H2; congruence|apply Nat.eqb_eq in H; congruence]. Qed.
Lemma not_theirs x e : (forall p k, nth_error (b_clients x) p = Some k -> ~ In e (o_conns k)) -> theirs x e = false.
Proof.
  intros H. destruct (theirs x e) eqn:E; [|reflexivity]. exfalso. unfold theirs in E. apply existsb_exists in E as (k & Hk & E). apply existsb_exists in E as (e' & He & E). apply peer_eqb_eq in E. subst e'.
  apply In_nth_error in Hk as (p & Hp). exact (H p k Hp He).
Qed.
Lemma others_feed U t n regs l e b : let x := w_run U t n regs l in (forall p k, nth_error (b_clients x) p = Some k -> ~ In e (o_conns k)) ->
  let x' := w_run U t n regs (l ++ [WRest (bring e b)]) in b_dep x' = d_step U t (bring e b) (b_dep x) /\ b_clients x' = b_clients x.
Proof. intros x H. cbv zeta. unfold w_run. rewrite fold_left_app. fold (w_run U t n regs l). fold x. cbn [fold_left]. destruct e as [a m|th]; cbn [bring w_step]; rewrite (not_theirs x _ H); split; reflexivity. Qed.

(** Lemmas behind C95: what a client of a network sees is a run of M_System. *)
From Coq Require Import Lia ZifyBool.
From Verif Require Import PyBase L_PyBase PyDict PyInt M_SofaHeader M_Package M_RpcId M_Trace M_AioServer S_Server L_AioServer2 L_AioServer3 L_AioServer4 L_AioServer5 L_AioServer6 L_AioServer7 L_AioServer8 M_System S_System L_System M_Listener S_Listener L_Listener M_Net S_Net.
From Verif Require M_AioClient L_AioClient L_AioClient6 L_System1 L_Rest1.
Open Scope nat_scope.
Notation addrs := L_AioClient6.addrs.

(** ** Extending a run of M_System by steps of the servers *)
Definition addk (st : list sstep) (k : yconn) : yconn := {| y_reg := y_reg k; y_tr := y_tr k; y_steps := y_steps k ++ st |}.
Definition nofeed (st : list sstep) : Prop := Forall (fun o => match o with Feed _ => False | _ => True end) st.

Lemma yrun_app U t l1 l2 : y_run U t (l1 ++ l2) = fold_left (fun y o => y_step U t o y) l2 (y_run U t l1).
Proof. apply fold_left_app. Qed.

Lemma upd_upd {A} (f g : A -> A) l : forall i, upd i g (upd i f l) = upd i (fun x => g (f x)) l.
Proof. induction l as [|x l IH]; intros [|i]; cbn; try reflexivity. rewrite IH. reflexivity. Qed.
Lemma upd_ext {A} (f g : A -> A) l : (forall x, f x = g x) -> forall i, upd i f l = upd i g l.
Proof. intros E. induction l as [|x l IH]; intros [|i]; cbn; try reflexivity; [rewrite E|rewrite IH]; reflexivity. Qed.
Lemma upd_id {A} (l : list A) : forall i, upd i (fun x => x) l = l.
Proof. induction l as [|x l IH]; intros [|i]; cbn; try reflexivity. rewrite IH. reflexivity. Qed.

Lemma yserver_steps U t c st : nofeed st -> forall y,
  fold_left (fun y o => y_step U t o y) (map (YServer c) st) y = {| y_hist := y_hist y; y_conns := upd c (addk st) (y_conns y) |}.
Proof.
  induction 1 as [|o st Ho F IH]; intros y; cbn [map fold_left].
  - rewrite (upd_ext _ (fun x => x)), upd_id by (intros []; unfold addk; cbn; rewrite app_nil_r; reflexivity). destruct y; reflexivity.
  - rewrite IH. assert (E : y_step U t (YServer c o) y = y_server_step c o y) by (destruct o; try destruct Ho; reflexivity). rewrite E. unfold y_server_step. cbn [y_hist y_conns]. f_equal.
    rewrite upd_upd. apply upd_ext. intros k. unfold addk. cbn [y_reg y_tr y_steps]. rewrite <- app_assoc. reflexivity.
Qed.

Lemma servers_ext U t f (m : nat) : (forall c, nofeed (f c)) -> forall y, exists yl,
  let y' := fold_left (fun y o => y_step U t o y) yl y in
  y_hist y' = y_hist y /\ y_ids yl = [] /\ List.length (y_conns y') = List.length (y_conns y) /\ (forall yo, In yo yl -> exists c o, yo = YServer c o /\ c < m /\ In o (f c)) /\
  forall c k, nth_error (y_conns y) c = Some k -> nth_error (y_conns y') c = Some (if c <? m then addk (f c) k else k).
Proof.
  intros N. induction m as [|m IH]; intros y.
  - exists []. cbn [fold_left]. split; [reflexivity|]. split; [reflexivity|]. split; [reflexivity|]. split; [intros yo []|]. intros c k H. exact H.
  - destruct (IH y) as (yl & A & B & C & E & D). exists (yl ++ map (YServer m) (f m)). cbv zeta. rewrite fold_left_app, yserver_steps by apply N.
    cbn [y_hist y_conns]. split; [exact A|]. split.
    { unfold y_ids. rewrite map_app, concat_app. fold (y_ids yl). rewrite B. rewrite map_map. cbn [app]. clear. induction (f m) as [|o l IHl]; [reflexivity|exact IHl]. }
    split; [rewrite L_AioServer2.length_upd; exact C|].
    split; [intros yo H; apply in_app_or in H as [H|H]; [destruct (E yo H) as (c & o & E1 & E2 & E3); exists c, o; auto|apply in_map_iff in H as (o & <- & H); exists m, o; auto]|].
    intros c k H. specialize (D c k H). destruct (Nat.eq_dec m c) as [->|Ne].
    + rewrite (nth_upd_same _ _ _ _ D). f_equal. destruct (Nat.ltb_spec c c); [lia|]. destruct (Nat.ltb_spec c (S c)); [reflexivity|lia].
    + rewrite nth_upd_other by exact Ne. rewrite D. f_equal. destruct (Nat.ltb_spec c m), (Nat.ltb_spec c (S m)); try lia; reflexivity.
Qed.

(** ** What a step of a listener does to one of its connections *)
Definition what (o : lstep) (s : lst) (n : nat) : list sstep :=
  match o with
  | LAccept _ => []
  | LRegister name sv => [Register name sv]
  | LConn n' o' => if Nat.eqb n' n then match o' with Register _ _ | JobRun _ => [] | _ => [o'] end else []
  | LTake => if Nat.ltb (workers s) MAX_WORKER then match n_queue s with (c, j) :: _ => if Nat.eqb c n then [JobRun j] else [] | [] => [] end else []
  end.
Lemma listener_conn U o s n x : nth_error (n_conns s) n = Some x -> nth_error (n_conns (lrun_step U o s)) n = Some (sfrom U x (what o s n)).
Proof.
  intros E. destruct o as [tr|name sv|c o|].
  - cbn [lrun_step n_conns what]. rewrite nth_error_app1 by (apply nth_error_Some; congruence). exact E.
  - cbn [lrun_step n_conns what]. rewrite nth_error_map, E. reflexivity.
  - assert (P : plain o \/ ~ plain o) by (destruct o; cbn; tauto). cbn [what]. destruct P as [P|P].
    + destruct (Nat.eqb_spec c n) as [->|Ne].
      * rewrite (conn_step U n o s x P E). cbn [n_conns]. rewrite (nth_upd_same _ _ _ _ E). destruct o; try destruct P; reflexivity.
      * destruct (nth_error (n_conns s) c) as [k0|] eqn:E0; [|rewrite (conn_none U c o s E0); exact E].
        rewrite (conn_step U c o s k0 P E0). cbn [n_conns]. rewrite nth_upd_other by exact Ne. exact E.
    + rewrite (conn_ignored U c o s P). destruct (Nat.eqb c n); [|exact E]. destruct o; try exact E; destruct (P I).
  - cbn [lrun_step what]. destruct (Nat.ltb (workers s) MAX_WORKER); [|exact E]. destruct (n_queue s) as [|(c, j) q]; [exact E|]. cbn [on_conn n_conns].
    destruct (Nat.eqb_spec c n) as [->|Ne]; [rewrite (nth_upd_same _ _ _ _ E); reflexivity|rewrite nth_upd_other by exact Ne; exact E].
Qed.
Definition what_at (z : net) (a : nat) (o : lstep) (x : nat * nat) : list sstep :=
  if Nat.eqb (fst x) a then match nth_error (z_servers z) a with Some s => what o s (snd x) | None => [] end else [].
Lemma server_conn U z a o a' n x : z_conn z a' n = Some x -> z_conn (on_server U a o z) a' n = Some (sfrom U x (what_at z a o (a', n))).
Proof.
  unfold z_conn, what_at, on_server. cbn [z_servers fst snd]. intros H. destruct (nth_error (z_servers z) a') as [s|] eqn:E; [|discriminate].
  destruct (Nat.eqb_spec a' a) as [->|Ne].
  - rewrite (nth_upd_same _ _ _ _ E), E. apply listener_conn. exact H.
  - rewrite nth_upd_other by congruence. rewrite E. exact H.
Qed.

(** ** The invariant *)
(** where the steps of a client's run of M_System come from *)
Definition from_listener (l : list zstep) (x : nat * nat) (o : sstep) : Prop :=
  match o with
  | Register name sv => In (ZServer (fst x) (LRegister name sv)) l
  | JobRun _ | Feed _ => True
  | _ => In (ZServer (fst x) (LConn (snd x) o)) l
  end.
Definition source (p : nat) (l : list zstep) (k : zclient) (yo : ystep) : Prop :=
  match yo with
  | YCall d rid a => In (ZCall p d rid a) l
  | YClient o => In (ZClient p o) l
  | YServer c o => exists x, nth_error (z_conns k) c = Some x /\ from_listener l x o
  | _ => True
  end.
(** the registry of listener a, some time *)
Definition traced (regs : list registry) (l : list zstep) (a : nat) (reg : registry) : Prop := exists reg0 ll, nth_error regs a = Some reg0 /\ reg = fold_left (fun r x => dset (fst x) (snd x) r) ll reg0 /\
  forall name sv, In (name, sv) ll -> In (ZServer a (LRegister name sv)) l.
Lemma traced_more regs l o a reg : traced regs l a reg -> traced regs (l ++ [o]) a reg.
Proof. intros (r0 & ll & A & B & C). exists r0, ll. split; [exact A|]. split; [exact B|]. intros name sv H. apply in_or_app. left. exact (C _ _ H). Qed.
Lemma source_more p l k o y k' yo : (forall c x, nth_error (z_conns k) c = Some x -> nth_error (z_conns k') c = Some x) -> source p l k yo -> y = l ++ [o] -> source p y k' yo.
Proof.
  intros K H ->. destruct yo as [d rid a|i reg tr|o'|c o'|c n|c n]; cbn [source] in *; try exact Logic.I; try (apply in_or_app; left; exact H).
  destruct H as (x & Hx & F). exists x. split; [exact (K c x Hx)|]. destruct o'; cbn [from_listener] in *; try exact Logic.I; apply in_or_app; left; exact F.
Qed.
Record view (regs : list registry) (U : tables) (t : M_AioClient.timer) (p : nat) (l : list zstep) (z : net) (k : zclient) (yl : list ystep) : Prop := {
  vw_hist : y_hist (y_run U t yl) = z_hist k;
  vw_len : List.length (y_conns (y_run U t yl)) = List.length (z_conns k);
  vw_conns : forall c x, nth_error (z_conns k) c = Some x -> exists ky, nth_error (y_conns (y_run U t yl)) c = Some ky /\ z_conn z (fst x) (snd x) = Some (y_server U ky);
  vw_ids : y_ids yl = z_ids p l;
  vw_calls : forall d rid a, In (ZCall p d rid a) l -> In (YCall d rid a) yl;
  vw_addrs : addrs (z_state t k) = map (fun x => Z.of_nat (fst x)) (z_conns k);
  vw_src : forall yo, In yo yl -> source p l k yo;
  vw_regs : forall c x ky, nth_error (z_conns k) c = Some x -> nth_error (y_conns (y_run U t yl)) c = Some ky -> traced regs l (fst x) (y_reg ky)
}.
Record netok (regs : list registry) (U : tables) (t : M_AioClient.timer) (l : list zstep) (z : net) : Prop := {
  nk_view : forall p k, nth_error (z_clients z) p = Some k -> exists yl, view regs U t p l z k yl;
  nk_own : forall p p' k k' c c' x, nth_error (z_clients z) p = Some k -> nth_error (z_clients z) p' = Some k' ->
    nth_error (z_conns k) c = Some x -> nth_error (z_conns k') c' = Some x -> p = p' /\ c = c';
  nk_regs : forall a s, nth_error (z_servers z) a = Some s -> traced regs l a (n_reg s)
}.

Definition draws (p : nat) (o : zstep) : list Z :=
  match o with
  | ZCall p' _ rid _ => if Nat.eqb p' p then [rid] else []
  | ZClient p' (M_AioClient.Beat rid) => if Nat.eqb p' p then [rid] else []
  | _ => []
  end.
Lemma zids_snoc p l o : z_ids p (l ++ [o]) = z_ids p l ++ draws p o.
Proof. unfold z_ids. rewrite map_app, concat_app. cbn. rewrite app_nil_r. reflexivity. Qed.
Lemma yids_app a b : y_ids (a ++ b) = y_ids a ++ y_ids b.
Proof. unfold y_ids. rewrite map_app, concat_app. reflexivity. Qed.

(** a step that concerns the client's servers only, if at all *)
Lemma view_servers regs U t p l z k yl o z' f : view regs U t p l z k yl -> draws p o = [] -> (forall d rid a, o <> ZCall p d rid a) ->
  (forall c, nofeed (f c)) ->
  (forall c x s, nth_error (z_conns k) c = Some x -> z_conn z (fst x) (snd x) = Some s -> z_conn z' (fst x) (snd x) = Some (sfrom U s (f c))) ->
  (forall c x o', nth_error (z_conns k) c = Some x -> In o' (f c) -> from_listener (l ++ [o]) x o') ->
  exists yl', view regs U t p (l ++ [o]) z' k yl'.
Proof.
  intros V Dr Nc Nf St Sr. destruct (servers_ext U t f (List.length (y_conns (y_run U t yl))) Nf (y_run U t yl)) as (yx & A & B & C & E & D).
  exists (yl ++ yx). rewrite <- yrun_app in *. destruct V as [V1 V2 V3 V4 V5 V6 V7 V8]. constructor.
  - rewrite A. exact V1.
  - rewrite C. exact V2.
  - intros c x Hx. destruct (V3 c x Hx) as (ky & Ky & Z). specialize (D c ky Ky).
    assert (Lt : c < List.length (y_conns (y_run U t yl))) by (apply nth_error_Some; congruence). destruct (Nat.ltb_spec c (List.length (y_conns (y_run U t yl)))); [|lia].
    exists (addk (f c) ky). split; [exact D|]. rewrite (St c x _ Hx Z). unfold y_server, addk. cbn [y_reg y_tr y_steps]. rewrite srun_app. reflexivity.
  - rewrite yids_app, B, app_nil_r, zids_snoc, Dr, app_nil_r. exact V4.
  - intros d rid a H. apply in_app_or in H as [H|[H|[]]]; [apply in_or_app; left; exact (V5 d rid a H)|destruct (Nc _ _ _ H)].
  - exact V6.
  - intros yo H. apply in_app_or in H as [H|H]; [exact (source_more p l k o _ k yo (fun c x K => K) (V7 yo H) eq_refl)|]. destruct (E yo H) as (c & o' & -> & Lc & Ho). rewrite V2 in Lc.
    destruct (nth_error (z_conns k) c) as [x|] eqn:Hx; [|apply nth_error_None in Hx; lia]. exists x. split; [exact Hx|exact (Sr c x o' Hx Ho)].
  - intros c x ky Hx Hk. destruct (V3 c x Hx) as (ky' & Ky & _). specialize (D c ky' Ky). rewrite D in Hk. injection Hk as <-. apply traced_more. replace (y_reg _) with (y_reg ky') by (destruct (c <? _); reflexivity). exact (V8 c x ky' Hx Ky).
Qed.

(** a step that has nothing to do with the client *)
Lemma view_other regs U t p l z k yl o z' : view regs U t p l z k yl -> draws p o = [] -> (forall d rid a, o <> ZCall p d rid a) -> z_servers z' = z_servers z ->
  exists yl', view regs U t p (l ++ [o]) z' k yl'.
Proof.
  intros V Dr Nc E. apply (view_servers regs U t p l z k yl o z' (fun _ => [])); [exact V|exact Dr|exact Nc|intros c; constructor| |].
  - intros c x s _ H. unfold z_conn in *. rewrite E. exact H.
  - intros c x o' _ [].
Qed.

Lemma addrs_same o s : match o with M_AioClient.DialOk _ => False | _ => True end -> addrs (M_AioClient.run_step o s) = addrs s.
Proof.
  intros H. destruct (L_AioClient6.step_conns o s) as ((x & E) & _). pose proof (L_System1.step_moves o s) as M.
  assert (L : List.length (ins (M_AioClient.run_step o s)) = List.length (ins s)).
  { destruct o; cbn [L_System1.moves] in M; try destruct H; destruct M as (M & _); rewrite M; try reflexivity. apply L_AioClient.upd_length. }
  rewrite <- !links_ins in L. pose proof (f_equal (@List.length Z) E) as El. rewrite app_length in El. unfold L_AioClient6.addrs in El at 1 2. rewrite !map_length in El.
  destruct x; [rewrite app_nil_r in E; exact E|cbn in El; lia].
Qed.

Lemma state_add t o k : z_state t (z_add o k) = M_AioClient.run_step o (z_state t k).
Proof. unfold z_state, z_add, M_AioClient.run. cbn [z_hist]. rewrite fold_left_app. reflexivity. Qed.
Lemma view_state regs U t p l z k yl : view regs U t p l z k yl -> y_client t (y_run U t yl) = z_state t k.
Proof. intros V. unfold y_client, z_state. rewrite (vw_hist _ _ _ _ _ _ _ _ V). reflexivity. Qed.

(** a step of the client itself that opens no connection *)
Lemma view_client regs U t p l z k yl o z' yo co : view regs U t p l z k yl ->
  y_step U t yo (y_run U t yl) = y_client_step co (y_run U t yl) -> y_ids [yo] = draws p o -> (forall d rid a, o = ZCall p d rid a -> yo = YCall d rid a) ->
  match co with M_AioClient.DialOk _ => False | _ => True end -> z_servers z' = z_servers z -> source p (l ++ [o]) k yo ->
  view regs U t p (l ++ [o]) z' (z_add co k) (yl ++ [yo]).
Proof.
  intros [V1 V2 V3 V4 V5 V6 V7 V8] Y Di Dc Nd E So. assert (R : y_run U t (yl ++ [yo]) = y_client_step co (y_run U t yl)) by (rewrite yrun_app; exact Y).
  constructor; rewrite ?R; cbn [y_client_step y_hist y_conns z_add z_hist z_conns].
  - rewrite V1. reflexivity.
  - exact V2.
  - intros c x H. destruct (V3 c x H) as (ky & A & B). exists ky. split; [exact A|]. unfold z_conn in *. rewrite E. exact B.
  - rewrite yids_app, zids_snoc, V4, Di. reflexivity.
  - intros d rid a H. apply in_or_app. apply in_app_or in H as [H|[H|[]]]; [left; exact (V5 d rid a H)|right; left; apply Dc; exact H].
  - change {| z_hist := z_hist k ++ [co]; z_conns := z_conns k |} with (z_add co k). rewrite state_add, addrs_same by exact Nd. exact V6.
  - intros y H. apply in_app_or in H as [H|[<-|[]]]; [exact (source_more p l k o _ (z_add co k) y (fun c x K => K) (V7 y H) eq_refl)|]. destruct yo; exact So.
  - intros c x ky Hx Hk. apply traced_more. exact (V8 c x ky Hx Hk).
Qed.
(** a call that cannot be made into a package *)
Lemma view_void regs U t p l z k yl o yo : view regs U t p l z k yl -> y_step U t yo (y_run U t yl) = y_run U t yl -> y_ids [yo] = draws p o ->
  (forall d rid a, o = ZCall p d rid a -> yo = YCall d rid a) -> source p (l ++ [o]) k yo -> view regs U t p (l ++ [o]) z k (yl ++ [yo]).
Proof.
  intros [V1 V2 V3 V4 V5 V6 V7 V8] Y Di Dc So. assert (R : y_run U t (yl ++ [yo]) = y_run U t yl) by (rewrite yrun_app; exact Y).
  constructor; rewrite ?R; auto.
  - rewrite yids_app, zids_snoc, V4, Di. reflexivity.
  - intros d rid a H. apply in_or_app. apply in_app_or in H as [H|[H|[]]]; [left; exact (V5 d rid a H)|right; left; apply Dc; exact H].
  - intros y H. apply in_app_or in H as [H|[<-|[]]]; [exact (source_more p l k o _ k y (fun c x K => K) (V7 y H) eq_refl)|exact So].
  - intros c x ky Hx Hk. apply traced_more. exact (V8 c x ky Hx Hk).
Qed.

Lemma owned_false z a n p k c : owned z a n = false -> nth_error (z_clients z) p = Some k -> nth_error (z_conns k) c <> Some (a, n).
Proof.
  intros O Hp Hc. apply nth_error_In in Hp, Hc. assert (T : owned z a n = true); [|congruence]. unfold owned. apply existsb_exists. exists k. split; [exact Hp|].
  apply existsb_exists. exists (a, n). split; [exact Hc|]. cbn [fst snd]. rewrite !Nat.eqb_refl. reflexivity.
Qed.

Lemma what_nofeed z a o x : (forall n bs, o = LConn n (Feed bs) -> x <> (a, n)) -> nofeed (what_at z a o x).
Proof.
  intros H. unfold what_at. destruct (Nat.eqb_spec (fst x) a) as [E|]; [|constructor]. destruct (nth_error (z_servers z) a) as [s|]; [|constructor].
  destruct o as [tr|name sv|n o|]; cbn [what].
  - constructor.
  - constructor; [exact I|constructor].
  - destruct (Nat.eqb_spec n (snd x)) as [->|]; [|constructor]. destruct o; try (constructor; [exact I|constructor]); try constructor; [|constructor].
    apply (H _ _ eq_refl). destruct x; cbn in *; congruence.
  - destruct (Nat.ltb _ _); [|constructor]. destruct (n_queue s) as [|(c, j) q]; [constructor|]. destruct (Nat.eqb c (snd x)); [constructor; [exact I|constructor]|constructor].
Qed.

(** the step of a listener is one of the schedule, or one that the network makes *)
Definition told (o : zstep) (a : nat) (lo : lstep) : Prop := o = ZServer a lo \/ match lo with LAccept _ | LConn _ (Feed _) => True | _ => False end.
Lemma what_told l z o a lo x o' : told o a lo -> In o' (what_at z a lo x) -> from_listener (l ++ [o]) x o'.
Proof.
  intros To H. unfold what_at in H. destruct (Nat.eqb_spec (fst x) a) as [E|]; [|destruct H]. destruct (nth_error (z_servers z) a) as [s|]; [|destruct H].
  assert (L : o = ZServer a lo -> In (ZServer a lo) (l ++ [o])) by (intros <-; apply in_or_app; right; left; reflexivity).
  destruct lo as [tr|name sv|n o0|]; cbn [what] in H.
  - destruct H.
  - destruct H as [<-|[]]. cbn [from_listener]. rewrite E. destruct To as [To|[]]. exact (L To).
  - destruct (Nat.eqb_spec n (snd x)) as [En|]; [|destruct H]. assert (K : o' = o0 -> from_listener (l ++ [o]) x o').
    { intros ->. destruct To as [To|To]; [specialize (L To); rewrite En in L; destruct o0; cbn [from_listener]; try exact Logic.I; rewrite ?E; try exact L|destruct o0; try destruct To; exact Logic.I].
      cbn in H. destruct H. }
    destruct o0; cbn in H; try destruct H as [H|[]]; try destruct H; apply K; reflexivity.
  - destruct (Nat.ltb _ _); [|destruct H]. destruct (n_queue s) as [|(c, j) q]; [destruct H|]. destruct (Nat.eqb c (snd x)); [|destruct H]. destruct H as [<-|[]]. exact Logic.I.
Qed.
Lemma regs_server regs U l z o a lo : told o a lo -> (forall a0 s, nth_error (z_servers z) a0 = Some s -> traced regs l a0 (n_reg s)) ->
  forall a0 s, nth_error (z_servers (on_server U a lo z)) a0 = Some s -> traced regs (l ++ [o]) a0 (n_reg s).
Proof.
  intros To R a0 s H. cbn [on_server z_servers] in H. apply nth_upd_inv in H as [(<- & s0 & E & ->)|(_ & E)]; [|apply traced_more; exact (R a0 s E)]. specialize (R a s0 E).
  assert (K : n_reg (lrun_step U lo s0) = n_reg s0 -> traced regs (l ++ [o]) a (n_reg (lrun_step U lo s0))) by (intros ->; apply traced_more; exact R).
  destruct lo as [tr|name sv|n o0|].
  - apply K. reflexivity.
  - destruct To as [To|[]]. destruct R as (r0 & ll & A & B & C). exists r0, (ll ++ [(name, sv)]). split; [exact A|]. split; [rewrite fold_left_app; cbn [fold_left fst snd lrun_step n_reg]; rewrite B; reflexivity|].
    intros nm s' H. apply in_app_or in H as [H|[[= <- <-]|[]]]; apply in_or_app; [left; exact (C nm s' H)|right; left; exact To].
  - apply K. cbn [lrun_step]. destruct o0; try reflexivity; destruct (nth_error (n_conns s0) n); reflexivity.
  - apply K. cbn [lrun_step]. destruct (Nat.ltb _ _); [|reflexivity]. destruct (n_queue s0) as [|(c, j) q]; reflexivity.
Qed.

(** the clients' connections exist *)
Lemma conn_exists regs U t l z p k c x : netok regs U t l z -> nth_error (z_clients z) p = Some k -> nth_error (z_conns k) c = Some x -> exists s, z_conn z (fst x) (snd x) = Some s.
Proof. intros N Hp Hc. destruct (nk_view _ _ _ _ _ N p k Hp) as (yl & V). destruct (vw_conns _ _ _ _ _ _ _ _ V c x Hc) as (ky & _ & E). eauto. Qed.

(** a step of a listener, with no bytes for the client *)
Lemma view_listener regs U t p l z k yl o a lo z' : view regs U t p l z k yl -> draws p o = [] -> (forall d rid a, o <> ZCall p d rid a) ->
  (forall c n bs, nth_error (z_conns k) c = Some (a, n) -> lo <> LConn n (Feed bs)) -> z_servers z' = z_servers (on_server U a lo z) -> told o a lo ->
  exists yl', view regs U t p (l ++ [o]) z' k yl'.
Proof.
  intros V Dr Nc Nf Es To.
  apply (view_servers regs U t p l z k yl o z' (fun c => match nth_error (z_conns k) c with Some x => what_at z a lo x | None => [] end)); auto.
  - intros c. destruct (nth_error (z_conns k) c) as [x|] eqn:E; [|constructor]. apply what_nofeed. intros n bs Hl ->. exact (Nf c n bs E Hl).
  - intros c (a', n) s Hc Hs. rewrite Hc. replace (z_conn z' (fst (a', n)) (snd (a', n))) with (z_conn (on_server U a lo z) a' n) by (unfold z_conn; rewrite Es; reflexivity).
    apply server_conn. exact Hs.
  - intros c x o' Hc Ho. rewrite Hc in Ho. exact (what_told l z o a lo x o' To Ho).
Qed.

(** ** Every step *)
Lemma clients_other U a lo z : z_clients (on_server U a lo z) = z_clients z. Proof. reflexivity. Qed.

Lemma netok_server regs U t l z o a lo : netok regs U t l z -> (forall p, draws p o = []) -> (forall p d rid a, o <> ZCall p d rid a) ->
  (forall p k c n bs, nth_error (z_clients z) p = Some k -> nth_error (z_conns k) c = Some (a, n) -> lo <> LConn n (Feed bs)) -> told o a lo ->
  netok regs U t (l ++ [o]) (on_server U a lo z).
Proof.
  intros [V O R] Dr Nc Nf To. constructor; [|exact O|exact (regs_server regs U l z o a lo To R)]. intros p k Hp. rewrite clients_other in Hp. destruct (V p k Hp) as (yl & Vp).
  apply (view_listener regs U t p l z k yl o a lo); auto. intros c n bs. exact (Nf p k c n bs Hp).
Qed.

Lemma netok_none regs U t l z o : netok regs U t l z -> (forall p k, nth_error (z_clients z) p = Some k -> draws p o = []) -> (forall p k d rid a, nth_error (z_clients z) p = Some k -> o <> ZCall p d rid a) -> netok regs U t (l ++ [o]) z.
Proof.
  intros [V O R] Dr Nc. constructor; [|exact O|intros a s H; apply traced_more; exact (R a s H)]. intros p k Hp. destruct (V p k Hp) as (yl & Vp). apply (view_other regs U t p l z k yl o z); eauto.
Qed.

Lemma netok_client regs U t l z o p k co yo : netok regs U t l z -> nth_error (z_clients z) p = Some k ->
  (forall yl, view regs U t p l z k yl -> y_step U t yo (y_run U t yl) = y_client_step co (y_run U t yl)) -> y_ids [yo] = draws p o ->
  (forall d rid a, o = ZCall p d rid a -> yo = YCall d rid a) -> match co with M_AioClient.DialOk _ => False | _ => True end ->
  (forall p', p' <> p -> draws p' o = []) -> (forall p' d rid a, p' <> p -> o <> ZCall p' d rid a) -> (forall k, source p (l ++ [o]) k yo) ->
  netok regs U t (l ++ [o]) (on_client p (z_add co) z).
Proof.
  intros [V O R] Hp Y Di Dc Nd Dr Nc So. constructor; [| |intros a s H; apply traced_more; exact (R a s H)].
  - intros p' k' Hk. cbn [on_client z_clients] in Hk. apply nth_upd_inv in Hk as [(<- & k0 & E & ->)|(Ne & E)].
    + assert (k0 = k) by congruence. subst k0. destruct (V p k Hp) as (yl & Vp). exists (yl ++ [yo]). apply (view_client regs U t p l z k yl o); auto.
    + destruct (V p' k' E) as (yl & Vp). apply (view_other regs U t p' l z k' yl o); auto.
  - intros p1 p2 k1 k2 c1 c2 x H1 H2 C1 C2. cbn [on_client z_clients] in H1, H2. apply nth_upd_inv in H1 as [(<- & k0 & E & ->)|(Ne & E)]; apply nth_upd_inv in H2 as [(<- & k0' & E' & ->)|(Ne' & E')];
      cbn [z_add z_conns] in C1, C2; exact (O _ _ _ _ _ _ _ E E' C1 C2).
Qed.

Lemma netok_step regs U t l z o : netok regs U t l z -> netok regs U t (l ++ [o]) (z_step U t o z).
Proof.
  intros N. destruct o as [p d rid addr|p i tr|p o|a o|p c n|p c n]; cbn [z_step].
  - (* call *)
    destruct (nth_error (z_clients z) p) as [k|] eqn:Hp.
    2:{ assert (G : netok regs U t (l ++ [ZCall p d rid addr]) z).
        { apply netok_none; [exact N| |].
          - intros p' k' H. cbn [draws]. destruct (Nat.eqb_spec p p') as [->|]; [congruence|reflexivity].
          - intros p' k' d' rid' a' H [= -> _ _ _]. congruence. }
        destruct (y_request d rid) as [q|e]; [|exact G]. unfold on_client. rewrite L_Rest1.upd_none by exact Hp. destruct z; exact G. }
    destruct (y_request d rid) as [q|e] eqn:Er.
    + apply (netok_client regs U t l z _ p k (M_AioClient.Call q addr) (YCall d rid addr)); auto.
      * intros yl _. cbn [y_step]. rewrite Er. reflexivity.
      * cbn [draws]. rewrite Nat.eqb_refl. reflexivity.
      * intros d' rid' a' [= -> -> ->]. reflexivity.
      * intros p' Ne. cbn [draws]. destruct (Nat.eqb_spec p p'); [congruence|reflexivity].
      * intros p' d' rid' a' Ne [= E _ _ _]. congruence.
      * intros k0. apply in_or_app. right. left. reflexivity.
    + destruct N as [V O R]. constructor; [|exact O|intros a s H; apply traced_more; exact (R a s H)]. intros p' k' Hk. destruct (V p' k' Hk) as (yl & Vp). destruct (Nat.eq_dec p p') as [<-|Ne].
      * exists (yl ++ [YCall d rid addr]). apply view_void; [exact Vp|cbn [y_step]; rewrite Er; reflexivity|cbn [draws]; rewrite Nat.eqb_refl; reflexivity|intros d' rid' a' [= -> -> ->]; reflexivity|apply in_or_app; right; left; reflexivity].
      * apply (view_other regs U t p' l z k' yl _ z Vp); [cbn [draws]; destruct (Nat.eqb_spec p p'); [congruence|reflexivity]|intros d' rid' a' [= E _ _ _]; congruence|reflexivity].
  - (* dial *)
    assert (Void : netok regs U t (l ++ [ZDial p i tr]) z) by (apply netok_none; [exact N|reflexivity|discriminate]).
    destruct (nth_error (z_clients z) p) as [k|] eqn:Hp; [|exact Void]. cbv zeta. rewrite state_add.
    destruct (nth_error (M_AioClient.s_links _) _) as [lk|] eqn:El; [|exact Void]. set (a := Z.to_nat (M_AioClient.k_addr lk)).
    destruct (nth_error (z_servers z) a) as [s|] eqn:Es; [|exact Void]. destruct (Z.leb_spec 0 (M_AioClient.k_addr lk)) as [Pa|_]; [|exact Void].
    set (s0 := z_state t k) in *. set (s1 := M_AioClient.run_step (M_AioClient.DialOk i) s0) in *. set (k' := {| z_hist := _; z_conns := _ |}).
    assert (Fresh : forall p' k0 c, nth_error (z_clients z) p' = Some k0 -> nth_error (z_conns k0) c <> Some (a, List.length (n_conns s))).
    { intros p' k0 c H1 H2. destruct (conn_exists regs U t l z p' k0 c _ N H1 H2) as (x & Hx). unfold z_conn in Hx. cbn [fst snd] in Hx. rewrite Es in Hx. assert (nth_error (n_conns s) (List.length (n_conns s)) = None) by (apply nth_error_None; lia). congruence. }
    assert (Addr : addrs s1 = addrs s0 ++ [M_AioClient.k_addr lk]).
    { destruct (L_AioClient6.step_conns (M_AioClient.DialOk i) s0) as ((x & E) & _). fold s1 in E. destruct (L_System1.step_moves (M_AioClient.DialOk i) s0) as (M & _). fold s1 in M.
      assert (Lk : nth_error (addrs s1) (List.length (M_AioClient.s_links s0)) = Some (M_AioClient.k_addr lk)) by (unfold L_AioClient6.addrs; rewrite nth_error_map, El; reflexivity).
      assert (La : List.length (addrs s0) = List.length (M_AioClient.s_links s0)) by (unfold L_AioClient6.addrs; rewrite map_length; reflexivity).
      assert (Lb : List.length (addrs s1) <= S (List.length (addrs s0))).
      { unfold L_AioClient6.addrs. rewrite !map_length, !links_ins. destruct M as [M|M]; rewrite M; [lia|rewrite app_length; cbn; lia]. }
      rewrite E, <- La, nth_error_app2 in Lk by lia. rewrite Nat.sub_diag in Lk. destruct x as [|y x]; [discriminate|]. cbn in Lk. injection Lk as ->.
      rewrite E, app_length in Lb. cbn in Lb. destruct x; [exact E|cbn in Lb; lia]. }
    constructor; [| |exact (regs_server regs U l z (ZDial p i tr) a (LAccept tr) (or_intror Logic.I) (nk_regs _ _ _ _ _ N))].
    + intros p' k0 Hk. cbn [on_client z_clients on_server] in Hk. apply nth_upd_inv in Hk as [(<- & k1 & E & ->)|(Ne & E)].
      * destruct (nk_view _ _ _ _ _ N p k Hp) as (yl & V). pose proof (view_state _ _ _ _ _ _ _ _ V) as St. fold s0 in St. exists (yl ++ [YDial i (n_reg s) tr]).
        assert (R : y_run U t (yl ++ [YDial i (n_reg s) tr]) = {| y_hist := y_hist (y_run U t yl) ++ [M_AioClient.DialOk i]; y_conns := y_conns (y_run U t yl) ++ [{| y_reg := n_reg s; y_tr := tr; y_steps := [] |}] |}).
        { rewrite yrun_app. cbn [fold_left y_step]. cbv zeta. rewrite client_snoc, St. fold s1.
          assert (Lt : List.length (M_AioClient.s_links s0) < List.length (M_AioClient.s_links s1)) by (apply nth_error_Some; congruence).
          destruct (Nat.ltb_spec (List.length (M_AioClient.s_links s0)) (List.length (M_AioClient.s_links s1))); [reflexivity|lia]. }
        destruct V as [V1 V2 V3 V4 V5 V6 V7 V8]. constructor; rewrite ?R; unfold k'; cbn [y_hist y_conns z_hist z_conns z_add].
        -- rewrite V1. reflexivity.
        -- rewrite !app_length, V2. reflexivity.
        -- intros c x Hx. destruct (Nat.lt_ge_cases c (List.length (z_conns k))) as [Lc|Lc].
           ++ rewrite nth_error_app1 in Hx by exact Lc. destruct (V3 c x Hx) as (ky & Ky & Zx). exists ky. split; [rewrite nth_error_app1 by lia; exact Ky|].
              destruct x as (a0, n0). cbn [fst snd] in *. pose proof (server_conn U z a (LAccept tr) a0 n0 _ Zx) as X. change (z_conn (on_client p _ (on_server U a (LAccept tr) z)) a0 n0) with (z_conn (on_server U a (LAccept tr) z) a0 n0).
              rewrite X. f_equal. unfold what_at. cbn [fst snd]. destruct (Nat.eqb a0 a); [|reflexivity]. rewrite Es. reflexivity.
           ++ rewrite nth_error_app2 in Hx by exact Lc. destruct (c - List.length (z_conns k)) as [|m] eqn:Ec; [|destruct m; discriminate]. cbn in Hx. injection Hx as <-. cbn [fst snd].
              eexists. split; [rewrite nth_error_app2 by lia; rewrite V2, Ec; reflexivity|].
              change (z_conn (on_client p _ (on_server U a (LAccept tr) z)) a (List.length (n_conns s))) with (z_conn (on_server U a (LAccept tr) z) a (List.length (n_conns s))).
              unfold z_conn, on_server. cbn [z_servers]. rewrite (nth_upd_same _ _ _ _ Es). cbn [lrun_step n_conns]. rewrite nth_error_app2, Nat.sub_diag by lia. reflexivity.
        -- rewrite yids_app, zids_snoc, V4. reflexivity.
        -- intros d rid a0 H. apply in_app_or in H as [H|[H|[]]]; [apply in_or_app; left; exact (V5 d rid a0 H)|discriminate].
        -- assert (Est : z_state t k' = s1) by exact (state_add t (M_AioClient.DialOk i) k). fold s0 in V6. match goal with |- addrs ?w = _ => change w with (z_state t k') end.
           rewrite Est, Addr, map_app, V6. cbn [map fst]. do 2 f_equal. unfold a. lia.
        -- intros yo H. apply in_app_or in H as [H|[<-|[]]]; [|exact Logic.I]. apply (source_more p l k (ZDial p i tr) _ _ yo); [|exact (V7 yo H)|reflexivity]. intros c x Hx. cbn [z_conns]. rewrite nth_error_app1 by (apply nth_error_Some; congruence). exact Hx.
        -- intros c x ky Hx Hk. apply traced_more. destruct (Nat.lt_ge_cases c (List.length (z_conns k))) as [Lc|Lc].
           ++ rewrite nth_error_app1 in Hx by exact Lc. rewrite nth_error_app1 in Hk by lia. exact (V8 c x ky Hx Hk).
           ++ rewrite nth_error_app2 in Hx by exact Lc. rewrite nth_error_app2 in Hk by lia. rewrite V2 in Hk. destruct (c - List.length (z_conns k)) as [|m]; [|destruct m; discriminate]. cbn in Hx, Hk. injection Hx as <-. injection Hk as <-. exact (nk_regs _ _ _ _ _ N a s Es).
      * destruct (nk_view _ _ _ _ _ N p' k0 E) as (yl & V). apply (view_listener regs U t p' l z k0 yl _ a (LAccept tr)); [exact V|reflexivity|discriminate|discriminate|reflexivity|right; exact Logic.I].
    + intros p1 p2 k1 k2 c1 c2 x H1 H2 C1 C2. cbn [on_client z_clients on_server] in H1, H2.
      assert (New : forall c0, nth_error (z_conns k ++ [(a, List.length (n_conns s))]) c0 = Some x -> nth_error (z_conns k) c0 = Some x \/ (c0 = List.length (z_conns k) /\ x = (a, List.length (n_conns s)))).
      { intros c0 Hc. destruct (Nat.lt_ge_cases c0 (List.length (z_conns k))) as [Lc|Lc]; [rewrite nth_error_app1 in Hc by exact Lc; auto|]. rewrite nth_error_app2 in Hc by exact Lc.
        destruct (c0 - List.length (z_conns k)) as [|m] eqn:Ec; [|destruct m; discriminate]. cbn in Hc. right. split; [lia|congruence]. }
      apply nth_upd_inv in H1 as [(<- & k3 & E & ->)|(Ne & E)]; apply nth_upd_inv in H2 as [(<- & k3' & E' & ->)|(Ne' & E')]; unfold k' in *; cbn [z_conns] in C1, C2.
      * apply New in C1. apply New in C2. destruct C1 as [C1|(L1 & X1)], C2 as [C2|(L2 & X2)]; try (rewrite X1 in * ); try (rewrite X2 in * ).
        -- assert (k3 = k) by congruence. assert (k3' = k) by congruence. subst. exact (nk_own _ _ _ _ _ N _ _ _ _ _ _ _ Hp Hp C1 C2).
        -- destruct (Fresh p k c1 Hp C1).
        -- destruct (Fresh p k c2 Hp C2).
        -- split; [reflexivity|congruence].
      * apply New in C1. destruct C1 as [C1|(L1 & X1)]; [exact (nk_own _ _ _ _ _ N _ _ _ _ _ _ _ Hp E' C1 C2)|]. subst x. destruct (Fresh p2 k2 c2 E' C2).
      * apply New in C2. destruct C2 as [C2|(L2 & X2)]; [exact (nk_own _ _ _ _ _ N _ _ _ _ _ _ _ E Hp C1 C2)|]. subst x. destruct (Fresh p1 k1 c1 E C1).
      * exact (nk_own _ _ _ _ _ N _ _ _ _ _ _ _ E E' C1 C2).
  - (* another step of a client *)
    assert (Void : (forall p', p' <> p -> draws p' (ZClient p o) = []) /\ forall p' d rid a, ZClient p o <> ZCall p' d rid a).
    { split; [|discriminate]. intros p' Ne. cbn [draws]. destruct o; try reflexivity. destruct (Nat.eqb_spec p p'); [congruence|reflexivity]. }
    destruct Void as [Vd Vc].
    assert (Nop : match o with M_AioClient.Call _ _ | M_AioClient.DialOk _ | M_AioClient.Feed _ _ => True | _ => False end -> netok regs U t (l ++ [ZClient p o]) z).
    { intros H. apply netok_none; [exact N| |intros; apply Vc]. intros p' k' _. destruct o; try destruct H; reflexivity. }
    assert (Step : match o with M_AioClient.Call _ _ | M_AioClient.DialOk _ | M_AioClient.Feed _ _ => False | _ => True end -> netok regs U t (l ++ [ZClient p o]) (on_client p (z_add o) z)).
    { intros H. destruct (nth_error (z_clients z) p) as [k|] eqn:Hp.
      - apply (netok_client regs U t l z _ p k o (YClient o)); auto.
        + intros yl _. destruct o; try destruct H; reflexivity.
        + cbn [draws]. destruct o; try reflexivity. rewrite Nat.eqb_refl. reflexivity.
        + discriminate.
        + destruct o; try exact I; destruct H.
        + intros k0. apply in_or_app. right. left. reflexivity.
      - unfold on_client. rewrite L_Rest1.upd_none by exact Hp. assert (G : netok regs U t (l ++ [ZClient p o]) z); [|destruct z; exact G].
        apply netok_none; [exact N| |intros; apply Vc]. intros p' k' Hk. apply Vd. congruence. }
    destruct o; try (apply Nop; exact I); apply Step; exact I.
  - (* a step of a listener *)
    assert (D1 : forall p, draws p (ZServer a o) = []) by reflexivity. assert (D2 : forall p d rid a', ZServer a o <> ZCall p d rid a') by discriminate.
    destruct o as [tr|name sv|n o|]; try (apply netok_server; [exact N|exact D1|exact D2|discriminate|left; reflexivity]).
    destruct o; try (apply netok_server; [exact N|exact D1|exact D2|discriminate|left; reflexivity]).
    destruct (owned z a n) eqn:Ow; [apply netok_none; [exact N|intros; apply D1|intros; apply D2]|].
    apply netok_server; [exact N|exact D1|exact D2| |left; reflexivity]. intros p k c n' bs' Hp Hc [= -> ->]. exact (owned_false _ _ _ _ _ _ Ow Hp Hc).
  - (* bytes for a listener *)
    assert (Void : netok regs U t (l ++ [ZUp p c n]) z) by (apply netok_none; [exact N|reflexivity|discriminate]).
    destruct (nth_error (z_clients z) p) as [k|] eqn:Hp; [|exact Void]. destruct (nth_error (z_conns k) c) as [(a, m)|] eqn:Hc; [|exact Void].
    destruct (z_conn z a m) as [x|] eqn:Hx; [|exact Void]. set (bs := firstn n _).
    constructor; [|exact (nk_own _ _ _ _ _ N)|exact (regs_server regs U l z (ZUp p c n) a (LConn m (Feed bs)) (or_intror Logic.I) (nk_regs _ _ _ _ _ N))]. intros p' k' Hk. rewrite clients_other in Hk. destruct (nk_view _ _ _ _ _ N p' k' Hk) as (yl & V). destruct (Nat.eq_dec p' p) as [->|Ne].
    + assert (k' = k) by congruence. subst k'. exists (yl ++ [YUp c n]). pose proof (view_state _ _ _ _ _ _ _ _ V) as St. destruct V as [V1 V2 V3 V4 V5 V6 V7 V8].
      destruct (V3 c _ Hc) as (ky & Ky & Zx). cbn [fst snd] in Zx. assert (x = y_server U ky) by congruence. subst x.
      assert (R : y_run U t (yl ++ [YUp c n]) = y_server_step c (Feed bs) (y_run U t yl)).
      { rewrite yrun_app. cbn [fold_left y_step]. rewrite Ky, St. do 2 f_equal. unfold bs, y_server. rewrite in_run. reflexivity. }
      constructor; rewrite ?R; cbn [y_server_step y_hist y_conns].
      * exact V1.
      * rewrite length_upd. exact V2.
      * intros c' (a', m') Hc'. destruct (V3 c' _ Hc') as (ky' & Ky' & Zx'). cbn [fst snd] in *. destruct (Nat.eq_dec c c') as [<-|Nc].
        -- assert (a' = a /\ m' = m) as (-> & ->) by (split; congruence). assert (ky' = ky) by congruence. subst ky'. eexists. split; [exact (nth_upd_same _ _ _ _ Ky)|].
           rewrite (server_conn U z a _ a m _ Hx). f_equal. unfold what_at. cbn [fst snd]. rewrite Nat.eqb_refl. unfold z_conn in Hx. destruct (nth_error (z_servers z) a) as [s|]; [|discriminate].
           cbn [what]. rewrite Nat.eqb_refl. unfold y_server. cbn [y_reg y_tr y_steps]. rewrite srun_app. reflexivity.
        -- exists ky'. split; [rewrite nth_upd_other by exact Nc; exact Ky'|]. rewrite (server_conn U z a _ a' m' _ Zx'). f_equal. unfold what_at. cbn [fst snd]. destruct (Nat.eqb_spec a' a) as [->|]; [|reflexivity].
           destruct (nth_error (z_servers z) a) as [s|]; [|reflexivity]. cbn [what]. destruct (Nat.eqb_spec m m') as [<-|]; [|reflexivity]. exfalso. apply Nc. exact (proj2 (nk_own _ _ _ _ _ N p p k k c c' _ Hp Hp Hc Hc')).
      * rewrite yids_app, zids_snoc, V4. reflexivity.
      * intros d rid a0 H. apply in_app_or in H as [H|[H|[]]]; [apply in_or_app; left; exact (V5 d rid a0 H)|discriminate].
      * exact V6.
      * intros yo H. apply in_app_or in H as [H|[<-|[]]]; [|exact Logic.I]. exact (source_more p l k (ZUp p c n) _ k yo (fun c x K => K) (V7 yo H) eq_refl).
      * intros c' x ky' Hx' Hk'. apply traced_more. apply nth_upd_inv in Hk' as [(<- & k0 & E & ->)|(_ & E)]; exact (V8 _ x _ Hx' E).
    + apply (view_listener regs U t p' l z k' yl _ a (LConn m (Feed bs))); [exact V|reflexivity|discriminate| |reflexivity|right; exact Logic.I].
      intros c' n' bs' Hc' [= <- _]. apply Ne. exact (eq_sym (proj1 (nk_own _ _ _ _ _ N p p' k k' c c' _ Hp Hk Hc Hc'))).
  - (* bytes for a client *)
    assert (Void : netok regs U t (l ++ [ZDown p c n]) z) by (apply netok_none; [exact N|reflexivity|discriminate]).
    destruct (nth_error (z_clients z) p) as [k|] eqn:Hp; [|exact Void]. destruct (nth_error (z_conns k) c) as [(a, m)|] eqn:Hc; [|exact Void].
    destruct (nth_error (M_AioClient.s_links (z_state t k)) c) as [lk|] eqn:Hl; [|exact Void]. destruct (z_conn z a m) as [x|] eqn:Hx; [|exact Void].
    apply (netok_client regs U t l z _ p k _ (YDown c n)); auto; try discriminate; [|intros k0; exact Logic.I].
    intros yl V. pose proof (view_state _ _ _ _ _ _ _ _ V) as St. destruct (vw_conns _ _ _ _ _ _ _ _ V c _ Hc) as (ky & Ky & Zx). cbn [fst snd] in Zx. assert (x = y_server U ky) by congruence. subst x.
    cbn [y_step]. rewrite Ky, St, Hl. reflexivity.
Qed.

Lemma netok_init U t n regs : netok regs U t [] (z_init n regs).
Proof.
  assert (K : forall p k, nth_error (z_clients (z_init n regs)) p = Some k -> k = {| z_hist := []; z_conns := [] |}).
  { intros p k H. apply nth_error_In in H. apply repeat_spec in H. exact H. }
  constructor.
  - intros p k H. rewrite (K p k H). exists []. constructor; try reflexivity; [intros [|c] x; discriminate|intros d rid a []|intros yo []|intros [|c] x ky; discriminate].
  - intros p p' k k' c c' x H _ C. rewrite (K p k H) in C. destruct c; discriminate.
  - intros a s H. cbn [z_init z_servers] in H. rewrite nth_error_map in H. destruct (nth_error regs a) as [r|] eqn:E; [|discriminate]. injection H as <-. exists r, []. split; [exact E|]. split; [reflexivity|intros name sv []].
Qed.
Lemma zrun_snoc U t n regs l o : z_run U t n regs (l ++ [o]) = z_step U t o (z_run U t n regs l).
Proof. unfold z_run. rewrite fold_left_app. reflexivity. Qed.
Lemma netok_run U t n regs l : netok regs U t l (z_run U t n regs l).
Proof. induction l as [|o l IH] using rev_ind; [apply netok_init|]. rewrite zrun_snoc. apply netok_step. exact IH. Qed.

(** ** The listeners *)
Lemma listener_step U t o z a s' : nth_error (z_servers (z_step U t o z)) a = Some s' -> exists s, nth_error (z_servers z) a = Some s /\ (s' = s \/ exists lo, s' = lrun_step U lo s).
Proof.
  assert (K : forall a0 lo, nth_error (upd a0 (lrun_step U lo) (z_servers z)) a = Some s' -> exists s, nth_error (z_servers z) a = Some s /\ (s' = s \/ exists lo, s' = lrun_step U lo s)).
  { intros a0 lo H. apply nth_upd_inv in H as [(-> & s & E & ->)|(_ & E)]; eauto. }
  destruct o as [p d rid addr|p i tr|p o|a0 o|p c n|p c n]; cbn [z_step].
  - destruct (y_request d rid); cbn; eauto.
  - destruct (nth_error (z_clients z) p) as [k|]; [|eauto]. cbv zeta. destruct (nth_error (M_AioClient.s_links _) _) as [lk|]; [|eauto]. destruct (nth_error (z_servers z) (Z.to_nat (M_AioClient.k_addr lk))) as [s|]; [|eauto].
    destruct (0 <=? M_AioClient.k_addr lk)%Z; [|eauto]. cbn [on_client on_server z_servers]. apply K.
  - destruct o; cbn; eauto.
  - destruct o as [tr|name sv|m o|]; try apply K. destruct o; try apply K. destruct (owned z a0 m); [eauto|apply K].
  - destruct (nth_error (z_clients z) p) as [k|]; [|eauto]. destruct (nth_error (z_conns k) c) as [(a0, m)|]; [|eauto]. destruct (z_conn z a0 m); [|eauto]. apply K.
  - destruct (nth_error (z_clients z) p) as [k|]; [|eauto]. destruct (nth_error (z_conns k) c) as [(a0, m)|]; [|eauto]. destruct (nth_error (M_AioClient.s_links _) c); [|eauto]. destruct (z_conn z a0 m); cbn; eauto.
Qed.
Lemma listener_run U t n regs l a s : nth_error (z_servers (z_run U t n regs l)) a = Some s -> exists reg ll, nth_error regs a = Some reg /\ s = lrun U reg ll.
Proof.
  revert s. induction l as [|o l IH] using rev_ind; intros s H.
  - cbn [z_run fold_left z_init z_servers] in H. rewrite nth_error_map in H. destruct (nth_error regs a) as [reg|]; [|discriminate]. injection H as <-. exists reg, []. split; reflexivity.
  - rewrite zrun_snoc in H. apply listener_step in H as (s0 & H0 & [->|(lo & ->)]); [exact (IH s0 H0)|]. destruct (IH s0 H0) as (reg & ll & Hr & ->). exists reg, (ll ++ [lo]). split; [exact Hr|].
    unfold lrun. rewrite fold_left_app. reflexivity.
Qed.

(** ** What a caller gets *)
Lemma net_value U t n regs l p k d rid a v : NoDup (z_ids p l) -> let z := z_run U t n regs l in nth_error (z_clients z) p = Some k ->
  In (ZCall p d rid a) l -> gives (z_state t k) rid (Ok v) ->
  exists s m bs, In (s, m) (z_conns k) /\ a = Ok (Z.of_nat s) /\ method_returned z s m d v /\ v = PBytes bs /\ bs <> [].
Proof.
  intros Nd z Hp Hc Hg. destruct (nk_view _ _ _ _ _ (netok_run U t n regs l) p k Hp) as (yl & V). fold z in V. pose proof (view_state _ _ _ _ _ _ _ _ V) as St.
  destruct (result_of_call U t yl d rid a v) as (c & ky & lk & f & bs & Kc & Kl & Ka & Ke & Ev & Nb & En).
  - rewrite (vw_ids _ _ _ _ _ _ _ _ V). exact Nd.
  - exact (vw_calls _ _ _ _ _ _ _ _ V d rid a Hc).
  - rewrite St. exact Hg.
  - assert (Lc : c < List.length (z_conns k)) by (rewrite <- (vw_len _ _ _ _ _ _ _ _ V); apply nth_error_Some; congruence).
    destruct (nth_error (z_conns k) c) as [(s, m)|] eqn:Hx; [|apply nth_error_None in Hx; lia].
    destruct (vw_conns _ _ _ _ _ _ _ _ V c _ Hx) as (ky' & Ky & Zx). assert (ky' = ky) by congruence. subst ky'. cbn [fst snd] in Zx.
    exists s, m, bs. split; [apply nth_error_In in Hx; exact Hx|]. split.
    { rewrite Ka. f_equal. assert (E : nth_error (addrs (z_state t k)) c = Some (M_AioClient.k_addr lk)) by (unfold L_AioClient6.addrs; rewrite nth_error_map, <- St, Kl; reflexivity).
      rewrite (vw_addrs _ _ _ _ _ _ _ _ V), nth_error_map, Hx in E. cbn in E. congruence. }
    split; [|auto]. assert (G : good (y_server U ky)) by apply good_run. destruct En as (b & Hb & Hf & Hs).
    destruct (executions_job U (y_steps ky) _ _ _ _ _ (good_init _ _) Ke) as (j & b' & Hb' & F1 & F2 & F3 & F4 & _). change (sfrom U (sinit (y_reg ky) (y_tr ky)) (y_steps ky)) with (y_server U ky) in Hb'.
    apply In_nth_error in Hb as (j' & Hb). pose proof G as ((_ & _ & J) & _).
    assert (j' = j) by (apply (NoDup_nth_map j_frame _ j' j b b' (jo_frames _ J) Hb Hb'); congruence). subst j'. assert (b' = b) by congruence. subst b'.
    exists (y_server U ky), b. split; [exact Zx|]. split; [apply nth_error_In in Hb; exact Hb|]. auto.
Qed.

(** ** How often its method is executed *)
Lemma net_executions U t n regs l p k rid i tk L : NoDup (z_ids p l) -> let z := z_run U t n regs l in nth_error (z_clients z) p = Some k ->
  nth_error (M_AioClient.s_tasks (z_state t k)) i = Some tk -> p_request_id (M_AioClient.t_req tk) = PInt rid ->
  NoDup L -> (forall c j, In (c, j) L -> started_for z k rid c j) ->
  List.length L <= 1 + failed_flushes i k /\ List.length L <= 3.
Proof.
  intros Nd z Hp Hi Hr NL HL. destruct (nk_view _ _ _ _ _ (netok_run U t n regs l) p k Hp) as (yl & V). fold z in V. pose proof (view_state _ _ _ _ _ _ _ _ V) as St.
  (* the number of the unit for each of these *)
  assert (F : forall x, In x L -> exists y, fst y = fst x /\ executed_for U (y_run U t yl) rid (fst y) (snd y) /\
     exists ky b, nth_error (y_conns (y_run U t yl)) (fst x) = Some ky /\ nth_error (v_jobs (y_server U ky)) (snd x) = Some b /\ snd y = j_frame b).
  { intros (c, j) Hx. destruct (HL c j Hx) as (a & m & x & b & items & rest & q & Hc & Zx & Hb & Sb & Cu & Hq & Eq).
    destruct (vw_conns _ _ _ _ _ _ _ _ V c _ Hc) as (ky & Ky & Zy). cbn [fst snd] in Zy. assert (x = y_server U ky) by congruence. subst x.
    exists (c, j_frame b). cbn [fst snd]. split; [reflexivity|]. split; [|exists ky, b; auto].
    destruct (started_executed U (y_steps ky) _ j b (good_init (y_reg ky) (y_tr ky)) Hb Sb) as [Ex|(y & Hy & _)]; [|destruct j; discriminate].
    exists ky, items, rest, q, (j_service b), (j_method b), (j_body b). split; [exact Ky|]. split; [exact Ex|]. unfold y_server in Cu. rewrite in_run in Cu. auto. }
  destruct (choose (fun x y => fst y = fst x /\ executed_for U (y_run U t yl) rid (fst y) (snd y) /\
     exists ky b, nth_error (y_conns (y_run U t yl)) (fst x) = Some ky /\ nth_error (v_jobs (y_server U ky)) (snd x) = Some b /\ snd y = j_frame b) L F) as (M & FM).
  assert (Len : List.length L = List.length M) by (clear - FM; induction FM as [|x y L0 M0 _ _ IH]; cbn; congruence).
  assert (NM : NoDup M).
  { clear HL F Len. induction FM as [|x y L' M' H FM IH]; [constructor|]. inversion NL as [|? ? Nx NL']; subst. constructor; [|exact (IH NL')]. intros Hin.
    destruct (Forall2_In_l _ _ _ _ FM Hin) as (x' & Hx' & H'). destruct H as (A & _ & ky & b & B1 & B2 & B3), H' as (A' & _ & ky' & b' & B1' & B2' & B3').
    apply Nx. replace x with x'; [exact Hx'|]. assert (E : fst x' = fst x) by congruence. rewrite E in B1'. assert (ky' = ky) by congruence. subst ky'.
    pose proof (good_run U (y_reg ky) (y_tr ky) (y_steps ky)) as ((_ & _ & J) & _). change (srun U (y_reg ky) (y_tr ky) (y_steps ky)) with (y_server U ky) in J.
    assert (snd x' = snd x) by (apply (NoDup_nth_map j_frame _ _ _ b' b (jo_frames _ J) B2' B2); congruence). destruct x, x'; cbn in *; congruence. }
  rewrite Len. assert (HM : forall c m, In (c, m) M -> executed_for U (y_run U t yl) rid c m).
  { intros c m H. destruct (Forall2_In_l _ _ _ _ FM H) as (x & _ & _ & X & _). exact X. }
  rewrite <- St in Hi. pose proof (executed_bound U t yl rid i tk M ltac:(rewrite (vw_ids _ _ _ _ _ _ _ _ V); exact Nd) Hi Hr NM HM) as B.
  unfold y_client in Hi. pose proof (L_AioClient6.w_tasks _ _ (L_AioClient6.wr_run t (y_hist (y_run U t yl))) i tk Hi) as W.
  pose proof (L_AioClient6.o_fails _ _ _ _ W) as Ff. pose proof (L_AioClient6.o_three _ _ _ _ W) as T. unfold L_AioClient6.fails in Ff. unfold failed_flushes. rewrite (vw_hist _ _ _ _ _ _ _ _ V) in *. cbv zeta in B. lia.
Qed.

Lemma net_separate : forall U t n regs l p p' k k' x, let z := z_run U t n regs l in
  nth_error (z_clients z) p = Some k -> nth_error (z_clients z) p' = Some k' -> In x (z_conns k) -> In x (z_conns k') -> p = p'.
Proof.
  intros U t n regs l p p' k k' x z Hp Hp' H H'. apply In_nth_error in H as (c & H). apply In_nth_error in H' as (c' & H').
  exact (proj1 (nk_own _ _ _ _ _ (netok_run U t n regs l) p p' k k' c c' x Hp Hp' H H')).
Qed.

Lemma net_bound : forall U t n regs l a s x, nth_error (z_servers (z_run U t n regs l)) a = Some s -> executing s x -> List.length x <= 30.
Proof. intros U t n regs l a s x H E. destruct (listener_run U t n regs l a s H) as (reg & ll & _ & ->). exact (bound U reg ll x E). Qed.

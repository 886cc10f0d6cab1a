(** Lemmas about the synchronous client. *)
From Coq Require Import ZifyBool.
From Verif Require Import PyBase L_PyBase PyDict L_PyDict Utf8 Struct L_Struct M_SofaHeader L_SofaHeader M_Package L_Package L_Codec S_Wire
  M_Lru M_ConnPool L_ConnPool M_PoolManager M_SyncClient.
Open Scope Z_scope.

Definition avail (e : event) : Prop := match e with Avail _ => True | _ => False end.

Lemma field_firstn off n k (bs : bytes) : (off + n <= k)%nat -> field off n (firstn k bs) = field off n bs.
Proof. intros H. unfold field. rewrite skipn_firstn_comm, firstn_firstn. f_equal. lia. Qed.

Lemma resp_dict_take n bs : 20 <= n -> resp_dict (py_take n bs) = resp_dict bs.
Proof. intros H. rewrite py_take_firstn. unfold resp_dict. rewrite !field_firstn by lia. reflexivity. Qed.
Lemma resp_total_take n bs : 20 <= n -> resp_total (py_take n bs) = resp_total bs.
Proof. intros H. rewrite py_take_firstn. unfold resp_total. rewrite !field_firstn by lia. reflexivity. Qed.
Lemma resp_total_ge bs : 20 <= resp_total bs.
Proof. unfold resp_total. pose proof (uval_nonneg (field 12 2 bs)). pose proof (uval_nonneg (field 14 2 bs)). pose proof (uval_nonneg (field 16 4 bs)). lia. Qed.

(** the bytes read so far are a prefix of the stream, at most one frame *)
Record rgood (srv : bytes) (s : rstate) : Prop := {
  rg_split : y_buf s = py_take (len (y_buf s)) srv /\ y_rest s = py_drop (len (y_buf s)) srv /\ len (y_buf s) <= len srv;
  rg_none : y_header s = None -> y_total s = 20 /\ len (y_buf s) < 20;
  rg_some : forall h, y_header s = Some h -> h = resp_dict srv /\ y_total s = resp_total srv /\ 20 <= len (y_buf s) <= resp_total srv
}.

Lemma rgood_init srv : rgood srv (rinit srv).
Proof. constructor; cbn [rinit y_buf y_rest y_header y_total]; [split; [|split]; [rewrite py_take_firstn; reflexivity|rewrite len_nil, py_drop_0; reflexivity|apply len_nonneg]|split; reflexivity|discriminate]. Qed.

Lemma py_take_plus {A} a b (l : list A) : 0 <= a -> 0 <= b -> py_take a l ++ py_take b (py_drop a l) = py_take (a + b) l.
Proof.
  intros Ha Hb. rewrite !py_take_firstn, py_drop_skipn. rewrite <- (firstn_skipn (Z.to_nat a) l) at 3. rewrite Z2Nat.inj_add by lia.
  destruct (Nat.le_gt_cases (Z.to_nat a) (length l)) as [H|H].
  - rewrite firstn_app, firstn_firstn, firstn_length_le by exact H. f_equal; [f_equal; lia|f_equal; lia].
  - rewrite (skipn_all2 l) by lia. rewrite !firstn_nil, !app_nil_r. rewrite firstn_firstn. f_equal. lia.
Qed.

Lemma bh_class bs : bh_int f_class_len (resp_dict bs) = Ok (uval (field 12 2 bs)). Proof. reflexivity. Qed.
Lemma bh_header bs : bh_int f_header_len (resp_dict bs) = Ok (uval (field 14 2 bs)). Proof. reflexivity. Qed.
Lemma bh_content bs : bh_int f_content_len (resp_dict bs) = Ok (uval (field 16 4 bs)). Proof. reflexivity. Qed.

(** one read: m bytes are taken off the stream *)
Lemma receive_spec srv s n : rgood srv s -> len (y_buf s) < y_total s ->
  exists s', receive n s = Ok s' /\ rgood srv s' /\
    len (y_buf s') = len (y_buf s) + Z.min (Z.min (Z.of_nat n + 1) (y_total s - len (y_buf s))) (len srv - len (y_buf s)).
Proof.
  intros G Hlt. destruct (rg_split _ _ G) as (Eb & Er & Hle). set (m := Z.min (Z.of_nat n + 1) (y_total s - len (y_buf s))).
  assert (Hm : 0 <= m) by (unfold m; lia). assert (Hn : 0 <= len (y_buf s)) by apply len_nonneg.
  assert (Lr : len (y_rest s) = len srv - len (y_buf s)) by (rewrite Er, len_py_drop; lia).
  set (got := py_take m (y_rest s)). assert (Lg : len got = Z.min m (len srv - len (y_buf s))).
  { unfold got. destruct (Z.le_ge_cases m (len (y_rest s))); [rewrite len_py_take; lia|rewrite py_take_all; lia]. }
  assert (B : y_buf s ++ got = py_take (len (y_buf s) + len got) srv).
  { rewrite Eb at 1. unfold got. rewrite Er. rewrite py_take_plus by lia.
    destruct (Z.le_ge_cases m (len srv - len (y_buf s))).
    - f_equal. fold got. rewrite <- Er. unfold got in Lg. lia.
    - rewrite !py_take_all; [reflexivity| |lia]. rewrite <- Er. fold got. lia. }
  assert (R : py_drop (len got) (y_rest s) = py_drop (len (y_buf s) + len got) srv) by (rewrite Er, py_drop_drop; [reflexivity|lia|apply len_nonneg]).
  assert (LB : len (y_buf s ++ got) = len (y_buf s) + len got) by apply len_app.
  unfold receive. fold m. fold got. destruct (y_header s) as [h|] eqn:Eh.
  - destruct (rg_some _ _ G h Eh) as (-> & Et & Hb). eexists. split; [reflexivity|]. cbn [y_buf y_total y_header y_rest]. split; [|rewrite LB, Lg; reflexivity].
    constructor; cbn [y_buf y_total y_header y_rest].
    + rewrite LB. split; [exact B|]. split; [exact R|lia].
    + discriminate.
    + intros h [= <-]. split; [reflexivity|]. split; [exact Et|]. rewrite LB. lia.
  - destruct (rg_none _ _ G Eh) as (Et & Hb). rewrite Et in *. destruct (Z.leb_spec 20 (len (y_buf s ++ got))) as [H20|H20].
    + rewrite BoltResponse_eq, bolt_header_resp by exact H20. cbn [bind].
      assert (E20 : len (y_buf s ++ got) = 20) by lia.
      assert (D : resp_dict (y_buf s ++ got) = resp_dict srv) by (rewrite B; apply resp_dict_take; lia). rewrite D.
      rewrite bh_class, bh_header, bh_content. cbn [bind].
      eexists. split; [reflexivity|]. cbn [y_buf y_total y_header y_rest]. split; [|rewrite LB, Lg; reflexivity].
      constructor; cbn [y_buf y_total y_header y_rest].
      * rewrite LB. split; [exact B|]. split; [exact R|lia].
      * discriminate.
      * intros h [= <-]. split; [reflexivity|]. split; [unfold resp_total; lia|]. rewrite LB. pose proof (resp_total_ge srv). lia.
    + eexists. split; [reflexivity|]. cbn [y_buf y_total y_header y_rest]. split; [|rewrite LB, Lg; reflexivity].
      constructor; cbn [y_buf y_total y_header y_rest].
      * rewrite LB. split; [exact B|]. split; [exact R|lia].
      * intros _. split; [reflexivity|]. exact H20.
      * discriminate.
Qed.

Definition complete (srv : bytes) : Prop := 20 <= len srv /\ resp_total srv <= len srv.

Lemma received_spec srv s : rgood srv s -> y_total s <= len (y_buf s) ->
  complete srv /\ y_header s = Some (resp_dict srv) /\ y_buf s = py_take (resp_total srv) srv /\ y_rest s = py_drop (resp_total srv) srv.
Proof.
  intros G H. destruct (rg_split _ _ G) as (Eb & Er & Hle). destruct (y_header s) as [h|] eqn:Eh.
  - destruct (rg_some _ _ G h Eh) as (-> & Et & Hb). assert (E : len (y_buf s) = resp_total srv) by lia. rewrite E in *. unfold complete. split; [lia|]. auto.
  - destruct (rg_none _ _ G Eh). lia.
Qed.

Lemma loop_good srv evs : forall s, rgood srv s ->
  match recv_loop evs s with
  | Received s' => rgood srv s' /\ y_total s' <= len (y_buf s')
  | Waiting s' => rgood srv s' /\ Forall avail evs
  | Stopped e c s' => (e = TimeoutError /\ c = true /\ In Silent evs) \/ (c = false /\ In (Broken e) evs)
  end.
Proof.
  induction evs as [|ev evs IH]; intros s G; cbn [recv_loop].
  - destruct (Z.ltb_spec (len (y_buf s)) (y_total s)); [split; [exact G|constructor]|split; assumption].
  - destruct (Z.ltb_spec (len (y_buf s)) (y_total s)) as [Hlt|Hge]; [|split; assumption]. destruct ev as [n| |e].
    + destruct (receive_spec srv s n G Hlt) as (s' & E & G' & _). rewrite E. specialize (IH s' G'). destruct (recv_loop evs s') as [s2|e c s2|s2].
      * destruct IH as [IH1 IH2]. split; [exact IH1|constructor; [exact I|exact IH2]].
      * destruct IH as [(A & B & C)|(A & C)]; [left; split; [exact A|split; [exact B|right; exact C]]|right; split; [exact A|right; exact C]].
      * exact IH.
    + left. split; [reflexivity|]. split; [reflexivity|left; reflexivity].
    + right. split; [reflexivity|left; reflexivity].
Qed.

(** with a complete frame and enough reads the loop ends *)
Lemma loop_progress srv evs : complete srv -> forall s, rgood srv s -> Forall avail evs -> resp_total srv - len (y_buf s) <= len evs ->
  exists s', recv_loop evs s = Received s'.
Proof.
  intros (C1 & C2). induction evs as [|ev evs IH]; intros s G F L; cbn [recv_loop].
  - destruct (Z.ltb_spec (len (y_buf s)) (y_total s)) as [Hlt|Hge]; [|eexists; reflexivity]. exfalso. rewrite len_nil in L.
    destruct (y_header s) as [h|] eqn:Eh; [destruct (rg_some _ _ G h Eh); lia|destruct (rg_none _ _ G Eh); pose proof (resp_total_ge srv); lia].
  - destruct (Z.ltb_spec (len (y_buf s)) (y_total s)) as [Hlt|Hge]; [|eexists; reflexivity].
    inversion F as [|x l A F' E]; subst. destruct ev as [n| |]; try destruct A.
    destruct (receive_spec srv s n G Hlt) as (s' & E & G' & Ln). rewrite E. apply IH; [exact G'|exact F'|]. rewrite len_cons in L.
    assert (y_total s <= resp_total srv) by (destruct (y_header s) as [h|] eqn:Eh; [destruct (rg_some _ _ G h Eh); lia|destruct (rg_none _ _ G Eh); pose proof (resp_total_ge srv); lia]).
    lia.
Qed.

(** with a truncated frame it never does, as long as the socket is readable *)
Lemma loop_stuck srv evs : ~ complete srv -> Forall avail evs -> exists s, recv_loop evs (rinit srv) = Waiting s.
Proof.
  intros C F. pose proof (loop_good srv evs (rinit srv) (rgood_init srv)) as L. destruct (recv_loop evs (rinit srv)) as [s|e c s|s]; [eexists; reflexivity| |].
  - exfalso. rewrite Forall_forall in F. destruct L as [(_ & _ & H)|(_ & H)]; exact (F _ H).
  - exfalso. destruct L as [G H]. destruct (received_spec _ _ G H) as (C' & _). exact (C C').
Qed.

(** the outcome of the call on a frame, independent of the loop *)
Definition judge (rid : Z) (frame : bytes) : res pyobj :=
  let! resp := from_stream BoltResponse frame in
  match int_value (p_request_id resp) with
  | Some r => if r =? rid then if p_respstatus resp =? ST_SUCCESS then Ok (p_content resp) else Raise ServerError else Raise ServerError
  | None => Raise ServerError
  end.

Lemma finish_judge srv s rid : rgood srv s -> y_total s <= len (y_buf s) -> finish rid s = judge rid (py_take (resp_total srv) srv).
Proof.
  intros G H. destruct (received_spec _ _ G H) as (C & Eh & Eb & _). unfold finish, judge, from_stream. rewrite Eh, Eb.
  pose proof (resp_total_ge srv) as T. rewrite BoltResponse_eq. rewrite bolt_header_resp by (rewrite len_py_take; unfold complete in C; lia).
  cbn [bind]. rewrite resp_dict_take by exact T. reflexivity.
Qed.

Lemma layout_complete frame f tail : response_layout frame f -> complete (frame ++ tail) /\ resp_total (frame ++ tail) = len frame /\
  py_take (resp_total (frame ++ tail)) (frame ++ tail) = frame /\ py_drop (resp_total (frame ++ tail)) (frame ++ tail) = tail.
Proof.
  intros L. apply resp_layout_iff in L as (H1 & H2 & _). assert (E : resp_total (frame ++ tail) = len frame).
  { rewrite H2. rewrite <- (resp_total_take (len frame) (frame ++ tail)) by exact H1. rewrite py_take_app. reflexivity. }
  rewrite E, py_take_app, py_drop_app. split; [|auto]. split; rewrite ?len_app; pose proof (len_nonneg tail); lia.
Qed.

Lemma sync_complete frame f tail evs rid back : response_layout frame f -> Forall avail evs -> len frame <= len evs ->
  sync_result rid back (frame ++ tail) evs = Some (let! _ := back in judge rid frame) /\
  exists s, recv_loop evs (rinit (frame ++ tail)) = Received s /\ y_buf s = frame /\ y_rest s = tail.
Proof.
  intros L F Le. destruct (layout_complete frame f tail L) as (C & Et & E1 & E2).
  destruct (loop_progress _ evs C (rinit (frame ++ tail)) (rgood_init _) F) as (s & E). { cbn [rinit y_buf]. rewrite len_nil. lia. }
  pose proof (loop_good _ evs (rinit (frame ++ tail)) (rgood_init _)) as G. rewrite E in G. destruct G as [G H].
  destruct (received_spec _ _ G H) as (_ & _ & Eb & Er). unfold sync_result. rewrite E. rewrite (finish_judge _ _ _ G H), E1. split; [reflexivity|].
  exists s. split; [reflexivity|]. split; congruence.
Qed.

Lemma sync_any frame f tail evs rid back : response_layout frame f -> Forall avail evs ->
  sync_result rid back (frame ++ tail) evs = None \/ sync_result rid back (frame ++ tail) evs = Some (let! _ := back in judge rid frame).
Proof.
  intros L F. destruct (layout_complete frame f tail L) as (C & Et & E1 & E2).
  pose proof (loop_good _ evs (rinit (frame ++ tail)) (rgood_init _)) as G. unfold sync_result. destruct (recv_loop evs (rinit (frame ++ tail))) as [s|e c s|s].
  - left. reflexivity.
  - exfalso. rewrite Forall_forall in F. destruct G as [(_ & _ & H)|(_ & H)]; exact (F _ H).
  - right. destruct G as [G H]. rewrite (finish_judge _ _ _ G H), E1. reflexivity.
Qed.

(** reads never go beyond the frame *)
Lemma sync_no_overread frame f tail evs : response_layout frame f ->
  exists rest, y_rest (match recv_loop evs (rinit (frame ++ tail)) with Waiting s | Stopped _ _ s | Received s => s end) = rest ++ tail.
Proof.
  intros L. destruct (layout_complete frame f tail L) as (C & Et & E1 & E2). set (srv := frame ++ tail) in *.
  assert (Q : forall s, rgood srv s -> exists rest, y_rest s = rest ++ tail).
  { intros s G. destruct (rg_split _ _ G) as (_ & Er & _). assert (Hb : len (y_buf s) <= len frame).
    { destruct (y_header s) as [h|] eqn:Eh; [destruct (rg_some _ _ G h Eh) as (_ & _ & ?); lia|destruct (rg_none _ _ G Eh); destruct C; lia || (pose proof (resp_total_ge srv); lia)]. }
    rewrite Er. exists (py_drop (len (y_buf s)) frame). unfold srv. apply py_drop_app_ge; [apply len_nonneg|exact Hb]. }
  assert (P : forall evs s, rgood srv s -> rgood srv (match recv_loop evs s with Waiting s | Stopped _ _ s | Received s => s end)).
  { clear evs. induction evs as [|ev evs IH]; intros s G; cbn [recv_loop].
    - destruct (len (y_buf s) <? y_total s); exact G.
    - destruct (Z.ltb_spec (len (y_buf s)) (y_total s)) as [Hlt|Hge]; [|exact G]. destruct ev; try exact G.
      destruct (receive_spec srv s n G Hlt) as (s' & E & G' & _). rewrite E. apply IH. exact G'. }
  apply Q. apply P. apply rgood_init.
Qed.

Lemma judge_cases rid frame f : response_layout frame f ->
  (forall kvs, legal_common f -> legal_status (fr_tos f) -> header_pairs (fr_header f) kvs ->
     judge rid frame = if fr_request_id f =? rid then if fr_tos f =? 0 then Ok (PBytes (fr_content f)) else Raise ServerError else Raise ServerError) /\
  (~ (legal_common f /\ legal_status (fr_tos f) /\ exists kvs, header_pairs (fr_header f) kvs) -> judge rid frame = Raise DecodeError).
Proof.
  intros L. unfold judge. rewrite BoltResponse_eq. split.
  - intros kvs H1 H2 H3. destruct (parsed_to_bytes _ _ H3) as (hb & Hb & _).
    assert (E : from_stream (resp_class response_class_name) frame = Ok (pkg_of_resp response_class_name f (dict_of kvs) hb)).
    { apply from_stream_resp_iff. exists f, kvs, hb. auto 10. }
    rewrite E. cbn [bind pkg_of_resp p_request_id int_value p_respstatus p_content]. reflexivity.
  - intros N. destruct (from_stream (resp_class response_class_name) frame) as [p|e] eqn:E.
    + exfalso. apply N. apply from_stream_resp_iff in E as (f' & kvs & hb & E1 & E2 & E3 & E4 & _).
      assert (f' = f) by (apply resp_layout_iff in L as (_ & _ & ->); apply resp_layout_iff in E1 as (_ & _ & ->); reflexivity). subst f'. eauto.
    + cbn [bind]. f_equal. exact (from_stream_errors _ _ _ E).
Qed.

Lemma sync_returns rid back srv evs v : sync_result rid back srv evs = Some (Ok v) ->
  back = Ok tt /\ exists frame tail f kvs, srv = frame ++ tail /\ response_layout frame f /\ legal_common f /\ header_pairs (fr_header f) kvs /\
    fr_request_id f = rid /\ fr_tos f = 0 /\ v = PBytes (fr_content f).
Proof.
  intros E. unfold sync_result in E. pose proof (loop_good srv evs (rinit srv) (rgood_init srv)) as G. destruct (recv_loop evs (rinit srv)) as [s|e c s|s]; try discriminate.
  destruct G as [G H]. rewrite (finish_judge _ _ _ G H) in E. destruct back as [[]|]; [|discriminate]. cbn [bind] in E. split; [reflexivity|]. set (frame := py_take (resp_total srv) srv) in *. unfold judge in E. rewrite BoltResponse_eq in E.
  destruct (from_stream (resp_class response_class_name) frame) as [p|e] eqn:Ep; [|discriminate].
  apply from_stream_resp_iff in Ep as (f & kvs & hb & E1 & E2 & _ & E3 & E4 & ->). cbn [bind pkg_of_resp p_request_id int_value p_respstatus p_content] in E.
  exists frame, (py_drop (resp_total srv) srv), f, kvs. split; [symmetry; apply py_take_drop|]. split; [exact E1|]. split; [exact E2|]. split; [exact E3|].
  destruct (Z.eqb_spec (fr_request_id f) rid); [|discriminate]. destruct (Z.eqb_spec (fr_tos f) ST_SUCCESS); [|discriminate].
  split; [assumption|]. split; [assumption|]. congruence.
Qed.

Lemma sync_timeout rid back srv evs more : sync_result rid back srv evs = None ->
  sync_result rid back srv (evs ++ Silent :: more) = Some (Raise TimeoutError) /\
  exists s, recv_loop (evs ++ Silent :: more) (rinit srv) = Stopped TimeoutError true s.
Proof.
  unfold sync_result. assert (P : forall evs s s', recv_loop evs s = Waiting s' -> recv_loop (evs ++ Silent :: more) s = Stopped TimeoutError true s').
  { clear. induction evs as [|ev evs IH]; intros s s' E; cbn [recv_loop app] in *.
    - destruct (len (y_buf s) <? y_total s); congruence.
    - destruct (len (y_buf s) <? y_total s); [|discriminate]. destruct ev; try discriminate. destruct (receive n s); [apply IH; exact E|discriminate]. }
  destruct (recv_loop evs (rinit srv)) as [s|e c s|s] eqn:E; try discriminate. intros _. rewrite (P _ _ _ E). split; [reflexivity|eexists; reflexivity].
Qed.

Lemma sync_terminates rid back srv evs : (In Silent evs \/ exists e, In (Broken e) evs) -> sync_result rid back srv evs <> None.
Proof.
  intros H. unfold sync_result. pose proof (loop_good srv evs (rinit srv) (rgood_init srv)) as G. destruct (recv_loop evs (rinit srv)) as [s|e c s|s]; try discriminate.
  destruct G as [_ F]. rewrite Forall_forall in F. exfalso. destruct H as [H|(e & H)]; exact (F _ H).
Qed.

Lemma sync_hangs frame f pre x rid back evs : response_layout frame f -> frame = pre ++ x -> x <> [] -> Forall avail evs -> sync_result rid back pre evs = None.
Proof.
  intros L E Hx F. destruct (loop_stuck pre evs) as (s & Es); [|exact F|unfold sync_result; rewrite Es; reflexivity].
  intros (C1 & C2). apply resp_layout_iff in L as (H1 & H2 & _). assert (Lx : 1 <= len x) by (destruct x; [congruence|rewrite len_cons; pose proof (len_nonneg x); lia]).
  assert (Et : resp_total pre = resp_total frame) by (rewrite E; rewrite <- (resp_total_take (len pre) (pre ++ x)) by exact C1; rewrite py_take_app; reflexivity).
  rewrite E in H2 at 1. rewrite len_app in H2. lia.
Qed.

(** ** sending *)
Lemma send_loop_log p atts : forall conn log c, send_loop p atts conn = (log, Some c) ->
  log = [] \/ exists bs a k, to_stream p = Ok bs /\ In a atts /\ a_conn a = Ok c /\ a_send a = Ok k /\ log = [(c, py_take k bs)].
Proof.
  induction atts as [|a atts IH]; intros conn log c E; cbn [send_loop] in E.
  - left. congruence.
  - assert (R : forall conn, send_loop p atts conn = (log, Some c) -> log = [] \/ exists bs a0 k, to_stream p = Ok bs /\ In a0 (a :: atts) /\ a_conn a0 = Ok c /\ a_send a0 = Ok k /\ log = [(c, py_take k bs)]).
    { intros conn' E'. destruct (IH _ _ _ E') as [H|(bs & a0 & k & H1 & H2 & H3)]; [left; exact H|right; exists bs, a0, k; split; [exact H1|split; [right; exact H2|exact H3]]]. }
    destruct (a_conn a) as [c0|e] eqn:Ec; [|destruct e; try (left; congruence); apply (R _ E)].
    destruct (to_stream p) as [bs|e] eqn:Es; [|destruct e; try (left; congruence); apply (R _ E)].
    destruct (a_send a) as [k|e] eqn:Ek; [|destruct e; try (left; congruence); apply (R _ E)].
    right. assert (c0 = c) by congruence. subst c0. exists bs, a, k. split; [reflexivity|]. split; [left; reflexivity|]. split; [exact Ec|]. split; [exact Ek|]. congruence.
Qed.

Lemma to_stream_not_socket p : to_stream p <> Raise SocketValueError.
Proof. intros E. apply to_stream_errors in E. intuition discriminate. Qed.

Lemma raw_sends header content ptype timeout rid atts p : new_request header content ptype (py_or timeout (PInt (-1))) rid = Ok p ->
  (forall log c, raw_invoke header content ptype timeout rid atts = (log, Ok (rid, c)) ->
     log = [] \/ exists bs i k, to_stream p = Ok bs /\ (i < 3)%nat /\ a_conn (atts i) = Ok c /\ a_send (atts i) = Ok k /\ log = [(c, py_take k bs)]) /\
  (forall bs c k, to_stream p = Ok bs -> a_conn (atts 0%nat) = Ok c -> a_send (atts 0%nat) = Ok k ->
     raw_invoke header content ptype timeout rid atts = ([(c, py_take k bs)], Ok (rid, c))) /\
  (forall e c, to_stream p = Raise e -> a_conn (atts 0%nat) = Ok c -> raw_invoke header content ptype timeout rid atts = ([], Ok (rid, c))).
Proof.
  intros N. unfold raw_invoke. rewrite N. split; [|split].
  - intros log c E. destruct (send_loop p [atts 0%nat; atts 1%nat; atts 2%nat] None) as [log' [c'|]] eqn:S; [|discriminate].
    assert (log' = log) by congruence. assert (c' = c) by congruence. subst. destruct (send_loop_log _ _ _ _ _ S) as [H|(bs & a & k & H1 & H2 & H3 & H4 & H5)]; [left; exact H|].
    right. destruct H2 as [<-|[<-|[<-|[]]]]; [exists bs, 0%nat, k|exists bs, 1%nat, k|exists bs, 2%nat, k]; repeat (split; [assumption||lia|]); exact H5.
  - intros bs c k Hs Hc Hk. cbn [send_loop]. rewrite Hc, Hs, Hk. reflexivity.
  - intros e c Hs Hc. cbn [send_loop]. rewrite Hc, Hs. destruct e; try reflexivity. exfalso. exact (to_stream_not_socket _ Hs).
Qed.

(** ** connections used *)
Lemma fetch_names mk dr key n n' r : fetch mk dr key n = (n', r) -> n' = S n /\ forall c, r = Ok c -> fst c = n.
Proof.
  unfold fetch. destruct (lookup 10 default_config (fun _ => mk n) (w_init (K:=Z)) key) as [w [i|e]].
  - destruct (nth_error (w_pools w) i) as [p|]; [|intros [= <- <-]; split; [reflexivity|discriminate]].
    destruct (get_conn default_config (mk n) (dr n) p) as [p' [c|e]]; intros [= <- <-]; (split; [reflexivity|]); [intros c' [= <-]; reflexivity|discriminate].
  - intros [= <- <-]. split; [reflexivity|discriminate].
Qed.

Lemma give_back_names mk key n : fst (give_back mk key n) = S n.
Proof. unfold give_back. destruct (lookup 10 default_config (fun _ => mk n) (w_init (K:=Z)) key) as [w [i|e]]; reflexivity. Qed.

Lemma crun_fresh mk dr acts : forall n used, (forall c, In c used -> (fst c < n)%nat) -> NoDup (map fst used) ->
  let '(n', used') := fold_left (cstep mk dr) acts (n, used) in (forall c, In c used' -> (fst c < n')%nat) /\ NoDup (map fst used').
Proof.
  induction acts as [|a acts IH]; intros n used H1 H2; cbn [fold_left]; [split; assumption|].
  destruct a as [key|key c]; cbn [cstep]; rewrite ?give_back_names.
  - destruct (fetch mk dr key n) as [n' r] eqn:E. destruct (fetch_names _ _ _ _ _ _ E) as [-> Hr]. destruct r as [c|e].
    + apply IH.
      * intros c' Hc'. apply in_app_iff in Hc'. destruct Hc' as [Hc'|[<-|[]]]; [specialize (H1 _ Hc'); lia|rewrite (Hr c eq_refl); lia].
      * rewrite map_app. cbn [map]. rewrite (Hr c eq_refl). apply (NoDup_incl_NoDup (l:=n :: map fst used)); [constructor; [|exact H2]|rewrite app_length; cbn [length]; lia|].
        -- intros Hi. apply in_map_iff in Hi. destruct Hi as (c' & Ec & Hc'). specialize (H1 _ Hc'). lia.
        -- intros x [<-|Hx]; apply in_app_iff; [right; left; reflexivity|left; exact Hx].
    + apply IH; [intros c' Hc'; specialize (H1 _ Hc'); lia|exact H2].
  - apply IH; [intros c' Hc'; specialize (H1 _ Hc'); lia|exact H2].
Qed.

Lemma never_reused mk dr acts : NoDup (snd (crun mk dr acts)).
Proof.
  unfold crun. pose proof (crun_fresh mk dr acts 0%nat [] (fun c H => match H with end) (NoDup_nil _)) as H.
  destruct (fold_left (cstep mk dr) acts (0%nat, [])) as [n used]. destruct H as [_ H]. cbn [snd]. exact (NoDup_map_inv _ _ H).
Qed.

(** ** one-way calls *)
Lemma send_loop_none p atts : forall conn log, send_loop p atts conn = (log, None) -> log = [].
Proof.
  induction atts as [|a atts IH]; intros conn log E; cbn [send_loop] in E; [congruence|].
  destruct (a_conn a) as [c|e]; [destruct (to_stream p) as [bs|e]; [destruct (a_send a) as [k|e]|]|]; try congruence; destruct e; try congruence; exact (IH _ _ E).
Qed.
Lemma raw_raises header content ptype timeout rid atts log e : raw_invoke header content ptype timeout rid atts = (log, Raise e) -> log = [].
Proof.
  unfold raw_invoke. destruct (new_request header content ptype (py_or timeout (PInt (-1))) rid) as [p|x]; [|congruence].
  destruct (send_loop p [atts 0%nat; atts 1%nat; atts 2%nat] None) as [l [c|]] eqn:E; [discriminate|]. intros [= <- _]. exact (send_loop_none _ _ _ _ E).
Qed.
Lemma oneway_frame header content rid atts back log r c b : invoke_oneway header content rid atts back = (log, r) -> In (c, b) log ->
  exists p bs k, new_request header content PTYPE_ONEWAY PNone rid = Ok p /\ to_stream p = Ok bs /\ b = py_take k bs /\ p_ptype p = PTYPE_ONEWAY /\ log = [(c, b)].
Proof.
  unfold invoke_oneway. destruct (raw_invoke header content PTYPE_ONEWAY PNone rid atts) as [log' [[rid' c']|e]] eqn:E; intros [= <- _] Hi; [|rewrite (raw_raises _ _ _ _ _ _ _ _ E) in Hi; destruct Hi].
  destruct (new_request header content PTYPE_ONEWAY (py_or PNone (PInt (-1))) rid) as [p|e] eqn:N; [|unfold raw_invoke in E; rewrite N in E; discriminate].
  assert (Er : rid' = rid) by (unfold raw_invoke in E; rewrite N in E; destruct (send_loop p _ None) as [l [x|]]; congruence). subst rid'.
  destruct (raw_sends _ _ _ _ _ atts p N) as (A & _ & _). destruct (A _ _ E) as [->|(bs & i & k & H1 & H2 & H3 & H4 & H5)]; [destruct Hi|].
  subst log'. destruct Hi as [Hi|[]]. assert (c' = c) by congruence. assert (b = py_take k bs) by congruence. subst. exists p, bs, k.
  split; [exact N|]. split; [exact H1|]. split; [reflexivity|]. split; [|reflexivity].
  unfold new_request in N. apply mk_package_Ok in N. destruct N as (_ & _ & _ & _ & _ & _ & M7 & _). cbn in M7. congruence.
Qed.

(** ** the statements used in P_Sync *)
Lemma sync_chunking_irrelevant frame f tail rid back evs1 evs2 : response_layout frame f -> Forall avail evs1 -> Forall avail evs2 ->
  sync_result rid back (frame ++ tail) evs1 <> None -> sync_result rid back (frame ++ tail) evs2 <> None ->
  sync_result rid back (frame ++ tail) evs1 = sync_result rid back (frame ++ tail) evs2.
Proof.
  intros L F1 F2 H1 H2. destruct (sync_any frame f tail evs1 rid back L F1) as [E1|E1], (sync_any frame f tail evs2 rid back L F2) as [E2|E2]; congruence.
Qed.

Lemma sync_verdict frame f tail rid back evs kvs : response_layout frame f -> legal_common f -> legal_status (fr_tos f) -> header_pairs (fr_header f) kvs ->
  Forall avail evs -> sync_result rid back (frame ++ tail) evs <> None ->
  sync_result rid back (frame ++ tail) evs =
    Some (let! _ := back in if fr_request_id f =? rid then if fr_tos f =? 0 then Ok (PBytes (fr_content f)) else Raise ServerError else Raise ServerError).
Proof.
  intros L C S P F N. destruct (sync_any frame f tail evs rid back L F) as [E|E]; [congruence|]. rewrite E. f_equal. destruct back; [|reflexivity]. cbn [bind].
  destruct (judge_cases rid frame f L) as [J _]. exact (J kvs C S P).
Qed.

Lemma sync_malformed frame f tail rid back evs : response_layout frame f ->
  ~ (legal_common f /\ legal_status (fr_tos f) /\ exists kvs, header_pairs (fr_header f) kvs) ->
  Forall avail evs -> sync_result rid back (frame ++ tail) evs <> None -> sync_result rid back (frame ++ tail) evs = Some (let! _ := back in Raise DecodeError).
Proof.
  intros L M F N. destruct (sync_any frame f tail evs rid back L F) as [E|E]; [congruence|]. rewrite E. f_equal. destruct back; [|reflexivity]. cbn [bind].
  destruct (judge_cases rid frame f L) as [_ J]. exact (J M).
Qed.

Lemma new_request_fields header content ptype timeout rid p : new_request header content ptype timeout rid = Ok p -> p_request_id p = PInt rid /\ p_ptype p = ptype.
Proof. intros N. apply mk_package_Ok in N. destruct N as (_ & _ & _ & M4 & _ & _ & M7 & _). cbn in M7. split; congruence. Qed.

Lemma invoke_sync_value header content timeout rid atts back srv evs log v : invoke_sync header content timeout rid atts back srv evs = (log, Some (Ok v)) ->
  exists p, new_request header content PTYPE_REQUEST (py_or timeout (PInt (-1))) rid = Ok p /\ p_request_id p = PInt rid /\
    (log = [] \/ exists c bs k, to_stream p = Ok bs /\ log = [(c, py_take k bs)]) /\
    exists frame tail f kvs, srv = frame ++ tail /\ response_layout frame f /\ legal_common f /\ header_pairs (fr_header f) kvs /\
      fr_request_id f = rid /\ fr_tos f = 0 /\ v = PBytes (fr_content f).
Proof.
  unfold invoke_sync. intros E.
  assert (E' : match raw_invoke header content PTYPE_REQUEST timeout rid atts with
      | (log, Raise e) => (log, Some (Raise e))
      | (log, Ok (r, c)) => (log, sync_result r back srv evs)
      end = (log, Some (Ok v))) by (destruct timeout; try discriminate E; exact E).
  clear E. destruct (new_request header content PTYPE_REQUEST (py_or timeout (PInt (-1))) rid) as [p|e] eqn:N; [|unfold raw_invoke in E'; rewrite N in E'; discriminate].
  exists p. split; [reflexivity|]. split; [exact (proj1 (new_request_fields _ _ _ _ _ _ N))|].
  destruct (raw_invoke header content PTYPE_REQUEST timeout rid atts) as [log' [[r c]|e]] eqn:R; [|discriminate].
  assert (r = rid) by (unfold raw_invoke in R; rewrite N in R; destruct (send_loop p _ None) as [l [x|]]; congruence). subst r.
  assert (log' = log) by congruence. subst log'. assert (S : sync_result rid back srv evs = Some (Ok v)) by congruence. split.
  - destruct (raw_sends _ _ _ _ _ atts p N) as (A & _ & _). destruct (A _ _ R) as [->|(bs & i & k & H1 & H2 & H3 & H4 & H5)]; [left; reflexivity|right; exists c, bs, k; auto].
  - exact (proj2 (sync_returns _ _ _ _ _ S)).
Qed.

(** what the log may contain whatever happens: one write at most *)
Lemma raw_log header content ptype timeout rid atts log r : raw_invoke header content ptype timeout rid atts = (log, r) -> (List.length log <= 1)%nat.
Proof.
  unfold raw_invoke. destruct (new_request header content ptype (py_or timeout (PInt (-1))) rid) as [p|e]; [|intros [= <- _]; cbn; lia].
  assert (P : forall l conn, (List.length (fst (send_loop p l conn)) <= 1)%nat).
  { induction l as [|a l IH]; intros conn; cbn [send_loop]; [cbn; lia|].
    destruct (a_conn a) as [c|e]; [|destruct e; cbn [fst List.length]; try lia; apply IH].
    destruct (to_stream p) as [bs|e]; [|destruct e; cbn [fst List.length]; try lia; apply IH].
    destruct (a_send a) as [k|e]; [cbn; lia|destruct e; cbn [fst List.length]; try lia; apply IH]. }
  specialize (P [atts 0%nat; atts 1%nat; atts 2%nat] None). destruct (send_loop p [atts 0%nat; atts 1%nat; atts 2%nat] None) as [l [c|]]; intros [= <- _]; exact P.
Qed.

(** the first connection that can be had takes the whole request: it is written once, completely *)
Lemma raw_retry header content ptype timeout rid atts p bs c i : new_request header content ptype (py_or timeout (PInt (-1))) rid = Ok p -> to_stream p = Ok bs -> (i < 3)%nat ->
  (forall j, (j < i)%nat -> a_conn (atts j) = Raise SocketValueError \/ (exists c', a_conn (atts j) = Ok c' /\ a_send (atts j) = Raise SocketValueError)) ->
  a_conn (atts i) = Ok c -> a_send (atts i) = Ok (len bs) ->
  raw_invoke header content ptype timeout rid atts = ([(c, bs)], Ok (rid, c)).
Proof.
  intros N S Hi B Hc Hs. unfold raw_invoke. rewrite N.
  assert (T : py_take (len bs) bs = bs) by (apply py_take_all; lia).
  assert (P : forall l conn, send_loop p (atts i :: l) conn = ([(c, bs)], Some c)) by (intros l conn; cbn [send_loop]; rewrite Hc, S, Hs, T; reflexivity).
  assert (Q : forall j l conn, (j < i)%nat -> exists conn', send_loop p (atts j :: l) conn = send_loop p l conn').
  { intros j l conn Hj. cbn [send_loop]. destruct (B j Hj) as [->|(c' & -> & E)]; [eexists; reflexivity|]. rewrite S, E. eexists. reflexivity. }
  destruct i as [|[|[|i]]]; [| | |lia].
  - rewrite P. reflexivity.
  - destruct (Q 0%nat [atts 1%nat; atts 2%nat] None ltac:(lia)) as (x & ->). rewrite P. reflexivity.
  - destruct (Q 0%nat [atts 1%nat; atts 2%nat] None ltac:(lia)) as (x & ->). destruct (Q 1%nat [atts 2%nat] x ltac:(lia)) as (y & ->). rewrite P. reflexivity.
Qed.

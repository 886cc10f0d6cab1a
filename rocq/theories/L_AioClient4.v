(** Lemmas about the asyncio client: how the bytes received on a connection are cut into frames. *)
From Coq Require Import ZifyBool.
From Verif Require Import PyBase L_PyBase PyDict L_PyDict M_SofaHeader M_Package L_Package L_Codec S_Wire M_AioClient L_AioClient L_AioClient2 L_AioClient3.
Open Scope Z_scope.

Lemma frame_ok_iff fr : frame_ok fr <-> exists f, response_layout fr f.
Proof.
  split.
  - intros [A B]. exists (resp_frame fr). apply resp_layout_iff. auto.
  - intros (f & L). apply resp_layout_iff in L as (A & B & _). split; assumption.
Qed.
Lemma frame_ok_prefix a b x y : frame_ok a -> frame_ok b -> a ++ x = b ++ y -> a = b.
Proof. intros A B. apply frame_ok_iff in A as (f & A). apply frame_ok_iff in B as (g & B). exact (resp_prefix_free a b x y f g A B). Qed.
Lemma frames_comparable fs : forall gs x y, Forall frame_ok fs -> Forall frame_ok gs -> concat fs ++ x = concat gs ++ y ->
  (exists r, gs = fs ++ r) \/ (exists r, fs = gs ++ r).
Proof.
  induction fs as [|a fs IH]; intros [|b gs] x y F G E; [left; exists []; reflexivity|left; exists (b :: gs); reflexivity|right; exists (a :: fs); reflexivity|].
  inversion F as [|? ? Fa Ff]; subst. inversion G as [|? ? Gb Gg]; subst. cbn [concat] in E. rewrite <- !app_assoc in E.
  assert (a = b) by (eapply frame_ok_prefix; eauto). subst b. apply app_inv_head in E. destruct (IH gs x y Ff Gg E) as [(r & ->)|(r & ->)]; [left|right]; exists r; reflexivity.
Qed.

(** the run of a reader, seen on its connection *)
Definition rd_next (k : link) : link :=
  match k_rd k with
  | RdDone => k
  | RdNew => rd_goto k (if k_cancel k then RdDone else RdHead)
  | RdHead =>
      if k_cancel k || k_exn k then rd_close k
      else if 20 <=? len (k_buf k) then rd_take k 20 (RdBody (py_take 20 (k_buf k)) (resp_dict (py_take 20 (k_buf k))) (resp_total (py_take 20 (k_buf k)) - 20)) []
      else if k_eof k then rd_close k else k
  | RdBody fixed h n =>
      if k_cancel k || k_exn k then rd_close k
      else if n <=? len (k_buf k) then rd_take k n RdHead [fixed ++ py_take n (k_buf k)]
      else if k_eof k then rd_close k else k
  end.
Lemma upd_id {A} i (l : list A) x : nth_error l i = Some x -> upd i (fun _ => x) l = l.
Proof. revert i. induction l as [|y l IH]; intros [|i]; cbn; try discriminate; [congruence|]. intros H. now rewrite IH. Qed.
Lemma read_next c s k : nth_error (s_links s) c = Some k -> s_links (read c s) = upd c (fun _ => rd_next k) (s_links s).
Proof.
  intros Hk. unfold read, rd_next. rewrite Hk. destruct (k_rd k) as [| |fixed h n|]; [reflexivity| | |symmetry; apply upd_id; exact Hk].
  - change (bolt_header_size BoltResponse) with 20. destruct (k_cancel k || k_exn k); [reflexivity|]. destruct (Z.leb_spec 20 (len (k_buf k))).
    + cbv zeta. rewrite BoltResponse_eq, bolt_header_resp by (rewrite len_py_take; lia). rewrite body_size_resp. reflexivity.
    + destruct (k_eof k); [reflexivity|symmetry; apply upd_id; exact Hk].
  - destruct (k_cancel k || k_exn k); [reflexivity|]. destruct (n <=? len (k_buf k)); [rewrite links_process; reflexivity|].
    destruct (k_eof k); [reflexivity|symmetry; apply upd_id; exact Hk].
Qed.
Fixpoint times {A} (n : nat) (f : A -> A) (x : A) : A := match n with O => x | S m => times m f (f x) end.
Lemma times_add {A} (f : A -> A) n m x : times (n + m) f x = times m f (times n f x).
Proof. revert x. induction n as [|n IH]; intros x; [reflexivity|]. cbn. apply IH. Qed.
Lemma reads n : forall c s k, nth_error (s_links s) c = Some k -> nth_error (s_links (from s (repeat (Read c) n))) c = Some (times n rd_next k).
Proof.
  induction n as [|n IH]; intros c s k Hk; [exact Hk|]. cbn [repeat from fold_left times]. apply IH. cbn [run_step]. rewrite (read_next _ _ k Hk). exact (upd_same c _ _ k Hk).
Qed.

(** a reader that nothing has stopped *)
Definition running (k : link) : Prop := k_rd k <> RdDone /\ k_cancel k = false /\ k_exn k = false.
Definition carry (k : link) : bytes := (match k_rd k with RdBody fixed _ _ => fixed | _ => [] end) ++ k_buf k.
Lemma frame_total a x : frame_ok a -> resp_total (py_take 20 (a ++ x)) = len a.
Proof.
  intros [A B]. rewrite B. unfold resp_total.
  assert (F : forall off n, (off + n <= 20)%nat -> field off n (py_take 20 (a ++ x)) = field off n a).
  { intros off n H. rewrite py_take_firstn by lia. change (Z.to_nat 20) with 20%nat. unfold field, len in *.
    rewrite firstn_app. replace (20 - List.length a)%nat with 0%nat by lia. cbn [firstn]. rewrite app_nil_r.
    rewrite <- (firstn_skipn 20 a) at 2. rewrite skipn_app. rewrite firstn_app.
    rewrite skipn_length, firstn_length. replace (n - (Nat.min 20 (List.length a) - off))%nat with 0%nat by lia. cbn [firstn]. now rewrite app_nil_r. }
  rewrite !F by lia. reflexivity.
Qed.

Lemma app_split_len {A} (a b x y : list A) : a ++ x = b ++ y -> List.length a = List.length b -> a = b /\ x = y.
Proof. intros H L. pose proof (app_eq_len a b x y H L). subst b. split; [reflexivity|]. apply app_inv_head in H. exact H. Qed.
Lemma running_reads todo : forall k tail, link_ok k -> running k -> Forall frame_ok todo -> carry k = concat todo ++ tail ->
  exists n, running (times n rd_next k) /\ k_frames (times n rd_next k) = k_frames k ++ todo.
Proof.
  induction todo as [|a todo IH]; intros k tail LO R F E; [exists 0%nat; split; [exact R|now rewrite app_nil_r]|].
  inversion F as [|? ? Fa Ff]; subst. cbn [concat] in E. rewrite <- app_assoc in E.
  (* from the start of a frame *)
  assert (H : forall k, link_ok k -> running k -> k_rd k = RdHead -> k_buf k = a ++ concat todo ++ tail ->
     exists n, running (times n rd_next k) /\ k_frames (times n rd_next k) = k_frames k ++ a :: todo).
  { clear k LO R E. intros k LO (R1 & R2 & R3) Hr E.
    assert (La : 20 <= len (k_buf k)). { rewrite E, len_app. destruct Fa. pose proof (len_nonneg (concat todo ++ tail)). lia. }
    set (fx := py_take 20 (k_buf k)).
    assert (Tf : resp_total fx = len a) by (unfold fx; rewrite E; apply frame_total; exact Fa).
    set (k1 := rd_take k 20 (RdBody fx (resp_dict fx) (resp_total fx - 20)) []).
    assert (E1 : rd_next k = k1). { unfold rd_next. rewrite Hr, R2, R3. cbn [orb]. replace (20 <=? len (k_buf k)) with true by lia. reflexivity. }
    assert (B1 : fx ++ k_buf k1 = a ++ concat todo ++ tail) by (cbn [k1 rd_take k_buf]; unfold fx; rewrite py_take_drop; exact E).
    assert (Lf : len fx = 20) by (unfold fx; rewrite len_py_take; lia).
    set (k2 := rd_take k1 (resp_total fx - 20) RdHead [fx ++ py_take (resp_total fx - 20) (k_buf k1)]).
    assert (Lb : resp_total fx - 20 <= len (k_buf k1)).
    { pose proof (f_equal (@len byte) B1) as L. rewrite !len_app in L. pose proof (len_nonneg (concat todo)). pose proof (len_nonneg tail). lia. }
    assert (Nn : 0 <= resp_total fx - 20) by (destruct Fa; lia).
    assert (E2 : rd_next k1 = k2). { unfold rd_next. cbn [k1 rd_take k_rd k_cancel k_exn]. rewrite R2, R3. cbn [orb]. fold k1. replace (resp_total fx - 20 <=? len (k_buf k1)) with true by lia. reflexivity. }
    assert (Ha : fx ++ py_take (resp_total fx - 20) (k_buf k1) = a /\ py_drop (resp_total fx - 20) (k_buf k1) = concat todo ++ tail).
    { apply app_split_len.
      - rewrite <- app_assoc, py_take_drop. exact B1.
      - rewrite app_length. pose proof (len_py_take (resp_total fx - 20) (k_buf k1)). unfold len in *. lia. }
    destruct Ha as [Ha Hb].
    assert (LO2 : link_ok k2). { apply (lmove_ok k1); [apply (lmove_ok k); [exact LO|]|]. - apply L_head; auto. - eapply L_body; [reflexivity|exact Lb|reflexivity]. }
    assert (R' : running k2) by (split; [discriminate|split; assumption]).
    destruct (IH k2 tail LO2 R' Ff) as (n & Rn & Fn); [exact Hb|].
    exists (2 + n)%nat. rewrite times_add. cbn [times]. rewrite E1, E2. split; [exact Rn|]. rewrite Fn. cbn [k2 k1 rd_take k_frames]. rewrite Ha, app_nil_r, <- app_assoc. reflexivity. }
  unfold carry in E. pose proof R as (R1 & R2 & R3). destruct (k_rd k) as [| |fx h n|] eqn:Hr.
  - destruct (H (rd_goto k RdHead)) as (m & Rm & Fm).
    + apply (lmove_ok k); [exact LO|]. apply L_begin; auto.
    + split; [discriminate|split; assumption].
    + reflexivity.
    + exact E.
    + exists (S m). cbn [times]. assert (E1 : rd_next k = rd_goto k RdHead) by (unfold rd_next; rewrite Hr, R2; reflexivity). rewrite E1. split; assumption.
  - apply H; auto.
  - destruct (lo_body _ LO _ _ _ Hr) as (Lf & -> & ->).
    assert (Tf : resp_total fx = len a).
    { rewrite <- (frame_total a (concat todo ++ tail) Fa), <- E, py_take_app' by lia. reflexivity. }
    set (k2 := rd_take k (resp_total fx - 20) RdHead [fx ++ py_take (resp_total fx - 20) (k_buf k)]).
    assert (Nn : 0 <= resp_total fx - 20) by (destruct Fa; lia).
    assert (Lb : resp_total fx - 20 <= len (k_buf k)).
    { pose proof (f_equal (@len byte) E) as L. rewrite !len_app in L. pose proof (len_nonneg (concat todo)). pose proof (len_nonneg tail). lia. }
    assert (E2 : rd_next k = k2). { unfold rd_next. rewrite Hr, R2, R3. cbn [orb]. replace (resp_total fx - 20 <=? len (k_buf k)) with true by lia. reflexivity. }
    assert (Ha : fx ++ py_take (resp_total fx - 20) (k_buf k) = a /\ py_drop (resp_total fx - 20) (k_buf k) = concat todo ++ tail).
    { apply app_split_len.
      - rewrite <- app_assoc, py_take_drop. exact E.
      - rewrite app_length. pose proof (len_py_take (resp_total fx - 20) (k_buf k)). unfold len in *. lia. }
    destruct Ha as [Ha Hb].
    assert (LO2 : link_ok k2). { apply (lmove_ok k); [exact LO|]. eapply L_body; [exact Hr|exact Lb|reflexivity]. }
    destruct (IH k2 tail LO2) as (m & Rm & Fm); [split; [discriminate|split; assumption]|exact Ff|exact Hb|].
    exists (S m). cbn [times]. rewrite E2. split; [exact Rm|]. rewrite Fm. cbn [k2 rd_take k_frames]. rewrite Ha, <- app_assoc. reflexivity.
  - congruence.
Qed.

(** all complete frames that have arrived get consumed, whatever is in them *)
Lemma catches_up s c k fs tail : links_ok s -> nth_error (s_links s) c = Some k -> running k -> k_in k = concat fs ++ tail -> Forall frame_ok fs ->
  exists n k' more, nth_error (s_links (from s (repeat (Read c) n))) c = Some k' /\ running k' /\ k_frames k' = fs ++ more.
Proof.
  intros K Hk R E F. pose proof (K c k Hk) as LO. assert (I := lo_in _ LO (proj1 R)). fold (carry k) in I.
  assert (C : (exists r, fs = k_frames k ++ r) \/ (exists r, k_frames k = fs ++ r)).
  { apply (frames_comparable _ _ (carry k) tail); [apply (lo_frames _ LO)|exact F|congruence]. }
  destruct C as [(r & ->)|(r & Er)].
  - rewrite concat_app, <- app_assoc in E. rewrite E in I. apply app_inv_head in I. apply Forall_app in F as [_ F].
    destruct (running_reads r k tail LO R F (eq_sym I)) as (n & Rn & Fn). exists n, (times n rd_next k), []. rewrite app_nil_r. split; [apply reads; exact Hk|]. auto.
  - exists 0%nat, k, r. auto.
Qed.
(** the frames consumed are exactly the frames of the stream, in order *)
Lemma cut_right s c k fs tail : links_ok s -> nth_error (s_links s) c = Some k -> k_in k = concat fs ++ tail -> Forall frame_ok fs ->
  (exists more, fs = k_frames k ++ more) \/ (exists more, k_frames k = fs ++ more).
Proof.
  intros K Hk E F. pose proof (K c k Hk) as LO. destruct (lo_prefix _ LO) as (rest & P).
  apply (frames_comparable _ _ rest tail); [apply (lo_frames _ LO)|exact F|congruence].
Qed.

(** ** The forms used by the property theorems *)
Lemma seen_frame s p : links_ok s -> seen s p -> exists c k frame f pre post, nth_error (s_links s) c = Some k /\ k_in k = pre ++ frame ++ post /\
  response_layout frame f /\ legal_common f /\ legal_status (fr_tos f) /\ p_request_id p = PInt (fr_request_id f) /\ p_respstatus p = fr_tos f /\ p_cmdcode p = fr_cmdcode f /\ p_content p = PBytes (fr_content f).
Proof.
  intros K (c & k & frame & Hk & Hi & Hf). rewrite BoltResponse_eq in Hf. apply from_stream_resp_iff in Hf as (f & kvs & hb & L & C & S & _ & _ & ->).
  destruct (lo_prefix _ (K c k Hk)) as (rest & P). apply in_split in Hi as (l1 & l2 & Hl). rewrite Hl in P. rewrite concat_app in P. cbn [concat] in P.
  exists c, k, frame, f, (concat l1), (concat l2 ++ rest). split; [exact Hk|]. split; [rewrite P, <- !app_assoc; reflexivity|]. repeat (split; [assumption|]). repeat split; reflexivity.
Qed.
Lemma returned t l i tk p rid : nth_error (s_tasks (run t l)) i = Some tk -> t_pc tk = Done (RetPkg p) -> p_request_id (t_req tk) = PInt rid ->
  exists c k frame f pre post, nth_error (s_links (run t l)) c = Some k /\ k_in k = pre ++ frame ++ post /\ response_layout frame f /\
    fr_request_id f = rid /\ fr_tos f = 0 /\ fr_cmdcode f = 2 /\ p_content p = PBytes (fr_content f).
Proof.
  intros Hi Hd Hr. pose proof (inv_run t l) as I. destruct (i_done _ I i tk p Hi Hd) as (A & (B1 & B2) & C).
  destruct (seen_frame _ _ (i_links _ I) C) as (c & k & frame & f & pre & post & H1 & H2 & H3 & _ & _ & H4 & H5 & H6 & H7).
  exists c, k, frame, f, pre, post. repeat (split; [assumption|]). unfold rid_of in A. rewrite Hr, H4 in A. cbn in A.
  split; [exact A|]. split; [rewrite <- H5; exact B2|]. split; [rewrite <- H6; exact B1|exact H7].
Qed.

(** a call that waits for its answer *)
Definition waiting (s : st) (i : nat) (rid : Z) : Prop :=
  exists t ev, nth_error (s_tasks s) i = Some t /\ p_request_id (t_req t) = PInt rid /\ t_pc t = WaitResp ev /\ nth_error (s_events s) ev = Some false.
Definition ended (s : st) (i : nat) (r : ret) : Prop := exists t, nth_error (s_tasks s) i = Some t /\ t_pc t = Done r.

Lemma decided t l c l2 i rid frame p : distinct_ids (init t) (l ++ Read c :: l2) -> waiting (run t l) i rid ->
  consumes c frame (run t l) (run t (l ++ [Read c])) -> from_stream BoltResponse frame = Ok p -> p_request_id p = PInt rid -> ~ In (Cancel i) l2 ->
  (success p -> (ended (run t (l ++ Read c :: l2)) i (RetPkg p)) \/ (~ In (Wake i) l2 /\ ended (run t (l ++ Read c :: l2 ++ [Wake i])) i (RetPkg p))) /\
  (~ success p -> dget rid (s_resp (run t l)) = None ->
     (ended (run t (l ++ Read c :: l2)) i (RetErr KeyError)) \/ (~ In (Wake i) l2 /\ ended (run t (l ++ Read c :: l2 ++ [Wake i])) i (RetErr KeyError))).
Proof.
  intros D (tk & ev & Hi & Hr & Hw & He) Hc Hf Hp HC. apply distinct_app in D as [D1 [_ D2]].
  destruct (inv_all_run t l D1) as (I & Q & L). fold (run t l) in D2. 
  assert (Er : run t (l ++ [Read c]) = read c (run t l)) by (unfold run; rewrite fold_left_app; reflexivity). rewrite Er in Hc.
  assert (Rp : rid_of p = rid_of (t_req tk)) by (unfold rid_of; rewrite Hr, Hp; reflexivity).
  destruct (arrival _ i tk ev c frame p I Q L Hi Hw He Hc Hf Rp) as [A1 A2].
  assert (Rt : rid_of (t_req tk) = rid) by (unfold rid_of; rewrite Hr; reflexivity). rewrite Rt in A1, A2.
  assert (N : forall r, new_rid (Read c) = Some r -> ~ live_rid r (run t l)) by discriminate.
  pose proof (inv_step (Read c) _ I) as I'. pose proof (inv_ev_step (Read c) _ I Q) as Q'. pose proof (inv_live_step (Read c) _ I Q L N) as L'. cbn [run_step] in I', Q', L'.
  assert (Ef : run t (l ++ Read c :: l2) = from (read c (run t l)) l2) by (unfold run; rewrite fold_left_app; reflexivity).
  assert (Ew : run t (l ++ Read c :: l2 ++ [Wake i]) = run_step (Wake i) (from (read c (run t l)) l2)).
  { replace (l ++ Read c :: l2 ++ [Wake i]) with ((l ++ Read c :: l2) ++ [Wake i]) by (rewrite <- app_assoc; reflexivity). unfold run at 1. rewrite fold_left_app. fold (run t (l ++ Read c :: l2)). rewrite Ef. reflexivity. }
  assert (X : forall q, answered i rid q (read c (run t l)) ->
    (ended (run t (l ++ Read c :: l2)) i (verdict q)) \/ (~ In (Wake i) l2 /\ ended (run t (l ++ Read c :: l2 ++ [Wake i])) i (verdict q))).
  { intros q A. rewrite Ef, Ew. destruct (answered_from l2 _ i rid q I' Q' L' A D2 HC) as [(B & NW)|(t' & B1 & _ & B2)]; [right|left; exists t'; auto].
    split; [exact NW|]. destruct (inv_all_from l2 _ I' Q' L' D2) as (I2 & Q2 & L2).
    destruct (answered_step (Wake i) _ i rid q I2 Q2 L2 B ltac:(discriminate) ltac:(discriminate)) as [(C & _)|(_ & t' & C1 & _ & C2)]; [congruence|]. exists t'. auto. }
  split; [intros Su; exact (X _ (A1 Su))|]. intros Su Hn. rewrite Hn in A2. exact (X _ (A2 Su)).
Qed.

(** a response for an id that nobody waits for *)
Lemma stray t l c frame p : consumes c frame (run t l) (run t (l ++ [Read c])) -> from_stream BoltResponse frame = Ok p -> dmem (rid_of p) (s_req (run t l)) = false ->
  view (run t (l ++ [Read c])) = view (run t l).
Proof.
  intros Hc Hf Hn. assert (Er : run t (l ++ [Read c]) = read c (run t l)) by (unfold run; rewrite fold_left_app; reflexivity). rewrite Er in *.
  pose proof (read_consumes c frame _ (run_links_ok t l) Hc) as R. rewrite Hf in R. rewrite R.
  destruct (deliver_view p (run t l) (decoded_cmdcode _ _ Hf)) as [(_ & V)|(ev & E & _)]; [exact V|]. unfold dmem in Hn. rewrite E in Hn. discriminate.
Qed.
Lemma malformed_ignored t l c frame e : consumes c frame (run t l) (run t (l ++ [Read c])) -> from_stream BoltResponse frame = Raise e ->
  view (run t (l ++ [Read c])) = view (run t l).
Proof.
  intros Hc Hf. assert (Er : run t (l ++ [Read c]) = read c (run t l)) by (unfold run; rewrite fold_left_app; reflexivity). rewrite Er in *.
  pose proof (read_consumes c frame _ (run_links_ok t l) Hc) as R. rewrite Hf in R. exact R.
Qed.

(** a call that nothing answers *)
Lemma forever t l l2 i rid tk ev : nth_error (s_tasks (run t l)) i = Some tk -> t_pc tk = WaitResp ev -> p_request_id (t_req tk) = PInt rid -> ~ In (Cancel i) l2 ->
  (forall c k frame f, nth_error (s_links (run t (l ++ l2))) c = Some k -> In frame (k_frames k) -> response_layout frame f -> fr_request_id f <> rid) ->
  nth_error (s_tasks (run t (l ++ l2))) i = Some tk.
Proof.
  intros Hi Hw Hr HC Hn. rewrite run_from, from_app in *. fold (run t l) in *. rewrite <- run_from in *.
  apply (waits l2 (run t l) i tk ev); auto using inv_run, inv_ev_run.
  intros p (c & k & frame & Hk & Hin & Hf). rewrite BoltResponse_eq in Hf. apply from_stream_resp_iff in Hf as (f & kvs & hb & L & _ & _ & _ & _ & ->).
  unfold rid_of. rewrite Hr. cbn. exact (Hn c k frame f Hk Hin L).
Qed.

(** an unanswered or wrongly acknowledged heartbeat *)
Lemma beats_stop t l l2 a i tk rid : s_timer (run t l) = InBeat a i -> nth_error (s_tasks (run t l)) i = Some tk -> p_request_id (t_req tk) = PInt rid ->
  (forall c k frame f, nth_error (s_links (run t (l ++ l2))) c = Some k -> In frame (k_frames k) -> response_layout frame f -> fr_request_id f = rid -> fr_cmdcode f = 0) ->
  s_timer (run t (l ++ l2)) = InBeat a i \/ s_timer (run t (l ++ l2)) = Dead.
Proof.
  intros T Hi Hr Hn. assert (E : run t (l ++ l2) = from (run t l) l2) by (unfold run; rewrite fold_left_app; reflexivity). rewrite E in *.
  apply (no_second_beat l2 (run t l) a i tk); auto using inv_run.
  intros p (c & k & frame & Hk & Hin & Hf) Rp [S1 _]. rewrite BoltResponse_eq in Hf. apply from_stream_resp_iff in Hf as (f & kvs & hb & L & _ & _ & _ & _ & ->).
  unfold rid_of in Rp. rewrite Hr in Rp. cbn in Rp, S1. rewrite (Hn c k frame f Hk Hin L Rp) in S1. discriminate.
Qed.

(** requests of the asyncio client *)
Lemma new_request_frame header content ptype timeout rid p bs : new_request header content ptype timeout rid = Ok p -> to_stream p = Ok bs ->
  exists f, request_layout bs f /\ fr_type f = ptype /\ fr_request_id f = rid /\ fr_cmdcode f = 1 /\ content = PBytes (fr_content f).
Proof.
  unfold new_request. intros H T. apply mk_package_Ok in H as (M1 & M2 & M3 & M4 & _ & _ & M7 & M8 & _ & _ & _ & Lg).
  rewrite BoltRequest_eq in M1. destruct (req_layout_of p _ bs M1 Lg T) as (r & tm & ct & A & B & C & L). exists (frame_of p r tm ct). split; [exact L|].
  cbn [frame_of fr_type fr_request_id fr_cmdcode fr_content]. rewrite M4 in A. cbn [int_value] in *. split; [congruence|]. split; [congruence|]. split; [injection M8 as <-; reflexivity|]. congruence.
Qed.
Lemma oneway_waits header content rid p s i t n c ev : oneway_request header content rid = Ok p -> nth_error (s_tasks s) i = Some t -> t_req t = p -> t_pc t = Drain2 n c ->
  dget rid (s_req s) = Some ev -> run_step (DrainOk i) s = goto i (WaitResp ev) s.
Proof.
  intros Hp Hi Ht Hc Hr. cbn [run_step]. rewrite Hi, Hc. unfold sent. rewrite Ht. unfold oneway_request, new_request in Hp.
  apply mk_package_Ok in Hp as (_ & _ & _ & M4 & _ & _ & M7 & _). cbn [int_value] in M7.
  assert (R : rid_of p = rid) by (unfold rid_of; rewrite M4; reflexivity). rewrite R, Hr. injection M7 as <-. reflexivity.
Qed.
Lemma oneway_forgets s i t n c ev : nth_error (s_tasks s) i = Some t -> p_ptype (t_req t) = PTYPE_ONEWAY -> t_pc t = Drain2 n c -> wf_dict (s_req s) ->
  dget (rid_of (t_req t)) (s_req s) = Some ev ->
  dget (rid_of (t_req t)) (s_req (run_step (DrainOk i) s)) = None /\ nth_error (s_tasks (run_step (DrainOk i) s)) i = Some (at_pc (Done RetNone) t).
Proof.
  intros Hi Hp Hc W Hr. cbn [run_step]. rewrite Hi, Hc. unfold sent. rewrite Hr, Hp. cbn [Z.eqb PTYPE_ONEWAY]. 
  split; [cbn; apply dget_ddel_same; exact W|]. cbn. exact (upd_same _ _ _ _ Hi).
Qed.

(** a connection is open as long as its reader is at work *)
Lemma closed_done t l c k : nth_error (s_links (run t l)) c = Some k -> k_closed k = true -> k_rd k = RdDone.
Proof.
  revert c k. induction l as [|o l IH] using rev_ind; intros c k H C; [destruct c; discriminate|]. unfold run in H. rewrite fold_left_app in H. cbn [fold_left] in H. fold (run t l) in H.
  destruct (step_links o (run t l)) as (_ & M). destruct (M c k H) as [(_ & a & ->)|(k0 & H0 & L)]; [discriminate|]. specialize (IH c k0 H0). destruct L; try (subst k; cbn in *; try reflexivity; specialize (IH C); congruence); (assert (C0 : k_closed k0 = true) by congruence; specialize (IH C0); congruence).
Qed.
Lemma reader_next s c k n : nth_error (s_links s) c = Some k -> (k_rd k = RdHead /\ n = 20 \/ exists fixed h, k_rd k = RdBody fixed h n) ->
  exists k', nth_error (s_links (run_step (Read c) s)) c = Some k' /\
    (k_rd k' = RdDone <-> k_cancel k = true \/ k_exn k = true \/ k_eof k = true /\ len (k_buf k) < n) /\ (k_rd k' = RdDone -> k_closed k' = true) /\ (k_rd k' <> RdDone -> k_closed k' = k_closed k).
Proof.
  intros Hk Hr. cbn [run_step]. exists (rd_next k). split; [rewrite (read_next _ _ k Hk); exact (upd_same c _ _ k Hk)|]. unfold rd_next.
  destruct Hr as [(R & ->)|(fixed & h & R)]; rewrite R.
  - destruct (k_cancel k); [cbn; intuition congruence|]. destruct (k_exn k); [cbn; intuition congruence|]. cbn [orb]. destruct (Z.leb_spec 20 (len (k_buf k))) as [L|L]; [cbn; intuition (try congruence; lia)|]. destruct (k_eof k); cbn; intuition congruence.
  - destruct (k_cancel k); [cbn; intuition congruence|]. destruct (k_exn k); [cbn; intuition congruence|]. cbn [orb]. destruct (Z.leb_spec n (len (k_buf k))) as [L|L]; [cbn; intuition (try congruence; lia)|]. destruct (k_eof k); cbn; intuition congruence.
Qed.

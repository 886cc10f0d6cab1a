(** Lemmas about the asyncio client. *)
From Coq Require Import ZifyBool.
From Verif Require Import PyBase L_PyBase PyDict L_PyDict Utf8 Struct L_Struct M_SofaHeader L_SofaHeader M_Package L_Package L_Codec S_Wire M_AioClient.
Open Scope Z_scope.

Lemma upd_same {A} i (f : A -> A) l x : nth_error l i = Some x -> nth_error (upd i f l) i = Some (f x).
Proof. revert i. induction l as [|y l IH]; intros [|i]; cbn; try congruence. apply IH. Qed.
Lemma upd_other {A} i j (f : A -> A) l : i <> j -> nth_error (upd i f l) j = nth_error l j.
Proof. revert i j. induction l as [|y l IH]; intros [|i] [|j] H; cbn; try congruence; try reflexivity. apply IH. lia. Qed.
Lemma upd_length {A} i (f : A -> A) l : List.length (upd i f l) = List.length l.
Proof. revert i. induction l as [|y l IH]; intros [|i]; cbn; try reflexivity. now rewrite IH. Qed.
Lemma upd_none {A} i (f : A -> A) l : nth_error l i = None -> upd i f l = l.
Proof. revert i. induction l as [|y l IH]; intros [|i]; cbn; try congruence. intros H. now rewrite IH. Qed.
Lemma upd_get {A} i j (f : A -> A) l y : nth_error (upd i f l) j = Some y ->
  (i <> j /\ nth_error l j = Some y) \/ (i = j /\ exists x, nth_error l j = Some x /\ y = f x).
Proof.
  intros H. destruct (Nat.eq_dec i j) as [<-|N].
  - right. split; [reflexivity|]. destruct (nth_error l i) as [x|] eqn:E; [rewrite (upd_same _ _ _ _ E) in H; exists x; split; congruence|].
    rewrite upd_none in H by exact E. congruence.
  - left. rewrite upd_other in H by exact N. auto.
Qed.
Lemma nth_app {A} (l : list A) x i y : nth_error (l ++ [x]) i = Some y -> nth_error l i = Some y \/ (i = List.length l /\ y = x).
Proof.
  intros H. destruct (Nat.lt_ge_cases i (List.length l)) as [L|L].
  - rewrite nth_error_app1 in H by exact L. auto.
  - rewrite nth_error_app2 in H by exact L. destruct (i - List.length l)%nat as [|d] eqn:E; cbn in H; [right; split; [lia|congruence]|]. destruct d; discriminate.
Qed.

(** ** What a step does to the mappings, the events and the calls *)
Definition view (s : st) := (s_req s, s_resp s, s_events s, s_tasks s).
Definition sending (p : pc) : Prop := match p with WaitLock _ _ | Dialing _ _ | Drain1 _ _ | Drain2 _ _ => True | _ => False end.
Definition live (p : pc) : Prop := match p with Done _ => False | _ => True end.
(** [moves i t p s s']: coroutine i, standing where t says, goes to p *)
Definition moved (i : nat) (p : pc) (s : st) : list task := upd i (at_pc p) (s_tasks s).

Definition success (p : pkg) : Prop := p_cmdcode p = CMDCODE_RESPONSE /\ p_respstatus p = ST_SUCCESS.
Lemma decoded_cmdcode frame p : from_stream BoltResponse frame = Ok p -> In (p_cmdcode p) [CMDCODE_HEARTBEAT; CMDCODE_REQUEST; CMDCODE_RESPONSE].
Proof.
  rewrite BoltResponse_eq. intros H. apply from_stream_resp_iff in H as (f & kvs & hb & _ & C & _ & _ & _ & ->). cbn [pkg_of_resp p_cmdcode].
  destruct C as (_ & _ & C & _). cbn [In] in C |- *. unfold CMDCODE_HEARTBEAT, CMDCODE_REQUEST, CMDCODE_RESPONSE. intuition.
Qed.

Lemma deliver_view p s : In (p_cmdcode p) [CMDCODE_HEARTBEAT; CMDCODE_REQUEST; CMDCODE_RESPONSE] ->
  (dget (rid_of p) (s_req s) = None /\ view (deliver p s) = view s) \/
  (exists ev, dget (rid_of p) (s_req s) = Some ev /\
    ((success p /\ view (deliver p s) = (ddel (rid_of p) (s_req s), dset (rid_of p) p (s_resp s), upd ev (fun _ => true) (s_events s), s_tasks s)) \/
     (~ success p /\ view (deliver p s) = (ddel (rid_of p) (s_req s), s_resp s, upd ev (fun _ => true) (s_events s), s_tasks s)))).
Proof.
  intros C. unfold deliver, wake, success. cbv zeta. unfold dmem. unfold CMDCODE_HEARTBEAT, CMDCODE_REQUEST, CMDCODE_RESPONSE, ST_SUCCESS in *. cbn [In] in C.
  destruct (dget (rid_of p) (s_req s)) as [ev|] eqn:E.
  - right. exists ev. split; [reflexivity|].
    destruct (Z.eqb_spec (p_cmdcode p) 0); [right; split; [intros []; lia|reflexivity]|].
    destruct (Z.eqb_spec (p_cmdcode p) 1); [right; split; [intros []; lia|reflexivity]|].
    destruct (Z.eqb_spec (p_respstatus p) 0); cbn [negb].
    + left. split; [lia|]. cbn [s_req set_resp]. rewrite E. reflexivity.
    + right. split; [intros []; lia|reflexivity].
  - left. split; [reflexivity|]. repeat match goal with |- context [if ?b then _ else _] => destruct b end; reflexivity.
Qed.

(** the request id of the call a step starts *)
Definition new_rid (o : step) : option Z := match o with Call req _ => Some (rid_of req) | Beat r => Some r | _ => None end.
Inductive eff (o : step) (s s' : st) : Prop :=
| E_same : view s' = view s -> eff o s s'
| E_call t : t_pc t = Start -> new_rid o = Some (rid_of (t_req t)) -> view s' = (s_req s, s_resp s, s_events s, s_tasks s ++ [t]) -> eff o s s'
| E_badaddr i t e : nth_error (s_tasks s) i = Some t -> t_pc t = Start -> t_addr t = Raise e ->
    view s' = (s_req s, s_resp s, s_events s, moved i (Done (RetErr e)) s) -> eff o s s'
| E_start i t p : nth_error (s_tasks s) i = Some t -> t_pc t = Start -> sending p ->
    view s' = (dset (rid_of (t_req t)) (List.length (s_events s)) (s_req s), s_resp s, s_events s ++ [false], moved i p s) -> eff o s s'
| E_move i t p : nth_error (s_tasks s) i = Some t -> sending (t_pc t) -> sending p ->
    view s' = (s_req s, s_resp s, s_events s, moved i p s) -> eff o s s'
| E_none i t : nth_error (s_tasks s) i = Some t -> sending (t_pc t) -> dmem (rid_of (t_req t)) (s_req s) = true ->
    view s' = (ddel (rid_of (t_req t)) (s_req s), s_resp s, s_events s, moved i (Done RetNone) s) -> eff o s s'
| E_key i t : nth_error (s_tasks s) i = Some t -> sending (t_pc t) -> dmem (rid_of (t_req t)) (s_req s) = false ->
    view s' = (s_req s, s_resp s, s_events s, moved i (Done (RetErr KeyError)) s) -> eff o s s'
| E_sent i t ev : nth_error (s_tasks s) i = Some t -> sending (t_pc t) -> dget (rid_of (t_req t)) (s_req s) = Some ev ->
    view s' = (s_req s, s_resp s, s_events s, moved i (WaitResp ev) s) -> eff o s s'
| E_return i t ev p : o = Wake i -> nth_error (s_tasks s) i = Some t -> t_pc t = WaitResp ev -> nth_error (s_events s) ev = Some true ->
    dget (rid_of (t_req t)) (s_resp s) = Some p ->
    view s' = (s_req s, ddel (rid_of (t_req t)) (s_resp s), s_events s, moved i (Done (RetPkg p)) s) -> eff o s s'
| E_nothing i t ev : o = Wake i -> nth_error (s_tasks s) i = Some t -> t_pc t = WaitResp ev -> nth_error (s_events s) ev = Some true ->
    dget (rid_of (t_req t)) (s_resp s) = None ->
    view s' = (s_req s, s_resp s, s_events s, moved i (Done (RetErr KeyError)) s) -> eff o s s'
| E_cancel i t : o = Cancel i -> nth_error (s_tasks s) i = Some t -> live (t_pc t) ->
    view s' = (s_req s, s_resp s, s_events s, moved i (Done (RetErr CancelledError)) s) -> eff o s s'
| E_deliver p c k frame ev : o = Read c -> nth_error (s_links s') c = Some k -> In frame (k_frames k) -> from_stream BoltResponse frame = Ok p ->
    success p -> dget (rid_of p) (s_req s) = Some ev ->
    view s' = (ddel (rid_of p) (s_req s), dset (rid_of p) p (s_resp s), upd ev (fun _ => true) (s_events s), s_tasks s) -> eff o s s'
| E_error p c k frame ev : o = Read c -> nth_error (s_links s') c = Some k -> In frame (k_frames k) -> from_stream BoltResponse frame = Ok p ->
    ~ success p -> dget (rid_of p) (s_req s) = Some ev ->
    view s' = (ddel (rid_of p) (s_req s), s_resp s, upd ev (fun _ => true) (s_events s), s_tasks s) -> eff o s s'.

(** the reader's state agrees with the bytes read *)
Definition frame_ok (f : bytes) : Prop := 20 <= len f /\ len f = resp_total f.
Record link_ok (k : link) : Prop := {
  lo_frames : Forall frame_ok (k_frames k);
  lo_in : k_rd k <> RdDone -> k_in k = concat (k_frames k) ++ (match k_rd k with RdBody fixed _ _ => fixed | _ => [] end) ++ k_buf k;
  lo_prefix : exists rest, k_in k = concat (k_frames k) ++ rest;
  lo_body : forall fixed h n, k_rd k = RdBody fixed h n -> len fixed = 20 /\ h = resp_dict fixed /\ n = resp_total fixed - 20
}.
Definition links_ok (s : st) : Prop := forall c k, nth_error (s_links s) c = Some k -> link_ok k.

Lemma body_size_resp bs : body_size (resp_dict bs) = resp_total bs - 20.
Proof. unfold body_size. change (bh_int f_class_len (resp_dict bs)) with (Ok (uval (field 12 2 bs))). change (bh_int f_header_len (resp_dict bs)) with (Ok (uval (field 14 2 bs))).
  change (bh_int f_content_len (resp_dict bs)) with (Ok (uval (field 16 4 bs))). unfold resp_total. lia. Qed.

Lemma enter_send_cases i rid a n s : enter_send i rid a n s = abandon i rid s /\ n = O \/
  (exists p, sending p /\ view (enter_send i rid a n s) = (s_req s, s_resp s, s_events s, moved i p s)) /\ n <> O.
Proof.
  unfold enter_send. destruct n as [|n]; [left; auto|]. right. split; [|discriminate].
  destruct (dget a (s_conn s)) as [c|]; [eexists (Drain1 (S n) c); split; [exact I|reflexivity]|].
  destruct (dget a (s_dial s)) as [l|]; eexists (WaitLock (S n) _); (split; [exact I|reflexivity]).
Qed.

Lemma abandon_eff o i t s0 s : nth_error (s_tasks s0) i = Some t -> sending (t_pc t) -> view s = view s0 -> eff o s0 (abandon i (rid_of (t_req t)) s).
Proof.
  intros Ht Hs V. unfold view in V. injection V as V1 V2 V3 V4. unfold abandon. rewrite V1. destruct (dmem (rid_of (t_req t)) (s_req s0)) eqn:M.
  - apply (E_none _ _ _ i t); auto. unfold view, moved. cbn. rewrite ?V1, V2, V3, V4. reflexivity.
  - apply (E_key _ _ _ i t); auto. unfold view, moved. cbn. rewrite ?V1, V2, V3, V4. reflexivity.
Qed.

Lemma enter_send_eff o i t a n s0 s : nth_error (s_tasks s0) i = Some t -> sending (t_pc t) -> view s = view s0 -> eff o s0 (enter_send i (rid_of (t_req t)) a n s).
Proof.
  intros Ht Hs V. destruct (enter_send_cases i (rid_of (t_req t)) a n s) as [[-> _]|[(p & Hp & E) _]].
  - apply abandon_eff; assumption.
  - apply (E_move _ _ _ i t p); auto. rewrite E. unfold view in V. injection V as V1 V2 V3 V4. unfold moved. rewrite V1, V2, V3, V4. reflexivity.
Qed.

Lemma send_failed_eff o i t a n c s : nth_error (s_tasks s) i = Some t -> sending (t_pc t) -> eff o s (send_failed i (rid_of (t_req t)) a n c s).
Proof.
  intros Ht Hs. unfold send_failed. destruct (dmem a (s_conn (cancel_reader c s))); [|apply abandon_eff; auto].
  match goal with |- context [dmem a ?d] => destruct (dmem a d) end; [|apply abandon_eff; auto]. apply enter_send_eff; auto.
Qed.

Lemma sent_eff o i t s : nth_error (s_tasks s) i = Some t -> sending (t_pc t) -> eff o s (sent i (t_req t) s).
Proof.
  intros Ht Hs. unfold sent. destruct (dget (rid_of (t_req t)) (s_req s)) as [ev|] eqn:E.
  - destruct (p_ptype (t_req t) =? PTYPE_ONEWAY).
    + apply (E_none _ _ _ i t); auto. unfold dmem. now rewrite E.
    + apply (E_sent _ _ _ i t ev); auto.
  - apply (E_key _ _ _ i t); auto. unfold dmem. now rewrite E.
Qed.

Lemma links_wake rid s : s_links (wake rid s) = s_links s.
Proof. unfold wake. destruct (dget rid (s_req s)); reflexivity. Qed.
Lemma links_deliver p s : s_links (deliver p s) = s_links s.
Proof. unfold deliver. repeat match goal with |- context [if ?b then _ else _] => destruct b end; rewrite links_wake; reflexivity. Qed.
Lemma links_process h bs s : s_links (process h bs s) = s_links s.
Proof. unfold process. destruct (bolt_content_from_stream BoltResponse bs h); [apply links_deliver|reflexivity]. Qed.

Lemma view_deliver p s s' : view s = view s' -> view (deliver p s) = view (deliver p s').
Proof.
  intros V. unfold view in V. injection V as V1 V2 V3 V4.
  assert (W : forall rid a b, view a = view b -> view (wake rid a) = view (wake rid b)).
  { intros rid x y V. unfold view in V. injection V as W1 W2 W3 W4. unfold wake. rewrite W1. destruct (dget rid (s_req y)); unfold view; cbn; rewrite ?W1, ?W2, ?W3, ?W4; reflexivity. }
  unfold deliver. rewrite V1. repeat match goal with |- context [if ?b then _ else _] => destruct b end; apply W; unfold view; cbn; rewrite ?V1, ?V2, ?V3, ?V4; reflexivity.
Qed.

(** the body of a frame, decoded with the fields of its fixed part, is the frame decoded *)
Lemma content_is_frame fixed body : len fixed = 20 -> bolt_content_from_stream BoltResponse body (resp_dict fixed) = from_stream BoltResponse (fixed ++ body).
Proof.
  intros L. unfold from_stream. rewrite BoltResponse_eq. rewrite bolt_header_resp by (rewrite len_app; pose proof (len_nonneg body); lia). cbn [bind].
  change (bolt_header_size (resp_class response_class_name)) with 20. rewrite (py_drop_app' 20) by lia. f_equal.
  unfold resp_dict. unfold field. assert (N : List.length fixed = 20%nat) by (unfold len in L; lia).
  assert (F : forall o m, (o + m <= 20)%nat -> firstn m (skipn o (fixed ++ body)) = firstn m (skipn o fixed)).
  { intros o m H. rewrite skipn_app. replace (o - List.length fixed)%nat with 0%nat by lia. cbn [skipn]. rewrite firstn_app.
    replace (m - List.length (skipn o fixed))%nat with 0%nat by (rewrite skipn_length; lia). cbn. apply app_nil_r. }
  rewrite !F by lia. reflexivity.
Qed.

Lemma read_eff c s : links_ok s -> eff (Read c) s (read c s).
Proof.
  intros K. unfold read. destruct (nth_error (s_links s) c) as [k|] eqn:Ek; [|apply E_same; reflexivity]. pose proof (K c k Ek) as LO.
  destruct (k_rd k) as [| |fixed h n|] eqn:Er.
  - apply E_same. reflexivity.
  - destruct (k_cancel k || k_exn k); [apply E_same; reflexivity|]. destruct (bolt_header_size BoltResponse <=? len (k_buf k)).
    + destruct (bolt_header_from_stream BoltResponse _); apply E_same; reflexivity.
    + destruct (k_eof k); apply E_same; reflexivity.
  - destruct (k_cancel k || k_exn k); [apply E_same; reflexivity|]. destruct (n <=? len (k_buf k)); [|destruct (k_eof k); apply E_same; reflexivity].
    destruct (lo_body _ LO _ _ _ Er) as (L20 & -> & Hn). set (body := py_take n (k_buf k)).
    set (s1 := set_link c (rd_take k n RdHead [fixed ++ body]) s).
    unfold process. rewrite content_is_frame by exact L20. destruct (from_stream BoltResponse (fixed ++ body)) as [p|e] eqn:Ef; [|apply E_same; reflexivity].
    set (k' := rd_take k n RdHead [fixed ++ body]). assert (Hk : nth_error (s_links (deliver p s1)) c = Some k') by (rewrite links_deliver; unfold s1, set_link; cbn; rewrite (upd_same c _ _ k Ek); reflexivity).
    assert (Hi : In (fixed ++ body) (k_frames k')) by (cbn; apply in_app_iff; right; left; reflexivity).
    assert (Hv : view (deliver p s1) = view (deliver p s)) by (apply view_deliver; reflexivity).
    destruct (deliver_view p s (decoded_cmdcode _ _ Ef)) as [(_ & E)|(ev & Hev & [(Su & E)|(Su & E)])].
    + apply E_same. congruence.
    + apply (E_deliver _ _ _ p c k' (fixed ++ body) ev); auto; congruence.
    + apply (E_error _ _ _ p c k' (fixed ++ body) ev); auto; congruence.
  - apply E_same. reflexivity.
Qed.

Lemma beat_rid rid p : heartbeat_new_request rid = Ok p -> rid_of p = rid.
Proof. intros H. apply mk_package_Ok in H. destruct H as (_ & _ & _ & H & _). unfold rid_of. rewrite H. reflexivity. Qed.

Lemma step_eff o s : links_ok s -> eff o s (run_step o s).
Proof.
  intros K. destruct o; cbn [run_step].
  - apply (E_call _ _ _ {| t_req := req; t_addr := addr; t_pc := Start |}); reflexivity.
  - destruct (nth_error (s_tasks s) i) as [t|] eqn:Et; [|apply E_same; reflexivity].
    destruct (t_pc t) eqn:Ep; try (apply E_same; reflexivity). destruct (t_addr t) as [a|e] eqn:Ea.
    + cbv zeta. match goal with |- eff _ s (enter_send i ?rid a 3 ?s1) => destruct (enter_send_cases i rid a 3 s1) as [[_ H]|[(p & Hp & E) _]]; [discriminate|] end.
      apply (E_start _ _ _ i t p); auto.
    + apply (E_badaddr _ _ _ i t e); auto.
  - destruct (nth_error (s_tasks s) i) as [t|] eqn:Et; [|apply E_same; reflexivity].
    destruct (t_pc t) eqn:Ep; try (apply E_same; reflexivity). destruct (t_addr t) as [a|e] eqn:Ea; [|apply E_same; reflexivity].
    destruct (nth_error (s_locks s) l) as [[|]|]; try (apply E_same; reflexivity). destruct (dget a (s_conn s)) as [c|].
    + apply (E_move _ _ _ i t (Drain1 n c)); rewrite ?Ep; auto; exact I.
    + apply (E_move _ _ _ i t (Dialing n l)); rewrite ?Ep; auto; exact I.
  - destruct (nth_error (s_tasks s) i) as [t|] eqn:Et; [|apply E_same; reflexivity].
    destruct (t_pc t) eqn:Ep; try (apply E_same; reflexivity). destruct (t_addr t) as [a|e] eqn:Ea; [|apply E_same; reflexivity].
    cbv zeta. destruct (dsetdefault a _ _) as [d c']. apply (E_move _ _ _ i t (Drain1 n c')); rewrite ?Ep; auto; exact I.
  - destruct (nth_error (s_tasks s) i) as [t|] eqn:Et; [|apply E_same; reflexivity].
    destruct (t_pc t) eqn:Ep; try (apply E_same; reflexivity). apply abandon_eff; rewrite ?Ep; auto. exact I.
  - destruct (nth_error (s_tasks s) i) as [t|] eqn:Et; [|apply E_same; reflexivity].
    destruct (t_pc t) eqn:Ep; try (apply E_same; reflexivity).
    + destruct (t_addr t) as [a|e] eqn:Ea; [|apply E_same; reflexivity]. destruct (to_stream (t_req t)).
      * apply (E_move _ _ _ i t (Drain2 n c)); rewrite ?Ep; auto; exact I.
      * apply send_failed_eff; rewrite ?Ep; auto. exact I.
    + assert (E : eff (DrainOk i) s (sent i (t_req t) s)) by (apply sent_eff; rewrite ?Ep; auto; exact I). destruct (t_addr t); exact E.
  - destruct (nth_error (s_tasks s) i) as [t|] eqn:Et; [|apply E_same; reflexivity].
    destruct (t_pc t) eqn:Ep; try (apply E_same; reflexivity); (destruct (t_addr t) as [a|e] eqn:Ea; [|apply E_same; reflexivity]);
      apply send_failed_eff; rewrite ?Ep; auto; exact I.
  - destruct (nth_error (s_tasks s) i) as [t|] eqn:Et; [|apply E_same; reflexivity].
    destruct (t_pc t) eqn:Ep; try (apply E_same; reflexivity). destruct (nth_error (s_events s) ev) as [[|]|] eqn:Ee; try (apply E_same; reflexivity).
    destruct (dget (rid_of (t_req t)) (s_resp s)) as [p|] eqn:Eg.
    + apply (E_return _ _ _ i t ev p); auto.
    + apply (E_nothing _ _ _ i t ev); auto.
  - destruct (nth_error (s_tasks s) i) as [t|] eqn:Et; [|apply E_same; reflexivity].
    destruct (t_pc t) eqn:Ep; try (apply E_same; reflexivity); apply (E_cancel _ _ _ i t); rewrite ?Ep; auto; exact I.
  - apply E_same. reflexivity.
  - apply E_same. reflexivity.
  - apply E_same. reflexivity.
  - apply read_eff. exact K.
  - destruct (s_timer s); try (apply E_same; reflexivity). destruct (heartbeat_new_request rid) as [p|] eqn:Eh; [|apply E_same; reflexivity].
    apply (E_call _ _ _ {| t_req := p; t_addr := Ok a; t_pc := Start |}); [reflexivity| |reflexivity]. cbn [new_rid t_req]. f_equal. symmetry. exact (beat_rid _ _ Eh).
  - destruct (s_timer s); try (apply E_same; reflexivity). destruct (nth_error (s_tasks s) i) as [t|]; [|apply E_same; reflexivity].
    destruct (t_pc t); try (apply E_same; reflexivity). destruct r; apply E_same; reflexivity.
Qed.

(** ** What a step does to a connection *)
Inductive lmove (k k' : link) : Prop :=
| L_same : k' = k -> lmove k k'
| L_flags : k_addr k' = k_addr k -> k_buf k' = k_buf k -> k_rd k' = k_rd k -> k_frames k' = k_frames k -> k_in k' = k_in k -> k_closed k' = k_closed k -> lmove k k'
| L_feed bs : k_addr k' = k_addr k -> k_buf k' = k_buf k ++ bs -> k_rd k' = k_rd k -> k_frames k' = k_frames k -> k_in k' = k_in k ++ bs -> k_closed k' = k_closed k -> lmove k k'
| L_begin : k_rd k = RdNew -> k' = rd_goto k RdHead -> lmove k k'
| L_never : k_rd k = RdNew -> k' = rd_goto k RdDone -> lmove k k'
| L_close : k' = rd_close k -> lmove k k'
| L_head : k_rd k = RdHead -> 20 <= len (k_buf k) ->
    k' = rd_take k 20 (RdBody (py_take 20 (k_buf k)) (resp_dict (py_take 20 (k_buf k))) (resp_total (py_take 20 (k_buf k)) - 20)) [] -> lmove k k'
| L_body fixed h n : k_rd k = RdBody fixed h n -> n <= len (k_buf k) ->
    k' = rd_take k n RdHead [fixed ++ py_take n (k_buf k)] -> lmove k k'.

Lemma lmove_ok k k' : link_ok k -> lmove k k' -> link_ok k'.
Proof.
  intros LO M. destruct LO as [F I P B]. destruct M.
  - subst. constructor; assumption.
  - constructor; [rewrite H2; exact F|rewrite H1, H2, H3, H0; exact I|rewrite H2, H3; exact P|rewrite H1; exact B].
  - constructor; [rewrite H2; exact F| | |rewrite H1; exact B].
    + intros N. rewrite H1 in *. rewrite H0, H2, H3, (I N), <- !app_assoc. reflexivity.
    + rewrite H2, H3. destruct P as (r & ->). exists (r ++ bs). now rewrite app_assoc.
  - subst k'. constructor; cbn; [exact F| |exact P|discriminate]. intros _. rewrite H in I. apply I. discriminate.
  - subst k'. constructor; cbn; [exact F|congruence|exact P|discriminate].
  - subst k'. constructor; cbn; [exact F|congruence|exact P|discriminate].
  - subst k'. constructor; cbn [rd_take k_frames k_rd k_in k_buf].
    + now rewrite app_nil_r.
    + intros _. rewrite app_nil_r. rewrite H in I. rewrite (I ltac:(discriminate)). cbn [app]. rewrite py_take_drop. reflexivity.
    + now rewrite app_nil_r.
    + intros fixed h n [= <- <- <-]. split; [rewrite len_py_take; lia|]. auto.
  - subst k'. destruct (B _ _ _ H) as (L20 & -> & ->).
    assert (N : 0 <= resp_total fixed - 20) by (unfold resp_total; pose proof (uval_nonneg (field 12 2 fixed)); pose proof (uval_nonneg (field 14 2 fixed)); pose proof (uval_nonneg (field 16 4 fixed)); lia).
    constructor; cbn [rd_take k_frames k_rd k_in k_buf].
    + apply Forall_app. split; [exact F|]. constructor; [|constructor]. unfold frame_ok. rewrite len_app, len_py_take by lia. split; [lia|].
      assert (E : resp_total (fixed ++ py_take (resp_total fixed - 20) (k_buf k)) = resp_total fixed); [|lia].
      unfold resp_total at 1, field. assert (Ln : List.length fixed = 20%nat) by (unfold len in L20; lia).
      assert (G : forall o m (body : bytes), (o + m <= 20)%nat -> firstn m (skipn o (fixed ++ body)) = firstn m (skipn o fixed)).
      { intros o m body Ho. rewrite skipn_app. replace (o - List.length fixed)%nat with 0%nat by lia. cbn [skipn]. rewrite firstn_app.
        replace (m - List.length (skipn o fixed))%nat with 0%nat by (rewrite skipn_length; lia). cbn. apply app_nil_r. }
      rewrite !G by lia. reflexivity.
    + intros _. rewrite H in I. rewrite (I ltac:(discriminate)). rewrite concat_app. cbn [concat app]. rewrite app_nil_r, <- !app_assoc. rewrite py_take_drop. reflexivity.
    + rewrite H in I. exists (py_drop (resp_total fixed - 20) (k_buf k)). rewrite (I ltac:(discriminate)), concat_app. cbn [concat]. rewrite app_nil_r, <- !app_assoc, py_take_drop. reflexivity.
    + discriminate.
Qed.

Lemma lmove_frames k k' : lmove k k' -> exists fs, k_frames k' = k_frames k ++ fs.
Proof.
  intros M. destruct M; try (subst k'); try (exists []; cbn; rewrite ?app_nil_r; congruence). eexists. cbn. reflexivity.
Qed.

Definition lstep (s s' : st) : Prop := (List.length (s_links s) <= List.length (s_links s'))%nat /\ forall c k', nth_error (s_links s') c = Some k' ->
  (nth_error (s_links s) c = None /\ exists a, k' = new_link a) \/ exists k, nth_error (s_links s) c = Some k /\ lmove k k'.
Lemma lstep_same s s' : s_links s' = s_links s -> lstep s s'.
Proof. intros E. split; [rewrite E; lia|]. intros c k' H. right. rewrite E in H. exists k'. split; [exact H|apply L_same; reflexivity]. Qed.
Lemma lstep_upd s s' c f : s_links s' = upd c f (s_links s) -> (forall k, nth_error (s_links s) c = Some k -> lmove k (f k)) -> lstep s s'.
Proof.
  intros E M. split; [rewrite E, upd_length; lia|]. intros c' k' H. right. rewrite E in H. apply upd_get in H as [(N & H)|(-> & k & H & ->)]; [exists k'; split; [exact H|apply L_same; reflexivity]|].
  exists k. split; [exact H|apply M; exact H].
Qed.

Lemma links_goto i p s : s_links (goto i p s) = s_links s. Proof. reflexivity. Qed.
Lemma links_abandon i rid s : s_links (abandon i rid s) = s_links s.
Proof. unfold abandon. destruct (dmem rid (s_req s)); reflexivity. Qed.
Lemma links_enter i rid a n s : s_links (enter_send i rid a n s) = s_links s.
Proof. unfold enter_send. destruct n; [apply links_abandon|]. destruct (dget a (s_conn s)); [reflexivity|]. destruct (dget a (s_dial s)); reflexivity. Qed.
Definition cancelled (k : link) : link := {| k_addr := k_addr k; k_buf := k_buf k; k_eof := k_eof k; k_exn := k_exn k; k_rd := k_rd k; k_cancel := true; k_closed := k_closed k; k_frames := k_frames k; k_in := k_in k |}.
Lemma links_failed i rid a n c s : s_links (send_failed i rid a n c s) = upd c cancelled (s_links s).
Proof.
  unfold send_failed. destruct (dmem a (s_conn (cancel_reader c s))); [|rewrite links_abandon; reflexivity].
  match goal with |- context [dmem a ?d] => destruct (dmem a d) end; [rewrite links_enter|rewrite links_abandon]; reflexivity.
Qed.
Lemma lstep_failed i rid a n c s : lstep s (send_failed i rid a n c s).
Proof. apply (lstep_upd _ _ c cancelled); [apply links_failed|]. intros k _. apply L_flags; reflexivity. Qed.
Lemma links_sent i r s : s_links (sent i r s) = s_links s.
Proof. unfold sent. destruct (dget (rid_of r) (s_req s)); [destruct (p_ptype r =? PTYPE_ONEWAY)|]; reflexivity. Qed.

Lemma step_links o s : lstep s (run_step o s).
Proof.
  destruct o; cbn [run_step].
  - apply lstep_same. reflexivity.
  - apply lstep_same. destruct (nth_error (s_tasks s) i) as [t|]; [|reflexivity]. destruct (t_pc t); try reflexivity. destruct (t_addr t); [cbv zeta; rewrite links_enter|]; reflexivity.
  - apply lstep_same. destruct (nth_error (s_tasks s) i) as [t|]; [|reflexivity]. destruct (t_pc t); try reflexivity. destruct (t_addr t); [|reflexivity].
    destruct (nth_error (s_locks s) l) as [[|]|]; try reflexivity. destruct (dget a (s_conn s)); reflexivity.
  - destruct (nth_error (s_tasks s) i) as [t|]; [|apply lstep_same; reflexivity]. destruct (t_pc t); try (apply lstep_same; reflexivity).
    destruct (t_addr t) as [a|e]; [|apply lstep_same; reflexivity]. cbv zeta. destruct (dsetdefault a _ _) as [d c']. split; [cbn; rewrite app_length; cbn; lia|]. intros c k' H. cbn in H.
    apply nth_app in H as [H|(-> & ->)]; [right; exists k'; split; [exact H|apply L_same; reflexivity]|].
    left. split; [apply nth_error_None; lia|eauto].
  - apply lstep_same. destruct (nth_error (s_tasks s) i) as [t|]; [|reflexivity]. destruct (t_pc t); try reflexivity. rewrite links_abandon. reflexivity.
  - destruct (nth_error (s_tasks s) i) as [t|]; [|apply lstep_same; reflexivity]. destruct (t_pc t); try (apply lstep_same; reflexivity).
    + destruct (t_addr t); [|apply lstep_same; reflexivity]. destruct (to_stream (t_req t)); [apply lstep_same; reflexivity|apply lstep_failed].
    + apply lstep_same. destruct (t_addr t); apply links_sent.
  - destruct (nth_error (s_tasks s) i) as [t|]; [|apply lstep_same; reflexivity].
    destruct (t_pc t); try (apply lstep_same; reflexivity); (destruct (t_addr t); [apply lstep_failed|apply lstep_same; reflexivity]).
  - apply lstep_same. destruct (nth_error (s_tasks s) i) as [t|]; [|reflexivity]. destruct (t_pc t); try reflexivity.
    destruct (nth_error (s_events s) ev) as [[|]|]; try reflexivity. destruct (dget (rid_of (t_req t)) (s_resp s)); reflexivity.
  - apply lstep_same. destruct (nth_error (s_tasks s) i) as [t|]; [|reflexivity]. destruct (t_pc t); reflexivity.
  - eapply lstep_upd; [reflexivity|]. intros k _. apply (L_feed _ _ bs); reflexivity.
  - eapply lstep_upd; [reflexivity|]. intros k _. apply L_flags; reflexivity.
  - eapply lstep_upd; [reflexivity|]. intros k _. apply L_flags; reflexivity.
  - unfold read. destruct (nth_error (s_links s) c) as [k|] eqn:Ek; [|apply lstep_same; reflexivity].
    destruct (k_rd k) as [| |fixed h n|] eqn:Er.
    + apply (lstep_upd _ _ c (fun _ => rd_goto k (if k_cancel k then RdDone else RdHead))); [reflexivity|]. intros k0 H. assert (k0 = k) by congruence. subst k0.
      destruct (k_cancel k); [apply L_never|apply L_begin]; auto.
    + destruct (k_cancel k || k_exn k).
      { apply (lstep_upd _ _ c (fun _ => rd_close k)); [reflexivity|]. intros k0 H. assert (k0 = k) by congruence. subst k0. apply L_close. reflexivity. }
      change (bolt_header_size BoltResponse) with 20. destruct (Z.leb_spec 20 (len (k_buf k))).
      * cbv zeta. rewrite BoltResponse_eq, bolt_header_resp by (rewrite len_py_take; lia). rewrite body_size_resp.
        eapply lstep_upd; [reflexivity|]. intros k0 H0. assert (k0 = k) by congruence. subst k0. apply L_head; auto.
      * destruct (k_eof k); [|apply lstep_same; reflexivity]. apply (lstep_upd _ _ c (fun _ => rd_close k)); [reflexivity|].
        intros k0 H0. assert (k0 = k) by congruence. subst k0. apply L_close. reflexivity.
    + destruct (k_cancel k || k_exn k).
      { apply (lstep_upd _ _ c (fun _ => rd_close k)); [reflexivity|]. intros k0 H. assert (k0 = k) by congruence. subst k0. apply L_close. reflexivity. }
      destruct (Z.leb_spec n (len (k_buf k))).
      * apply (lstep_upd _ _ c (fun _ => rd_take k n RdHead [fixed ++ py_take n (k_buf k)])); [rewrite links_process; reflexivity|].
        intros k0 H0. assert (k0 = k) by congruence. subst k0. apply (L_body _ _ fixed h n); auto.
      * destruct (k_eof k); [|apply lstep_same; reflexivity]. apply (lstep_upd _ _ c (fun _ => rd_close k)); [reflexivity|].
        intros k0 H0. assert (k0 = k) by congruence. subst k0. apply L_close. reflexivity.
    + apply lstep_same. reflexivity.
  - apply lstep_same. destruct (s_timer s); try reflexivity.
  - apply lstep_same. destruct (s_timer s); try reflexivity. destruct (nth_error (s_tasks s) i) as [t|]; [|reflexivity]. destruct (t_pc t); try reflexivity. destruct r; reflexivity.
Qed.

Lemma new_link_ok a : link_ok (new_link a).
Proof. constructor; cbn; [constructor|reflexivity|exists []; reflexivity|discriminate]. Qed.
Lemma step_links_ok o s : links_ok s -> links_ok (run_step o s).
Proof.
  intros K c k' H. destruct (proj2 (step_links o s) c k' H) as [(_ & a & ->)|(k & Hk & M)]; [apply new_link_ok|]. exact (lmove_ok _ _ (K _ _ Hk) M).
Qed.

(** reachable states *)
Definition from (s : st) (l : list step) : st := fold_left (fun s o => run_step o s) l s.
Lemma run_from t l : run t l = from (init t) l. Proof. reflexivity. Qed.
Lemma from_app s l l' : from s (l ++ l') = from (from s l) l'. Proof. apply fold_left_app. Qed.
Lemma from_ind (P : st -> Prop) : (forall s o, P s -> P (run_step o s)) -> forall l s, P s -> P (from s l).
Proof. intros H l. induction l as [|o l IH]; intros s Hs; [exact Hs|]. apply IH. apply H. exact Hs. Qed.
Lemma run_links_ok t l : links_ok (run t l).
Proof. rewrite run_from. apply from_ind; [intros s o; apply step_links_ok|]. intros c k H. destruct c; discriminate. Qed.

(** ** Frames that were received *)
Definition seen (s : st) (p : pkg) : Prop :=
  exists c k frame, nth_error (s_links s) c = Some k /\ In frame (k_frames k) /\ from_stream BoltResponse frame = Ok p.
Lemma link_kept s s' c k : lstep s s' -> nth_error (s_links s) c = Some k -> exists k', nth_error (s_links s') c = Some k' /\ lmove k k'.
Proof.
  intros [L M] H. assert (C : (c < List.length (s_links s'))%nat) by (apply Nat.lt_le_trans with (2 := L); apply nth_error_Some; congruence).
  destruct (nth_error (s_links s') c) as [k'|] eqn:E; [|apply nth_error_None in E; lia]. exists k'. split; [reflexivity|].
  destruct (M c k' E) as [(N & _)|(k0 & H0 & M0)]; [congruence|]. assert (k0 = k) by congruence. subst k0. exact M0.
Qed.
Lemma seen_mono s s' p : lstep s s' -> seen s p -> seen s' p.
Proof.
  intros L (c & k & frame & H & Hi & Hf). destruct (link_kept _ _ _ _ L H) as (k' & H' & M). exists c, k', frame. split; [exact H'|]. split; [|exact Hf].
  destruct (lmove_frames _ _ M) as (fs & ->). apply in_app_iff. left. exact Hi.
Qed.

Definition good (s : st) (rid : Z) (p : pkg) : Prop := rid_of p = rid /\ success p /\ seen s p.

Record inv (s : st) : Prop := {
  i_links : links_ok s;
  i_wfreq : wf_dict (s_req s);
  i_wfresp : wf_dict (s_resp s);
  i_resp : forall k p, dget k (s_resp s) = Some p -> good s k p;
  i_done : forall i t p, nth_error (s_tasks s) i = Some t -> t_pc t = Done (RetPkg p) -> good s (rid_of (t_req t)) p
}.

Lemma good_mono s s' k p : lstep s s' -> good s k p -> good s' k p.
Proof. intros L (A & B & C). split; [exact A|]. split; [exact B|]. exact (seen_mono _ _ _ L C). Qed.

Lemma wf_ddel' {V} k (d : dict Z V) : wf_dict d -> wf_dict (ddel k d).
Proof. apply wf_ddel. Qed.

(** the calls after coroutine i went to p *)
Lemma moved_get i p s j t' : nth_error (moved i p s) j = Some t' ->
  (i <> j /\ nth_error (s_tasks s) j = Some t') \/ (i = j /\ exists t, nth_error (s_tasks s) i = Some t /\ t' = at_pc p t).
Proof. intros H. apply upd_get in H as [(N & H)|(-> & t & H & ->)]; [left; auto|right; split; [reflexivity|exists t; auto]]. Qed.

Lemma inv_step o s : inv s -> inv (run_step o s).
Proof.
  intros [K W1 W2 R D]. pose proof (step_links o s) as L. pose proof (step_eff o s K) as E. remember (run_step o s) as s' eqn:Es.
  assert (K' : links_ok s') by (subst s'; apply step_links_ok; exact K). clear Es.
  assert (R' : forall k p, dget k (s_resp s) = Some p -> good s' k p) by (intros k p H; apply (good_mono s); auto).
  assert (D' : forall i t p, nth_error (s_tasks s) i = Some t -> t_pc t = Done (RetPkg p) -> good s' (rid_of (t_req t)) p) by (intros i t p H1 H2; apply (good_mono s); eauto).
  assert (MV : forall i q, (forall p, q <> Done (RetPkg p)) -> forall j t p, nth_error (moved i q s) j = Some t -> t_pc t = Done (RetPkg p) -> good s' (rid_of (t_req t)) p).
  { intros i q N j t p H1 H2. apply moved_get in H1 as [(_ & H1)|(-> & t0 & H1 & ->)]; [eauto|]. cbn in H2. exfalso. exact (N p H2). }
  destruct E as [V|t Hp Hr V|i t e Ht Hp Ha V|i t p Ht Hp Hs V|i t p Ht Hs Hs' V|i t Ht Hs Hm V|i t Ht Hs Hm V|i t ev Ht Hs Hg V|i t ev p Ho Ht Hp He Hg V|i t ev Ho Ht Hp He Hg V|i t Ho Ht Hl V|p c k frame ev Ho Hk Hi Hf Su Hev V|p c k frame ev Ho Hk Hi Hf Su Hev V];
    try (unfold view in V; injection V as V1 V2 V3 V4).
  - constructor; rewrite ?V1, ?V2, ?V4; auto.
  - constructor; rewrite ?V1, ?V2, ?V4; auto. intros j t' p H1 H2. apply nth_app in H1 as [H1|(-> & ->)]; [eauto|congruence].
  - constructor; rewrite ?V1, ?V2, ?V4; auto. apply MV. discriminate.
  - constructor; rewrite ?V1, ?V2, ?V4; auto. { apply wf_dset. exact W1. } apply MV. intros q ->. exact Hs.
  - constructor; rewrite ?V1, ?V2, ?V4; auto. apply MV. intros q ->. exact Hs'.
  - constructor; rewrite ?V1, ?V2, ?V4; auto. { apply wf_ddel. exact W1. } apply MV. discriminate.
  - constructor; rewrite ?V1, ?V2, ?V4; auto. apply MV. discriminate.
  - constructor; rewrite ?V1, ?V2, ?V4; auto. apply MV. discriminate.
  - constructor; rewrite ?V1, ?V2, ?V4; auto.
    + apply wf_ddel. exact W2.
    + intros k q Hq. destruct (Z.eq_dec k (rid_of (t_req t))) as [->|N]; [rewrite dget_ddel_same in Hq by exact W2; discriminate|]. rewrite dget_ddel_other in Hq by congruence. auto.
    + intros j t' q H1 H2. apply moved_get in H1 as [(_ & H1)|(-> & t0 & H1 & ->)]; [eauto|]. cbn in H2 |- *. assert (t0 = t) by congruence. assert (q = p) by congruence. subst. auto.
  - constructor; rewrite ?V1, ?V2, ?V4; auto. apply MV. discriminate.
  - constructor; rewrite ?V1, ?V2, ?V4; auto. apply MV. discriminate.
  - constructor; rewrite ?V1, ?V2, ?V4; auto.
    + apply wf_ddel. exact W1.
    + apply wf_dset. exact W2.
    + intros k0 q Hq. destruct (Z.eq_dec k0 (rid_of p)) as [->|N]; [rewrite dget_dset_same in Hq|rewrite dget_dset_other in Hq by congruence; auto].
      assert (q = p) by congruence. subst q. split; [reflexivity|]. split; [exact Su|]. exists c, k, frame. auto.
  - constructor; rewrite ?V1, ?V2, ?V4; auto. apply wf_ddel. exact W1.
Qed.

Lemma inv_init t : inv (init t).
Proof.
  constructor; cbn.
  - intros c k H. destruct c; discriminate.
  - constructor.
  - constructor.
  - discriminate.
  - intros i t0 p H. destruct i; discriminate.
Qed.
Lemma inv_run t l : inv (run t l).
Proof. rewrite run_from. apply from_ind; [intros s o; apply inv_step|apply inv_init]. Qed.
Lemma inv_from l s : inv s -> inv (from s l).
Proof. apply from_ind. intros s0 o. apply inv_step. Qed.

(** Lemmas about M_SyncTime. *)
From Coq Require Import ZifyBool Lia.
From Verif Require Import PyBase L_PyBase Struct L_Struct M_SofaHeader L_SofaHeader M_Package L_Package L_Codec S_Wire M_SyncClient L_SyncClient M_SyncTime S_SyncTime.

(** ** Arrival *)
Lemma own_cons r l : own_time (r :: l) = r_before r + r_after r + own_time l. Proof. reflexivity. Qed.

Lemma arrived_le t l : (arrived t l <= List.length l)%nat.
Proof. induction l as [|[u b] l IH]; cbn [arrived List.length]; [lia|]. destruct (u <=? t); lia. Qed.

Lemma readable_arrived d e l : forall k m, (k < arrived d l)%nat -> exists u, readable_from k m l e = Some u /\ m <= u <= Z.max m d.
Proof.
  induction l as [|[x b] l IH]; intros k m H; cbn [arrived readable_from] in *; [lia|].
  destruct (Z.leb_spec x d) as [L|L]; [|lia]. destruct k as [|k].
  - eexists. split; [reflexivity|lia].
  - destruct (IH k (Z.max m x)) as (u & E & B); [lia|]. exists u. split; [exact E|lia].
Qed.

Lemma readable_end e l : forall d k m, arrived d l = List.length l -> (List.length l <= k)%nat -> e <= d ->
  exists u, readable_from k m l (Some e) = Some u /\ m <= u <= Z.max m d.
Proof.
  induction l as [|[x b] l IH]; intros d k m A H He; cbn [arrived readable_from List.length] in *.
  - eexists. split; [reflexivity|lia].
  - destruct (Z.leb_spec x d) as [L|L]; [|lia]. destruct k as [|k]; [lia|].
    destruct (IH d k (Z.max m x)) as (u & E & B); [lia|lia|exact He|]. exists u. split; [exact E|lia].
Qed.

Lemma readable_later k : forall m l e u, readable_from k m l e = Some u -> m <= u.
Proof.
  induction k as [|k IH]; intros m [|[x b] l] e u H; cbn [readable_from] in H.
  - destruct e; cbn [option_map] in H; [injection H as <-; lia|discriminate].
  - injection H as <-. lia.
  - destruct e; cbn [option_map] in H; [injection H as <-; lia|discriminate].
  - apply IH in H. lia.
Qed.

Lemma readable_has l : forall k m u t, readable_from k m l None = Some u -> u <= t -> (k < arrived t l)%nat.
Proof.
  induction l as [|[x b] l IH]; intros k m u t H Hu; cbn [readable_from arrived] in *; [discriminate|]. destruct k as [|k].
  - injection H as <-. destruct (Z.leb_spec x t); lia.
  - pose proof (readable_later _ _ _ _ _ H). destruct (Z.leb_spec x t); [|lia]. specialize (IH _ _ _ _ H Hu). lia.
Qed.

Lemma sent_length w : List.length (sent w) = List.length (w_bytes w).
Proof. apply map_length. Qed.

(** ** The loop as a run of the loop without times *)
Lemma timed_untimed w dl rounds : forall now s, rgood (sent w) s -> exists evs,
  match timed_loop w dl rounds now s with
  | TWaiting _ s' => recv_loop evs s = Waiting s' /\ Forall avail evs /\ List.length evs = List.length rounds
  | TStopped e _ s' => e = TimeoutError
  | TReceived _ s' => recv_loop evs s = Received s' /\ Forall avail evs
  end.
Proof.
  induction rounds as [|r rounds IH]; intros now s G; cbn [timed_loop].
  - exists []. cbn [recv_loop]. destruct (len (y_buf s) <? y_total s); repeat split; constructor.
  - destruct (Z.ltb_spec (len (y_buf s)) (y_total s)) as [Lt|Ge].
    2:{ exists []. cbn [recv_loop]. destruct (Z.ltb_spec (len (y_buf s)) (y_total s)); [lia|]. split; constructor. }
    destruct (readable_from _ _ _ _) as [u|]; [|exists []; reflexivity]. destruct (u <=? _); [|exists []; reflexivity].
    match goal with |- context [receive ?m s] => set (n := m) end.
    destruct (receive_spec _ s n G Lt) as (s' & E & G' & _). rewrite E. destruct (IH (u + r_after r) s' G') as (evs & H).
    exists (Avail n :: evs). cbn [recv_loop]. destruct (Z.ltb_spec (len (y_buf s)) (y_total s)) as [_|]; [|lia]. rewrite E.
    destruct (timed_loop w dl rounds (u + r_after r) s') as [t s2|e t s2|t s2].
    + destruct H as (H1 & H2 & H3). split; [exact H1|]. split; [constructor; [exact I|exact H2]|cbn [List.length]; lia].
    + exact H.
    + destruct H as (H1 & H2). split; [exact H1|constructor; [exact I|exact H2]].
Qed.

(** times: after the start, and after the deadline only by what the client itself takes *)
Lemma timed_bounds w dl rounds : Forall forward rounds -> forall now s,
  match timed_loop w dl rounds now s with
  | TWaiting t _ | TReceived t _ => now <= t <= Z.max now dl + own_time rounds
  | TStopped e t _ => now <= t <= Z.max now dl + own_time rounds /\ (e = TimeoutError -> rgood (sent w) s -> dl <= t)
  end.
Proof.
  intros F. assert (P : forall l, Forall forward l -> 0 <= own_time l).
  { intros l H. induction H as [|r l [A B] H IH]; [cbn; lia|rewrite own_cons; lia]. }
  induction F as [|r rounds Fr F IH]; intros now s; rewrite ?own_cons; cbn [timed_loop].
  - change (own_time []) with 0. destruct (_ <? _); lia.
  - specialize (P rounds F). destruct Fr as [F1 F2].
    destruct (Z.ltb_spec (len (y_buf s)) (y_total s)) as [Lt|Ge]; [|lia].
    destruct (readable_from _ _ _ _) as [u|] eqn:Eu; [|split; [lia|intros; lia]].
    pose proof (readable_later _ _ _ _ _ Eu) as Lu. destruct (Z.leb_spec u (Z.max (now + r_before r) dl)) as [Lg|Lg]; [|split; [lia|intros; lia]].
    match goal with |- context [receive ?m s] => set (n := m) end. destruct (receive n s) as [s'|e] eqn:E.
    + specialize (IH (u + r_after r) s'). destruct (timed_loop w dl rounds (u + r_after r) s') as [t s2|e t s2|t s2]; [lia| |lia].
      destruct IH as [IH1 IH2]. split; [lia|]. intros He G. apply IH2; [exact He|].
      destruct (receive_spec _ s n G Lt) as (s0 & E0 & G0 & _). congruence.
    + split; [lia|]. intros _ G. destruct (receive_spec _ s n G Lt) as (s0 & E0 & _). congruence.
Qed.

Lemma total_le srv s : rgood srv s -> y_total s <= resp_total srv.
Proof. intros G. destruct (y_header s) as [h|] eqn:Eh; [destruct (rg_some _ _ G h Eh); lia|destruct (rg_none _ _ G Eh); pose proof (resp_total_ge srv); lia]. Qed.

(** a frame that has arrived by the deadline is never given up *)
Lemma timed_in_time w dl rounds : resp_total (sent w) <= Z.of_nat (arrived dl (w_bytes w)) -> forall now s, rgood (sent w) s ->
  match timed_loop w dl rounds now s with TStopped _ _ _ => False | _ => True end.
Proof.
  intros A. induction rounds as [|r rounds IH]; intros now s G; cbn [timed_loop].
  - destruct (_ <? _); exact I.
  - destruct (Z.ltb_spec (len (y_buf s)) (y_total s)) as [Lt|Ge]; [|exact I]. pose proof (total_le _ _ G) as T.
    destruct (readable_arrived dl (w_end w) (w_bytes w) (List.length (y_buf s)) (now + r_before r)) as (u & Eu & Bu); [unfold len in *; lia|].
    rewrite Eu. destruct (Z.leb_spec u (Z.max (now + r_before r) dl)); [|lia].
    match goal with |- context [receive ?m s] => destruct (receive_spec _ s m G Lt) as (s' & E & G' & _) end. rewrite E. apply IH. exact G'.
Qed.

(** without an end of the stream, every round reads something *)
Lemma timed_reads w dl rounds : w_end w = None -> Forall forward rounds -> forall now s, rgood (sent w) s ->
  match timed_loop w dl rounds now s with
  | TWaiting _ s' => rgood (sent w) s' /\ len (y_buf s) + len rounds <= len (y_buf s') < y_total s'
  | _ => True
  end.
Proof.
  intros We F. induction F as [|r rounds [F1 F2] F IH]; intros now s G; cbn [timed_loop].
  - rewrite len_nil. destruct (Z.ltb_spec (len (y_buf s)) (y_total s)) as [Lt|Ge]; [|exact I]. split; [exact G|lia].
  - destruct (Z.ltb_spec (len (y_buf s)) (y_total s)) as [Lt|Ge]; [|exact I]. rewrite We.
    destruct (readable_from _ _ _ _) as [u|] eqn:Eu; [|exact I]. destruct (u <=? _); [|exact I].
    match goal with |- context [receive ?m s] => destruct (receive_spec _ s m G Lt) as (s' & E & G' & L) end. rewrite E.
    specialize (IH (u + r_after r) s' G'). destruct (timed_loop w dl rounds (u + r_after r) s') as [t s2|e t s2|t s2]; try exact I.
    destruct IH as [IH1 IH2]. split; [exact IH1|]. rewrite len_cons.
    pose proof (readable_has _ _ _ _ (u + r_after r) Eu ltac:(lia)) as K. pose proof (arrived_le (u + r_after r) (w_bytes w)) as K2.
    rewrite <- sent_length in K2. unfold len in *. lia.
Qed.

(** with one that comes by the deadline, after all bytes and in the middle of a response, the loop never ends *)
Lemma timed_stuck w dl rounds e : w_end w = Some e -> e <= dl -> arrived dl (w_bytes w) = List.length (w_bytes w) -> ~ complete (sent w) ->
  Forall forward rounds -> forall now s, rgood (sent w) s -> exists t s', timed_loop w dl rounds now s = TWaiting t s' /\ now + own_time rounds <= t.
Proof.
  intros We He A C F. induction F as [|r rounds [F1 F2] F IH]; intros now s G; rewrite ?own_cons; cbn [timed_loop].
  - change (own_time []) with 0. destruct (Z.ltb_spec (len (y_buf s)) (y_total s)) as [Lt|Ge]; [|destruct (received_spec _ _ G Ge) as (C' & _); destruct (C C')].
    exists now, s. split; [reflexivity|lia].
  - destruct (Z.ltb_spec (len (y_buf s)) (y_total s)) as [Lt|Ge]; [|destruct (received_spec _ _ G Ge) as (C' & _); destruct (C C')].
    destruct (rg_split _ _ G) as (_ & _ & Lb). assert (Ln : (List.length (y_buf s) <= List.length (w_bytes w))%nat) by (rewrite <- sent_length; unfold len in Lb; lia).
    assert (R : exists u, readable_from (List.length (y_buf s)) (now + r_before r) (w_bytes w) (w_end w) = Some u /\ now + r_before r <= u <= Z.max (now + r_before r) dl).
    { destruct (Nat.eq_dec (List.length (y_buf s)) (List.length (w_bytes w))) as [Eq|Ne].
      - rewrite We. apply readable_end; [exact A|lia|exact He].
      - apply readable_arrived. lia. }
    destruct R as (u & Eu & Bu). rewrite Eu. destruct (Z.leb_spec u (Z.max (now + r_before r) dl)); [|lia].
    match goal with |- context [receive ?m s] => destruct (receive_spec _ s m G Lt) as (s' & E & G' & _) end. rewrite E.
    destruct (IH (u + r_after r) s' G') as (t & s2 & E2 & B2). exists t, s2. split; [exact E2|lia].
Qed.

(** ** The call *)
Lemma arrived_firstn d l : forall n, Forall (fun x => fst x <= d) (firstn n l) -> (n <= List.length l)%nat -> (n <= arrived d l)%nat.
Proof.
  induction l as [|[u b] l IH]; intros [|n] H L; cbn [firstn arrived List.length] in *; try lia.
  inversion H as [|? ? A B]; subst. cbn [fst] in A. destruct (Z.leb_spec u d); [|lia]. specialize (IH n B). lia.
Qed.

Lemma arrived_all d l : Forall (fun x => fst x <= d) l -> arrived d l = List.length l.
Proof. intros H. pose proof (arrived_le d l). pose proof (arrived_firstn d l (List.length l)) as A. rewrite firstn_all in A. specialize (A H). lia. Qed.

Lemma answered_sent d w frame : answered_by d w frame -> exists tail, sent w = frame ++ tail /\ len frame <= Z.of_nat (arrived d (w_bytes w)).
Proof.
  intros (n & E & L & F). assert (Ln : (n <= List.length (w_bytes w))%nat).
  { rewrite <- E in L. rewrite map_length, firstn_length in L. lia. }
  exists (map snd (skipn n (w_bytes w))). split.
  - unfold sent. rewrite <- E, <- map_app, firstn_skipn. reflexivity.
  - pose proof (arrived_firstn d _ n F Ln). unfold len. lia.
Qed.

Lemma call_in_time w start timeout rid c st rounds bt frame f kvs :
  response_layout frame f -> legal_common f -> legal_status (fr_tos f) -> header_pairs (fr_header f) kvs ->
  answered_by (deadline_of start timeout) w frame -> len frame <= len rounds ->
  exists t, returned (timed_call w start timeout rid (Some c) st rounds (Ok tt) bt) = Some (t, verdict rid f).
Proof.
  intros L C S H A Le. destruct (answered_sent _ _ _ A) as (tail & E & B). destruct (layout_complete frame f tail L) as (Cm & Et & E1 & E2).
  unfold timed_call. set (now := Z.max start c + st). set (dl := deadline_of start timeout) in *.
  assert (G : rgood (sent w) (rinit (sent w))) by apply rgood_init.
  pose proof (timed_in_time w dl rounds ltac:(rewrite E, Et; exact B) now (rinit (sent w)) G) as T.
  destruct (timed_untimed w dl rounds now (rinit (sent w)) G) as (evs & U).
  destruct (timed_loop w dl rounds now (rinit (sent w))) as [t s|e t s|t s]; [|destruct T|].
  - exfalso. destruct U as (U1 & U2 & U3). rewrite E in U1.
    destruct (sync_complete frame f tail evs rid (Ok tt) L U2) as (_ & s0 & X & _); [unfold len in *; lia|]. congruence.
  - destruct U as (U1 & U2). exists (t + bt). cbn [returned bind]. do 2 f_equal.
    assert (X : sync_result rid (Ok tt) (sent w) evs = Some (finish rid s)) by (unfold sync_result; rewrite U1; reflexivity).
    rewrite E in X. pose proof (sync_verdict frame f tail rid (Ok tt) evs kvs L C S H U2 ltac:(rewrite X; discriminate)) as V.
    rewrite X in V. cbn [bind] in V. injection V as V. exact V.
Qed.

Lemma finish_not_timeout srv s rid : rgood srv s -> y_total s <= len (y_buf s) -> finish rid s <> Raise TimeoutError.
Proof.
  intros G H. rewrite (finish_judge _ _ rid G H). unfold judge. rewrite BoltResponse_eq.
  destruct (from_stream _ _) as [p|e] eqn:E; cbn [bind].
  - destruct (int_value _) as [r|]; [|discriminate]. destruct (r =? rid); [|discriminate]. destruct (_ =? ST_SUCCESS); discriminate.
  - intros X. injection X as ->. apply from_stream_errors in E. discriminate.
Qed.

Lemma loop_received_good w dl rounds : forall now s, rgood (sent w) s ->
  match timed_loop w dl rounds now s with TReceived _ s' => rgood (sent w) s' /\ y_total s' <= len (y_buf s') | _ => True end.
Proof.
  intros now s G. destruct (timed_untimed w dl rounds now s G) as (evs & U). pose proof (loop_good (sent w) evs s G) as X.
  destruct (timed_loop w dl rounds now s) as [t s'|e t s'|t s']; try exact I. destruct U as (U1 & _). rewrite U1 in X. exact X.
Qed.

Lemma call_timeout w start timeout rid wr st rounds back bt t : 0 <= st -> Forall forward rounds -> back <> Raise TimeoutError ->
  returned (timed_call w start timeout rid wr st rounds back bt) = Some (t, Raise TimeoutError) ->
  start + timeout + SECOND <= t /\ forall frame f, response_layout frame f -> ~ answered_by (deadline_of start timeout) w frame.
Proof.
  intros Hst F Hb R. unfold timed_call in R. destruct wr as [c|]; [|discriminate]. set (now := Z.max start c + st) in *. set (dl := deadline_of start timeout) in *.
  assert (G : rgood (sent w) (rinit (sent w))) by apply rgood_init.
  pose proof (timed_bounds w dl rounds F now (rinit (sent w))) as B. pose proof (loop_received_good w dl rounds now _ G) as X.
  pose proof (timed_in_time w dl rounds) as T. specialize (fun H => T H now _ G).
  destruct (timed_loop w dl rounds now (rinit (sent w))) as [t' s|e t' s|t' s]; [discriminate| |].
  - injection R as -> ->. destruct B as [_ B]. split; [specialize (B eq_refl G); unfold dl, deadline_of in B; lia|].
    intros frame f L A. destruct (answered_sent _ _ _ A) as (tail & E & Le). destruct (layout_complete frame f tail L) as (Cm & Et & _).
    apply T. rewrite E, Et. exact Le.
  - injection R as _ R. destruct X as [X1 X2]. destruct back as [[]|]; cbn [bind] in R; [|congruence]. destruct (finish_not_timeout _ _ rid X1 X2 R).
Qed.

(** when it ends, if it does *)
Lemma call_ends_by w start timeout rid c st rounds back bt : Forall forward rounds -> 0 <= bt ->
  match timed_call w start timeout rid (Some c) st rounds back bt with
  | TSending => False
  | TReading t | TDone t _ => Z.max start c + st <= t <= Z.max (Z.max start c + st) (start + timeout + SECOND) + own_time rounds + bt
  end.
Proof.
  intros F Hb. unfold timed_call. pose proof (timed_bounds w (deadline_of start timeout) rounds F (Z.max start c + st) (rinit (sent w))) as B.
  unfold deadline_of in *. destruct (timed_loop _ _ _ _ _); [|destruct B as [B _]|]; lia.
Qed.

Lemma uval_upper off n bs : uval (field off n bs) < 256 ^ Z.of_nat n.
Proof.
  rewrite uval_be_uint. assert (H : (List.length (field off n bs) <= n)%nat) by (unfold field; rewrite firstn_length; lia).
  assert (B : forall l : bytes, be_uint l < 256 ^ len l). { intros l. pose proof (be_uint_range l). lia. }
  specialize (B (field off n bs)). apply Z.lt_le_trans with (1 := B). apply Z.pow_le_mono_r; unfold len; lia.
Qed.

Lemma resp_total_le bs : resp_total bs <= longest.
Proof.
  unfold resp_total, longest. pose proof (uval_upper 12 2 bs). pose proof (uval_upper 14 2 bs). pose proof (uval_upper 16 4 bs).
  change (256 ^ Z.of_nat 2) with 65536 in *. change (256 ^ Z.of_nat 4) with 4294967296 in *. lia.
Qed.

Lemma call_ends w start timeout rid c st rounds back bt : w_end w = None -> Forall forward rounds -> longest <= len rounds ->
  returned (timed_call w start timeout rid (Some c) st rounds back bt) <> None.
Proof.
  intros We F L. unfold timed_call. assert (G : rgood (sent w) (rinit (sent w))) by apply rgood_init.
  pose proof (timed_reads w (deadline_of start timeout) rounds We F (Z.max start c + st) _ G) as R.
  destruct (timed_loop _ _ _ _ _) as [t s|e t s|t s]; cbn [returned]; try discriminate. exfalso. destruct R as [R1 R2].
  pose proof (total_le _ _ R1). pose proof (resp_total_le (sent w)). cbn [rinit y_buf] in R2. rewrite len_nil in R2. lia.
Qed.

Lemma call_hangs w start timeout rid c st rounds back bt : closed_early (start + timeout + SECOND) w -> Forall forward rounds ->
  exists t, timed_call w start timeout rid (Some c) st rounds back bt = TReading t /\ Z.max start c + st + own_time rounds <= t.
Proof.
  intros (A & (e & We & He) & frame & f & x & L & E & Nx) F. unfold timed_call.
  assert (Nc : ~ complete (sent w)).
  { intros (C1 & C2).
    destruct (layout_complete frame f [] L) as (_ & Et & _). rewrite app_nil_r in Et. apply Nx.
    assert (X : resp_total frame = resp_total (sent w)).
    { rewrite E. fold (sent w). rewrite <- (resp_total_take (len (sent w)) (sent w ++ x)) by exact C1. rewrite py_take_app. reflexivity. }
    rewrite X in Et. rewrite E in Et. fold (sent w) in Et. rewrite len_app in Et. apply length_zero_iff_nil. unfold len in *. lia. }
  destruct (timed_stuck w (deadline_of start timeout) rounds e We He (arrived_all _ _ A) Nc F (Z.max start c + st) _ (rgood_init _)) as (t & s & Et & B).
  rewrite Et. eauto.
Qed.

(** Lemmas about the asyncio client: dialing, the heartbeat timer, framing, how calls end. *)
From Coq Require Import ZifyBool.
From Verif Require Import PyBase L_PyBase PyDict L_PyDict M_SofaHeader M_Package L_Package L_Codec S_Wire M_AioClient L_AioClient L_AioClient2.
Open Scope Z_scope.

(** ** How calls end *)
Definition endings (s : st) : Prop := forall i t e, nth_error (s_tasks s) i = Some t -> t_pc t = Done (RetErr e) -> e = KeyError \/ e = CancelledError \/ t_addr t = Raise e.
Lemma endings_step o s : links_ok s -> endings s -> endings (run_step o s).
Proof.
  intros K H. pose proof (step_eff o s K) as E. remember (run_step o s) as s' eqn:Es. clear Es.
  assert (MV : forall i q, (forall e, q = Done (RetErr e) -> e = KeyError \/ e = CancelledError \/ exists t, nth_error (s_tasks s) i = Some t /\ t_addr t = Raise e) -> s_tasks s' = moved i q s -> endings s').
  { intros i q Hq V j t e H1 H2. rewrite V in H1. apply moved_get in H1 as [(_ & H1)|(-> & t0 & H1 & ->)]; [eauto|]. cbn in H2 |- *.
    destruct (Hq e H2) as [A|[A|(t1 & A & B)]]; auto. right. right. congruence. }
  split_eff E.
  - intros j t e H1 H2. rewrite V4 in H1. eauto.
  - intros j t' e H1 H2. rewrite V4 in H1. apply nth_app in H1 as [H1|(-> & ->)]; [eauto|congruence].
  - apply (MV _ _) in V4; [exact V4|]. intros e0 [= <-]. right. right. eauto.
  - apply (MV _ _) in V4; [exact V4|]. intros e0 ->. destruct Hs.
  - apply (MV _ _) in V4; [exact V4|]. intros e0 ->. destruct Hs'.
  - apply (MV _ _) in V4; [exact V4|]. discriminate.
  - apply (MV _ _) in V4; [exact V4|]. intros e0 [= <-]. auto.
  - apply (MV _ _) in V4; [exact V4|]. discriminate.
  - apply (MV _ _) in V4; [exact V4|]. discriminate.
  - apply (MV _ _) in V4; [exact V4|]. intros e0 [= <-]. auto.
  - apply (MV _ _) in V4; [exact V4|]. intros e0 [= <-]. auto.
  - intros j t' e H1 H2. rewrite V4 in H1. eauto.
  - intros j t' e H1 H2. rewrite V4 in H1. eauto.
Qed.
Lemma endings_run t l : endings (run t l).
Proof.
  rewrite run_from. assert (P : links_ok (from (init t) l) /\ endings (from (init t) l)); [|apply P].
  apply (from_ind (fun s => links_ok s /\ endings s)); [|split; [intros c k H|intros i t0 e H]; [destruct c|destruct i]; discriminate].
  intros s o [A B]. split; [apply step_links_ok|apply endings_step]; assumption.
Qed.

(** ** The heartbeat timer *)
Lemma timer_abandon i rid s : s_timer (abandon i rid s) = s_timer s. Proof. unfold abandon. destruct (dmem rid (s_req s)); reflexivity. Qed.
Lemma timer_enter i rid a n s : s_timer (enter_send i rid a n s) = s_timer s.
Proof. unfold enter_send. destruct n; [apply timer_abandon|]. destruct (dget a (s_conn s)); [reflexivity|]. destruct (dget a (s_dial s)); reflexivity. Qed.
Lemma timer_failed i rid a n c s : s_timer (send_failed i rid a n c s) = s_timer s.
Proof.
  unfold send_failed. destruct (dmem a (s_conn (cancel_reader c s))); [|rewrite timer_abandon; reflexivity].
  match goal with |- context [dmem a ?d] => destruct (dmem a d) end; [rewrite timer_enter|rewrite timer_abandon]; reflexivity.
Qed.
Lemma timer_sent i r s : s_timer (sent i r s) = s_timer s.
Proof. unfold sent. destruct (dget (rid_of r) (s_req s)); [destruct (p_ptype r =? PTYPE_ONEWAY)|]; reflexivity. Qed.
Lemma timer_wake rid s : s_timer (wake rid s) = s_timer s. Proof. unfold wake. destruct (dget rid (s_req s)); reflexivity. Qed.
Lemma timer_deliver p s : s_timer (deliver p s) = s_timer s.
Proof. unfold deliver. repeat match goal with |- context [if ?b then _ else _] => destruct b end; rewrite timer_wake; reflexivity. Qed.
Lemma timer_read c s : s_timer (read c s) = s_timer s.
Proof.
  unfold read. destruct (nth_error (s_links s) c) as [k|]; [|reflexivity]. destruct (k_rd k) as [| |fixed h n|]; try reflexivity.
  - destruct (k_cancel k || k_exn k); [reflexivity|]. destruct (bolt_header_size BoltResponse <=? len (k_buf k)); [cbv zeta; destruct (bolt_header_from_stream BoltResponse _); reflexivity|destruct (k_eof k); reflexivity].
  - destruct (k_cancel k || k_exn k); [reflexivity|]. destruct (n <=? len (k_buf k)); [|destruct (k_eof k); reflexivity].
    unfold process. destruct (bolt_content_from_stream BoltResponse _ h); [rewrite timer_deliver|]; reflexivity.
Qed.
Lemma timer_other o s : (forall r, o <> Beat r) -> o <> BeatOver -> s_timer (run_step o s) = s_timer s.
Proof.
  intros N1 N2. destruct o; cbn [run_step]; try reflexivity; try congruence;
    try (destruct (nth_error (s_tasks s) i) as [t|]; [|reflexivity]; destruct (t_pc t); try reflexivity).
  - destruct (t_addr t); [cbv zeta; rewrite timer_enter|]; reflexivity.
  - destruct (t_addr t); [|reflexivity]. destruct (nth_error (s_locks s) l) as [[|]|]; try reflexivity. destruct (dget a (s_conn s)); reflexivity.
  - destruct (t_addr t); [|reflexivity]. cbv zeta. destruct (dsetdefault a _ _). reflexivity.
  - rewrite timer_abandon. reflexivity.
  - destruct (t_addr t); [|reflexivity]. destruct (to_stream (t_req t)); [reflexivity|apply timer_failed].
  - destruct (t_addr t); apply timer_sent.
  - destruct (t_addr t); [apply timer_failed|reflexivity].
  - destruct (t_addr t); [apply timer_failed|reflexivity].
  - destruct (nth_error (s_events s) ev) as [[|]|]; try reflexivity. destruct (dget (rid_of (t_req t)) (s_resp s)); reflexivity.
  - apply timer_read.
Qed.
Lemma dead_stays o s : s_timer s = Dead -> s_timer (run_step o s) = Dead.
Proof.
  intros H. destruct o; try (rewrite timer_other by discriminate; exact H); cbn [run_step]; rewrite H; exact H.
Qed.

(** the timer, once in a heartbeat that no RESPONSE frame answers, never sends another *)
Lemma task_kept o s i t : links_ok s -> nth_error (s_tasks s) i = Some t -> exists t', nth_error (s_tasks (run_step o s)) i = Some t' /\ t_req t' = t_req t.
Proof.
  intros K Hi. pose proof (step_eff o s K) as E. remember (run_step o s) as s' eqn:Es. clear Es.
  assert (MV : forall j q, s_tasks s' = moved j q s -> exists t', nth_error (s_tasks s') i = Some t' /\ t_req t' = t_req t).
  { intros j q ->. destruct (Nat.eq_dec j i) as [->|N]; [exists (at_pc q t); split; [apply moved_same; exact Hi|reflexivity]|exists t; split; [apply moved_other; assumption|reflexivity]]. }
  destruct E as [V|t0 Hp Hr V|j t0 e Ht Hp Ha V|j t0 p Ht Hp Hs V|j t0 p Ht Hs Hs' V|j t0 Ht Hs Hm V|j t0 Ht Hs Hm V|j t0 ev0 Ht Hs Hg V|j t0 ev0 p Ho Ht Hp He Hg V|j t0 ev0 Ho Ht Hp He Hg V|j t0 Ho Ht Hl V|p c k frame ev0 Ho Hk Hf Hd0 Su Hev V|p c k frame ev0 Ho Hk Hf Hd0 Su Hev V];
    unfold view in V; injection V as V1 V2 V3 V4; try (apply (MV _ _ V4)); try solve [exists t; rewrite V4; split; [exact Hi|reflexivity]].
  exists t. rewrite V4. rewrite nth_error_app1; [auto|]. apply nth_error_Some. congruence.
Qed.

Lemma no_second_beat l : forall s a i t, inv s -> (s_timer s = InBeat a i \/ s_timer s = Dead) -> nth_error (s_tasks s) i = Some t ->
  (forall p, seen (from s l) p -> rid_of p = rid_of (t_req t) -> ~ success p) -> s_timer (from s l) = InBeat a i \/ s_timer (from s l) = Dead.
Proof.
  induction l as [|o l IH]; intros s a i t I T Ht N; [exact T|]. cbn [from fold_left] in *. fold (from (run_step o s) l) in *.
  destruct (task_kept o s i t (i_links _ I) Ht) as (t' & Ht' & Er).
  apply (IH _ a i t'); auto using inv_step; [|intros p Hp Hr; apply N; [exact Hp|congruence]].
  destruct T as [T|T]; [|right; apply dead_stays; exact T].
  destruct o; try (left; rewrite timer_other by discriminate; exact T).
  - cbn [run_step]. rewrite T. left. exact T.
  - cbn [run_step]. rewrite T. rewrite Ht. destruct (t_pc t) as [| | | | | |r] eqn:Ep; try (left; exact T). destruct r as [|p|e].
    + right. reflexivity.
    + exfalso. destruct (i_done _ I i t p Ht Ep) as (A & B & C). apply (N p); auto. apply seen_from. exact (seen_mono _ _ _ (step_links BeatOver s) C).
    + right. reflexivity.
Qed.

(** ** Dialing *)
(** no drain fails and every request can be encoded *)
Definition quiet (o : step) : Prop :=
  match o with
  | DrainFail _ => False
  | Call req _ => exists bs, to_stream req = Ok bs
  | Beat rid => forall p, heartbeat_new_request rid = Ok p -> exists bs, to_stream p = Ok bs
  | _ => True
  end.
Definition needs (p : pc) : Prop := match p with WaitLock _ _ | Dialing _ _ | Drain1 _ _ | Drain2 _ _ => True | _ => False end.
Record dials (conn dial : dict Z nat) (locks : list bool) (addrs : list Z) (tasks : list task) : Prop := {
  d_enc : forall i t, nth_error tasks i = Some t -> exists bs, to_stream (t_req t) = Ok bs;
  d_addr : forall i t, nth_error tasks i = Some t -> needs (t_pc t) -> exists a, t_addr t = Ok a;
  d_wait : forall i t a n l, nth_error tasks i = Some t -> t_addr t = Ok a -> t_pc t = WaitLock n l -> dget a dial = Some l;
  d_dialing : forall i t a n l, nth_error tasks i = Some t -> t_addr t = Ok a -> t_pc t = Dialing n l -> dget a dial = Some l /\ nth_error locks l = Some true /\ dget a conn = None;
  d_one : forall i j ti tj n m l, nth_error tasks i = Some ti -> nth_error tasks j = Some tj -> t_pc ti = Dialing n l -> t_pc tj = Dialing m l -> i = j;
  d_len : forall a l, dget a dial = Some l -> (l < List.length locks)%nat;
  d_inj : forall a b l, dget a dial = Some l -> dget b dial = Some l -> a = b;
  d_count : forall a, count_occ Z.eq_dec addrs a = match dget a conn with Some _ => 1%nat | None => 0%nat end;
  d_conn : forall a c, dget a conn = Some c -> nth_error addrs c = Some a;
  d_drain : forall i t a n c, nth_error tasks i = Some t -> t_addr t = Ok a -> t_pc t = Drain1 n c \/ t_pc t = Drain2 n c -> dget a conn = Some c
}.
Definition dials_of (s : st) : Prop := dials (s_conn s) (s_dial s) (s_locks s) (map k_addr (s_links s)) (s_tasks s).

Lemma map_upd {A B} (g : A -> B) f i l : (forall x, g (f x) = g x) -> map g (upd i f l) = map g l.
Proof. intros H. revert i. induction l as [|x l IH]; intros [|i]; cbn; try reflexivity; [rewrite H|rewrite IH]; reflexivity. Qed.
Lemma map_upd_const {A B} (g : A -> B) i x y l : nth_error l i = Some y -> g x = g y -> map g (upd i (fun _ => x) l) = map g l.
Proof. intros H E. revert i H. induction l as [|z l IH]; intros [|i] H; cbn in *; try discriminate; [injection H as ->; rewrite E; reflexivity|rewrite IH; auto]. Qed.

(** a coroutine that was not dialing moves to [q] *)
Lemma dials_goto conn dial locks addrs tasks i t q : dials conn dial locks addrs tasks -> nth_error tasks i = Some t ->
  (needs q -> exists a, t_addr t = Ok a) ->
  (forall a n l, t_addr t = Ok a -> q = WaitLock n l -> dget a dial = Some l) -> (forall n l, q <> Dialing n l) ->
  (forall a n c, t_addr t = Ok a -> q = Drain1 n c \/ q = Drain2 n c -> dget a conn = Some c) ->
  dials conn dial locks addrs (upd i (at_pc q) tasks).
Proof.
  intros [H1 H2 H3 H4 H5 H6 H7 H8 H9 H10] Hi N W ND Dr.
  constructor; auto.
  - intros j tj H. apply upd_get in H as [(_ & H)|(-> & x & H & ->)]; [eauto|]. exact (H1 _ _ H).
  - intros j tj H. apply upd_get in H as [(_ & H)|(-> & x & H & ->)]; [eauto|]. assert (x = t) by congruence. subst x. exact N.
  - intros j tj a n l H. apply upd_get in H as [(_ & H)|(-> & x & H & ->)]; [eauto|]. assert (x = t) by congruence. subst x. cbn. intros Ha Hq. eauto.
  - intros j tj a n l H. apply upd_get in H as [(_ & H)|(-> & x & H & ->)]; [eauto|]. cbn. intros _ Hq. destruct (ND _ _ Hq).
  - intros j j' tj tj' n m l H H' Hp Hp'.
    apply upd_get in H as [(_ & H)|(-> & x & _ & ->)]; [|destruct (ND _ _ Hp)].
    apply upd_get in H' as [(_ & H')|(-> & x & _ & ->)]; [|destruct (ND _ _ Hp')]. eauto.
  - intros j tj a n c H. apply upd_get in H as [(_ & H)|(-> & x & H & ->)]; [eauto|]. assert (x = t) by congruence. subst x. cbn. intros Ha Hq. eauto.
Qed.
(** a coroutine stops dialing and releases its lock *)
Lemma dials_unlock conn dial locks addrs tasks i t n l : dials conn dial locks addrs tasks -> nth_error tasks i = Some t -> t_pc t = Dialing n l ->
  forall q, (forall m l', q <> Dialing m l') -> needs q = False -> dials conn dial (upd l (fun _ => false) locks) addrs (upd i (at_pc q) tasks).
Proof.
  intros D Hi Hp q ND NN. pose proof D as [H1 H2 H3 H4 H5 H6 H7 H8 H9 H10].
  assert (D' : dials conn dial locks addrs (upd i (at_pc q) tasks)).
  { apply (dials_goto _ _ _ _ _ _ t); auto.
    - rewrite NN. intros [].
    - intros a m l' _ ->. cbn in NN. exfalso. rewrite <- NN. exact Logic.I.
    - intros a m c _ [->| ->]; cbn in NN; exfalso; rewrite <- NN; exact Logic.I. }
  destruct D' as [G1 G2 G3 G4 G5 G6 G7 G8 G9 G10]. constructor; auto.
  - intros j tj a m l' Hj Ha Hd. destruct (G4 j tj a m l' Hj Ha Hd) as (A & B & C). split; [exact A|]. split; [|exact C].
    rewrite upd_other; [exact B|]. intros ->. apply upd_get in Hj as [(Nj & Hj)|(-> & x & _ & ->)]; [|destruct (ND _ _ Hd)].
    apply Nj. exact (H5 _ _ _ _ _ _ _ Hi Hj Hp Hd).
  - intros a l' H. rewrite upd_length. exact (H6 _ _ H).
Qed.
Lemma dials_newlock conn dial locks addrs tasks a : dials conn dial locks addrs tasks -> dget a dial = None ->
  dials conn (dset a (List.length locks) dial) (locks ++ [false]) addrs tasks.
Proof.
  intros [H1 H2 H3 H4 H5 H6 H7 H8 H9 H10] N.
  assert (K : forall b l, dget b dial = Some l -> dget b (dset a (List.length locks) dial) = Some l).
  { intros b l H. rewrite dget_dset_other; [exact H|]. intros ->. congruence. }
  assert (R : forall b l, dget b (dset a (List.length locks) dial) = Some l -> (b = a /\ l = List.length locks) \/ (b <> a /\ dget b dial = Some l)).
  { intros b l H. destruct (Z.eq_dec b a) as [->|Nb]; [left; rewrite dget_dset_same in H; split; congruence|right; rewrite dget_dset_other in H by congruence; auto]. }
  constructor; auto.
  - intros i t b n l Hi Ha Hp. apply K. eauto.
  - intros i t b n l Hi Ha Hp. destruct (H4 _ _ _ _ _ Hi Ha Hp) as (A & B & C). split; [apply K; exact A|]. split; [|exact C].
    rewrite nth_error_app1; [exact B|]. exact (H6 _ _ A).
  - intros b l H. rewrite app_length. cbn. apply R in H as [(_ & ->)|(_ & H)]; [lia|]. apply H6 in H. lia.
  - intros b b' l H H'. apply R in H as [(-> & ->)|(_ & H)]; apply R in H' as [(-> & E)|(_ & H')]; try reflexivity.
    + apply H6 in H'. lia.
    + subst l. apply H6 in H. lia.
    + eauto.
Qed.
Lemma dials_acquire conn dial locks addrs tasks i t a n l : dials conn dial locks addrs tasks -> nth_error tasks i = Some t -> t_addr t = Ok a -> t_pc t = WaitLock n l ->
  nth_error locks l = Some false -> dget a conn = None -> dials conn dial (upd l (fun _ => true) locks) addrs (upd i (at_pc (Dialing n l)) tasks).
Proof.
  intros [H1 H2 H3 H4 H5 H6 H7 H8 H9 H10] Hi Ha Hp Hl Hc.
  assert (NL : forall j tj m, nth_error tasks j = Some tj -> t_pc tj <> Dialing m l).
  { intros j tj m Hj Hd. destruct (H2 j tj Hj) as (b & Hb); [rewrite Hd; exact Logic.I|]. destruct (H4 _ _ _ _ _ Hj Hb Hd) as (_ & B & _). congruence. }
  constructor; auto.
  - intros j tj H. apply upd_get in H as [(_ & H)|(-> & x & H & ->)]; [eauto|]. exact (H1 _ _ H).
  - intros j tj H. apply upd_get in H as [(_ & H)|(-> & x & H & ->)]; [eauto|]. assert (x = t) by congruence. subst x. eauto.
  - intros j tj b m l' H. apply upd_get in H as [(_ & H)|(-> & x & H & ->)]; [eauto|]. cbn. discriminate.
  - intros j tj b m l' H. apply upd_get in H as [(_ & H)|(-> & x & H & ->)].
    + intros Hb Hd. destruct (H4 _ _ _ _ _ H Hb Hd) as (A & B & C). split; [exact A|]. split; [|exact C]. rewrite upd_other; [exact B|]. intros <-. exact (NL _ _ _ H Hd).
    + assert (x = t) by congruence. subst x. cbn. intros Hb [= <- <-]. assert (b = a) by congruence. subst b. split; [eauto|]. split; [|exact Hc]. rewrite (upd_same l _ _ false Hl). reflexivity.
  - intros j j' tj tj' m m' l' H H' Hd Hd'.
    apply upd_get in H as [(_ & H)|(-> & x & _ & ->)]; apply upd_get in H' as [(_ & H')|(-> & x' & _ & ->)]; cbn in Hd, Hd'; eauto.
    + injection Hd' as <- <-. destruct (NL _ _ _ H Hd).
    + injection Hd as <- <-. destruct (NL _ _ _ H' Hd').
  - intros b l' H. rewrite upd_length. eauto.
  - intros j tj b m c H. apply upd_get in H as [(_ & H)|(-> & x & H & ->)]; [eauto|]. cbn. intros _ [Hq|Hq]; discriminate.
Qed.
Lemma dials_dialed conn dial locks addrs tasks i t a n l : dials conn dial locks addrs tasks -> nth_error tasks i = Some t -> t_addr t = Ok a -> t_pc t = Dialing n l ->
  dials (dset a (List.length addrs) conn) dial (upd l (fun _ => false) locks) (addrs ++ [a]) (upd i (at_pc (Drain1 n (List.length addrs))) tasks).
Proof.
  intros D Hi Ha Hp. pose proof D as [H1 H2 H3 H4 H5 H6 H7 H8 H9 H10]. destruct (H4 _ _ _ _ _ Hi Ha Hp) as (Dl & Ll & Cn).
  assert (K : forall b c, dget b conn = Some c -> dget b (dset a (List.length addrs) conn) = Some c).
  { intros b c H. rewrite dget_dset_other; [exact H|]. intros ->. congruence. }
  constructor; auto.
  - intros j tj H. apply upd_get in H as [(_ & H)|(-> & x & H & ->)]; [eauto|]. exact (H1 _ _ H).
  - intros j tj H. apply upd_get in H as [(_ & H)|(-> & x & H & ->)]; [eauto|]. assert (x = t) by congruence. subst x. eauto.
  - intros j tj b m l' H. apply upd_get in H as [(_ & H)|(-> & x & H & ->)]; [eauto|]. cbn. discriminate.
  - intros j tj b m l' H. apply upd_get in H as [(Nj & H)|(-> & x & H & ->)]; [|cbn; discriminate]. intros Hb Hd. destruct (H4 _ _ _ _ _ H Hb Hd) as (A & B & C).
    assert (Nl : l' <> l) by (intros ->; apply Nj; exact (H5 _ _ _ _ _ _ _ Hi H Hp Hd)).
    split; [exact A|]. split; [rewrite upd_other by congruence; exact B|].
    rewrite dget_dset_other; [exact C|]. intros ->. apply Nl. congruence.
  - intros j j' tj tj' m m' l' H H' Hd Hd'.
    apply upd_get in H as [(_ & H)|(-> & x & _ & ->)]; [|discriminate Hd]. apply upd_get in H' as [(_ & H')|(-> & x' & _ & ->)]; [|discriminate Hd']. eauto.
  - intros b l' H. rewrite upd_length. eauto.
  - intros b. rewrite count_occ_app. cbn. rewrite H8. destruct (Z.eq_dec a b) as [->|Nb].
    + rewrite dget_dset_same, Cn. reflexivity.
    + rewrite dget_dset_other by congruence. lia.
  - intros b c H. destruct (Z.eq_dec b a) as [->|Nb].
    + rewrite dget_dset_same in H. injection H as <-. rewrite nth_error_app2 by lia. rewrite Nat.sub_diag. reflexivity.
    + rewrite dget_dset_other in H by congruence. apply H9 in H. rewrite nth_error_app1; [exact H|]. apply nth_error_Some. congruence.
  - intros j tj b m c H. apply upd_get in H as [(_ & H)|(-> & x & H & ->)]; [intros Hb Hq; apply K; eauto|].
    assert (x = t) by congruence. subst x. cbn. intros Hb [[= <- <-]|Hq]; [|discriminate]. assert (b = a) by congruence. subst b. apply dget_dset_same.
Qed.
Lemma dials_call conn dial locks addrs tasks t : dials conn dial locks addrs tasks -> t_pc t = Start -> (exists bs, to_stream (t_req t) = Ok bs) ->
  dials conn dial locks addrs (tasks ++ [t]).
Proof.
  intros [H1 H2 H3 H4 H5 H6 H7 H8 H9 H10] Hp He. constructor; auto.
  - intros j tj H. apply nth_app in H as [H|(-> & ->)]; eauto.
  - intros j tj H. apply nth_app in H as [H|(-> & ->)]; [eauto|]. rewrite Hp. intros [].
  - intros j tj b m l' H. apply nth_app in H as [H|(-> & ->)]; [eauto|]. congruence.
  - intros j tj b m l' H. apply nth_app in H as [H|(-> & ->)]; [eauto|]. congruence.
  - intros j j' tj tj' m m' l' H H' Hd Hd'. apply nth_app in H as [H|(-> & ->)]; [|congruence]. apply nth_app in H' as [H'|(-> & ->)]; [eauto|congruence].
  - intros j tj b m c H. apply nth_app in H as [H|(-> & ->)]; [eauto|]. intros _ [Hq|Hq]; congruence.
Qed.

Lemma dials_deliver p s : dials_of (deliver p s) = dials_of s.
Proof. unfold deliver, wake, dials_of. repeat match goal with |- context [if ?b then _ else _] => destruct b end; cbn; match goal with |- context [dget ?a ?b] => destruct (dget a b) end; reflexivity. Qed.
Lemma dials_abandon i rid s t : dials_of s -> nth_error (s_tasks s) i = Some t -> dials_of (abandon i rid s).
Proof.
  intros D Hi. unfold abandon, dials_of. destruct (dmem rid (s_req s)); cbn; apply (dials_goto _ _ _ _ _ _ t); auto; try discriminate; try (intros []; fail); intros a n c _ [H|H]; discriminate.
Qed.
Lemma dials_enter i rid a n s t : dials_of s -> nth_error (s_tasks s) i = Some t -> t_addr t = Ok a -> dials_of (enter_send i rid a n s).
Proof.
  intros D Hi Ha. unfold enter_send. destruct n; [eapply dials_abandon; eauto|]. destruct (dget a (s_conn s)) as [c|] eqn:Ec.
  - apply (dials_goto _ _ _ _ _ _ t); eauto; try discriminate. intros b m c' Hb [H|H]; [|discriminate]. injection H as <- <-. assert (b = a) by congruence. subst b. assumption.
  - destruct (dget a (s_dial s)) as [l|] eqn:El.
    + apply (dials_goto _ _ _ _ _ _ t); eauto; try discriminate.
      * intros b m l' Hb [= <- <-]. assert (b = a) by congruence. subst b. exact El.
      * intros b m c' Hb [H|H]; discriminate.
    + unfold dials_of. cbn. apply (dials_goto _ _ _ _ _ _ t); eauto; try discriminate.
      * apply dials_newlock; assumption.
      * intros b m l Hb [= <- <-]. assert (b = a) by congruence. subst b. apply dget_dset_same.
      * intros b m c' Hb [H|H]; discriminate.
Qed.
Lemma dials_read c s : dials_of s -> dials_of (read c s).
Proof.
  intros D. unfold read. destruct (nth_error (s_links s) c) as [k|] eqn:Hk; [|exact D].
  assert (L : forall k', k_addr k' = k_addr k -> dials_of (set_link c k' s)).
  { intros k' E. unfold dials_of. cbn. rewrite (map_upd_const _ _ _ k) by assumption. exact D. }
  destruct (k_rd k) as [| |fixed h n|]; auto.
  - destruct (k_cancel k || k_exn k); [apply L; reflexivity|]. destruct (bolt_header_size BoltResponse <=? len (k_buf k)); [cbv zeta; destruct (bolt_header_from_stream BoltResponse _); apply L; reflexivity|].
    destruct (k_eof k); [apply L; reflexivity|exact D].
  - destruct (k_cancel k || k_exn k); [apply L; reflexivity|]. destruct (n <=? len (k_buf k)); [|destruct (k_eof k); [apply L; reflexivity|exact D]].
    unfold process. destruct (bolt_content_from_stream BoltResponse _ h); [rewrite dials_deliver|]; apply L; reflexivity.
Qed.
Ltac off := first [discriminate | solve [intros []] | solve [intros ? ? ? _ [?|?]; discriminate]].
Lemma dials_step o s : quiet o -> dials_of s -> dials_of (run_step o s).
Proof.
  intros Q D. destruct o; cbn [run_step].
  - unfold dials_of. cbn. apply dials_call; auto.
  - destruct (nth_error (s_tasks s) i) as [t|] eqn:Hi; [|exact D]. destruct (t_pc t); try exact D. destruct (t_addr t) as [a|e] eqn:Ha.
    + cbv zeta. apply (dials_enter _ _ _ _ _ t); auto.
    + apply (dials_goto _ _ _ _ _ _ t); auto; off.
  - destruct (nth_error (s_tasks s) i) as [t|] eqn:Hi; [|exact D]. destruct (t_pc t) eqn:Hp; try exact D. destruct (t_addr t) as [a|e] eqn:Ha; [|exact D].
    destruct (nth_error (s_locks s) l) as [[|]|] eqn:Hl; try exact D. destruct (dget a (s_conn s)) as [c|] eqn:Hc.
    + apply (dials_goto _ _ _ _ _ _ t); eauto; try discriminate. intros b m c' Hb [H|H]; [|discriminate]. injection H as <- <-. assert (b = a) by congruence. subst b. assumption.
    + apply (dials_acquire _ _ _ _ _ _ t a); auto.
  - destruct (nth_error (s_tasks s) i) as [t|] eqn:Hi; [|exact D]. destruct (t_pc t) eqn:Hp; try exact D. destruct (t_addr t) as [a|e] eqn:Ha; [|exact D].
    destruct (d_dialing _ _ _ _ _ D _ _ _ _ _ Hi Ha Hp) as (_ & _ & Cn). cbv zeta. unfold dsetdefault. cbn [s_conn set_lock set_dial set_links]. rewrite Cn. unfold dials_of. cbn.
    rewrite map_app. cbn. rewrite <- (map_length k_addr (s_links s)). apply (dials_dialed _ _ _ _ _ _ t a); auto.
  - destruct (nth_error (s_tasks s) i) as [t|] eqn:Hi; [|exact D]. destruct (t_pc t) eqn:Hp; try exact D.
    unfold abandon. cbn [s_req set_lock set_dial]. destruct (dmem (rid_of (t_req t)) (s_req s)); unfold dials_of; cbn; apply (dials_unlock _ _ _ _ _ _ t n l); auto; discriminate.
  - destruct (nth_error (s_tasks s) i) as [t|] eqn:Hi; [|exact D]. destruct (t_pc t) eqn:Hp; try exact D.
    + destruct (t_addr t) as [a|e] eqn:Ha; [|exact D]. destruct (d_enc _ _ _ _ _ D _ _ Hi) as (bs & Hb). rewrite Hb.
      apply (dials_goto _ _ _ _ _ _ t); eauto; try discriminate. intros b m c' Hb' [H|H]; [discriminate|]. injection H as <- <-. apply (d_drain _ _ _ _ _ D i t b n c Hi Hb'). left. exact Hp.
    + assert (X : dials_of (sent i (t_req t) s)); [|destruct (t_addr t); exact X].
      unfold sent. destruct (dget (rid_of (t_req t)) (s_req s)); [destruct (p_ptype (t_req t) =? PTYPE_ONEWAY)|]; unfold dials_of; cbn; apply (dials_goto _ _ _ _ _ _ t); auto; off.
  - destruct Q.
  - destruct (nth_error (s_tasks s) i) as [t|] eqn:Hi; [|exact D]. destruct (t_pc t) eqn:Hp; try exact D. destruct (nth_error (s_events s) ev) as [[|]|]; try exact D.
    destruct (dget (rid_of (t_req t)) (s_resp s)); unfold dials_of; cbn; apply (dials_goto _ _ _ _ _ _ t); auto; off.
  - destruct (nth_error (s_tasks s) i) as [t|] eqn:Hi; [|exact D]. destruct (t_pc t) eqn:Hp; try exact D; unfold dials_of; cbn;
      try (apply (dials_unlock _ _ _ _ _ _ t n l); auto; discriminate); apply (dials_goto _ _ _ _ _ _ t); auto; off.
  - unfold dials_of. cbn. rewrite map_upd by reflexivity. exact D.
  - unfold dials_of. cbn. rewrite map_upd by reflexivity. exact D.
  - unfold dials_of. cbn. rewrite map_upd by reflexivity. exact D.
  - apply dials_read. exact D.
  - destruct (s_timer s); try exact D. destruct (heartbeat_new_request rid) as [p|] eqn:E; [|exact D]. unfold dials_of. cbn. apply dials_call; [exact D|reflexivity|]. apply Q. exact E.
  - destruct (s_timer s); try exact D. destruct (nth_error (s_tasks s) i) as [t|]; [|exact D]. destruct (t_pc t) as [| | | | | |[| |]]; exact D.
Qed.
Lemma dials_run t l : Forall quiet l -> dials_of (run t l).
Proof.
  intros Q. unfold run. assert (G : forall s, dials_of s -> dials_of (fold_left (fun s o => run_step o s) l s)).
  { induction Q as [|o l Qo Q IH]; intros s D; [exact D|]. cbn. apply IH. apply dials_step; assumption. }
  apply G. constructor; cbn; try discriminate; try reflexivity; intros i; try (destruct i; discriminate); intros j; destruct i; discriminate.
Qed.

(** Lemmas for C116: which connections the asyncio client closes. *)
From Coq Require Import ZifyBool.
From Verif Require Import PyBase L_PyBase PyDict L_PyDict M_SofaHeader M_Package M_AioClient L_AioClient L_AioClient2 L_AioClient3 L_AioClient4 L_AioClient6 S_ClientClosing.
Open Scope nat_scope.

(** ** Uses of a connection *)
Definition kept (s : st) (c : nat) : Prop := exists a, In (a, c) (s_conn s).
Definition fine (s s' : st) : Prop :=
  (wf_dict (s_conn s) -> wf_dict (s_conn s')) /\ forall a c, In (a, c) (s_conn s') -> In (a, c) (s_conn s) \/ c = List.length (s_links s).

Lemma in_dset {V} a b (c v : V) (d : dict Z V) : In (a, c) (dset b v d) -> In (a, c) d \/ c = v.
Proof.
  induction d as [|[k w] d IH]; cbn; [intros [[= <- <-]|[]]; auto|]. destruct (eq_dec b k); cbn; [intros [[= <- <-]|H]; auto|]. intros [H|H]; [auto|]. destruct (IH H); auto.
Qed.
Lemma fine_same s s' : s_conn s' = s_conn s -> fine s s'.
Proof. intros C. split; rewrite C; auto. Qed.
Lemma conn_abandon i rid s : s_conn (abandon i rid s) = s_conn s.
Proof. unfold abandon. destruct (dmem rid (s_req s)); reflexivity. Qed.
Lemma conn_enter i rid a n s : s_conn (enter_send i rid a n s) = s_conn s.
Proof. unfold enter_send. destruct n; [apply conn_abandon|]. destruct (dget a (s_conn s)); [reflexivity|]. destruct (dget a (s_dial s)); reflexivity. Qed.
Lemma fine_failed i rid a n c s : fine s (send_failed i rid a n c s).
Proof.
  unfold send_failed. cbv zeta. change (s_conn (cancel_reader c s)) with (s_conn s). destruct (dmem a (s_conn s)); [|apply fine_same; rewrite conn_abandon; reflexivity].
  match goal with |- context [dmem a ?d] => destruct (dmem a d) end; (split; [intros W|intros b d H]);
    rewrite ?conn_enter, ?conn_abandon in *; cbn in *; try (apply wf_ddel'; exact W); left; eapply In_ddel; exact H.
Qed.
Lemma conn_deliver p s : s_conn (deliver p s) = s_conn s.
Proof. unfold deliver, wake. cbv zeta. repeat match goal with |- context [if ?b then _ else _] => destruct b end; cbn [s_req set_resp]; destruct (dget (rid_of p) (s_req s)); reflexivity. Qed.
Lemma conn_read c s : s_conn (read c s) = s_conn s.
Proof.
  unfold read. destruct (nth_error (s_links s) c) as [k|]; [|reflexivity]. destruct (k_rd k) as [| |fixed h n|]; try reflexivity.
  - destruct (k_cancel k || k_exn k); [reflexivity|]. destruct (bolt_header_size BoltResponse <=? len (k_buf k))%Z; [cbv zeta; destruct (bolt_header_from_stream BoltResponse _); reflexivity|destruct (k_eof k); reflexivity].
  - destruct (k_cancel k || k_exn k); [reflexivity|]. destruct (n <=? len (k_buf k))%Z; [|destruct (k_eof k); reflexivity].
    unfold process. destruct (bolt_content_from_stream BoltResponse _ h) as [p|]; [|reflexivity]. rewrite conn_deliver. reflexivity.
Qed.
Lemma step_fine o s : fine s (run_step o s).
Proof.
  destruct o as [r ad|i|i|i|i|i|i|i|i|c bs|c|c|c|rid|]; cbn [run_step]; try (apply fine_same; reflexivity);
    try (destruct (nth_error (s_tasks s) i) as [t|] eqn:Ht; [|apply fine_same; reflexivity]; destruct (t_pc t) as [|n l|n l|n c|n c|ev|x] eqn:Hp; try (apply fine_same; reflexivity)).
  - apply fine_same. destruct (t_addr t); [cbv zeta; rewrite conn_enter|]; reflexivity.
  - apply fine_same. destruct (t_addr t) as [a|]; [|reflexivity]. destruct (nth_error (s_locks s) l) as [[|]|]; try reflexivity. destruct (dget a (s_conn s)); reflexivity.
  - destruct (t_addr t) as [a|e]; [|apply fine_same; reflexivity]. cbv zeta. unfold dsetdefault. cbn [s_conn set_lock set_dial set_links].
    destruct (dget a (s_conn s)) as [v|]; [apply fine_same; reflexivity|]. cbn. split; [apply wf_dset|]. intros b d H. exact (in_dset _ _ _ _ _ H).
  - apply fine_same. rewrite conn_abandon. reflexivity.
  - destruct (t_addr t); [|apply fine_same; reflexivity]. destruct (to_stream (t_req t)); [apply fine_same; reflexivity|apply fine_failed].
  - apply fine_same. unfold sent. destruct (t_addr t), (dget (rid_of (t_req t)) (s_req s)); try destruct (p_ptype (t_req t) =? PTYPE_ONEWAY)%Z; reflexivity.
  - destruct (t_addr t); [apply fine_failed|apply fine_same; reflexivity].
  - destruct (t_addr t); [apply fine_failed|apply fine_same; reflexivity].
  - apply fine_same. destruct (nth_error (s_events s) ev) as [[|]|]; try reflexivity; destruct (dget (rid_of (t_req t)) (s_resp s)); reflexivity.
  - apply fine_same. apply conn_read.
  - apply fine_same. destruct (s_timer s); try reflexivity; destruct (heartbeat_new_request rid); reflexivity.
  - apply fine_same. destruct (s_timer s) as [|a|a i|]; try reflexivity. destruct (nth_error (s_tasks s) i) as [t|]; [|reflexivity]. destruct (t_pc t) as [| | | | | |[]]; reflexivity.
Qed.

Lemma step_sends o s c i : sends_on (run_step o s) c i -> sends_on s c i \/ kept (run_step o s) c.
Proof.
  intros (t & n & Ht & Hp). destruct (step_core o s) as [T _|t0 P T _|j t0 p Hj T _ _ _ A N _|j t0 n0 c0 a bs _ Hj _ P _ T _]; rewrite T in Ht.
  - left. exists t, n. auto.
  - apply nth_app in Ht as [Ht|(-> & ->)]; [left; exists t, n; auto|]. destruct Hp; congruence.
  - apply upd_get in Ht as [(_ & Ht)|(-> & x & Hx & ->)]; [left; exists t, n; auto|]. cbn in Hp. destruct Hp as [-> | ->]; [|contradiction (N n c eq_refl)].
    right. destruct (A n c eq_refl) as (a & _ & H). exists a. exact H.
  - apply upd_get in Ht as [(_ & Ht)|(-> & x & Hx & ->)]; [left; exists t, n; auto|]. cbn in Hp. destruct Hp as [Hp|Hp]; [discriminate|]. injection Hp as <- <-. left. exists t0, n0. rewrite Hj in Hx. split; [exact Hj|auto].
Qed.

Definition dropped (s : st) (c : nat) : Prop := c < List.length (s_links s) /\ ~ kept s c /\ forall i, ~ sends_on s c i.
Lemma dropped_step o s c : dropped s c -> dropped (run_step o s) c.
Proof.
  intros (L & K & S0). destruct (step_links o s) as (Ll & _). destruct (step_fine o s) as (_ & F).
  assert (K' : ~ kept (run_step o s) c). { intros (a & H). destruct (F a c H) as [H0|E]; [apply K; exists a; exact H0|lia]. }
  split; [lia|]. split; [exact K'|]. intros i H. apply step_sends in H as [H|H]; [exact (S0 i H)|contradiction].
Qed.
Lemma conn_wf t l : wf_dict (s_conn (run t l)).
Proof. rewrite run_from. apply (from_ind (fun s => wf_dict (s_conn s))); [intros s o; apply step_fine|constructor]. Qed.
Lemma wf_in {V} (d : dict Z V) a c : wf_dict d -> In (a, c) d -> dget a d = Some c.
Proof.
  induction d as [|[k v] d IH]; intros W H; [destruct H|]. cbn. unfold wf_dict in W. cbn in W. inversion W as [|? ? N W']; subst. destruct H as [[= -> ->]|H]; [destruct (eq_dec a a); congruence|].
  destruct (eq_dec a k) as [-> |_]; [|apply IH; assumption]. contradiction N. change k with (fst (k, c)). apply in_map. exact H.
Qed.
Lemma given_up_iff t l c : given_up (run t l) c <-> dropped (run t l) c.
Proof.
  split; intros (L & K & S0); (split; [exact L|]); (split; [|exact S0]).
  - intros (a & H). apply (K a). apply wf_in; [apply conn_wf|exact H].
  - intros a H. apply K. exists a. apply dget_In_pair. exact H.
Qed.
Lemma dropped_from s l c : dropped s c -> dropped (from s l) c.
Proof. intros D. apply (from_ind (fun s => dropped s c)); [intros s0 o; apply dropped_step|exact D]. Qed.

(** ** What a step does to a connection *)
Definition fed (bs : bytes) (k : link) : link := {| k_addr := k_addr k; k_buf := k_buf k ++ bs; k_eof := k_eof k; k_exn := k_exn k; k_rd := k_rd k; k_cancel := k_cancel k; k_closed := k_closed k; k_frames := k_frames k; k_in := k_in k ++ bs |}.
Definition eofed (k : link) : link := {| k_addr := k_addr k; k_buf := k_buf k; k_eof := true; k_exn := k_exn k; k_rd := k_rd k; k_cancel := k_cancel k; k_closed := k_closed k; k_frames := k_frames k; k_in := k_in k |}.
Definition exned (k : link) : link := {| k_addr := k_addr k; k_buf := k_buf k; k_eof := k_eof k; k_exn := true; k_rd := k_rd k; k_cancel := k_cancel k; k_closed := k_closed k; k_frames := k_frames k; k_in := k_in k |}.
Inductive mark (s : st) (o : step) (c : nat) (k : link) : link -> Prop :=
| A_same : reads_of c [o] = 0 -> mark s o c k k
| A_read : o = Read c -> mark s o c k (rd_next k)
| A_cancel i : sends_on s c i -> reads_of c [o] = 0 -> mark s o c k (cancelled k)
| A_feed bs : o = Feed c bs -> mark s o c k (fed bs k)
| A_eof : o = Eof c -> mark s o c k (eofed k)
| A_exn : o = Reset c -> mark s o c k (exned k).
Lemma mark_same s o c k s' : reads_of c [o] = 0 -> s_links s' = s_links s -> nth_error (s_links s) c = Some k -> exists k', nth_error (s_links s') c = Some k' /\ mark s o c k k'.
Proof. intros R E H. exists k. rewrite E. split; [exact H|apply A_same; exact R]. Qed.
Lemma mark_upd s o c k s' d f : reads_of c [o] = 0 \/ d = c -> s_links s' = upd d f (s_links s) -> nth_error (s_links s) c = Some k -> (d = c -> mark s o c k (f k)) ->
  exists k', nth_error (s_links s') c = Some k' /\ mark s o c k k'.
Proof.
  intros R E H M. rewrite E. destruct (Nat.eq_dec d c) as [-> |N]; [exists (f k); split; [apply upd_same; exact H|auto]|]. exists k. split; [rewrite upd_other; assumption|]. destruct R; [apply A_same; assumption|contradiction].
Qed.
Lemma step_mark o s c k : nth_error (s_links s) c = Some k -> exists k', nth_error (s_links (run_step o s)) c = Some k' /\ mark s o c k k'.
Proof.
  intros H. destruct o as [r ad|i|i|i|i|i|i|i|i|d bs|d|d|d|rid|]; cbn [run_step];
    try (destruct (nth_error (s_tasks s) i) as [t|] eqn:Ht; [|apply mark_same; auto; fail]; destruct (t_pc t) as [|n l|n l|n d|n d|ev|x] eqn:Hp; try (apply mark_same; auto; fail)).
  - apply mark_same; auto.
  - apply mark_same; auto. destruct (t_addr t); [cbv zeta; rewrite links_enter|]; reflexivity.
  - apply mark_same; auto. destruct (t_addr t) as [a|]; [|reflexivity]. destruct (nth_error (s_locks s) l) as [[|]|]; try reflexivity. destruct (dget a (s_conn s)); reflexivity.
  - destruct (t_addr t) as [a|e]; [|apply mark_same; auto]. cbv zeta. destruct (dsetdefault a _ _) as [d c']. exists k. split; [|apply A_same; reflexivity]. cbn. rewrite nth_error_app1; [exact H|]. apply nth_error_Some. congruence.
  - apply mark_same; auto. rewrite links_abandon. reflexivity.
  - destruct (t_addr t); [|apply mark_same; auto]. destruct (to_stream (t_req t)); [apply mark_same; auto|].
    apply (mark_upd _ _ _ _ _ d cancelled); auto; [apply links_failed|]. intros ->. apply (A_cancel _ _ _ _ i); [exists t, n; auto|reflexivity].
  - apply mark_same; auto. destruct (t_addr t); apply links_sent.
  - destruct (t_addr t); [|apply mark_same; auto]. apply (mark_upd _ _ _ _ _ d cancelled); auto; [apply links_failed|]. intros ->. apply (A_cancel _ _ _ _ i); [exists t, n; auto|reflexivity].
  - destruct (t_addr t); [|apply mark_same; auto]. apply (mark_upd _ _ _ _ _ d cancelled); auto; [apply links_failed|]. intros ->. apply (A_cancel _ _ _ _ i); [exists t, n; auto|reflexivity].
  - apply mark_same; auto. destruct (nth_error (s_events s) ev) as [[|]|]; try reflexivity; destruct (dget (rid_of (t_req t)) (s_resp s)); reflexivity.
  - apply (mark_upd _ _ _ _ _ d (fed bs)); auto. intros ->. apply A_feed. reflexivity.
  - apply (mark_upd _ _ _ _ _ d eofed); auto. intros ->. apply A_eof. reflexivity.
  - apply (mark_upd _ _ _ _ _ d exned); auto. intros ->. apply A_exn. reflexivity.
  - destruct (nth_error (s_links s) d) as [kd|] eqn:Hd; [|].
    + apply (mark_upd _ _ _ _ _ d (fun _ => rd_next kd)); auto; [cbn; destruct (Nat.eqb_spec d c); auto|apply read_next; exact Hd|]. intros ->. rewrite H in Hd. injection Hd as <-. apply A_read. reflexivity.
    + apply mark_same; auto; [cbn; destruct (Nat.eqb_spec d c) as [-> |]; [congruence|reflexivity]|]. unfold read. rewrite Hd. reflexivity.
  - apply mark_same; auto. destruct (s_timer s); try reflexivity; destruct (heartbeat_new_request rid); reflexivity.
  - apply mark_same; auto. destruct (s_timer s) as [|a|a i|]; try reflexivity. destruct (nth_error (s_tasks s) i) as [t|]; [|reflexivity]. destruct (t_pc t) as [| | | | | |[]]; reflexivity.
Qed.

Definition rank (k : link) : nat := match k_rd k with RdHead => List.length (k_buf k) + 1 | RdBody _ _ _ => List.length (k_buf k) + 2 | _ => 0 end.
Lemma next_marks k : k_cancel (rd_next k) = k_cancel k /\ k_eof (rd_next k) = k_eof k /\ k_exn (rd_next k) = k_exn k.
Proof.
  unfold rd_next. destruct (k_rd k) as [| |fixed h n|]; auto; destruct (k_cancel k || k_exn k); auto; [destruct (20 <=? len (k_buf k))%Z|destruct (n <=? len (k_buf k))%Z]; auto; destruct (k_eof k) eqn:E; cbn; auto.
Qed.
Lemma drop_length n (b : bytes) : List.length (py_drop n b) <= List.length b.
Proof. rewrite py_drop_skipn, skipn_length. lia. Qed.
Lemma next_ending k : reading k -> ending k -> k_closed (rd_next k) = true \/ reading (rd_next k) /\ ending (rd_next k) /\ rank (rd_next k) < rank k.
Proof.
  intros R E. assert (E' : ending (rd_next k)) by (unfold ending; destruct (next_marks k) as (-> & -> & ->); exact E).
  revert E'. unfold rd_next. destruct R as [R|(fixed & h & n & R)]; rewrite R; destruct (k_cancel k) eqn:C; cbn [orb]; try (left; reflexivity); destruct (k_exn k) eqn:X; try (left; reflexivity);
    assert (F : k_eof k = true) by (destruct E as [E|[E|E]]; congruence); rewrite F; intros E'.
  - destruct (Z.leb_spec 20 (len (k_buf k))) as [L|L]; [|left; reflexivity]. right. split; [right; do 3 eexists; reflexivity|]. split; [exact E'|]. unfold rank. rewrite R. cbn.
    rewrite py_drop_skipn, skipn_length. unfold len in L. lia.
  - destruct (Z.leb_spec n (len (k_buf k))) as [L|L]; [|left; reflexivity]. right. split; [left; reflexivity|]. split; [exact E'|]. unfold rank. rewrite R. cbn. pose proof (drop_length n (k_buf k)). lia.
Qed.
Lemma mark_ending s o c k k' : mark s o c k k' -> reading k -> ending k ->
  k_closed k' = true \/ reading k' /\ ending k' /\ rank k' + reads_of c [o] <= rank k + arrives_on c [o].
Proof.
  intros M R E. destruct M as [Z| -> |i _ Z|bs ->| -> | ->].
  - right. rewrite Z. repeat split; auto. lia.
  - cbn. rewrite Nat.eqb_refl. destruct (next_ending k R E) as [X|(A & B & C)]; [auto|]. right. repeat split; auto. lia.
  - right. rewrite Z. split; [exact R|]. split; [left; reflexivity|]. change (rank (cancelled k)) with (rank k). lia.
  - right. split; [exact R|]. split; [exact E|]. cbn. rewrite Nat.eqb_refl. unfold rank, fed. cbn. rewrite app_length. destruct (k_rd k); lia.
  - right. split; [exact R|]. split; [right; left; reflexivity|]. change (rank (eofed k)) with (rank k). cbn. lia.
  - right. split; [exact R|]. split; [right; right; reflexivity|]. change (rank (exned k)) with (rank k). cbn. lia.
Qed.
Lemma mark_closed s o c k k' : mark s o c k k' -> k_closed k = true -> k_closed k' = true.
Proof.
  intros M C. destruct M; auto. unfold rd_next. destruct (k_rd k) as [| |fixed h n|]; cbn; auto; destruct (k_cancel k || k_exn k); auto; [destruct (20 <=? len (k_buf k))%Z|destruct (n <=? len (k_buf k))%Z]; auto; destruct (k_eof k); auto.
Qed.
Lemma closed_from l : forall s c, closed s c -> closed (from s l) c.
Proof.
  intros s c. revert s. apply (from_ind (fun s => closed s c)). intros s o (k & H & C). destruct (step_mark o s c k H) as (k' & H' & M). exists k'. split; [exact H'|]. exact (mark_closed _ _ _ _ _ M C).
Qed.
Lemma reads_cons c o l : reads_of c (o :: l) = reads_of c [o] + reads_of c l.
Proof. destruct o; cbn; lia. Qed.
Lemma arrives_cons c o l : arrives_on c (o :: l) = arrives_on c [o] + arrives_on c l.
Proof. destruct o; cbn; lia. Qed.
Lemma closes_from l : forall s c k, nth_error (s_links s) c = Some k -> reading k -> ending k -> rank k + arrives_on c l <= reads_of c l -> closed (from s l) c.
Proof.
  induction l as [|o l IH]; intros s c k H R E L.
  - cbn in L. destruct R as [R|(fixed & h & n & R)]; unfold rank in L; rewrite R in L; lia.
  - cbn [from fold_left]. destruct (step_mark o s c k H) as (k' & H' & M). destruct (mark_ending _ _ _ _ _ M R E) as [C|(R' & E' & L')]; [apply closed_from; exists k'; auto|].
    apply (IH _ _ k'); auto. rewrite reads_cons, arrives_cons in L. lia.
Qed.
Lemma rank_le k : rank k <= List.length (k_buf k) + 2.
Proof. unfold rank. destruct (k_rd k); lia. Qed.
Lemma closes_soon t l l2 c k : nth_error (s_links (run t l)) c = Some k -> reading k -> ending k -> List.length (k_buf k) + arrives_on c l2 + 2 <= reads_of c l2 -> closed (run t (l ++ l2)) c.
Proof. intros H R E L. rewrite run_from, from_app. rewrite run_from in H. apply (closes_from l2 _ c k); auto. pose proof (rank_le k). lia. Qed.

(** the read task of a connection whose last send failed *)
Lemma failed_cancels s i t n c a k : nth_error (s_tasks s) i = Some t -> t_pc t = Drain1 n c \/ t_pc t = Drain2 n c -> t_addr t = Ok a -> nth_error (s_links s) c = Some k ->
  nth_error (s_links (run_step (DrainFail i) s)) c = Some (cancelled k).
Proof.
  intros Hi Hp Ha Hk. assert (E : run_step (DrainFail i) s = send_failed i (rid_of (t_req t)) a n c s) by (cbn [run_step]; rewrite Hi, Ha; destruct Hp as [-> | ->]; reflexivity).
  rewrite E, links_failed. exact (upd_same _ _ _ _ Hk).
Qed.
Lemma cancelled_closes l : forall s c k, nth_error (s_links s) c = Some k -> reading k -> k_cancel k = true -> 1 <= reads_of c l -> closed (from s l) c.
Proof.
  induction l as [|o l IH]; intros s c k H R C L; [cbn in L; lia|]. cbn [from fold_left]. destruct (step_mark o s c k H) as (k' & H' & M).
  assert (X : k_closed k' = true \/ reading k' /\ k_cancel k' = true /\ reads_of c [o] = 0).
  { destruct M as [Z| -> |j _ Z|bs ->| -> | ->]; auto. left. unfold rd_next. destruct R as [-> |(f & h & n & ->)]; rewrite C; reflexivity. }
  destruct X as [X|(R' & C' & Z)]; [apply closed_from; exists k'; auto|]. apply (IH _ _ k'); auto. rewrite reads_cons in L. lia.
Qed.
Lemma failed_send_closes t l i tk n c a k l2 : nth_error (s_tasks (run t l)) i = Some tk -> t_pc tk = Drain1 n c \/ t_pc tk = Drain2 n c -> t_addr tk = Ok a ->
  nth_error (s_links (run t l)) c = Some k -> reading k -> In (Read c) l2 -> closed (run t (l ++ DrainFail i :: l2)) c.
Proof.
  intros Hi Hp Ha Hk R I. rewrite run_from, from_app. cbn [from fold_left]. apply (cancelled_closes l2 _ c (cancelled k)); [exact (failed_cancels _ _ _ _ _ _ _ Hi Hp Ha Hk)|exact R|reflexivity|].
  clear - I. induction l2 as [|o l2 IH]; [destruct I|]. rewrite reads_cons. destruct I as [-> |I]; [cbn; rewrite Nat.eqb_refl; lia|]. specialize (IH I). lia.
Qed.

(** ** Connections that are never closed *)
Definition doomed (k : link) : Prop := k_cancel k = true /\ (k_rd k = RdNew \/ k_rd k = RdDone) /\ k_closed k = false.
Lemma doomed_mark s o c k k' : mark s o c k k' -> doomed k -> doomed k'.
Proof.
  intros M (C & R & O). destruct M; try (repeat split; assumption). unfold rd_next. destruct R as [R|R]; rewrite R; [rewrite C|]; (split; [exact C|]; split; [auto|exact O]).
Qed.
Lemma doomed_from l : forall s c k, nth_error (s_links s) c = Some k -> doomed k -> exists k', nth_error (s_links (from s l)) c = Some k' /\ doomed k'.
Proof.
  induction l as [|o l IH]; intros s c k H D; [eauto|]. cbn [from fold_left]. destruct (step_mark o s c k H) as (k' & H' & M). exact (IH _ _ _ H' (doomed_mark _ _ _ _ _ M D)).
Qed.
Lemma cancelled_unread t l c k l2 : nth_error (s_links (run t l)) c = Some k -> k_cancel k = true -> k_rd k = RdNew -> k_closed k = false -> still_open (run t (l ++ l2)) c.
Proof.
  intros H C R O. rewrite run_from, from_app. rewrite run_from in H. destruct (doomed_from l2 _ _ _ H) as (k' & H' & (_ & _ & O')); [repeat split; auto|]. exists k'. auto.
Qed.
Definition calm (k : link) : Prop := k_cancel k = false /\ k_eof k = false /\ k_exn k = false /\ k_closed k = false.
Lemma next_calm k : calm k -> calm (rd_next k).
Proof.
  intros (A & B & C & D). destruct (next_marks k) as (E1 & E2 & E3). repeat split; try congruence. unfold rd_next. destruct (k_rd k) as [| |fixed h n|]; rewrite ?A, ?C; cbn; auto; [destruct (20 <=? len (k_buf k))%Z|destruct (n <=? len (k_buf k))%Z]; rewrite ?B; auto.
Qed.
Lemma calm_from l : forall s c k, dropped s c -> nth_error (s_links s) c = Some k -> calm k -> server_keeps c l -> exists k', nth_error (s_links (from s l)) c = Some k' /\ calm k'.
Proof.
  induction l as [|o l IH]; intros s c k D H K (N1 & N2); [eauto|]. cbn [from fold_left]. destruct (step_mark o s c k H) as (k' & H' & M). apply (IH _ _ k'); [apply dropped_step; exact D|exact H'| |split; intros I; [apply N1|apply N2]; right; exact I].
  destruct M as [_|_|i S0 _|bs _| -> | ->]; auto; [apply next_calm; exact K| | |].
  - destruct D as (_ & _ & D). contradiction (D i S0).
  - contradiction N1. left. reflexivity.
  - contradiction N2. left. reflexivity.
Qed.
Lemma forgotten t l c k l2 : given_up (run t l) c -> nth_error (s_links (run t l)) c = Some k -> ~ ending k -> k_closed k = false -> server_keeps c l2 ->
  given_up (run t (l ++ l2)) c /\ still_open (run t (l ++ l2)) c.
Proof.
  intros G H E O N. pose proof G as G0. apply given_up_iff in G. split; [apply given_up_iff; rewrite run_from, from_app; apply dropped_from; exact G|].
  rewrite run_from, from_app. destruct (calm_from l2 _ c k G H) as (k' & H' & K); [|exact N|exists k'; split; [exact H'|apply K]].
  unfold ending in E. destruct (k_cancel k) eqn:A; [tauto|]. destruct (k_eof k) eqn:B; [tauto|]. destruct (k_exn k) eqn:C; [tauto|]. repeat split; assumption.
Qed.

(** ** Which connections are closed at last *)
Lemma done_open t l c k : nth_error (s_links (run t l)) c = Some k -> k_rd k = RdDone -> k_closed k = true \/ k_cancel k = true.
Proof.
  revert c k. induction l as [|o l IH] using rev_ind; intros c k H D; [destruct c; discriminate|]. unfold run in H. rewrite fold_left_app in H. cbn [fold_left] in H. fold (run t l) in H.
  destruct (nth_error (s_links (run t l)) c) as [k0|] eqn:H0.
  - destruct (step_mark o _ _ _ H0) as (k' & H' & M). rewrite H in H'. injection H' as <-. specialize (IH c k0 H0). destruct M; auto; cbn in *; auto.
    destruct (next_marks k0) as (-> & _). revert D. unfold rd_next. destruct (k_rd k0) as [| |fixed h n|] eqn:R; cbn.
    + destruct (k_cancel k0); [auto|discriminate].
    + destruct (k_cancel k0); cbn; [auto|]. destruct (k_exn k0); [auto|]. destruct (20 <=? len (k_buf k0))%Z; [discriminate|]. destruct (k_eof k0) eqn:F; cbn; [auto|congruence].
    + destruct (k_cancel k0); cbn; [auto|]. destruct (k_exn k0); [auto|]. destruct (n <=? len (k_buf k0))%Z; [discriminate|]. destruct (k_eof k0) eqn:F; cbn; [auto|congruence].
    + auto.
  - destruct (proj2 (step_links o (run t l)) c k H) as [(_ & a & ->)|(k0 & H1 & _)]; [discriminate|congruence].
Qed.
Lemma reads_repeat c n : reads_of c (repeat (Read c) n) = n /\ arrives_on c (repeat (Read c) n) = 0 /\ server_keeps c (repeat (Read c) n).
Proof.
  split; [induction n as [|n IH]; cbn; [reflexivity|rewrite Nat.eqb_refl; lia]|]. split; [induction n; cbn; auto|]. split; intros I; apply repeat_spec in I; discriminate.
Qed.
Lemma can_close_iff t l c k : given_up (run t l) c -> nth_error (s_links (run t l)) c = Some k -> k_closed k = false ->
  ((exists l2, server_keeps c l2 /\ closed (run t (l ++ l2)) c) <-> k_cancel k = true /\ reading k \/ k_cancel k = false /\ (k_eof k = true \/ k_exn k = true)).
Proof.
  intros G H O. split.
  - intros (l2 & N & (k2 & H2 & C2)). destruct (k_cancel k) eqn:C.
    + left. split; [reflexivity|]. destruct (k_rd k) as [| |f h n|] eqn:R; [|left; exact R|right; eauto|].
      all: destruct (doomed_from l2 (run t l) c k H) as (k' & H' & (_ & _ & O')); [repeat split; auto|]; rewrite run_from, from_app in H2; rewrite run_from in H'; congruence.
    + right. split; [reflexivity|]. destruct (k_eof k) eqn:E; [auto|]. destruct (k_exn k) eqn:X; [auto|].
      destruct (forgotten t l c k l2 G H) as (_ & (k' & H' & O')); [unfold ending; intros [?|[?|?]]; congruence|exact O|exact N|congruence].
  - intros D. destruct (k_rd k) as [| |f h n|] eqn:R.
    + destruct D as [(_ & [D|(f & h & n & D)])|(C & D)]; try congruence. exists (Read c :: repeat (Read c) (List.length (k_buf k) + 2)). destruct (reads_repeat c (List.length (k_buf k) + 2)) as (A & B & (N1 & N2)).
      split; [split; (intros [I|I]; [discriminate|auto])|]. replace (l ++ Read c :: _) with ((l ++ [Read c]) ++ repeat (Read c) (List.length (k_buf k) + 2)) by (rewrite <- app_assoc; reflexivity).
      apply (closes_soon _ _ _ c (rd_goto k RdHead)); [|left; reflexivity|right; exact D|rewrite A, B; cbn; lia].
      rewrite run_from, from_app. cbn [from fold_left run_step]. rewrite run_from in H. rewrite (read_next _ _ k H). erewrite upd_same by exact H. unfold rd_next. rewrite R, C. reflexivity.
    + exists (repeat (Read c) (List.length (k_buf k) + 2)). destruct (reads_repeat c (List.length (k_buf k) + 2)) as (A & B & N). split; [exact N|]. apply (closes_soon _ _ _ c k); auto; [left; exact R|unfold ending; tauto|lia].
    + exists (repeat (Read c) (List.length (k_buf k) + 2)). destruct (reads_repeat c (List.length (k_buf k) + 2)) as (A & B & N). split; [exact N|]. apply (closes_soon _ _ _ c k); auto; [right; eauto|unfold ending; tauto|lia].
    + destruct D as [(_ & [D|(f & h & n & D)])|(C & D)]; try congruence. destruct (done_open _ _ _ _ H R); congruence.
Qed.

(** ** A request that cannot be encoded *)
Definition thrice (req : pkg) (a : Z) : list step := [Call req (Ok a); Run 0] ++ concat (repeat [Acquire 0; DialOk 0; DrainOk 0] 3).
Definition left_over (t : timer) (req : pkg) (a : Z) : st :=
  {| s_req := []; s_resp := []; s_conn := []; s_dial := []; s_locks := [false; false; false]; s_events := [false];
     s_links := repeat (cancelled (new_link a)) 3; s_tasks := [{| t_req := req; t_addr := Ok a; t_pc := Done RetNone |}]; s_written := []; s_timer := t |}.
Definition mid (t : timer) (req : pkg) (a : Z) (conn dial : dict Z nat) (locks : list bool) (links : list link) (p : pc) : st :=
  {| s_req := [(rid_of req, 0)]; s_resp := []; s_conn := conn; s_dial := dial; s_locks := locks; s_events := [false];
     s_links := links; s_tasks := [{| t_req := req; t_addr := Ok a; t_pc := p |}]; s_written := []; s_timer := t |}.
Lemma dget_one {V} (k : Z) (v : V) : dget k [(k, v)] = Some v.
Proof. cbn. destruct (eq_dec k k); congruence. Qed.
Lemma dmem_one {V} (k : Z) (v : V) : dmem k [(k, v)] = true.
Proof. unfold dmem. rewrite dget_one. reflexivity. Qed.
Lemma ddel_one {V} (k : Z) (v : V) : ddel k [(k, v)] = [].
Proof. cbn. destruct (eq_dec k k); congruence. Qed.
Lemma mid_acquire t req a d locks links n l : nth_error locks l = Some false ->
  run_step (Acquire 0) (mid t req a [] d locks links (WaitLock n l)) = mid t req a [] d (upd l (fun _ => true) locks) links (Dialing n l).
Proof. intros H. cbn [run_step mid s_tasks nth_error t_pc t_addr s_locks]. rewrite H. reflexivity. Qed.
Lemma mid_dial t req a d locks links n l :
  run_step (DialOk 0) (mid t req a [] d locks links (Dialing n l)) = mid t req a [(a, List.length links)] d (upd l (fun _ => false) locks) (links ++ [new_link a]) (Drain1 n (List.length links)).
Proof. reflexivity. Qed.
Lemma mid_fail t req a e l locks links n c : to_stream req = Raise e ->
  run_step (DrainOk 0) (mid t req a [(a, c)] [(a, l)] locks links (Drain1 (S (S n)) c)) =
  mid t req a [] [(a, List.length locks)] (locks ++ [false]) (upd c cancelled links) (WaitLock (S n) (List.length locks)).
Proof.
  intros E. cbn [run_step mid s_tasks nth_error t_pc t_addr t_req]. rewrite E. unfold send_failed. cbv zeta.
  cbn [cancel_reader set_links s_conn s_dial set_conn mid s_locks pred].
  rewrite !dmem_one; cbv iota; rewrite !ddel_one. reflexivity.
Qed.
Lemma mid_last t req a e l locks links c : to_stream req = Raise e ->
  run_step (DrainOk 0) (mid t req a [(a, c)] [(a, l)] locks links (Drain1 1 c)) =
  {| s_req := []; s_resp := []; s_conn := []; s_dial := []; s_locks := locks; s_events := [false];
     s_links := upd c cancelled links; s_tasks := [{| t_req := req; t_addr := Ok a; t_pc := Done RetNone |}]; s_written := []; s_timer := t |}.
Proof.
  intros E. cbn [run_step mid s_tasks nth_error t_pc t_addr t_req]. rewrite E. unfold send_failed. cbv zeta.
  cbn [cancel_reader set_links s_conn s_dial set_conn mid s_locks pred].
  rewrite !dmem_one; cbv iota; rewrite !ddel_one.
  cbn [pred enter_send]. unfold abandon. cbn [set_dial set_conn cancel_reader set_links mid s_req]. rewrite dmem_one, ddel_one. reflexivity.
Qed.
Lemma thrice_state t req a e : to_stream req = Raise e -> run t (thrice req a) = left_over t req a.
Proof.
  intros E. unfold run, thrice. cbn [repeat concat app fold_left].
  change (run_step (Run 0) (run_step (Call req (Ok a)) (init t))) with (mid t req a [] [(a, 0)] [false] [] (WaitLock 3 0)).
  rewrite mid_acquire by reflexivity. rewrite mid_dial, (mid_fail _ _ _ e) by exact E.
  rewrite mid_acquire by reflexivity. rewrite mid_dial, (mid_fail _ _ _ e) by exact E.
  rewrite mid_acquire by reflexivity. rewrite mid_dial, (mid_last _ _ _ e) by exact E. reflexivity.
Qed.
Lemma unsendable t req a e l2 c : to_stream req = Raise e -> c < 3 -> given_up (run t (thrice req a ++ l2)) c /\ still_open (run t (thrice req a ++ l2)) c.
Proof.
  intros E L. assert (H : nth_error (s_links (run t (thrice req a))) c = Some (cancelled (new_link a))) by (rewrite (thrice_state _ _ _ e) by exact E; destruct c as [|[|[|]]]; try reflexivity; lia).
  split; [|apply (cancelled_unread _ _ _ _ _ H); reflexivity]. apply given_up_iff. rewrite run_from, from_app. apply dropped_from. rewrite <- run_from, (thrice_state _ _ _ e) by exact E.
  split; [exact L|]. split; [intros (b & [])|]. intros [|i] (tk & n & Hi & Hp); cbn in Hi; [injection Hi as <-; destruct Hp; discriminate|destruct i; discriminate].
Qed.

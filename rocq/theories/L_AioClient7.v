(** A request that cannot be encoded, and the connection it is about to be written to (aio_client.py:186-201). *)
From Verif Require Import PyBase L_PyBase PyDict L_PyDict M_SofaHeader M_Package L_Package S_Wire M_AioClient L_AioClient L_AioClient2 L_AioClient3 L_AioClient4 L_AioClient6.

(** a link and its later self, once its reader has been cancelled *)
Definition mute (n : list bytes) (c : nat) (s : st) : Prop := exists k, nth_error (s_links s) c = Some k /\ k_cancel k = true /\ k_frames k = n.
Lemma mute_same n c s s' : s_links s' = s_links s -> mute n c s -> mute n c s'.
Proof. intros E (k & A). exists k. rewrite E. exact A. Qed.
Lemma mute_upd n c s s' x f : s_links s' = upd x f (s_links s) -> (forall k, k_cancel (f k) = k_cancel k \/ k_cancel (f k) = true) -> (forall k, k_frames (f k) = k_frames k) -> mute n c s -> mute n c s'.
Proof.
  intros E F G (k & A & B & C). destruct (Nat.eq_dec x c) as [->|Nx].
  - exists (f k). rewrite E, (upd_same _ _ _ _ A), G. destruct (F k) as [-> | ->]; auto.
  - exists k. rewrite E, (upd_other _ _ _ _ Nx). auto.
Qed.
Lemma mute_app n c s s' k : s_links s' = s_links s ++ [k] -> mute n c s -> mute n c s'.
Proof. intros E (k' & A & B). exists k'. rewrite E, nth_error_app1 by (apply nth_error_Some; congruence). auto. Qed.
Lemma mute_set n c s x k k' : nth_error (s_links s) x = Some k' -> k_cancel k = k_cancel k' -> (x = c -> k_cancel k' = true -> k_frames k = k_frames k') -> mute n c s -> mute n c (set_link x k s).
Proof.
  intros E Ec F (k0 & A & B & C). cbn [set_link set_links s_links]. destruct (Nat.eq_dec x c) as [->|Nx].
  - rewrite E in A. injection A as ->. exists k. cbn [set_link set_links s_links]. rewrite (upd_same _ _ _ _ E). repeat split; [congruence|]. rewrite F; auto.
  - exists k0. cbn [set_link set_links s_links]. rewrite (upd_other _ _ _ _ Nx). auto.
Qed.

Lemma abandon_links i r s : s_links (abandon i r s) = s_links s.
Proof. unfold abandon. destruct (dmem r (s_req s)); reflexivity. Qed.
Lemma enter_links i r a n s : s_links (enter_send i r a n s) = s_links s.
Proof. unfold enter_send. destruct n; [apply abandon_links|]. destruct (dget a (s_conn s)); [reflexivity|]. destruct (dget a (s_dial s)); reflexivity. Qed.
Lemma failed_links i r a n c s : s_links (send_failed i r a n c s) = s_links (cancel_reader c s).
Proof. unfold send_failed. repeat match goal with |- context [if ?b then _ else _] => destruct b end; rewrite ?enter_links, ?abandon_links; reflexivity. Qed.
Lemma sent_links i q s : s_links (sent i q s) = s_links s.
Proof. unfold sent. destruct (dget (rid_of q) (s_req s)); [|reflexivity]. destruct (p_ptype q =? PTYPE_ONEWAY); reflexivity. Qed.
Lemma wake_links r s : s_links (wake r s) = s_links s.
Proof. unfold wake. destruct (dget r (s_req s)); reflexivity. Qed.
Lemma process_links h bs s : s_links (process h bs s) = s_links s.
Proof.
  unfold process, deliver. destruct (bolt_content_from_stream BoltResponse bs h); [|reflexivity].
  repeat match goal with |- context [if ?b then _ else _] => destruct b end; rewrite ?wake_links; reflexivity.
Qed.

Lemma cancel_mute n c x s : mute n c s -> mute n c (cancel_reader x s).
Proof. intros M. eapply (mute_upd n c s); [reflexivity|cbn; auto|cbn; auto|exact M]. Qed.
Lemma step_mute n c o s : mute n c s -> mute n c (run_step o s).
Proof.
  intros M. destruct o; cbn [run_step].
  - exact M.
  - destruct (nth_error (s_tasks s) i) as [tk|]; [|exact M]. destruct (t_pc tk); try exact M. destruct (t_addr tk); [|exact M]. eapply mute_same; [apply enter_links|exact M].
  - destruct (nth_error (s_tasks s) i) as [tk|]; [|exact M]. destruct (t_pc tk); try exact M. destruct (t_addr tk); [|exact M]. destruct (nth_error (s_locks s) l) as [[|]|]; try exact M. destruct (dget a (s_conn s)); exact M.
  - destruct (nth_error (s_tasks s) i) as [tk|]; [|exact M]. destruct (t_pc tk); try exact M. destruct (t_addr tk); [|exact M]. cbv zeta. destruct (dsetdefault _ _ _). eapply (mute_app n c s); [reflexivity|exact M].
  - destruct (nth_error (s_tasks s) i) as [tk|]; [|exact M]. destruct (t_pc tk); try exact M. eapply mute_same; [apply abandon_links|exact M].
  - destruct (nth_error (s_tasks s) i) as [tk|]; [|exact M]. destruct (t_pc tk); try exact M.
    + destruct (t_addr tk); [|exact M]. destruct (to_stream (t_req tk)); [exact M|]. eapply mute_same; [apply failed_links|apply cancel_mute; exact M].
    + destruct (t_addr tk); (eapply mute_same; [apply sent_links|exact M]).
  - destruct (nth_error (s_tasks s) i) as [tk|]; [|exact M]. destruct (t_pc tk); try exact M; (destruct (t_addr tk); [|exact M]); (eapply mute_same; [apply failed_links|apply cancel_mute; exact M]).
  - destruct (nth_error (s_tasks s) i) as [tk|]; [|exact M]. destruct (t_pc tk); try exact M. destruct (nth_error (s_events s) ev) as [[|]|]; try exact M. destruct (dget _ _); exact M.
  - destruct (nth_error (s_tasks s) i) as [tk|]; [|exact M]. destruct (t_pc tk); exact M.
  - eapply (mute_upd n c s); [reflexivity|cbn; auto|cbn; auto|exact M].
  - eapply (mute_upd n c s); [reflexivity|cbn; auto|cbn; auto|exact M].
  - eapply (mute_upd n c s); [reflexivity|cbn; auto|cbn; auto|exact M].
  - unfold read. destruct (nth_error (s_links s) c0) as [k|] eqn:E; [|exact M].
    destruct (k_rd k); try exact M.
    + apply (mute_set n c s c0 _ k E); auto.
    + destruct (k_cancel k) eqn:Ek; cbn [orb]; [apply (mute_set n c s c0 _ k E); auto|].
      repeat match goal with |- context [if ?b then _ else _] => destruct b end; try exact M; [apply (mute_set n c s c0 _ k E); auto| |apply (mute_set n c s c0 _ k E); auto].
      destruct (bolt_header_from_stream _ _); apply (mute_set n c s c0 _ k E); auto; cbn; congruence.
    + destruct (k_cancel k) eqn:Ek; cbn [orb]; [apply (mute_set n c s c0 _ k E); auto|].
      repeat match goal with |- context [if ?b then _ else _] => destruct b end; try exact M; [apply (mute_set n c s c0 _ k E); auto| |apply (mute_set n c s c0 _ k E); auto].
      eapply mute_same; [apply process_links|]. apply (mute_set n c s c0 _ k E); auto; cbn; congruence.
  - destruct (s_timer s); first [exact M|destruct (heartbeat_new_request rid); exact M].
  - destruct (s_timer s) as [| |a i|]; try exact M. destruct (nth_error (s_tasks s) i) as [tk|]; [|exact M]. destruct (t_pc tk) as [| | | | | |r]; try exact M. destruct r; exact M.
Qed.
Lemma run_mute n c l2 s : mute n c s -> mute n c (from s l2).
Proof. revert s. induction l2 as [|o l2 IH]; intros s M; [exact M|]. cbn. apply IH. apply step_mute. exact M. Qed.

(** nothing that arrives on the connection afterwards is read *)
Lemma bad_mutes s i tk a n c e k : nth_error (s_tasks s) i = Some tk -> t_pc tk = Drain1 n c -> t_addr tk = Ok a -> to_stream (t_req tk) = Raise e -> nth_error (s_links s) c = Some k ->
  mute (k_frames k) c (run_step (DrainOk i) s).
Proof.
  intros Hi Hp Ha He Hk. cbn [run_step]. rewrite Hi, Hp, Ha, He. eapply mute_same; [apply failed_links|]. cbn [cancel_reader set_links s_links].
  eexists. split; [unfold cancel_reader; cbn [set_links s_links]; apply (upd_same _ _ _ _ Hk)|]. split; reflexivity.
Qed.
Lemma bad_deaf t l l2 i tk a n c e k k' : nth_error (s_tasks (run t l)) i = Some tk -> t_pc tk = Drain1 n c -> t_addr tk = Ok a -> to_stream (t_req tk) = Raise e -> nth_error (s_links (run t l)) c = Some k ->
  nth_error (s_links (run t (l ++ DrainOk i :: l2))) c = Some k' -> k_frames k' = k_frames k.
Proof.
  intros Hi Hp Ha He Hk Hk'. pose proof (run_mute _ c l2 _ (bad_mutes _ i tk a n c e k Hi Hp Ha He Hk)) as (k0 & A & _ & B).
  unfold run in Hk'. rewrite fold_left_app in Hk'. cbn [fold_left] in Hk'. unfold from in A. unfold run in A. rewrite A in Hk'. injection Hk' as ->. exact B.
Qed.
(** so that the calls waiting for an answer on it wait for ever *)
Lemma bad_hangs t l l2 i tk a n c e k j tj ev rid : nth_error (s_tasks (run t l)) i = Some tk -> t_pc tk = Drain1 n c -> t_addr tk = Ok a -> to_stream (t_req tk) = Raise e -> nth_error (s_links (run t l)) c = Some k ->
  nth_error (s_tasks (run t l)) j = Some tj -> t_pc tj = WaitResp ev -> p_request_id (t_req tj) = PInt rid -> ~ In (Cancel j) l2 ->
  (forall frame f, In frame (k_frames k) -> response_layout frame f -> fr_request_id f <> rid) ->
  (forall c' k' frame f, c' <> c -> nth_error (s_links (run t (l ++ DrainOk i :: l2))) c' = Some k' -> In frame (k_frames k') -> response_layout frame f -> fr_request_id f <> rid) ->
  nth_error (s_tasks (run t (l ++ DrainOk i :: l2))) j = Some tj.
Proof.
  intros Hi Hp Ha He Hk Hj Hw Hr Nc N1 N2. apply (forever t l (DrainOk i :: l2) j rid tj ev Hj Hw Hr); [intros [H|H]; [discriminate|exact (Nc H)]|].
  intros c' k' frame f Hk' Hin Ly. destruct (Nat.eq_dec c' c) as [->|Nx]; [|exact (N2 c' k' frame f Nx Hk' Hin Ly)].
  rewrite (bad_deaf t l l2 i tk a n c e k k' Hi Hp Ha He Hk Hk') in Hin. exact (N1 frame f Hin Ly).
Qed.

(** what a request that cannot be encoded does not do *)
Lemma bad_unsent t l i tk : nth_error (s_tasks (run t l)) i = Some tk -> (forall bs, to_stream (t_req tk) <> Ok bs) -> sends i (init t) l = [].
Proof.
  intros Hi N. destruct (sends i (init t) l) as [|(c, bs) r] eqn:E; [reflexivity|]. exfalso. apply (N bs).
  apply (o_sent _ _ _ _ (w_tasks _ _ (wr_run t l) i tk Hi) c bs). rewrite E. left. reflexivity.
Qed.
Lemma bad_local s i tk a n c e c' : nth_error (s_tasks s) i = Some tk -> t_pc tk = Drain1 n c -> t_addr tk = Ok a -> to_stream (t_req tk) = Raise e -> c' <> c ->
  nth_error (s_links (run_step (DrainOk i) s)) c' = nth_error (s_links s) c'.
Proof. intros Hi Hp Ha He Nx. cbn [run_step]. rewrite Hi, Hp, Ha, He, failed_links. cbn [cancel_reader set_links s_links]. apply upd_other. congruence. Qed.
Lemma not_returned t l i tk p : nth_error (s_tasks (run t l)) i = Some tk -> (forall bs, to_stream (t_req tk) <> Ok bs) -> t_pc tk <> Done (RetPkg p).
Proof.
  intros Hi N Hp. assert (H : sends i (init t) l <> []) by (apply (o_past _ _ _ _ (w_tasks _ _ (wr_run t l) i tk Hi)); rewrite Hp; exact I). apply H. exact (bad_unsent t l i tk Hi N).
Qed.

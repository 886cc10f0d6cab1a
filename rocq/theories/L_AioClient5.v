(** Lemmas about the asyncio client: the locks taken while dialing are released. *)
From Coq Require Import ZifyBool.
From Verif Require Import PyBase L_PyBase PyDict L_PyDict M_SofaHeader M_Package L_Package S_Wire M_AioClient L_AioClient L_AioClient2 L_AioClient3.
Open Scope Z_scope.

Record lk (dial : dict Z nat) (locks : list bool) (tasks : list task) : Prop := {
  lk_held : forall k, nth_error locks k = Some true -> exists i t n, nth_error tasks i = Some t /\ t_pc t = Dialing n k;
  lk_known : forall i t n k, nth_error tasks i = Some t -> t_pc t = WaitLock n k \/ t_pc t = Dialing n k -> (k < List.length locks)%nat /\ exists a, t_addr t = Ok a;
  lk_dial : forall a k, dget a dial = Some k -> (k < List.length locks)%nat;
  lk_wf : wf_dict dial }.
Definition lk_of (s : st) : Prop := lk (s_dial s) (s_locks s) (s_tasks s).

Definition settled (p : pc) : Prop := match p with WaitLock _ _ | Dialing _ _ => False | _ => True end.
Lemma lk_goto dial locks tasks i t q : lk dial locks tasks -> nth_error tasks i = Some t -> (forall n k, t_pc t <> Dialing n k) ->
  (settled q \/ exists n k a, q = WaitLock n k /\ (k < List.length locks)%nat /\ t_addr t = Ok a) -> lk dial locks (upd i (at_pc q) tasks).
Proof.
  intros [H1 H2 H3 H4] Hi ND Q. constructor; auto.
  - intros k Hk. destruct (H1 k Hk) as (j & tj & n & Hj & Pj). exists j, tj, n. split; [|exact Pj]. rewrite upd_other; [exact Hj|]. intros ->. rewrite Hi in Hj. injection Hj as <-. exact (ND _ _ Pj).
  - intros j tj n k Hj Pj. apply upd_get in Hj as [(_ & Hj)|(-> & x & Hx & ->)]; [eauto|]. assert (x = t) by congruence. subst x. cbn in Pj |- *.
    destruct Q as [Q|(m & k' & a & -> & L & A)]; [destruct Pj as [->| ->]; destruct Q|]. destruct Pj as [P|P]; [|discriminate]. injection P as <- <-. eauto.
Qed.
Lemma lk_unlock dial locks tasks i t n l q : lk dial locks tasks -> nth_error tasks i = Some t -> t_pc t = Dialing n l -> settled q ->
  lk dial (upd l (fun _ => false) locks) (upd i (at_pc q) tasks).
Proof.
  intros [H1 H2 H3 H4] Hi Hp Q. constructor.
  - intros k Hk. apply upd_get in Hk as [(Nk & Hk)|(-> & x & Hx & Ex)]; [|discriminate]. destruct (H1 k Hk) as (j & tj & m & Hj & Pj). exists j, tj, m. split; [|exact Pj].
    rewrite upd_other; [exact Hj|]. intros ->. congruence.
  - intros j tj m k Hj Pj. rewrite upd_length. apply upd_get in Hj as [(_ & Hj)|(-> & x & Hx & ->)]; [eauto|]. cbn in Pj. destruct Pj as [->| ->]; destruct Q.
  - intros a k Hk. rewrite upd_length. eauto.
  - exact H4.
Qed.
Lemma lk_newlock dial locks tasks a : lk dial locks tasks -> lk (dset a (List.length locks) dial) (locks ++ [false]) tasks.
Proof.
  intros [H1 H2 H3 H4]. constructor.
  - intros k Hk. apply nth_app in Hk as [Hk|(_ & Hk)]; [eauto|discriminate].
  - intros i t n k Hi Hp. rewrite app_length. destruct (H2 i t n k Hi Hp). split; [lia|assumption].
  - intros b k Hk. rewrite app_length. cbn. destruct (Z.eq_dec b a) as [->|N]; [rewrite dget_dset_same in Hk; injection Hk as <-; lia|].
    rewrite dget_dset_other in Hk by exact N. specialize (H3 _ _ Hk). lia.
  - apply wf_dset. exact H4.
Qed.
Lemma lk_acquire dial locks tasks i t a n l : lk dial locks tasks -> nth_error tasks i = Some t -> t_addr t = Ok a -> t_pc t = WaitLock n l -> nth_error locks l = Some false ->
  lk dial (upd l (fun _ => true) locks) (upd i (at_pc (Dialing n l)) tasks).
Proof.
  intros [H1 H2 H3 H4] Hi Ha Hp Hl. constructor.
  - intros k Hk. destruct (Nat.eq_dec k l) as [->|N].
    + exists i, (at_pc (Dialing n l) t), n. split; [apply upd_same; exact Hi|reflexivity].
    + rewrite upd_other in Hk by congruence. destruct (H1 k Hk) as (j & tj & m & Hj & Pj). exists j, tj, m. split; [|exact Pj]. rewrite upd_other; [exact Hj|]. intros ->. congruence.
  - intros j tj m k Hj Pj. rewrite upd_length. apply upd_get in Hj as [(_ & Hj)|(-> & x & Hx & ->)]; [eauto|]. assert (x = t) by congruence. subst x. cbn in Pj |- *.
    destruct Pj as [P|P]; [discriminate|]. injection P as <- <-. split; [|eauto]. apply nth_error_Some. congruence.
  - intros b k Hk. rewrite upd_length. eauto.
  - exact H4.
Qed.
Lemma lk_call dial locks tasks t : lk dial locks tasks -> t_pc t = Start -> lk dial locks (tasks ++ [t]).
Proof.
  intros [H1 H2 H3 H4] Hp. constructor; auto.
  - intros k Hk. destruct (H1 k Hk) as (j & tj & n & Hj & Pj). exists j, tj, n. split; [rewrite nth_error_app1; [exact Hj|apply nth_error_Some; congruence]|exact Pj].
  - intros j tj n k Hj Pj. apply nth_app in Hj as [Hj|(_ & ->)]; [eauto|]. destruct Pj; congruence.
Qed.
Lemma lk_drop dial locks tasks a : lk dial locks tasks -> lk (ddel a dial) locks tasks.
Proof.
  intros [H1 H2 H3 H4]. constructor; auto; [|apply wf_ddel; exact H4]. intros b k Hk. destruct (Z.eq_dec b a) as [->|N]; [rewrite dget_ddel_same in Hk by exact H4; discriminate|]. rewrite dget_ddel_other in Hk by exact N. eauto.
Qed.

Lemma lk_abandon i rid s t : lk_of s -> nth_error (s_tasks s) i = Some t -> (forall n k, t_pc t <> Dialing n k) -> lk_of (abandon i rid s).
Proof. intros D Hi ND. unfold abandon, lk_of. destruct (dmem rid (s_req s)); cbn; apply (lk_goto _ _ _ _ t); auto; left; exact I. Qed.
Lemma lk_enter i rid a n s t : lk_of s -> nth_error (s_tasks s) i = Some t -> (forall n k, t_pc t <> Dialing n k) -> t_addr t = Ok a -> lk_of (enter_send i rid a n s).
Proof.
  intros D Hi ND Ha. unfold enter_send. destruct n; [eapply lk_abandon; eauto|]. destruct (dget a (s_conn s)) as [c|]; [apply (lk_goto _ _ _ _ t); auto; left; exact I|].
  destruct (dget a (s_dial s)) as [l|] eqn:El.
  - apply (lk_goto _ _ _ _ t); auto. right. exists (S n), l, a. split; [reflexivity|]. split; [exact (lk_dial _ _ _ D _ _ El)|exact Ha].
  - unfold lk_of. cbn. apply (lk_goto _ _ _ _ t); auto; [apply lk_newlock; exact D|]. right. eexists _, _, a. split; [reflexivity|]. rewrite app_length. cbn. split; [lia|exact Ha].
Qed.
Lemma lk_failed i rid a n c s t : lk_of s -> nth_error (s_tasks s) i = Some t -> (forall n k, t_pc t <> Dialing n k) -> t_addr t = Ok a -> lk_of (send_failed i rid a n c s).
Proof.
  intros D Hi ND Ha. unfold send_failed. destruct (dmem a (s_conn (cancel_reader c s))); [|apply (lk_abandon _ _ _ t); auto].
  match goal with |- context [dmem a ?d] => destruct (dmem a d) end; [apply (lk_enter _ _ _ _ _ t)|apply (lk_abandon _ _ _ t)]; auto. unfold lk_of. cbn. apply lk_drop. exact D.
Qed.
Lemma lk_deliver p s : lk_of (deliver p s) = lk_of s.
Proof. unfold deliver, wake, lk_of. repeat match goal with |- context [if ?b then _ else _] => destruct b end; cbn; match goal with |- context [dget ?a ?b] => destruct (dget a b) end; reflexivity. Qed.
Lemma lk_read c s : lk_of s -> lk_of (read c s).
Proof.
  intros D. unfold read. destruct (nth_error (s_links s) c) as [k|]; [|exact D].
  destruct (k_rd k) as [| |fixed h n|]; auto.
  - destruct (k_cancel k || k_exn k); [exact D|]. destruct (bolt_header_size BoltResponse <=? len (k_buf k)); [cbv zeta; destruct (bolt_header_from_stream BoltResponse _); exact D|]. destruct (k_eof k); exact D.
  - destruct (k_cancel k || k_exn k); [exact D|]. destruct (n <=? len (k_buf k)); [|destruct (k_eof k); exact D]. unfold process. destruct (bolt_content_from_stream BoltResponse _ h); [rewrite lk_deliver|]; exact D.
Qed.
Lemma lk_step o s : lk_of s -> lk_of (run_step o s).
Proof.
  intros D. destruct o; cbn [run_step]; try exact D.
  - unfold lk_of. cbn. apply lk_call; auto.
  - destruct (nth_error (s_tasks s) i) as [t|] eqn:Hi; [|exact D]. destruct (t_pc t) eqn:Hp; try exact D. destruct (t_addr t) as [a|e] eqn:Ha.
    + cbv zeta. apply (lk_enter _ _ _ _ _ t); auto. congruence.
    + apply (lk_goto _ _ _ _ t); auto; [congruence|left; exact I].
  - destruct (nth_error (s_tasks s) i) as [t|] eqn:Hi; [|exact D]. destruct (t_pc t) eqn:Hp; try exact D. destruct (t_addr t) as [a|e] eqn:Ha; [|exact D].
    destruct (nth_error (s_locks s) l) as [[|]|] eqn:Hl; try exact D. destruct (dget a (s_conn s)) as [c|].
    + apply (lk_goto _ _ _ _ t); auto; [congruence|left; exact I].
    + apply (lk_acquire _ _ _ _ t a); auto.
  - destruct (nth_error (s_tasks s) i) as [t|] eqn:Hi; [|exact D]. destruct (t_pc t) eqn:Hp; try exact D. destruct (t_addr t) as [a|e] eqn:Ha; [|exact D].
    cbv zeta. destruct (dsetdefault a _ _) as [d c']. unfold lk_of. cbn. apply (lk_unlock _ _ _ _ t n l); auto. exact I.
  - destruct (nth_error (s_tasks s) i) as [t|] eqn:Hi; [|exact D]. destruct (t_pc t) eqn:Hp; try exact D.
    unfold abandon. destruct (dmem _ _); unfold lk_of; cbn; apply (lk_unlock _ _ _ _ t n l); auto; exact I.
  - destruct (nth_error (s_tasks s) i) as [t|] eqn:Hi; [|exact D]. destruct (t_pc t) eqn:Hp; try exact D.
    + destruct (t_addr t) as [a|e] eqn:Ha; [|exact D]. destruct (to_stream (t_req t)); [apply (lk_goto _ _ _ _ t); auto; [congruence|left; exact I]|apply (lk_failed _ _ _ _ _ _ t); auto; congruence].
    + assert (X : lk_of (sent i (t_req t) s)); [|destruct (t_addr t); exact X].
      unfold sent. destruct (dget (rid_of (t_req t)) (s_req s)); [destruct (p_ptype (t_req t) =? PTYPE_ONEWAY)|]; unfold lk_of; cbn; (apply (lk_goto _ _ _ _ t); auto; [congruence|left; exact I]).
  - destruct (nth_error (s_tasks s) i) as [t|] eqn:Hi; [|exact D]. destruct (t_pc t) eqn:Hp; try exact D; (destruct (t_addr t) as [a|e] eqn:Ha; [|exact D]); apply (lk_failed _ _ _ _ _ _ t); auto; congruence.
  - destruct (nth_error (s_tasks s) i) as [t|] eqn:Hi; [|exact D]. destruct (t_pc t) eqn:Hp; try exact D. destruct (nth_error (s_events s) ev) as [[|]|]; try exact D.
    destruct (dget (rid_of (t_req t)) (s_resp s)); unfold lk_of; cbn; (apply (lk_goto _ _ _ _ t); auto; [congruence|left; exact I]).
  - destruct (nth_error (s_tasks s) i) as [t|] eqn:Hi; [|exact D]. destruct (t_pc t) eqn:Hp; try exact D; unfold lk_of; cbn;
      try (apply (lk_unlock _ _ _ _ t n l); auto; exact I); (apply (lk_goto _ _ _ _ t); auto; [congruence|left; exact I]).
  - apply lk_read. exact D.
  - destruct (s_timer s); try exact D. destruct (heartbeat_new_request rid) as [p|]; [|exact D]. unfold lk_of. cbn. apply lk_call; auto.
  - destruct (s_timer s); try exact D. destruct (nth_error (s_tasks s) i) as [t|]; [|exact D]. destruct (t_pc t) as [| | | | | |[| |]]; exact D.
Qed.
Lemma lk_run t l : lk_of (run t l).
Proof.
  rewrite run_from. apply (from_ind lk_of); [intros s o; apply lk_step|]. constructor; cbn; try discriminate; [intros i|intros i|constructor]; destruct i; discriminate.
Qed.

(** a call waiting for a lock goes on as soon as it is scheduled, unless another call is dialing under that lock *)
Lemma lock_progress t l i tk n k : nth_error (s_tasks (run t l)) i = Some tk -> t_pc tk = WaitLock n k ->
  (exists j tj m, j <> i /\ nth_error (s_tasks (run t l)) j = Some tj /\ t_pc tj = Dialing m k) \/
  (exists tk' m, nth_error (s_tasks (run t (l ++ [Acquire i]))) i = Some tk' /\ (t_pc tk' = Dialing m k \/ exists c, t_pc tk' = Drain1 m c)).
Proof.
  intros Hi Hp. pose proof (lk_run t l) as D. destruct (lk_known _ _ _ D _ _ _ _ Hi (or_introl Hp)) as (L & a & Ha).
  destruct (nth_error (s_locks (run t l)) k) as [[|]|] eqn:Hk; [| |apply nth_error_None in Hk; lia].
  - left. destruct (lk_held _ _ _ D k Hk) as (j & tj & m & Hj & Pj). exists j, tj, m. split; [congruence|auto].
  - right. assert (E : run t (l ++ [Acquire i]) = run_step (Acquire i) (run t l)) by (unfold run; rewrite fold_left_app; reflexivity). rewrite E. cbn [run_step]. rewrite Hi, Hp, Ha, Hk.
    destruct (dget a (s_conn (run t l))) as [c|]; unfold goto; cbn [set_lock set_tasks set_dial s_tasks]; erewrite upd_same by exact Hi; eexists _, n; (split; [reflexivity|cbn; eauto]).
Qed.

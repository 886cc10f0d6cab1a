(** Lemmas about the asyncio client inside a system: what it has received, what its calls are, who wrote what. *)
From Coq Require Import ZifyBool.
From Verif Require Import PyBase L_PyBase PyDict L_PyDict M_SofaHeader M_Package L_Package L_Codec S_Wire M_SyncClient M_AioClient L_AioClient L_AioClient2 L_AioClient3 L_AioClient4 L_AioClient6.

(** the bytes received on each connection, the request and the address of each call *)
Definition ins (s : st) : list bytes := map k_in (s_links s).
Definition specs (s : st) : list (pkg * res Z) := map (fun t => (t_req t, t_addr t)) (s_tasks s).
Definition quiet (s s' : st) : Prop := ins s' = ins s /\ specs s' = specs s.
Lemma quiet_trans a b c : quiet a b -> quiet b c -> quiet a c.
Proof. intros (A & B) (C & D). split; congruence. Qed.
Lemma specs_goto i p s : specs (goto i p s) = specs s.
Proof. unfold specs. cbn. apply map_upd. reflexivity. Qed.
Lemma quiet_goto i p s s' : s_links s' = s_links s -> s_tasks s' = s_tasks s -> quiet s (goto i p s').
Proof. intros A B. split; [unfold ins; cbn; rewrite A; reflexivity|]. rewrite specs_goto. unfold specs. rewrite B. reflexivity. Qed.
Ltac qgoto := apply quiet_goto; reflexivity.
Ltac qsame := split; reflexivity.
Lemma quiet_abandon i rid s : quiet s (abandon i rid s).
Proof. unfold abandon. destruct (dmem rid (s_req s)); qgoto. Qed.
Lemma quiet_enter i rid a n s : quiet s (enter_send i rid a n s).
Proof. unfold enter_send. destruct n; [apply quiet_abandon|]. destruct (dget a (s_conn s)); [qgoto|]. destruct (dget a (s_dial s)); qgoto. Qed.
Lemma quiet_failed i rid a n c s : quiet s (send_failed i rid a n c s).
Proof.
  unfold send_failed. assert (C1 : quiet s (cancel_reader c s)) by (split; [unfold ins; cbn; apply map_upd; reflexivity|reflexivity]).
  destruct (dmem a (s_conn (cancel_reader c s))); [|eapply quiet_trans; [exact C1|apply quiet_abandon]].
  eapply quiet_trans; [exact C1|]. cbv zeta. match goal with |- context [dmem a ?d] => destruct (dmem a d) end; [eapply quiet_trans; [|apply quiet_enter]|eapply quiet_trans; [|apply quiet_abandon]]; qsame.
Qed.
Lemma quiet_read c s : quiet s (read c s).
Proof.
  unfold read. destruct (nth_error (s_links s) c) as [k|] eqn:Hk; [|qsame].
  assert (L : forall k', k_in k' = k_in k -> quiet s (set_link c k' s)).
  { intros k' E. split; [|reflexivity]. unfold ins. cbn. apply (map_upd_const _ _ _ k); assumption. }
  destruct (k_rd k) as [| |fixed h n|]; try qsame.
  - apply L. reflexivity.
  - destruct (k_cancel k || k_exn k); [apply L; reflexivity|]. destruct (bolt_header_size BoltResponse <=? len (k_buf k)); [cbv zeta; destruct (bolt_header_from_stream BoltResponse _); apply L; reflexivity|].
    destruct (k_eof k); [apply L; reflexivity|qsame].
  - destruct (k_cancel k || k_exn k); [apply L; reflexivity|]. destruct (n <=? len (k_buf k)); [|destruct (k_eof k); [apply L; reflexivity|qsame]].
    eapply quiet_trans; [apply (L (rd_take k n RdHead [fixed ++ py_take n (k_buf k)])); reflexivity|]. split; [unfold ins; rewrite links_process; reflexivity|].
    unfold process. destruct (bolt_content_from_stream BoltResponse _ h) as [p|]; [|reflexivity]. unfold specs. rewrite (proj1 (written_deliver p _)). reflexivity.
Qed.
(** a step changes neither, apart from the four that are there for that *)
Definition moves (o : step) (s s' : st) : Prop :=
  match o with
  | Call req a => ins s' = ins s /\ specs s' = specs s ++ [(req, a)]
  | Beat rid => ins s' = ins s /\ (specs s' = specs s \/ exists p a, heartbeat_new_request rid = Ok p /\ specs s' = specs s ++ [(p, Ok a)])
  | DialOk _ => (ins s' = ins s \/ ins s' = ins s ++ [[]]) /\ specs s' = specs s
  | Feed c bs => ins s' = upd c (fun b => b ++ bs) (ins s) /\ specs s' = specs s
  | _ => quiet s s'
  end.
Lemma map_upd_comm {A B} (g : A -> B) f h l : (forall x, g (f x) = h (g x)) -> forall i, map g (upd i f l) = upd i h (map g l).
Proof. intros E. induction l as [|x l IH]; intros [|i]; cbn; try reflexivity; [rewrite E; reflexivity|]. rewrite IH. reflexivity. Qed.
Lemma step_moves o s : moves o s (run_step o s).
Proof.
  destruct o as [r ad|i|i|i|i|i|i|i|i|c bs|c|c|c|rid|]; cbn [run_step moves];
    try (destruct (nth_error (s_tasks s) i) as [t|] eqn:Ht; [destruct (t_pc t) as [|n l|n l|n c|n c|ev|x] eqn:Hp|]); try qsame; try (split; [left; reflexivity|reflexivity]).
  - split; [reflexivity|]. unfold specs. cbn. rewrite map_app. reflexivity.
  - destruct (t_addr t) as [a|e]; [|qgoto]. cbv zeta. eapply quiet_trans; [|apply quiet_enter]. qsame.
  - destruct (t_addr t) as [a|e]; [|qsame]. destruct (nth_error (s_locks s) l) as [[|]|]; try qsame. destruct (dget a (s_conn s)); qgoto.
  - destruct (t_addr t) as [a|e]; [|split; [left; reflexivity|reflexivity]]. cbv zeta. destruct (dsetdefault a _ _) as [d c'] eqn:Ed.
    split; [right; unfold ins; cbn; rewrite map_app; reflexivity|]. rewrite specs_goto. reflexivity.
  - eapply quiet_trans; [|apply quiet_abandon]. qsame.
  - destruct (t_addr t) as [a|e]; [|qsame]. destruct (to_stream (t_req t)); [qgoto|apply quiet_failed].
  - assert (S : quiet s (sent i (t_req t) s)); [|destruct (t_addr t); exact S]. unfold sent. destruct (dget (rid_of (t_req t)) (s_req s)); [destruct (p_ptype (t_req t) =? PTYPE_ONEWAY)|]; qgoto.
  - destruct (t_addr t) as [a|e]; [|qsame]. apply quiet_failed.
  - destruct (t_addr t) as [a|e]; [|qsame]. apply quiet_failed.
  - destruct (nth_error (s_events s) ev) as [[|]|]; try qsame. destruct (dget (rid_of (t_req t)) (s_resp s)); qgoto.
  - qgoto.
  - qgoto.
  - qgoto.
  - qgoto.
  - qgoto.
  - qgoto.
  - split; [|reflexivity]. unfold ins. cbn. apply map_upd_comm. reflexivity.
  - split; [|reflexivity]. unfold ins. cbn. apply map_upd. reflexivity.
  - split; [|reflexivity]. unfold ins. cbn. apply map_upd. reflexivity.
  - apply quiet_read.
  - destruct (s_timer s) as [|a|a i|] eqn:Et; try (split; [reflexivity|left; reflexivity]). destruct (heartbeat_new_request rid) as [p|] eqn:Eh; [|split; [reflexivity|left; reflexivity]].
    split; [reflexivity|]. right. exists p, a. split; [reflexivity|]. unfold specs. cbn. rewrite map_app. reflexivity.
  - destruct (s_timer s) as [|a|a i|]; try qsame. destruct (nth_error (s_tasks s) i) as [t|]; [|qsame]. destruct (t_pc t) as [| | | | | |[]]; qsame.
Qed.

(** ** Who wrote what *)
Fixpoint wlog (s : st) (l : list step) : list (nat * (nat * bytes)) :=
  match l with
  | [] => []
  | o :: r => match o with DrainOk j => map (pair j) (skipn (List.length (s_written s)) (s_written (run_step o s))) | _ => [] end ++ wlog (run_step o s) r
  end.
Lemma step_written o s : exists x, s_written (run_step o s) = s_written s ++ x /\ (x = [] \/ exists j y, o = DrainOk j /\ x = [y]).
Proof.
  destruct (step_core o s) as [_ W|t _ _ W|j t p _ _ W _ _ _ _ _|j t n c a bs E _ _ _ _ _ W]; try (exists []; rewrite app_nil_r; split; [exact W|left; reflexivity]).
  exists [(c, bs)]. split; [exact W|]. right. eauto.
Qed.
Lemma skipn_app_len {A} (l x : list A) : skipn (List.length l) (l ++ x) = x.
Proof. rewrite skipn_app, skipn_all, Nat.sub_diag. reflexivity. Qed.
Lemma wlog_written l : forall s, s_written (from s l) = s_written s ++ map snd (wlog s l).
Proof.
  induction l as [|o l IH]; intros s; [cbn; rewrite app_nil_r; reflexivity|]. change (from s (o :: l)) with (from (run_step o s) l). rewrite IH. cbn [wlog]. rewrite map_app, app_assoc. f_equal.
  destruct (step_written o s) as (x & E & H). destruct H as [->|(j & y & -> & ->)].
  - rewrite app_nil_r in E. rewrite E. destruct o; cbn; try (rewrite app_nil_r; reflexivity). rewrite skipn_all. cbn. rewrite app_nil_r. reflexivity.
  - rewrite E, skipn_app_len. reflexivity.
Qed.
Lemma wlog_sends i l : forall s, map snd (filter (fun x => Nat.eqb (fst x) i) (wlog s l)) = sends i s l.
Proof.
  induction l as [|o l IH]; intros s; [reflexivity|]. cbn [wlog sends]. rewrite filter_app, map_app, IH. f_equal. unfold writes. destruct o; try reflexivity.
  match goal with |- context [skipn ?a ?b] => generalize (skipn a b) end. intros x. destruct (Nat.eqb i0 i) eqn:E; induction x as [|y x IHx]; cbn; rewrite ?E; try reflexivity; cbn; [rewrite IHx; reflexivity|exact IHx].
Qed.
Lemma wlog_task t l p i c bs : nth_error (wlog (init t) l) p = Some (i, (c, bs)) -> exists tk, nth_error (s_tasks (run t l)) i = Some tk /\ In (c, bs) (sends i (init t) l) /\ to_stream (t_req tk) = Ok bs.
Proof.
  intros H. assert (S : In (c, bs) (sends i (init t) l)).
  { rewrite <- wlog_sends. apply in_map_iff. exists (i, (c, bs)). split; [reflexivity|]. apply filter_In. split; [eapply nth_error_In; exact H|]. cbn. apply Nat.eqb_refl. }
  destruct (nth_error (s_tasks (run t l)) i) as [tk|] eqn:Hi; [|rewrite (w_none _ _ (wr_run t l) i Hi) in S; destruct S].
  exists tk. split; [reflexivity|]. split; [exact S|]. exact (proj1 (o_sent _ _ _ _ (w_tasks _ _ (wr_run t l) i tk Hi) c bs S)).
Qed.
Lemma run_written t l : s_written (run t l) = map snd (wlog (init t) l).
Proof. rewrite run_from, wlog_written. reflexivity. Qed.

(** ** Positions *)
Lemma filter_nth {A} (f : A -> bool) l : forall n x, nth_error (filter f l) n = Some x -> exists p, nth_error l p = Some x /\ f x = true /\ List.length (filter f (firstn p l)) = n.
Proof.
  induction l as [|y l IH]; intros n x H; [destruct n; discriminate|]. cbn in H. destruct (f y) eqn:E.
  - destruct n as [|n]; [injection H as ->; exists O; auto|]. cbn in H. destruct (IH n x H) as (p & H1 & H2 & H3). exists (S p). cbn. rewrite E. cbn. auto.
  - destruct (IH n x H) as (p & H1 & H2 & H3). exists (S p). cbn. rewrite E. auto.
Qed.
Definition positions {A} (f : A -> bool) (l : list A) : list nat := filter (fun p => match nth_error l p with Some x => f x | None => false end) (seq 0 (List.length l)).
Lemma positions_length {A} (f : A -> bool) l : List.length (positions f l) = List.length (filter f l).
Proof.
  unfold positions. induction l as [|x l IH] using rev_ind; [reflexivity|]. rewrite app_length, seq_app, !filter_app, !app_length. cbn [List.length seq Nat.add]. f_equal.
  - rewrite <- IH. f_equal. apply filter_ext_in. intros p H. apply in_seq in H. rewrite nth_error_app1 by lia. reflexivity.
  - cbn [filter]. rewrite nth_error_app2, Nat.sub_diag by lia. cbn. destruct (f x); reflexivity.
Qed.
Lemma positions_in {A} (f : A -> bool) l p x : nth_error l p = Some x -> f x = true -> In p (positions f l).
Proof. intros H E. apply filter_In. rewrite H. split; [|exact E]. apply in_seq. split; [lia|]. cbn. apply nth_error_Some. congruence. Qed.

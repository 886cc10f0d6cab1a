(** Lemmas about the asyncio client: what it writes. *)
From Coq Require Import ZifyBool.
From Verif Require Import PyBase L_PyBase PyDict L_PyDict M_SofaHeader M_Package L_Package L_Codec S_Wire M_SyncClient M_AioClient L_AioClient L_AioClient2 L_AioClient3 L_AioClient4.

(** what coroutine i writes during the steps l from state s *)
Definition writes (i : nat) (o : step) (s : st) : list (nat * bytes) :=
  match o with
  | DrainOk j => if Nat.eqb j i then skipn (List.length (s_written s)) (s_written (run_step o s)) else []
  | _ => []
  end.
Fixpoint sends (i : nat) (s : st) (l : list step) : list (nat * bytes) :=
  match l with [] => [] | o :: r => writes i o s ++ sends i (run_step o s) r end.
Lemma sends_app i l : forall s l', sends i s (l ++ l') = sends i s l ++ sends i (from s l) l'.
Proof. induction l as [|o l IH]; intros s l'; [reflexivity|]. cbn [app sends]. rewrite IH, app_assoc. reflexivity. Qed.

(** the writes coroutine may still do *)
Definition left_of (p : pc) : nat :=
  match p with Start => 3 | WaitLock n _ | Dialing n _ | Drain1 n _ => S (pred n) | Drain2 n _ => pred n | WaitResp _ | Done _ => 0 end.
(** the request has been written *)
Definition past (p : pc) : Prop := match p with Drain2 _ _ | WaitResp _ | Done (RetPkg _) => True | _ => False end.
(** the request has not been written in the current attempt *)
Definition fresh_of (p : pc) : nat := match p with Start | WaitLock _ _ | Dialing _ _ | Drain1 _ _ => 1 | _ => 0 end.
Definition at_conn (s : st) (t : task) (p : pc) : Prop := forall n c, p = Drain1 n c -> exists a, t_addr t = Ok a /\ In (a, c) (s_conn s).

Inductive core (o : step) (s s' : st) : Prop :=
| K_same : s_tasks s' = s_tasks s -> s_written s' = s_written s -> core o s s'
| K_call t : t_pc t = Start -> s_tasks s' = s_tasks s ++ [t] -> s_written s' = s_written s -> core o s s'
| K_move j t p : nth_error (s_tasks s) j = Some t -> s_tasks s' = upd j (at_pc p) (s_tasks s) -> s_written s' = s_written s ->
    (left_of p <= left_of (t_pc t))%nat -> (past p -> past (t_pc t)) -> at_conn s' t p -> (forall n c, p <> Drain2 n c) ->
    (fresh_of p <= fresh_of (t_pc t))%nat \/ o = DrainFail j -> core o s s'
| K_write j t n c a bs : o = DrainOk j -> nth_error (s_tasks s) j = Some t -> t_addr t = Ok a -> t_pc t = Drain1 n c -> to_stream (t_req t) = Ok bs ->
    s_tasks s' = upd j (at_pc (Drain2 n c)) (s_tasks s) -> s_written s' = s_written s ++ [(c, bs)] -> core o s s'.

Lemma abandon_core i rid s : (exists p, s_tasks (abandon i rid s) = upd i (at_pc p) (s_tasks s) /\ left_of p = O /\ fresh_of p = O /\ ~ past p /\ (forall n c, p <> Drain1 n c) /\ forall n c, p <> Drain2 n c) /\
  s_written (abandon i rid s) = s_written s /\ s_conn (abandon i rid s) = s_conn s.
Proof.
  unfold abandon. destruct (dmem rid (s_req s)); (split; [|split; reflexivity]); eexists; (split; [reflexivity|]); cbn; repeat split; auto; discriminate.
Qed.
Lemma dget_In_pair {V} k v (d : dict Z V) : dget k d = Some v -> In (k, v) d.
Proof. induction d as [|[k' v'] d IH]; cbn; [discriminate|]. destruct (eq_dec k k') as [->|_]; [intros [= ->]; auto|auto]. Qed.
Lemma enter_core i rid a n s : (exists p, s_tasks (enter_send i rid a n s) = upd i (at_pc p) (s_tasks s) /\ (left_of p <= n)%nat /\ ~ past p /\
    (forall m c, p = Drain1 m c -> In (a, c) (s_conn s)) /\ forall m c, p <> Drain2 m c) /\
  s_written (enter_send i rid a n s) = s_written s /\ s_conn (enter_send i rid a n s) = s_conn s.
Proof.
  unfold enter_send. destruct n as [|n].
  - destruct (abandon_core i rid s) as ((p & A & B & B' & C & D & E) & F & G). split; [|auto]. exists p. split; [exact A|]. split; [lia|]. split; [exact C|]. split; [intros m c K; contradiction (D m c K)|exact E].
  - destruct (dget a (s_conn s)) as [c|] eqn:Ec.
    + split; [|split; reflexivity]. exists (Drain1 (S n) c). split; [reflexivity|]. split; [reflexivity|]. split; [intros []|]. split; [|discriminate]. intros m c' [= <- <-]. apply dget_In_pair. exact Ec.
    + destruct (dget a (s_dial s)) as [l|]; (split; [|split; reflexivity]); eexists; (split; [reflexivity|]); (split; [reflexivity|]); (split; [intros []|]); (split; [discriminate|discriminate]).
Qed.
Lemma fresh_le p : (fresh_of p <= 1)%nat.
Proof. destruct p; cbn; lia. Qed.
Lemma failed_core o i a n c s t : nth_error (s_tasks s) i = Some t -> t_addr t = Ok a -> fresh_of (t_pc t) = 1%nat \/ o = DrainFail i -> (pred n <= left_of (t_pc t))%nat -> core o s (send_failed i (rid_of (t_req t)) a n c s).
Proof.
  intros Hi Ha Hf Hn. pose proof fresh_le as FL. unfold send_failed.
  destruct (dmem a (s_conn (cancel_reader c s))); [|destruct (abandon_core i (rid_of (t_req t)) (cancel_reader c s)) as ((p & A & B & B' & C & D & E) & F & G); apply (K_move _ _ _ i t p); auto; [lia|tauto|intros m d K; contradiction (D m d K)|left; lia]].
  match goal with |- context [dmem a ?d] => destruct (dmem a d) end.
  - match goal with |- context [enter_send i ?r a (pred n) ?x] => destruct (enter_core i r a (pred n) x) as ((p & A & B & C & D & E) & F & G) end.
    apply (K_move _ _ _ i t p); auto; [lia|tauto| |destruct Hf as [Hf|Hf]; [left; rewrite Hf; apply FL|right; exact Hf]]. intros m d K. exists a. split; [exact Ha|]. rewrite G. exact (D m d K).
  - match goal with |- context [abandon i ?r ?x] => destruct (abandon_core i r x) as ((p & A & B & B' & C & D & E) & F & G) end.
    apply (K_move _ _ _ i t p); auto; [lia|tauto|intros m d K; contradiction (D m d K)|left; lia].
Qed.
Lemma written_deliver p s : s_tasks (deliver p s) = s_tasks s /\ s_written (deliver p s) = s_written s.
Proof. unfold deliver, wake. cbv zeta. repeat match goal with |- context [if ?b then _ else _] => destruct b end; cbn [s_req set_resp]; destruct (dget (rid_of p) (s_req s)); split; reflexivity. Qed.
Lemma read_core c s : s_tasks (read c s) = s_tasks s /\ s_written (read c s) = s_written s.
Proof.
  unfold read. destruct (nth_error (s_links s) c) as [k|]; [|split; reflexivity]. destruct (k_rd k) as [| |fixed h n|]; try (split; reflexivity).
  - destruct (k_cancel k || k_exn k); [split; reflexivity|]. destruct (bolt_header_size BoltResponse <=? len (k_buf k)); [cbv zeta; destruct (bolt_header_from_stream BoltResponse _); split; reflexivity|destruct (k_eof k); split; reflexivity].
  - destruct (k_cancel k || k_exn k); [split; reflexivity|]. destruct (n <=? len (k_buf k)); [|destruct (k_eof k); split; reflexivity].
    unfold process. destruct (bolt_content_from_stream BoltResponse _ h) as [p|]; [|split; reflexivity]. destruct (written_deliver p (set_link c (rd_take k n RdHead [fixed ++ py_take n (k_buf k)]) s)) as (A & B). rewrite A, B. split; reflexivity.
Qed.
Ltac same := apply K_same; reflexivity.
Lemma step_core o s : core o s (run_step o s).
Proof.
  destruct o as [r ad|i|i|i|i|i|i|i|i|c bs|c|c|c|rid|]; cbn [run_step]; try same;
    try (destruct (nth_error (s_tasks s) i) as [t|] eqn:Ht; [|same]; destruct (t_pc t) as [|n l|n l|n c|n c|ev|x] eqn:Hp; try same).
  - apply (K_call _ _ _ {| t_req := r; t_addr := ad; t_pc := Start |}); reflexivity.
  - destruct (t_addr t) as [a|e] eqn:Ha.
    + cbv zeta. match goal with |- context [enter_send i ?r a 3 ?x] => destruct (enter_core i r a 3 x) as ((p & A & B & C & D & E) & F & G) end.
      apply (K_move _ _ _ i t p); auto; [rewrite Hp; exact B|tauto| |left; rewrite Hp; apply fresh_le]. intros m d K. exists a. split; [exact Ha|]. rewrite G. exact (D m d K).
    + apply (K_move _ _ _ i t (Done (RetErr e))); auto; [cbn; lia|cbn; tauto|intros ? ?; discriminate|discriminate|left; cbn; lia].
  - destruct (t_addr t) as [a|e] eqn:Ha; [|same]. destruct (nth_error (s_locks s) l) as [[|]|]; try same. destruct (dget a (s_conn s)) as [c|] eqn:Ec.
    + apply (K_move _ _ _ i t (Drain1 n c)); auto; [rewrite Hp; cbn; lia|cbn; tauto| |discriminate|left; rewrite Hp; apply fresh_le]. intros m d [= <- <-]. exists a. split; [exact Ha|]. apply dget_In_pair. exact Ec.
    + apply (K_move _ _ _ i t (Dialing n l)); auto; [rewrite Hp; cbn; lia|cbn; tauto|intros ? ?; discriminate|discriminate|left; rewrite Hp; cbn; lia].
  - destruct (t_addr t) as [a|e] eqn:Ha; [|same]. cbv zeta. destruct (dsetdefault a _ _) as [d c'] eqn:Ed. 
    apply (K_move _ _ _ i t (Drain1 n c')); auto; [rewrite Hp; cbn; lia|cbn; tauto| |discriminate|left; rewrite Hp; apply fresh_le]. intros m x [= <- <-]. exists a. split; [exact Ha|]. cbn [goto set_tasks set_conn s_conn].
    unfold dsetdefault in Ed. match type of Ed with context [dget a ?q] => destruct (dget a q) as [v|] eqn:Eq end; injection Ed as <- <-; apply dget_In_pair; [exact Eq|apply dget_dset_same].
  - destruct (abandon_core i (rid_of (t_req t)) (set_lock l false s)) as ((p & A & B & B' & C & D & E) & F & G). apply (K_move _ _ _ i t p); auto; [lia|tauto|intros m d K; contradiction (D m d K)|left; lia].
  - destruct (t_addr t) as [a|e] eqn:Ha; [|same]. destruct (to_stream (t_req t)) as [bs|e] eqn:Es.
    + apply (K_write _ _ _ i t n c a bs); auto.
    + apply failed_core; auto; rewrite ?Hp; cbn; try lia; auto.
  - assert (S : core (DrainOk i) s (sent i (t_req t) s)).
    { unfold sent. destruct (dget (rid_of (t_req t)) (s_req s)) as [ev|]; [destruct (p_ptype (t_req t) =? PTYPE_ONEWAY)|].
      - apply (K_move _ _ _ i t (Done RetNone)); auto; [cbn; lia|cbn; tauto|intros ? ?; discriminate|discriminate|left; cbn; lia].
      - apply (K_move _ _ _ i t (WaitResp ev)); auto; [cbn; lia|rewrite Hp; cbn; tauto|intros ? ?; discriminate|discriminate|left; cbn; lia].
      - apply (K_move _ _ _ i t (Done (RetErr KeyError))); auto; [cbn; lia|cbn; tauto|intros ? ?; discriminate|discriminate|left; cbn; lia]. }
    destruct (t_addr t); exact S.
  - destruct (t_addr t) as [a|e] eqn:Ha; [|same]. apply failed_core; auto; rewrite ?Hp; cbn; try lia; auto.
  - destruct (t_addr t) as [a|e] eqn:Ha; [|same]. apply failed_core; auto; rewrite ?Hp; cbn; try lia; auto.
  - destruct (nth_error (s_events s) ev) as [[|]|]; try same. destruct (dget (rid_of (t_req t)) (s_resp s)) as [p|].
    + apply (K_move _ _ _ i t (Done (RetPkg p))); auto; [cbn; lia|rewrite Hp; cbn; tauto|intros ? ?; discriminate|discriminate|left; cbn; lia].
    + apply (K_move _ _ _ i t (Done (RetErr KeyError))); auto; [cbn; lia|cbn; tauto|intros ? ?; discriminate|discriminate|left; cbn; lia].
  - apply (K_move _ _ _ i t (Done (RetErr CancelledError))); auto; [cbn; lia|cbn; tauto|intros ? ?; discriminate|discriminate|left; cbn; lia].
  - apply (K_move _ _ _ i t (Done (RetErr CancelledError))); auto; [cbn; lia|cbn; tauto|intros ? ?; discriminate|discriminate|left; cbn; lia].
  - apply (K_move _ _ _ i t (Done (RetErr CancelledError))); auto; [cbn; lia|cbn; tauto|intros ? ?; discriminate|discriminate|left; cbn; lia].
  - apply (K_move _ _ _ i t (Done (RetErr CancelledError))); auto; [cbn; lia|cbn; tauto|intros ? ?; discriminate|discriminate|left; cbn; lia].
  - apply (K_move _ _ _ i t (Done (RetErr CancelledError))); auto; [cbn; lia|cbn; tauto|intros ? ?; discriminate|discriminate|left; cbn; lia].
  - apply (K_move _ _ _ i t (Done (RetErr CancelledError))); auto; [cbn; lia|cbn; tauto|intros ? ?; discriminate|discriminate|left; cbn; lia].
  - destruct (read_core c s) as (A & B). apply K_same; assumption.
  - destruct (s_timer s); try same. destruct (heartbeat_new_request rid) as [p|]; [|same]. apply (K_call _ _ _ {| t_req := p; t_addr := Ok a; t_pc := Start |}); reflexivity.
  - destruct (s_timer s) as [|a|a i|]; try same. destruct (nth_error (s_tasks s) i) as [t|]; [|same]. destruct (t_pc t) as [| | | | | |[]]; same.
Qed.

(** ** Connections and addresses *)
Definition addrs (s : st) : list Z := map k_addr (s_links s).
Definition conns_ok (s : st) : Prop := forall a c, In (a, c) (s_conn s) -> nth_error (addrs s) c = Some a.
Definition cstep (s s' : st) : Prop := (exists x, addrs s' = addrs s ++ x) /\ forall a c, In (a, c) (s_conn s') -> In (a, c) (s_conn s) \/ nth_error (addrs s') c = Some a.
Lemma cstep_same s s' : addrs s' = addrs s -> s_conn s' = s_conn s -> cstep s s'.
Proof. intros A B. split; [exists []; rewrite A, app_nil_r; reflexivity|]. rewrite B. auto. Qed.
Lemma cstep_trans s1 s2 s3 : cstep s1 s2 -> cstep s2 s3 -> cstep s1 s3.
Proof.
  intros ((x & A) & B) ((y & C) & D). split; [exists (x ++ y); rewrite C, A, app_assoc; reflexivity|]. intros a c H. destruct (D a c H) as [K|K]; [|auto]. destruct (B a c K) as [L|L]; [auto|]. right. rewrite C, nth_error_app1; [exact L|]. apply nth_error_Some. congruence.
Qed.
Ltac csame := apply cstep_same; reflexivity.
Lemma cstep_abandon i rid s : cstep s (abandon i rid s).
Proof. unfold abandon. destruct (dmem rid (s_req s)); csame. Qed.
Lemma cstep_enter i rid a n s : cstep s (enter_send i rid a n s).
Proof. unfold enter_send. destruct n; [apply cstep_abandon|]. destruct (dget a (s_conn s)); [csame|]. destruct (dget a (s_dial s)); csame. Qed.
Lemma cstep_failed i rid a n c s : cstep s (send_failed i rid a n c s).
Proof.
  unfold send_failed. assert (C1 : cstep s (cancel_reader c s)) by (apply cstep_same; [unfold addrs; cbn; apply map_upd; reflexivity|reflexivity]).
  destruct (dmem a (s_conn (cancel_reader c s))); [|eapply cstep_trans; [exact C1|apply cstep_abandon]].
  assert (C2 : cstep s (set_conn (cancel_reader c s) (ddel a (s_conn (cancel_reader c s))))).
  { eapply cstep_trans; [exact C1|]. split; [exists []; rewrite app_nil_r; reflexivity|]. cbn. intros b d H. left. eapply In_ddel. exact H. }
  match goal with |- context [dmem a ?d] => destruct (dmem a d) end; [|eapply cstep_trans; [exact C2|apply cstep_abandon]].
  eapply cstep_trans; [exact C2|]. eapply cstep_trans; [|apply cstep_enter]. csame.
Qed.
Lemma cstep_read c s : cstep s (read c s).
Proof.
  unfold read. destruct (nth_error (s_links s) c) as [k|] eqn:Hk; [|csame].
  assert (L : forall k', k_addr k' = k_addr k -> cstep s (set_link c k' s)).
  { intros k' E. apply cstep_same; [|reflexivity]. unfold addrs. cbn. apply (map_upd_const _ _ _ k); assumption. }
  destruct (k_rd k) as [| |fixed h n|]; try csame.
  - apply L. reflexivity.
  - destruct (k_cancel k || k_exn k); [apply L; reflexivity|]. destruct (bolt_header_size BoltResponse <=? len (k_buf k)); [cbv zeta; destruct (bolt_header_from_stream BoltResponse _); apply L; reflexivity|].
    destruct (k_eof k); [apply L; reflexivity|csame].
  - destruct (k_cancel k || k_exn k); [apply L; reflexivity|]. destruct (n <=? len (k_buf k)); [|destruct (k_eof k); [apply L; reflexivity|csame]].
    eapply cstep_trans; [apply (L (rd_take k n RdHead [fixed ++ py_take n (k_buf k)])); reflexivity|]. apply cstep_same; [unfold addrs; rewrite links_process; reflexivity|].
    unfold process. destruct (bolt_content_from_stream BoltResponse _ h) as [p|]; [|reflexivity]. unfold deliver, wake. cbv zeta.
    repeat match goal with |- context [if ?b then _ else _] => destruct b end; cbn [s_req set_resp]; match goal with |- context [dget ?k ?d] => destruct (dget k d) end; reflexivity.
Qed.
Lemma step_conns o s : cstep s (run_step o s).
Proof.
  destruct o as [r ad|i|i|i|i|i|i|i|i|c bs|c|c|c|rid|]; cbn [run_step]; try csame;
    try (destruct (nth_error (s_tasks s) i) as [t|] eqn:Ht; [|csame]; destruct (t_pc t) as [|n l|n l|n c|n c|ev|x] eqn:Hp; try csame).
  - destruct (t_addr t) as [a|e]; [|csame]. cbv zeta. eapply cstep_trans; [|apply cstep_enter]. csame.
  - destruct (t_addr t) as [a|e]; [|csame]. destruct (nth_error (s_locks s) l) as [[|]|]; try csame. destruct (dget a (s_conn s)); csame.
  - destruct (t_addr t) as [a|e]; [|csame]. cbv zeta. destruct (dsetdefault a _ _) as [d c'] eqn:Ed. cbn [s_conn set_lock set_dial set_links] in Ed.
    assert (A : addrs (goto i (Drain1 n c') (set_conn (set_lock l false (set_links s (s_links s ++ [new_link a]))) d)) = addrs s ++ [a]) by (unfold addrs; cbn; rewrite map_app; reflexivity).
    split; [exists [a]; exact A|]. rewrite A. cbn [s_conn goto set_tasks set_conn]. intros b x H. unfold dsetdefault in Ed. destruct (dget a (s_conn s)); injection Ed as <- <-; [auto|].
    apply In_dset_inv in H as [(-> & ->)|H]; [right|auto]. unfold addrs. rewrite nth_error_app2; rewrite map_length; [|lia]. rewrite Nat.sub_diag. reflexivity.
  - eapply cstep_trans; [|apply cstep_abandon]. csame.
  - destruct (t_addr t) as [a|e]; [|csame]. destruct (to_stream (t_req t)); [csame|apply cstep_failed].
  - assert (S : cstep s (sent i (t_req t) s)); [|destruct (t_addr t); exact S]. unfold sent. destruct (dget (rid_of (t_req t)) (s_req s)); [destruct (p_ptype (t_req t) =? PTYPE_ONEWAY)|]; csame.
  - destruct (t_addr t) as [a|e]; [|csame]. apply cstep_failed.
  - destruct (t_addr t) as [a|e]; [|csame]. apply cstep_failed.
  - destruct (nth_error (s_events s) ev) as [[|]|]; try csame. destruct (dget (rid_of (t_req t)) (s_resp s)); csame.
  - apply cstep_same; [apply map_upd|]; reflexivity.
  - apply cstep_same; [apply map_upd|]; reflexivity.
  - apply cstep_same; [apply map_upd|]; reflexivity.
  - apply cstep_read.
  - destruct (s_timer s); csame.
  - destruct (s_timer s) as [|a|a i|]; try csame. destruct (nth_error (s_tasks s) i) as [t|]; [|csame]. destruct (t_pc t) as [| | | | | |[]]; csame.
Qed.
Lemma conns_step s s' : cstep s s' -> conns_ok s -> conns_ok s'.
Proof. intros ((x & A) & B) C a c H. destruct (B a c H) as [K|K]; [|exact K]. rewrite A, nth_error_app1; [apply C; exact K|]. apply nth_error_Some. rewrite (C a c K). discriminate. Qed.
Lemma addrs_keep s s' c a : cstep s s' -> nth_error (addrs s) c = Some a -> nth_error (addrs s') c = Some a.
Proof. intros ((x & A) & _) H. rewrite A, nth_error_app1; [exact H|]. apply nth_error_Some. congruence. Qed.

(** ** The invariant *)
Definition fails (i : nat) (l : list step) : nat := List.length (filter (fun o => match o with DrainFail j => Nat.eqb j i | _ => false end) l).
Record task_ok (s : st) (f : nat) (snd : list (nat * bytes)) (tk : task) : Prop := {
  o_three : (List.length snd + left_of (t_pc tk) <= 3)%nat;
  o_fails : (List.length snd + fresh_of (t_pc tk) <= 1 + f)%nat;
  o_past : past (t_pc tk) -> snd <> [];
  o_here : forall n c, t_pc tk = Drain1 n c -> exists a, t_addr tk = Ok a /\ nth_error (addrs s) c = Some a;
  o_sent : forall c bs, In (c, bs) snd -> to_stream (t_req tk) = Ok bs /\ exists a, t_addr tk = Ok a /\ nth_error (addrs s) c = Some a }.
Record wr_ok (t : timer) (l : list step) : Prop := {
  w_conns : conns_ok (run t l);
  w_tasks : forall i tk, nth_error (s_tasks (run t l)) i = Some tk -> task_ok (run t l) (fails i l) (sends i (init t) l) tk;
  w_none : forall i, nth_error (s_tasks (run t l)) i = None -> sends i (init t) l = [];
  w_all : forall x, In x (s_written (run t l)) <-> exists i, In x (sends i (init t) l) }.
Lemma fails_app i l o : (fails i l <= fails i (l ++ [o]))%nat.
Proof. unfold fails. rewrite filter_app, app_length. lia. Qed.
Lemma task_ok_step s s' f f' snd tk : cstep s s' -> (f <= f')%nat -> task_ok s f snd tk -> task_ok s' f' snd tk.
Proof.
  intros C F [A B D E G]. constructor; auto; [lia| |].
  - intros n c H. destruct (E n c H) as (a & X & Y). exists a. split; [exact X|]. eapply addrs_keep; eauto.
  - intros c bs H. destruct (G c bs H) as (T & a & X & Y). split; [exact T|]. exists a. split; [exact X|]. eapply addrs_keep; eauto.
Qed.
Lemma writes_same i o s : s_written (run_step o s) = s_written s -> writes i o s = [].
Proof. intros H. unfold writes. destruct o; try reflexivity. destruct (Nat.eqb i0 i); [|reflexivity]. rewrite H, skipn_all. reflexivity. Qed.
Lemma wr_step t l o : wr_ok t l -> wr_ok t (l ++ [o]).
Proof.
  intros [WC WT WN WA]. pose proof (step_conns o (run t l)) as C. pose proof (step_core o (run t l)) as K.
  assert (ER : run t (l ++ [o]) = run_step o (run t l)) by (rewrite !run_from, from_app; reflexivity).
  assert (ES : forall i, sends i (init t) (l ++ [o]) = sends i (init t) l ++ writes i o (run t l)) by (intros i; rewrite sends_app; cbn [sends]; rewrite app_nil_r; reflexivity).
  assert (NW : s_written (run_step o (run t l)) = s_written (run t l) -> forall i, sends i (init t) (l ++ [o]) = sends i (init t) l) by (intros H i; rewrite ES, writes_same by exact H; apply app_nil_r).
  assert (CC : conns_ok (run_step o (run t l))) by (eapply conns_step; eauto).
  destruct K as [T W|tk0 P T W|j tk0 p Hj T W Lf Ps AC N2 Fr|j tk0 n c a bs -> Hj Ha Hp Hs T W].
  - constructor; rewrite ?ER; [exact CC| | |].
    + intros i tk H. rewrite T in H. rewrite (NW W). eapply task_ok_step; [exact C|apply fails_app|]. auto.
    + intros i H. rewrite T in H. rewrite (NW W). auto.
    + intros x. rewrite W. rewrite WA. split; intros (i & H); exists i; rewrite (NW W) in *; auto.
  - constructor; rewrite ?ER; [exact CC| | |].
    + intros i tk H. rewrite T in H. rewrite (NW W). apply nth_app in H as [H|(-> & ->)]; [eapply task_ok_step; [exact C|apply fails_app|]; auto|].
      rewrite WN by (apply nth_error_None; lia). constructor; try rewrite P; cbn; try lia; try tauto; try discriminate; try (intros ? ? []); intros; congruence.
    + intros i H. rewrite T in H. rewrite (NW W). apply WN. apply nth_error_None. apply nth_error_None in H. rewrite app_length in H. cbn in H. lia.
    + intros x. rewrite W. rewrite WA. split; intros (i & H); exists i; rewrite (NW W) in *; auto.
  - constructor; rewrite ?ER; [exact CC| | |].
    + intros i tk H. rewrite T in H. rewrite (NW W). apply upd_get in H as [(N & H)|(-> & y & H & ->)]; [eapply task_ok_step; [exact C|apply fails_app|]; auto|].
      assert (y = tk0) by congruence. subst y. destruct (task_ok_step _ _ _ _ _ _ C (fails_app i l o) (WT _ _ Hj)) as [A B D E G]. constructor; cbn [at_pc t_pc t_addr t_req]; auto.
      * lia.
      * destruct Fr as [Fr| ->]; [lia|]. pose proof (o_fails _ _ _ _ (WT _ _ Hj)). unfold fails in *. rewrite filter_app, app_length. cbn. rewrite Nat.eqb_refl. cbn. pose proof (fresh_le p). lia.
      * intros m d Hd. destruct (AC m d Hd) as (a & X & Y). exists a. split; [exact X|]. apply CC. exact Y.
    + intros i H. rewrite T in H. rewrite (NW W). apply WN. apply nth_error_None. apply nth_error_None in H. rewrite upd_length in H. exact H.
    + intros x. rewrite W. rewrite WA. split; intros (i & H); exists i; rewrite (NW W) in *; auto.
  - assert (EW : forall i, writes i (DrainOk j) (run t l) = if Nat.eqb j i then [(c, bs)] else []).
    { intros i. cbn [writes]. destruct (Nat.eqb j i); [|reflexivity]. rewrite W, skipn_app, skipn_all, Nat.sub_diag. reflexivity. }
    constructor; rewrite ?ER; [exact CC| | |].
    + intros i tk H. rewrite T in H. rewrite ES, EW. apply upd_get in H as [(N & H)|(-> & y & H & ->)].
      * destruct (Nat.eqb_spec j i); [lia|]. rewrite app_nil_r. eapply task_ok_step; [exact C|apply fails_app|]. auto.
      * rewrite Nat.eqb_refl. assert (y = tk0) by congruence. subst y. destruct (task_ok_step _ _ _ _ _ _ C (fails_app i l (DrainOk i)) (WT _ _ Hj)) as [A B D E G]. rewrite Hp in *. cbn [left_of fresh_of] in *.
        constructor; cbn [at_pc t_pc t_addr t_req left_of fresh_of]; rewrite ?app_length; cbn [List.length]; try lia; try discriminate.
        -- intros _ X. apply app_eq_nil in X as (_ & X). discriminate.
        -- intros d bs' X. apply in_app_iff in X as [X|[X|[]]]; [auto|]. injection X as <- <-. split; [exact Hs|]. destruct (E n c eq_refl) as (b & Y & Z). exists b. auto.
    + intros i H. rewrite T in H. apply nth_error_None in H. rewrite upd_length in H. rewrite ES, EW, WN by (apply nth_error_None; exact H). destruct (Nat.eqb_spec j i) as [->|]; [|reflexivity]. apply nth_error_None in H. congruence.
    + intros x. rewrite W, in_app_iff, WA. split.
      * intros [(i & H)|[<-|[]]]; [exists i|exists j]; rewrite ES, in_app_iff; [auto|]. right. rewrite EW, Nat.eqb_refl. left. reflexivity.
      * intros (i & H). rewrite ES, in_app_iff, EW in H. destruct H as [H|H]; [left; eauto|]. destruct (Nat.eqb j i); [|destruct H]. destruct H as [H|[]]. right. left. exact H.
Qed.
Lemma wr_run t l : wr_ok t l.
Proof.
  induction l as [|o l IH] using rev_ind; [|apply wr_step; exact IH]. constructor.
  - intros a c [].
  - intros i tk H. destruct i; discriminate.
  - reflexivity.
  - intros x. split; [intros []|intros (i & [])].
Qed.
Lemma addr_link s c a : nth_error (addrs s) c = Some a -> exists k, nth_error (s_links s) c = Some k /\ k_addr k = a.
Proof. unfold addrs. rewrite nth_error_map. destruct (nth_error (s_links s) c) as [k|]; [|discriminate]. intros [= H]. eauto. Qed.

(** Lemmas about the asyncio listener with many connections (M_Listener). *)
From Coq Require Import ZifyBool Logic.FinFun.
From Verif Require Import PyBase L_PyBase PyDict PyInt M_RpcId M_Trace S_Wire M_AioServer S_Server L_AioServer L_AioServer2 L_AioServer3 L_AioServer4 L_AioServer5 L_AioServer6 L_AioServer7 M_Listener S_Listener.
From Verif Require L_Rest1 L_Rest2 L_System1.
Import L_Rest1 (total, total_app).
Import L_Rest2 (total_upd).
Open Scope nat_scope.

(** ** The states of the calls on one connection *)
Definition jst (k : sst) : list jstate := map j_state (v_jobs k).
Inductive jmove (a : list jstate) : list jstate -> Prop :=
| JM_same : jmove a a
| JM_new : jmove a (a ++ [JQueued])
| JM_end j r : nth_error a j = Some JRunning -> jmove a (upd j (fun _ => JEnded r) a)
| JM_cancel j : nth_error a j = Some JQueued -> jmove a (upd j (fun _ => JCancelled) a)
| JM_run j : nth_error a j = Some JQueued -> jmove a (upd j (fun _ => JRunning) a).
Lemma jst_nth k j b : nth_error (v_jobs k) j = Some b -> nth_error (jst k) j = Some (j_state b).
Proof. intros H. unfold jst. rewrite nth_error_map, H. reflexivity. Qed.
Lemma map_upd_const {A B} (g : A -> B) f y l : (forall x, g (f x) = y) -> forall i, map g (upd i f l) = upd i (fun _ => y) (map g l).
Proof. intros E. induction l as [|x l IH]; intros [|i]; cbn; try reflexivity; [now rewrite E|now rewrite IH]. Qed.
Lemma jst_set j x k : jst (set_jstate j x k) = upd j (fun _ => x) (jst k).
Proof. unfold jst. rewrite set_jstate_jobs. apply map_upd_const. reflexivity. Qed.
Lemma jst_run U j k : jst (srun_step U (JobRun j) k) = match nth_error (jst k) j with Some JQueued => upd j (fun _ => JRunning) (jst k) | _ => jst k end.
Proof. cbn [srun_step]. unfold jst at 2. rewrite nth_error_map. destruct (nth_error (v_jobs k) j) as [b|]; [|reflexivity]. cbn [option_map]. destruct (j_state b); try reflexivity. apply jst_set. Qed.
Lemma jst_end U j r k : jst (srun_step U (JobEnd j r) k) = match nth_error (jst k) j with Some JRunning => upd j (fun _ => JEnded r) (jst k) | _ => jst k end.
Proof. cbn [srun_step]. unfold jst at 2. rewrite nth_error_map. destruct (nth_error (v_jobs k) j) as [b|]; [|reflexivity]. cbn [option_map]. destruct (j_state b); try reflexivity. apply jst_set. Qed.
(** a step that is not one of a worker *)
Definition quiet (o : sstep) : Prop := match o with JobRun _ | JobEnd _ _ => False | _ => True end.
Inductive qmove (a : list jstate) : list jstate -> Prop :=
| QM_same : qmove a a
| QM_new : qmove a (a ++ [JQueued])
| QM_cancel j : nth_error a j = Some JQueued -> qmove a (upd j (fun _ => JCancelled) a).
Lemma jst_quiet U o k : good k -> quiet o -> qmove (jst k) (jst (srun_step U o k)).
Proof.
  intros ((I & T & _) & _) Q. pose proof (step_eff U o k I T) as E. remember (srun_step U o k) as s1 eqn:E1. clear E1.
  assert (Sm : forall x, v_jobs x = v_jobs k -> qmove (jst k) (jst x)) by (intros x Hx; unfold jst; rewrite Hx; apply QM_same).
  destruct E as [o|name sv|bs| | |s' E|ok s' E|o i s' E O|o s' E O]; try (apply Sm; reflexivity).
  - apply rstep_same in E as (_ & _ & _ & E & _). apply Sm. exact E.
  - apply deff_same in E as (_ & _ & _ & _ & _ & _ & _ & E & _). apply Sm. exact E.
  - inversion E as [i0 t q st bs tr H1 H2 H3 H4 H5|i0 t q e tr H1 H2 H3 H4|i0 t q sv m c tr fresh H1 H2 H3 H4 H5 H6 H7|i0 t q j b r p H1 H2 H3 H4 H5 H6|i0 t q j bs H1 H2 H3 H4 H5|i0 t bs H1 H2 H3|i0 t bs e H1 H2|i0 t p H1 H2 H3]; subst; try (apply Sm; reflexivity).
    + set (x := tgoto _ _ _). assert (Ex : jst x = jst k ++ [JQueued]) by (unfold jst, x; cbn [tgoto set_tasks set_jobs v_jobs]; rewrite map_app; reflexivity). rewrite Ex. apply QM_new.
    + set (x := tgoto _ _ _). assert (Ex : jst x = jst (expire_job j k)) by reflexivity. rewrite Ex. clear x Ex. unfold expire_job. destruct (nth_error (v_jobs k) j) as [b|] eqn:Nj; [|apply Sm; reflexivity].
      destruct (j_state b) eqn:Sj; try (apply Sm; reflexivity). apply jst_nth in Nj. rewrite Sj in Nj. rewrite jst_set. apply QM_cancel. exact Nj.
  - destruct O as (j & [->|(r & ->)]); destruct Q.
Qed.
Lemma jst_reg U name sv k : jst (srun_step U (Register name sv) k) = jst k. Proof. reflexivity. Qed.

(** ** Numbers of running calls *)
Definition runs (x : jstate) : nat := match x with JRunning => 1 | _ => 0 end.
Definition load (k : sst) : nat := total runs (jst k).
Lemma workers_load s : workers s = total load (n_conns s).
Proof.
  unfold workers, total. f_equal. apply map_ext. intros k. unfold load, jst, total. induction (v_jobs k) as [|b l IH]; [reflexivity|]. cbn [filter map]. unfold is_running at 1. unfold list_sum in *. cbn [fold_right].
  destruct (j_state b); cbn [List.length runs]; rewrite IH; reflexivity.
Qed.
Lemma runs_le x : runs x <= 1. Proof. destruct x; cbn; lia. Qed.
Lemma load_quiet a b : qmove a b -> total runs b = total runs a.
Proof.
  destruct 1 as [| |j H]; [reflexivity|rewrite total_app; cbn; lia|]. pose proof (total_upd runs (fun _ => JCancelled) a j _ H) as E. cbn beta in E. cbn [runs] in E. lia.
Qed.

(** ** A call *)
Lemma call_jst s c j : call_state s c j = match nth_error (n_conns s) c with Some k => nth_error (jst k) j | None => None end.
Proof. unfold call_state. destruct (nth_error (n_conns s) c); [unfold jst; rewrite nth_error_map|]; reflexivity. Qed.

(** ** The invariant *)
Record lok (s : lst) : Prop := {
  lk_good : Forall (fun k => good k /\ v_reg k = n_reg s) (n_conns s);
  lk_bound : workers s <= MAX_WORKER;
  lk_queued : forall c j, call_state s c j = Some JQueued -> In (c, j) (n_queue s);
  lk_exist : forall c j, In (c, j) (n_queue s) -> call_state s c j <> None
}.
Lemma lok_init reg : lok (linit reg).
Proof. constructor; cbn; auto; [unfold workers; cbn; lia|intros [|c] j; discriminate]. Qed.

(** what a step of a connection does to the calls *)
Definition plain (o : sstep) : Prop := match o with Register _ _ | JobRun _ => False | _ => True end.
Lemma conn_ignored U c o s : ~ plain o -> lrun_step U (LConn c o) s = s.
Proof. destruct o; cbn; tauto. Qed.
Definition joined (c : nat) (k k' : sst) : list (nat * nat) := map (pair c) (seq (List.length (v_jobs k)) (List.length (v_jobs k') - List.length (v_jobs k))).
Lemma conn_step U c o s k : plain o -> nth_error (n_conns s) c = Some k ->
  lrun_step U (LConn c o) s = {| n_reg := n_reg s; n_conns := upd c (fun _ => srun_step U o k) (n_conns s); n_queue := n_queue s ++ joined c k (srun_step U o k) |}.
Proof. intros P H. destruct o; cbn in P; try contradiction; cbn [lrun_step]; rewrite H; reflexivity. Qed.
Lemma conn_none U c o s : nth_error (n_conns s) c = None -> lrun_step U (LConn c o) s = s.
Proof. intros H. destruct o; cbn [lrun_step]; rewrite ?H; reflexivity. Qed.
Lemma jst_length k : List.length (jst k) = List.length (v_jobs k). Proof. apply map_length. Qed.

(** one step of a connection, seen from its calls *)
Inductive cmove (a : list jstate) : list jstate -> Prop :=
| CM_quiet b : qmove a b -> cmove a b
| CM_end j r : nth_error a j = Some JRunning -> cmove a (upd j (fun _ => JEnded r) a).
Lemma jst_plain U o k : good k -> plain o -> cmove (jst k) (jst (srun_step U o k)).
Proof.
  intros G P. destruct o as [name sv|bs| | | |ok|i fresh|i ok|j|j r|i|i]; try contradiction; try (apply CM_quiet; apply jst_quiet; [exact G|exact Logic.I]).
  rewrite jst_end. destruct (nth_error (jst k) j) as [[]|] eqn:E; try (apply CM_quiet, QM_same). apply CM_end. exact E.
Qed.
Lemma cmove_length a b : cmove a b -> List.length a <= List.length b.
Proof. destruct 1 as [b [| |j H]|j r H]; rewrite ?length_upd, ?app_length; lia. Qed.
Lemma cmove_load a b : cmove a b -> total runs b <= total runs a.
Proof. destruct 1 as [b Q|j r H]; [rewrite (load_quiet _ _ Q); lia|]. pose proof (total_upd runs (fun _ => JEnded r) a j _ H) as E. cbn beta in E. cbn [runs] in E. lia. Qed.
(** an old call keeps its state, ends or is cancelled; a new one is queued *)
Lemma cmove_nth a b j : cmove a b ->
  match nth_error a j with
  | Some x => nth_error b j = Some x \/ (x = JRunning /\ exists r, nth_error b j = Some (JEnded r)) \/ (x = JQueued /\ nth_error b j = Some JCancelled)
  | None => nth_error b j = None \/ (j = List.length a /\ nth_error b j = Some JQueued)
  end.
Proof.
  destruct 1 as [b [| |j0 H]|j0 r H].
  - destruct (nth_error a j); auto.
  - destruct (nth_error a j) as [x|] eqn:E; [left; rewrite nth_error_app1 by (apply nth_error_Some; congruence); exact E|]. apply nth_error_None in E. rewrite nth_error_app2 by exact E.
    destruct (Nat.eq_dec j (List.length a)) as [->|N]; [right; rewrite Nat.sub_diag; auto|left; apply nth_error_None; cbn; lia].
  - destruct (Nat.eq_dec j0 j) as [<-|N]; [rewrite H, (nth_upd_same _ _ _ _ H); auto|rewrite nth_upd_other by exact N; destruct (nth_error a j); auto].
  - destruct (Nat.eq_dec j0 j) as [<-|N]; [rewrite H, (nth_upd_same _ _ _ _ H); eauto 6|rewrite nth_upd_other by exact N; destruct (nth_error a j); auto].
Qed.

(** ** One step of the listener *)
Lemma joined_in c k k' c1 j : In (c1, j) (joined c k k') <-> c1 = c /\ List.length (v_jobs k) <= j < List.length (v_jobs k').
Proof.
  unfold joined. rewrite in_map_iff. split.
  - intros (x & E & H). injection E as <- <-. apply in_seq in H. lia.
  - intros (-> & H). exists j. split; [reflexivity|]. apply in_seq. lia.
Qed.
Lemma nth_good s c k : lok s -> nth_error (n_conns s) c = Some k -> good k /\ v_reg k = n_reg s.
Proof. intros L H. exact (proj1 (Forall_forall _ _) (lk_good s L) k (nth_error_In _ _ H)). Qed.
Lemma take_step U s c j q k : workers s < MAX_WORKER -> n_queue s = (c, j) :: q -> nth_error (n_conns s) c = Some k ->
  lrun_step U LTake s = {| n_reg := n_reg s; n_conns := upd c (srun_step U (JobRun j)) (n_conns s); n_queue := q |}.
Proof. intros W Q _. cbn [lrun_step]. destruct (Nat.ltb_spec (workers s) MAX_WORKER); [|lia]. rewrite Q. reflexivity. Qed.
Lemma take_full U s : MAX_WORKER <= workers s -> lrun_step U LTake s = s.
Proof. intros W. cbn [lrun_step]. destruct (Nat.ltb_spec (workers s) MAX_WORKER); [lia|reflexivity]. Qed.
Lemma take_empty U s : n_queue s = [] -> lrun_step U LTake s = s.
Proof. intros Q. cbn [lrun_step]. rewrite Q. destruct (Nat.ltb _ _); reflexivity. Qed.

Definition moved (s : lst) (o : lstep) (c j : nat) (x y : option jstate) : Prop :=
  y = x \/ (x = Some JRunning /\ exists r, y = Some (JEnded r) /\ o = LConn c (JobEnd j r)) \/ (x = Some JQueued /\ y = Some JCancelled) \/
  (x = Some JQueued /\ y = Some JRunning /\ o = LTake /\ workers s < MAX_WORKER /\ exists q, n_queue s = (c, j) :: q) \/ (x = None /\ y = Some JQueued).
Lemma step_call U o s c j : lok s -> moved s o c j (call_state s c j) (call_state (lrun_step U o s) c j).
Proof.
  intros L. assert (Sm : forall s', s' = s -> moved s o c j (call_state s c j) (call_state s' c j)) by (intros s' ->; left; reflexivity).
  destruct o as [tr|name sv|c0 o0|].
  - left. rewrite !call_jst. cbn [lrun_step n_conns]. destruct (nth_error (n_conns s) c) as [k|] eqn:E; [rewrite nth_error_app1 by (apply nth_error_Some; congruence); now rewrite E|].
    apply nth_error_None in E. rewrite nth_error_app2 by exact E. destruct (c - List.length (n_conns s)) as [|x]; cbn; [destruct j|destruct x]; reflexivity.
  - left. rewrite !call_jst. cbn [lrun_step n_conns]. rewrite nth_error_map. destruct (nth_error (n_conns s) c) as [k|]; reflexivity.
  - destruct (nth_error (n_conns s) c0) as [k|] eqn:E; [|apply Sm, conn_none; exact E].
    assert (P : plain o0 \/ ~ plain o0) by (destruct o0; cbn; tauto). destruct P as [P|P]; [|apply Sm, conn_ignored; exact P].
    rewrite (conn_step U c0 o0 s k P E). rewrite !call_jst. cbn [n_conns]. destruct (Nat.eq_dec c0 c) as [<-|N]; [|left; rewrite nth_upd_other by exact N; reflexivity].
    rewrite (nth_upd_same _ _ _ _ E), E. destruct (nth_good _ _ _ L E) as (G & _).
    assert (Q : quiet o0 \/ exists j0 r, o0 = JobEnd j0 r) by (destruct o0; cbn in *; try tauto; eauto).
    destruct Q as [Q|(j0 & r & ->)].
    + pose proof (cmove_nth _ _ j (CM_quiet _ _ (jst_quiet U o0 k G Q))) as M. destruct (nth_error (jst k) j) as [x|] eqn:Ej.
      * destruct M as [M|[(-> & r & M)|(-> & M)]]; [left; exact M| |unfold moved; auto 6]. exfalso. destruct (jst_quiet U o0 k G Q) as [| |j1 H]; [congruence|rewrite nth_error_app1 in M by (apply nth_error_Some; congruence); congruence|].
        destruct (Nat.eq_dec j1 j) as [<-|N1]; [congruence|rewrite nth_upd_other in M by exact N1; congruence].
      * destruct M as [M|(_ & M)]; [left; exact M|unfold moved; auto 8].
    + rewrite jst_end. destruct (nth_error (jst k) j0) as [[]|] eqn:E0; try (left; reflexivity). destruct (Nat.eq_dec j0 j) as [<-|N1].
      * right. left. rewrite E0, (nth_upd_same _ _ _ _ E0). eauto.
      * left. rewrite nth_upd_other by exact N1. reflexivity.
  - destruct (Nat.lt_ge_cases (workers s) MAX_WORKER) as [W|W]; [|apply Sm, take_full; exact W]. destruct (n_queue s) as [|(c0, j0) q] eqn:Q; [apply Sm, take_empty; exact Q|].
    assert (X : call_state s c0 j0 <> None) by (apply (lk_exist s L); rewrite Q; left; reflexivity). rewrite call_jst in X. destruct (nth_error (n_conns s) c0) as [k|] eqn:E; [|congruence].
    rewrite (take_step U s c0 j0 q k W Q E), !call_jst. cbn [n_conns]. destruct (Nat.eq_dec c0 c) as [<-|N]; [|left; rewrite nth_upd_other by exact N; reflexivity].
    rewrite (nth_upd_same _ _ _ _ E), E, jst_run. destruct (nth_error (jst k) j0) as [[]|] eqn:E0; try (left; reflexivity). destruct (Nat.eq_dec j0 j) as [<-|N1].
    + right. right. right. left. rewrite E0, (nth_upd_same _ _ _ _ E0). eauto 8.
    + left. rewrite nth_upd_other by exact N1. reflexivity.
Qed.
(** the work queue *)
Lemma step_queue U o s : lok s ->
  (exists new, n_queue (lrun_step U o s) = n_queue s ++ new /\ (forall c j, In (c, j) new -> call_state s c j = None) /\
     (forall c j, call_state s c j = None -> call_state (lrun_step U o s) c j = Some JQueued -> In (c, j) new) /\ (forall c j, In (c, j) new -> call_state (lrun_step U o s) c j <> None)) \/
  (o = LTake /\ workers s < MAX_WORKER /\ exists c j, n_queue s = (c, j) :: n_queue (lrun_step U o s) /\ call_state (lrun_step U o s) c j <> Some JQueued /\
     forall c j, call_state s c j = None -> call_state (lrun_step U o s) c j = None).
Proof.
  intros L. assert (Sm : n_queue (lrun_step U o s) = n_queue s -> (forall c j, call_state s c j = None -> call_state (lrun_step U o s) c j = None) ->
    exists new, n_queue (lrun_step U o s) = n_queue s ++ new /\ (forall c j, In (c, j) new -> call_state s c j = None) /\
     (forall c j, call_state s c j = None -> call_state (lrun_step U o s) c j = Some JQueued -> In (c, j) new) /\ (forall c j, In (c, j) new -> call_state (lrun_step U o s) c j <> None)).
  { intros H1 H2. exists []. rewrite app_nil_r. split; [exact H1|]. split; [intros ? ? []|]. split; [intros c j N Q; rewrite (H2 _ _ N) in Q; discriminate|intros ? ? []]. }
  destruct o as [tr|name sv|c0 o0|].
  - left. apply Sm; [reflexivity|]. intros c j N. destruct (step_call U (LAccept tr) s c j L) as [E|[(E & _)|[(E & _)|[(E & _)|(_ & E)]]]]; try congruence. exfalso. revert N E. rewrite !call_jst. cbn [lrun_step n_conns].
    destruct (nth_error (n_conns s) c) as [k|] eqn:E; [rewrite nth_error_app1 by (apply nth_error_Some; congruence); rewrite E; congruence|].
    apply nth_error_None in E. rewrite nth_error_app2 by exact E. destruct (c - List.length (n_conns s)) as [|x]; cbn; [destruct j|destruct x]; discriminate.
  - left. apply Sm; [reflexivity|]. intros c j. rewrite !call_jst. cbn [lrun_step n_conns]. rewrite nth_error_map. destruct (nth_error (n_conns s) c) as [k|]; auto.
  - left. destruct (nth_error (n_conns s) c0) as [k|] eqn:E; [|apply Sm; rewrite (conn_none U c0 o0 s E); auto].
    assert (P : plain o0 \/ ~ plain o0) by (destruct o0; cbn; tauto). destruct P as [P|P]; [|apply Sm; rewrite (conn_ignored U c0 o0 s P); auto].
    rewrite (conn_step U c0 o0 s k P E). destruct (nth_good _ _ _ L E) as (G & _). pose proof (jst_plain U o0 k G P) as M. exists (joined c0 k (srun_step U o0 k)). split; [reflexivity|]. split; [|split].
    + intros c j H. apply joined_in in H as (-> & H). rewrite call_jst, E. apply nth_error_None. rewrite jst_length. lia.
    + intros c j. rewrite !call_jst. cbn [n_conns]. destruct (Nat.eq_dec c0 c) as [<-|N]; [|rewrite nth_upd_other by exact N; congruence]. rewrite (nth_upd_same _ _ _ _ E), E. intros N1 N2. apply joined_in. split; [reflexivity|].
      apply nth_error_None in N1. assert (N3 : j < List.length (jst (srun_step U o0 k))) by (apply nth_error_Some; congruence). rewrite jst_length in *. lia.
    + intros c j H. apply joined_in in H as (-> & H). rewrite call_jst. cbn [n_conns]. rewrite (nth_upd_same _ _ _ _ E). apply nth_error_Some. rewrite jst_length. lia.
  - destruct (Nat.lt_ge_cases (workers s) MAX_WORKER) as [W|W]; [|left; apply Sm; rewrite (take_full U s W); auto]. destruct (n_queue s) as [|(c0, j0) q] eqn:Q; [left; apply Sm; rewrite (take_empty U s Q); auto|].
    right. split; [reflexivity|]. split; [exact W|]. exists c0, j0. assert (X : call_state s c0 j0 <> None) by (apply (lk_exist s L); rewrite Q; left; reflexivity). rewrite call_jst in X. destruct (nth_error (n_conns s) c0) as [k|] eqn:E; [|congruence].
    split; [rewrite (take_step U s c0 j0 q k W Q E); reflexivity|]. split.
    + rewrite (take_step U s c0 j0 q k W Q E), call_jst. cbn [n_conns]. rewrite (nth_upd_same _ _ _ _ E), jst_run. destruct (nth_error (jst k) j0) as [[]|] eqn:E0; try congruence. rewrite (nth_upd_same _ _ _ _ E0). discriminate.
    + intros c j N. destruct (step_call U LTake s c j L) as [E1|[(E1 & _)|[(E1 & _)|[(E1 & _)|(_ & E1)]]]]; try congruence. exfalso. revert N E1.
      rewrite (take_step U s c0 j0 q k W Q E), !call_jst. cbn [n_conns]. destruct (Nat.eq_dec c0 c) as [<-|N]; [|rewrite nth_upd_other by exact N; congruence].
      rewrite (nth_upd_same _ _ _ _ E), E, jst_run. destruct (nth_error (jst k) j0) as [[]|] eqn:E0; try congruence. destruct (Nat.eq_dec j0 j) as [<-|N1]; [congruence|rewrite nth_upd_other by exact N1; congruence].
Qed.
Lemma step_workers U o s : lok s -> workers (lrun_step U o s) <= workers s \/ (o = LTake /\ workers s < MAX_WORKER /\ workers (lrun_step U o s) <= S (workers s)).
Proof.
  intros L. rewrite !workers_load. destruct o as [tr|name sv|c0 o0|].
  - left. cbn [lrun_step n_conns]. rewrite total_app. cbn. lia.
  - left. cbn [lrun_step n_conns]. unfold total. rewrite map_map. apply Nat.eq_le_incl. f_equal.
  - left. destruct (nth_error (n_conns s) c0) as [k|] eqn:E; [|rewrite (conn_none U c0 o0 s E); auto].
    assert (P : plain o0 \/ ~ plain o0) by (destruct o0; cbn; tauto). destruct P as [P|P]; [|rewrite (conn_ignored U c0 o0 s P); auto].
    rewrite (conn_step U c0 o0 s k P E). destruct (nth_good _ _ _ L E) as (G & _). pose proof (cmove_load _ _ (jst_plain U o0 k G P)) as M. cbn [n_conns].
    pose proof (total_upd load (fun _ => srun_step U o0 k) (n_conns s) c0 k E) as T. cbn beta in T. unfold load in T at 2 4. lia.
  - destruct (Nat.lt_ge_cases (workers s) MAX_WORKER) as [W|W]; [|left; rewrite (take_full U s W); auto]. rewrite workers_load in W. right. split; [reflexivity|]. split; [exact W|].
    destruct (n_queue s) as [|(c0, j0) q] eqn:Q; [rewrite (take_empty U s Q); auto|].
    assert (X : call_state s c0 j0 <> None) by (apply (lk_exist s L); rewrite Q; left; reflexivity). rewrite call_jst in X. destruct (nth_error (n_conns s) c0) as [k|] eqn:E; [|congruence].
    rewrite (take_step U s c0 j0 q k) by (rewrite ?workers_load; assumption). cbn [n_conns]. pose proof (total_upd load (srun_step U (JobRun j0)) (n_conns s) c0 k E) as T. unfold load in T at 2 4. rewrite jst_run in T.
    destruct (nth_error (jst k) j0) as [[]|] eqn:E0; try lia. pose proof (total_upd runs (fun _ => JRunning) (jst k) j0 _ E0) as T2. cbn beta in T2. cbn [runs] in T2. lia.
Qed.
Lemma reg_plain U o k : good k -> (forall name sv, o <> Register name sv) -> v_reg (srun_step U o k) = v_reg k.
Proof.
  intros ((I & T & _) & _) N. pose proof (step_eff U o k I T) as E. remember (srun_step U o k) as s1 eqn:E1. clear E1.
  destruct E as [o|name sv|bs| | |s' E|ok s' E|o i s' E O|o s' E O]; try reflexivity.
  - destruct (N name sv eq_refl).
  - apply rstep_same in E as (_ & _ & E & _). exact E.
  - apply deff_same in E as (_ & _ & _ & _ & _ & _ & _ & _ & E). exact E.
  - apply teff_same in E as (_ & _ & E). exact E.
  - apply jeff_same in E as (_ & _ & E & _). exact E.
Qed.
Lemma Forall_upd {A} (P : A -> Prop) f l : forall i, (forall x, nth_error l i = Some x -> P (f x)) -> Forall P l -> Forall P (upd i f l).
Proof. induction l as [|x l IH]; intros [|i] H F; cbn; inversion F; subst; constructor; auto. Qed.
Lemma good_conns U o s : lok s -> Forall (fun k => good k /\ v_reg k = n_reg (lrun_step U o s)) (n_conns (lrun_step U o s)).
Proof.
  intros L. pose proof (lk_good s L) as F. destruct o as [tr|name sv|c0 o0|].
  - cbn [lrun_step n_conns n_reg]. apply Forall_app. split; [exact F|]. constructor; [|constructor]. split; [apply good_init|reflexivity].
  - cbn [lrun_step n_conns n_reg]. apply Forall_map. revert F. apply Forall_impl. intros k (G & R). split; [apply good_step; exact G|]. cbn [srun_step set_reg v_reg]. now rewrite R.
  - destruct (nth_error (n_conns s) c0) as [k|] eqn:E; [|rewrite (conn_none U c0 o0 s E); exact F].
    assert (P : plain o0 \/ ~ plain o0) by (destruct o0; cbn; tauto). destruct P as [P|P]; [|rewrite (conn_ignored U c0 o0 s P); exact F].
    rewrite (conn_step U c0 o0 s k P E). destruct (nth_good _ _ _ L E) as (G & R). cbn [n_conns n_reg]. apply Forall_upd; [|exact F]. intros _ _. split; [apply good_step; exact G|]. rewrite reg_plain; [exact R|exact G|]. destruct o0; try discriminate. destruct P.
  - destruct (Nat.lt_ge_cases (workers s) MAX_WORKER) as [W|W]; [|rewrite (take_full U s W); exact F]. destruct (n_queue s) as [|(c0, j0) q] eqn:Q; [rewrite (take_empty U s Q); exact F|].
    cbn [lrun_step]. destruct (Nat.ltb_spec (workers s) MAX_WORKER); [|lia]. rewrite Q. cbn [on_conn n_conns n_reg]. apply Forall_upd; [|exact F]. intros k E. destruct (nth_good _ _ _ L E) as (G & R). split; [apply good_step; exact G|]. rewrite reg_plain; [exact R|exact G|discriminate].
Qed.
Lemma lok_step U o s : lok s -> lok (lrun_step U o s).
Proof.
  intros L. constructor.
  - apply good_conns. exact L.
  - pose proof (lk_bound s L). destruct (step_workers U o s L) as [W|(_ & W & W2)]; lia.
  - intros c j H. destruct (step_queue U o s L) as [(new & E & N1 & N2 & N3)|(-> & W & c0 & j0 & E & N1 & N2)].
    + rewrite E. apply in_or_app. destruct (call_state s c j) as [x|] eqn:Ex; [left|right; apply N2; assumption]. apply (lk_queued s L). destruct (step_call U o s c j L) as [M|[(M & r & M1 & _)|[(M & M1)|[(M & M1 & _)|(M & M1)]]]]; congruence.
    + assert (X : In (c, j) (n_queue s)).
      { apply (lk_queued s L). destruct (step_call U LTake s c j L) as [M|[(M & r & M1 & _)|[(M & M1)|[(M & M1 & _)|(M & M1)]]]]; try congruence. rewrite (N2 _ _ M) in H. discriminate. }
      rewrite E in X. destruct X as [X|X]; [|exact X]. injection X as -> ->. congruence.
  - intros c j H. assert (K : call_state s c j <> None -> call_state (lrun_step U o s) c j <> None).
    { intros K. destruct (step_call U o s c j L) as [M|[(M & r & M1 & _)|[(M & M1)|[(M & M1 & _)|(M & M1)]]]]; congruence. }
    destruct (step_queue U o s L) as [(new & E & N1 & N2 & N3)|(-> & W & c0 & j0 & E & N1 & N2)].
    + rewrite E in H. apply in_app_or in H as [H|H]; [apply K, (lk_exist s L), H|apply N3; exact H].
    + apply K, (lk_exist s L). rewrite E. right. exact H.
Qed.
Definition lfrom (U : tables) (s : lst) (l : list lstep) : lst := fold_left (fun s o => lrun_step U o s) l s.
Lemma lok_from U l : forall s, lok s -> lok (lfrom U s l).
Proof. induction l as [|o l IH]; intros s L; [exact L|]. apply IH, lok_step, L. Qed.
Lemma lok_run U reg l : lok (lrun U reg l).
Proof. apply (lok_from U l), lok_init. Qed.
Lemma lrun_app U reg l1 l2 : lrun U reg (l1 ++ l2) = lfrom U (lrun U reg l1) l2.
Proof. apply fold_left_app. Qed.
Lemma lfrom_app U s l1 l2 : lfrom U s (l1 ++ l2) = lfrom U (lfrom U s l1) l2.
Proof. apply fold_left_app. Qed.

(** ** How many methods run *)
Definition running_at (k : sst) (c : nat) : list (nat * nat) := map (pair c) (L_System1.positions (fun x => match x with JRunning => true | _ => false end) (jst k)).
Lemma total_runs a : total runs a = List.length (filter (fun x => match x with JRunning => true | _ => false end) a).
Proof. induction a as [|x a IH]; [reflexivity|]. unfold total, list_sum in *. cbn [map fold_right filter]. rewrite IH. destruct x; reflexivity. Qed.
Lemma load_positions k c : List.length (running_at k c) = load k.
Proof. unfold running_at, load. rewrite map_length, L_System1.positions_length, total_runs. reflexivity. Qed.
Definition all_running (s : lst) : list (nat * nat) := concat (map (fun c => match nth_error (n_conns s) c with Some k => running_at k c | None => [] end) (seq 0 (List.length (n_conns s)))).
Lemma all_running_gen (l : list sst) : List.length (concat (map (fun c => match nth_error l c with Some k => running_at k c | None => [] end) (seq 0 (List.length l)))) = total load l.
Proof.
  induction l as [|k l IH] using rev_ind; [reflexivity|]. rewrite app_length, seq_app, map_app, concat_app, app_length, total_app. cbn [List.length seq Nat.add map concat]. f_equal.
  - rewrite <- IH. f_equal. f_equal. apply map_ext_in. intros c H. apply in_seq in H. rewrite nth_error_app1 by lia. reflexivity.
  - rewrite nth_error_app2, Nat.sub_diag by lia. cbn [nth_error]. rewrite app_nil_r, load_positions. unfold total. cbn. lia.
Qed.
Lemma all_running_length s : List.length (all_running s) = workers s.
Proof. rewrite workers_load. apply all_running_gen. Qed.
Lemma all_running_in s c j : In (c, j) (all_running s) <-> call_state s c j = Some JRunning.
Proof.
  unfold all_running. rewrite in_concat, call_jst. split.
  - intros (x & Hx & H). apply in_map_iff in Hx as (c0 & <- & _). destruct (nth_error (n_conns s) c0) as [k|] eqn:E; [|destruct H]. unfold running_at in H. apply in_map_iff in H as (j0 & E0 & H). injection E0 as <- <-. rewrite E.
    unfold L_System1.positions in H. apply filter_In in H as (_ & H). destruct (nth_error (jst k) j0) as [[]|]; congruence.
  - intros H. destruct (nth_error (n_conns s) c) as [k|] eqn:E; [|discriminate]. exists (running_at k c). split.
    + apply in_map_iff. exists c. rewrite E. split; [reflexivity|]. apply in_seq. split; [lia|]. cbn. apply nth_error_Some. congruence.
    + unfold running_at. apply in_map. eapply L_System1.positions_in; [exact H|reflexivity].
Qed.
Lemma NoDup_concat_pairs (g : nat -> list nat) l : NoDup l -> (forall c, NoDup (g c)) -> NoDup (concat (map (fun c => map (pair c) (g c)) l)).
Proof.
  induction 1 as [|c l Nc _ IH]; intros G; [constructor|]. cbn [map concat]. assert (K : forall a b : list (nat * nat), NoDup a -> NoDup b -> (forall x, In x a -> ~ In x b) -> NoDup (a ++ b)).
  { intros a b Na. induction Na as [|y a Ny _ IHa]; intros Nb D; [exact Nb|]. cbn. constructor; [|apply IHa; [exact Nb|intros x Hx; apply D; right; exact Hx]]. intros K. apply in_app_or in K as [K|K]; [contradiction|]. exact (D y (or_introl eq_refl) K). }
  apply K; [|apply IH; exact G|].
  - apply Injective_map_NoDup; [intros a b E; congruence|apply G].
  - intros (c1, j) H1 H2. apply in_map_iff in H1 as (j1 & E1 & _). injection E1 as <- <-. apply in_concat in H2 as (x & Hx & H2). apply in_map_iff in Hx as (c2 & <- & H3). apply in_map_iff in H2 as (j2 & E2 & _). injection E2 as <- _. contradiction.
Qed.
Lemma all_running_nodup s : NoDup (all_running s).
Proof.
  unfold all_running. rewrite (map_ext _ (fun c => map (pair c) (match nth_error (n_conns s) c with Some k => L_System1.positions (fun x => match x with JRunning => true | _ => false end) (jst k) | None => [] end))).
  - apply NoDup_concat_pairs; [apply seq_NoDup|]. intros c. destruct (nth_error (n_conns s) c) as [k|]; [|constructor]. unfold L_System1.positions. apply NoDup_filter, seq_NoDup.
  - intros c. destruct (nth_error (n_conns s) c); reflexivity.
Qed.
Lemma executing_le s l : executing s l -> List.length l <= workers s.
Proof. intros (N & F). rewrite <- all_running_length. apply NoDup_incl_length; [exact N|]. intros (c, j) H. apply all_running_in. exact (proj1 (Forall_forall _ _) F (c, j) H). Qed.
Lemma executing_all s : executing s (all_running s).
Proof. split; [apply all_running_nodup|]. apply Forall_forall. intros (c, j) H. apply all_running_in. exact H. Qed.
Lemma bound U reg l x : executing (lrun U reg l) x -> List.length x <= 30.
Proof. intros H. apply executing_le in H. pose proof (lk_bound _ (lok_run U reg l)). unfold MAX_WORKER in *. lia. Qed.

(** ** Order *)
Lemma starts_take U o s c j : lok s -> starts_in U o s c j -> o = LTake /\ exists q, n_queue s = (c, j) :: q.
Proof. intros L (H1 & H2). destruct (step_call U o s c j L) as [M|[(M & r & M1 & _)|[(M & M1)|[(M & M1 & Eo & _ & Q)|(M & M1)]]]]; try congruence. auto. Qed.
Definition old (s1 : lst) (x : nat * nat) : Prop := call_state s1 (fst x) (snd x) <> None.
Lemma stays_known U o s c j : lok s -> call_state s c j <> None -> call_state (lrun_step U o s) c j <> None.
Proof. intros L K. destruct (step_call U o s c j L) as [M|[(M & r & M1 & _)|[(M & M1)|[(M & M1 & _)|(M & M1)]]]]; congruence. Qed.
Lemma split_queue U s1 l : lok s1 -> exists q1 q2, n_queue (lfrom U s1 l) = q1 ++ q2 /\ Forall (old s1) q1 /\ Forall (fun x => ~ old s1 x) q2 /\
  forall c j, call_state s1 c j <> None -> call_state (lfrom U s1 l) c j <> None.
Proof.
  intros L1. induction l as [|o l IH] using rev_ind.
  - exists (n_queue s1), []. rewrite app_nil_r. split; [reflexivity|]. split; [|split; [constructor|auto]]. apply Forall_forall. intros (c, j) H. apply (lk_exist s1 L1). exact H.
  - destruct IH as (q1 & q2 & Eq & F1 & F2 & Kn). rewrite lfrom_app. set (s := lfrom U s1 l) in *. assert (L : lok s) by (apply lok_from; exact L1). change (lfrom U s [o]) with (lrun_step U o s).
    assert (Kn' : forall c j, call_state s1 c j <> None -> call_state (lrun_step U o s) c j <> None) by (intros c j H; apply stays_known; auto).
    destruct (step_queue U o s L) as [(new & E & N1 & _)|(-> & W & c0 & j0 & E & _)].
    + exists q1, (q2 ++ new). rewrite E, Eq, app_assoc. split; [reflexivity|]. split; [exact F1|]. split; [|exact Kn']. apply Forall_app. split; [exact F2|]. apply Forall_forall. intros (c, j) H K. exact (Kn c j K (N1 c j H)).
    + rewrite Eq in E. destruct q1 as [|x q1].
      * exists [], (n_queue (lrun_step U LTake s)). split; [reflexivity|]. split; [constructor|]. split; [|exact Kn']. cbn in E. subst q2. inversion F2; assumption.
      * cbn in E. injection E as -> E. exists q1, q2. split; [symmetry; exact E|]. split; [inversion F1; assumption|]. split; [exact F2|exact Kn'].
Qed.
Lemma in_order U reg l1 l2 o cx jx cy jy : call_state (lrun U reg l1) cx jx <> None -> call_state (lrun U reg l1) cy jy = None ->
  starts_in U o (lrun U reg (l1 ++ l2)) cy jy -> call_state (lrun U reg (l1 ++ l2)) cx jx <> Some JQueued.
Proof.
  intros X Y St Q. rewrite lrun_app in *. pose proof (lok_run U reg l1) as L1. set (s1 := lrun U reg l1) in *. destruct (starts_take U o _ cy jy (lok_from U l2 s1 L1) St) as (_ & q & Eq).
  destruct (split_queue U s1 l2 L1) as (q1 & q2 & E & F1 & F2 & _). apply (lk_queued _ (lok_from U l2 s1 L1)) in Q. rewrite E in Eq, Q. destruct q1 as [|x q1].
  - cbn in Q. exact (proj1 (Forall_forall _ _) F2 _ Q X).
  - cbn in Eq. injection Eq as -> _. apply Forall_inv in F1. exact (F1 Y).
Qed.

(** ** No worker is idle while a call waits *)
Lemma takes_S U k s : takes U (S k) s = takes U k (lrun_step U LTake s). Proof. reflexivity. Qed.
Lemma lok_takes U k : forall s, lok s -> lok (takes U k s).
Proof. induction k as [|k IH]; intros s L; [exact L|]. rewrite takes_S. apply IH, lok_step, L. Qed.
Lemma take_queue U s x q : lok s -> workers s < MAX_WORKER -> n_queue s = x :: q -> n_queue (lrun_step U LTake s) = q.
Proof. intros L W Q. cbn [lrun_step]. destruct (Nat.ltb_spec (workers s) MAX_WORKER); [|lia]. rewrite Q. destruct x. reflexivity. Qed.
Lemma no_idle U q : forall s, lok s -> n_queue s = q -> exists k, (exists x, executing (takes U k s) x /\ List.length x = 30) \/ forall c j, call_state (takes U k s) c j <> Some JQueued.
Proof.
  induction q as [|x q IH]; intros s L Q.
  - exists 0. right. intros c j H. apply (lk_queued s L) in H. rewrite Q in H. destruct H.
  - destruct (Nat.lt_ge_cases (workers s) MAX_WORKER) as [W|W].
    + destruct (IH (lrun_step U LTake s) (lok_step U LTake s L) (take_queue U s x q L W Q)) as (k & H). exists (S k). exact H.
    + exists 0. left. exists (all_running s). split; [apply executing_all|]. rewrite all_running_length. pose proof (lk_bound s L). unfold MAX_WORKER in *. lia.
Qed.
Lemma no_idle_run U reg l : exists k, (exists x, executing (takes U k (lrun U reg l)) x /\ List.length x = 30) \/ forall c j, call_state (takes U k (lrun U reg l)) c j <> Some JQueued.
Proof. eapply no_idle; [apply lok_run|reflexivity]. Qed.

(** ** If methods end, a waiting call is started *)
Lemma end_step U s c j r k : lok s -> nth_error (n_conns s) c = Some k -> nth_error (jst k) j = Some JRunning ->
  let s' := lrun_step U (LConn c (JobEnd j r)) s in workers s' < workers s /\ n_queue s' = n_queue s.
Proof.
  intros L E Ej s'. unfold s'. rewrite (conn_step U c (JobEnd j r) s k Logic.I E). split.
  - rewrite !workers_load. cbn [n_conns]. pose proof (total_upd load (fun _ => srun_step U (JobEnd j r) k) (n_conns s) c k E) as T. cbn beta in T. unfold load in T at 2 4. rewrite jst_end, Ej in T.
    pose proof (total_upd runs (fun _ => JEnded r) (jst k) j _ Ej) as T2. cbn beta in T2. cbn [runs] in T2. lia.
  - cbn [n_queue]. unfold joined. assert (El : List.length (v_jobs (srun_step U (JobEnd j r) k)) = List.length (v_jobs k)) by (rewrite <- !jst_length, jst_end, Ej, length_upd; reflexivity). rewrite El, Nat.sub_diag, app_nil_r. reflexivity.
Qed.
Lemma make_room U s c j : lok s -> call_state s c j = Some JQueued -> exists l, Forall only_workers l /\ let s' := lfrom U s l in workers s' < MAX_WORKER /\ n_queue s' = n_queue s /\ call_state s' c j = Some JQueued.
Proof.
  intros L H. destruct (Nat.lt_ge_cases (workers s) MAX_WORKER) as [W|W]; [exists []; split; [constructor|]; auto|].
  destruct (all_running s) as [|(c0, j0) t] eqn:A; [pose proof (all_running_length s) as Z; rewrite A in Z; cbn in Z; unfold MAX_WORKER in W; lia|].
  assert (R : call_state s c0 j0 = Some JRunning) by (apply all_running_in; rewrite A; left; reflexivity). exists [LConn c0 (JobEnd j0 (Ok PNone))]. split; [repeat constructor|]. cbv zeta. change (lfrom U s [LConn c0 (JobEnd j0 (Ok PNone))]) with (lrun_step U (LConn c0 (JobEnd j0 (Ok PNone))) s).
  pose proof R as R'. rewrite call_jst in R'. destruct (nth_error (n_conns s) c0) as [k|] eqn:E; [|discriminate]. destruct (end_step U s c0 j0 (Ok PNone) k L E R') as (K1 & K2). split; [pose proof (lk_bound s L); unfold MAX_WORKER in *; lia|]. split; [exact K2|].
  rewrite (conn_step U c0 (JobEnd j0 (Ok PNone)) s k Logic.I E). rewrite call_jst in *. cbn [n_conns]. destruct (Nat.eq_dec c0 c) as [<-|N]; [|rewrite nth_upd_other by exact N; exact H].
  rewrite (nth_upd_same _ _ _ _ E), jst_end, R'. rewrite E in H. rewrite nth_upd_other; [exact H|]. intros <-. congruence.
Qed.
Lemma can_start U q : forall s c j, lok s -> n_queue s = q -> call_state s c j = Some JQueued -> exists l, Forall only_workers l /\ call_state (lfrom U s l) c j = Some JRunning.
Proof.
  induction q as [|(c0, j0) q IH]; intros s c j L Q H; [apply (lk_queued s L) in H; rewrite Q in H; destruct H|].
  destruct (make_room U s c j L H) as (l & F & W & Q' & H'). set (s1 := lfrom U s l) in *. assert (L1 : lok s1) by (apply lok_from; exact L). rewrite Q in Q'.
  assert (Next : call_state (lrun_step U LTake s1) c j = Some JRunning \/ call_state (lrun_step U LTake s1) c j = Some JQueued).
  { destruct (step_call U LTake s1 c j L1) as [M|[(M & r & M1 & _)|[(M & M1)|[(M & M1 & _)|(M & M1)]]]]; try congruence; [right; congruence| |left; exact M1].
    exfalso. revert M1. assert (X : call_state s1 c0 j0 <> None) by (apply (lk_exist s1 L1); rewrite Q'; left; reflexivity). rewrite call_jst in X. destruct (nth_error (n_conns s1) c0) as [k|] eqn:E; [|congruence].
    rewrite (take_step U s1 c0 j0 q k W Q' E). rewrite call_jst in M |- *. cbn [n_conns]. destruct (Nat.eq_dec c0 c) as [<-|N]; [|rewrite nth_upd_other by exact N; congruence].
    rewrite (nth_upd_same _ _ _ _ E), jst_run. rewrite E in M. destruct (nth_error (jst k) j0) as [[]|] eqn:E0; try congruence. destruct (Nat.eq_dec j0 j) as [<-|N]; [rewrite (nth_upd_same _ _ _ _ E0); discriminate|rewrite nth_upd_other by exact N; congruence]. }
  destruct Next as [Nx|Nx].
  - exists (l ++ [LTake]). split; [apply Forall_app; split; [exact F|repeat constructor]|]. rewrite lfrom_app. exact Nx.
  - destruct (IH (lrun_step U LTake s1) c j (lok_step U LTake s1 L1) (take_queue U s1 (c0, j0) q L1 W Q') Nx) as (l2 & F2 & K). exists (l ++ LTake :: l2). split; [apply Forall_app; split; [exact F|constructor; [exact Logic.I|exact F2]]|]. rewrite lfrom_app. exact K.
Qed.
Lemma can_start_run U reg l c j : call_state (lrun U reg l) c j = Some JQueued -> exists l2, Forall only_workers l2 /\ call_state (lrun U reg (l ++ l2)) c j = Some JRunning.
Proof. intros H. destruct (can_start U _ _ c j (lok_run U reg l) eq_refl H) as (l2 & F & K). exists l2. rewrite lrun_app. auto. Qed.

(** ** 30 methods that do not end *)
Lemma running_stays U o s c j : lok s -> nothing_ends o -> call_state s c j = Some JRunning -> call_state (lrun_step U o s) c j = Some JRunning.
Proof. intros L N H. destruct (step_call U o s c j L) as [M|[(M & r & M1 & Eo)|[(M & M1)|[(M & M1 & _)|(M & M1)]]]]; try congruence. subst o. destruct N. Qed.
Lemma full_step U o s x : lok s -> nothing_ends o -> executing s x -> executing (lrun_step U o s) x.
Proof. intros L N (D & F). split; [exact D|]. revert F. apply Forall_impl. intros (c, j). apply running_stays; assumption. Qed.
Lemma full_no_start U o s x c j : lok s -> executing s x -> 30 <= List.length x -> ~ starts_in U o s c j.
Proof.
  intros L E Len (H1 & H2). apply executing_le in E. destruct (step_call U o s c j L) as [M|[(M & r & M1 & _)|[(M & M1)|[(M & M1 & Eo & W & Q)|(M & M1)]]]]; try congruence. unfold MAX_WORKER in W. lia.
Qed.
Definition unstarted (x : option jstate) : Prop := x = None \/ x = Some JQueued \/ x = Some JCancelled.
Lemma full_unstarted U l : forall s x c j, lok s -> executing s x -> 30 <= List.length x -> Forall nothing_ends l -> unstarted (call_state s c j) -> unstarted (call_state (lfrom U s l) c j).
Proof.
  induction l as [|o l IH]; intros s x c j L E Len F H; [exact H|]. change (lfrom U s (o :: l)) with (lfrom U (lrun_step U o s) l). inversion F; subst. apply (IH _ x); auto; [apply lok_step; exact L|apply full_step; assumption|].
  unfold unstarted in *. destruct (step_call U o s c j L) as [M|[(M & r & M1 & Eo)|[(M & M1)|[(M & M1 & Eo & W & Q)|(M & M1)]]]]; [rewrite M; exact H|destruct H as [H|[H|H]]; congruence|auto|apply executing_le in E; unfold MAX_WORKER in W; lia|auto].
Qed.

(** ** One connection of many *)
Lemma conn_moves U o s c k : nth_error (n_conns s) c = Some k ->
  exists k', nth_error (n_conns (lrun_step U o s)) c = Some k' /\ (k' = k \/ exists o', k' = srun_step U o' k).
Proof.
  intros E. destruct o as [tr|name sv|c0 o0|].
  - exists k. split; [|auto]. cbn [lrun_step n_conns]. rewrite nth_error_app1 by (apply nth_error_Some; congruence). exact E.
  - exists (srun_step U (Register name sv) k). split; [|eauto]. cbn [lrun_step n_conns]. rewrite nth_error_map, E. reflexivity.
  - assert (P : plain o0 \/ ~ plain o0) by (destruct o0; cbn; tauto). destruct P as [P|P]; [|exists k; rewrite (conn_ignored U c0 o0 s P); auto].
    destruct (nth_error (n_conns s) c0) as [k0|] eqn:E0; [|exists k; rewrite (conn_none U c0 o0 s E0); auto].
    rewrite (conn_step U c0 o0 s k0 P E0). cbn [n_conns]. destruct (Nat.eq_dec c0 c) as [->|N]; [|exists k; rewrite nth_upd_other by exact N; auto].
    rewrite (nth_upd_same _ _ _ _ E0). assert (k0 = k) by congruence. subst k0. eauto.
  - destruct (Nat.lt_ge_cases (workers s) MAX_WORKER) as [W|W]; [|exists k; rewrite (take_full U s W); auto]. destruct (n_queue s) as [|(c0, j0) q] eqn:Q; [exists k; rewrite (take_empty U s Q); auto|].
    cbn [lrun_step]. destruct (Nat.ltb_spec (workers s) MAX_WORKER); [|lia]. rewrite Q. cbn [on_conn n_conns]. destruct (Nat.eq_dec c0 c) as [->|N]; [|exists k; rewrite nth_upd_other by exact N; auto].
    rewrite (nth_upd_same _ _ _ _ E). eauto.
Qed.
Lemma closed_back U l : forall s c k kf, lok s -> nth_error (n_conns s) c = Some k -> nth_error (n_conns (lfrom U s l)) c = Some kf -> v_closed kf = false -> v_closed k = false.
Proof.
  induction l as [|o l IH]; intros s c k kf L E Ef Cl; [cbn in Ef; congruence|]. change (lfrom U s (o :: l)) with (lfrom U (lrun_step U o s) l) in Ef.
  destruct (conn_moves U o s c k E) as (k' & E' & M). pose proof (IH _ c k' kf (lok_step U o s L) E' Ef Cl) as C'. destruct M as [->|(o' & ->)]; [exact C'|]. exact (closed_step U o' k (proj1 (nth_good s c k L E)) C').
Qed.
Lemma expire_none U i q j n k : answering k i n (Some q) (TWait j) -> (q_timeout q <= 0)%Z -> srun_step U (Expire i) k = k.
Proof. intros A T. cbn [srun_step]. unfold answering in A. rewrite A. cbn [a_pc a_req]. destruct (Z.ltb_spec 0 (q_timeout q)); [lia|reflexivity]. Qed.
Lemma stuck_from U l : forall s x c k kf i n q j, lok s -> executing s x -> 30 <= List.length x -> Forall nothing_ends l -> nth_error (n_conns s) c = Some k -> nth_error (n_conns (lfrom U s l)) c = Some kf ->
  v_closed kf = false -> (q_timeout q <= 0)%Z -> waits k i n q j -> unstarted (call_state s c j) -> waits kf i n q j.
Proof.
  induction l as [|o l IH]; intros s x c k kf i n q j L E Len F Ek Ef Cl T W H; [cbn in Ef; congruence|]. change (lfrom U s (o :: l)) with (lfrom U (lrun_step U o s) l) in Ef. inversion F; subst.
  destruct (conn_moves U o s c k Ek) as (k' & E' & M). pose proof (lok_step U o s L) as L'. pose proof (closed_back U l _ c k' kf L' E' Ef Cl) as C'.
  apply (IH (lrun_step U o s) x c k' kf i n q j); auto; [apply full_step; assumption| |exact (full_unstarted U [o] s x c j L E Len (Forall_cons _ H2 (Forall_nil _)) H)].
  destruct M as [->|(o' & ->)]; [exact W|].
  assert (De : o' = Expire i \/ o' <> Expire i) by (destruct o'; try (right; discriminate); destruct (Nat.eq_dec i0 i) as [->|N]; [left; reflexivity|right; congruence]).
  destruct De as [->|De]; [rewrite (expire_none U i q j n k (proj1 W) T); exact W|].
  destruct (waits_step U o' k i n q j (proj1 (nth_good s c k L Ek)) C' De W) as [W'|(b & r & Nj & Sj & _)]; [exact W'|]. exfalso. apply jst_nth in Nj. rewrite call_jst, Ek, Nj, Sj in H. destruct H as [H|[H|H]]; discriminate.
Qed.
Lemma stuck_call U reg l1 l2 x c k i n q j : let s := lrun U reg l1 in
  executing s x -> List.length x = 30 -> nth_error (n_conns s) c = Some k -> answering k i n (Some q) (TWait j) -> (q_timeout q <= 0)%Z -> call_state s c j = Some JQueued -> Forall nothing_ends l2 ->
  (forall l o, l2 = l ++ [o] -> ~ starts_in U o (lrun U reg (l1 ++ l)) c j) /\
  forall k', nth_error (n_conns (lrun U reg (l1 ++ l2))) c = Some k' -> v_closed k' = false -> answering k' i n (Some q) (TWait j) /\ answers n k' = [].
Proof.
  intros s E Len Ek A T Q F. assert (L : lok s) by apply lok_run. split.
  - intros l o ->. apply Forall_app in F as (F1 & F2). rewrite lrun_app. fold s. apply (full_no_start U o _ x); [apply lok_from; exact L| |lia].
    clear - L E F1. revert E L. generalize s. induction l as [|o l IH]; intros s0 E L; [exact E|]. inversion F1; subst. apply (IH H2 (lrun_step U o s0)); [apply full_step; assumption|apply lok_step; exact L].
  - intros k' Ek' Cl. rewrite lrun_app in Ek'. fold s in Ek'. pose proof (closed_back U l2 s c k k' L Ek Ek' Cl) as C0.
    assert (W : waits k i n q j) by (split; [exact A|exact (unanswered k i n _ _ (proj1 (nth_good s c k L Ek)) C0 A Logic.I)]).
    apply (stuck_from U l2 s x c k k' i n q j); auto; [lia|right; left; exact Q].
Qed.

(** ** The life of one connection *)
Lemma received_app U c l1 l2 : forall s, received U c s (l1 ++ l2) = received U c s l1 ++ received U c (lfrom U s l1) l2.
Proof. induction l1 as [|o l1 IH]; intros s; [reflexivity|]. cbn [app received]. rewrite IH, app_assoc. reflexivity. Qed.
Lemma fed_snoc h o : fed (h ++ [o]) = fed h ++ match o with Feed bs => bs | _ => [] end.
Proof. unfold fed. rewrite map_app, concat_app. cbn. destruct o; rewrite ?app_nil_r; reflexivity. Qed.
Lemma srun_snoc U reg tr h o : srun U reg tr (h ++ [o]) = srun_step U o (srun U reg tr h).
Proof. unfold srun. rewrite fold_left_app. reflexivity. Qed.
Lemma received_none U c l : forall s, received U c s l = [] \/ c < List.length (n_conns (lfrom U s l)).
Proof.
  induction l as [|o l IH] using rev_ind; intros s; [left; reflexivity|]. rewrite received_app, lfrom_app. set (s1 := lfrom U s l). change (lfrom U s1 [o]) with (lrun_step U o s1).
  assert (G : List.length (n_conns s1) <= List.length (n_conns (lrun_step U o s1))).
  { destruct (Nat.le_gt_cases (List.length (n_conns s1)) (List.length (n_conns (lrun_step U o s1)))) as [H|H]; [exact H|]. exfalso. destruct (nth_error (n_conns s1) (List.length (n_conns (lrun_step U o s1)))) as [k|] eqn:E; [|apply nth_error_None in E; lia].
    destruct (conn_moves U o s1 _ k E) as (k' & E' & _). assert (K : nth_error (n_conns (lrun_step U o s1)) (List.length (n_conns (lrun_step U o s1))) <> None) by congruence. apply nth_error_Some in K. lia. }
  destruct (IH s) as [E|E]; [|right; fold s1 in E; lia]. rewrite E. cbn [app received]. destruct o as [| |c' o|]; auto. destruct o; auto. destruct (Nat.eqb c' c && Nat.ltb c (List.length (n_conns s1)))%bool eqn:B; [|left; reflexivity]. right. lia.
Qed.
Lemma connection U reg l c k : nth_error (n_conns (lrun U reg l)) c = Some k ->
  exists reg0 tr h, k = srun U reg0 tr h /\ fed h = received U c (linit reg) l /\ v_reg k = n_reg (lrun U reg l).
Proof.
  intros E. pose proof (proj2 (nth_good _ _ _ (lok_run U reg l) E)) as R. enough (H : exists reg0 tr h, k = srun U reg0 tr h /\ fed h = received U c (linit reg) l) by (destruct H as (a & b & h & H1 & H2); exists a, b, h; auto). clear R.
  revert k E. induction l as [|o l IH] using rev_ind; intros k E; [destruct c; discriminate|]. rewrite lrun_app in E. rewrite received_app. change (lfrom U (linit reg) l) with (lrun U reg l). set (s := lrun U reg l) in *.
  change (lfrom U s [o]) with (lrun_step U o s) in E. cbn [received]. rewrite app_nil_r.
  destruct (nth_error (n_conns s) c) as [k0|] eqn:E0.
  - destruct (IH k0 eq_refl) as (reg0 & tr & h & Hk & Hf). assert (Lt : c < List.length (n_conns s)) by (apply nth_error_Some; congruence).
    assert (Same : k = k0 -> match o with LConn c' (Feed bs) => if Nat.eqb c' c && Nat.ltb c (List.length (n_conns s)) then bs else [] | _ => [] end = [] ->
      exists reg1 tr1 h1, k = srun U reg1 tr1 h1 /\ fed h1 = received U c (linit reg) l ++ match o with LConn c' (Feed bs) => if Nat.eqb c' c && Nat.ltb c (List.length (n_conns s)) then bs else [] | _ => [] end).
    { intros -> ->. exists reg0, tr, h. rewrite app_nil_r. auto. }
    assert (Step : forall o', k = srun_step U o' k0 -> match o with LConn c' (Feed bs) => if Nat.eqb c' c && Nat.ltb c (List.length (n_conns s)) then bs else [] | _ => [] end = match o' with Feed bs => bs | _ => [] end ->
      exists reg1 tr1 h1, k = srun U reg1 tr1 h1 /\ fed h1 = received U c (linit reg) l ++ match o with LConn c' (Feed bs) => if Nat.eqb c' c && Nat.ltb c (List.length (n_conns s)) then bs else [] | _ => [] end).
    { intros o' -> ->. exists reg0, tr, (h ++ [o']). rewrite srun_snoc, fed_snoc, Hf, <- Hk. auto. }
    destruct o as [tr'|name sv|c0 o0|].
    + apply Same; [|reflexivity]. cbn [lrun_step n_conns] in E. rewrite nth_error_app1 in E by exact Lt. congruence.
    + apply (Step (Register name sv)); [|reflexivity]. cbn [lrun_step n_conns] in E. rewrite nth_error_map, E0 in E. injection E as <-. reflexivity.
    + assert (P : plain o0 \/ ~ plain o0) by (destruct o0; cbn; tauto). destruct P as [P|P].
      2:{ apply Same; [|destruct o0; cbn in P; tauto]. rewrite (conn_ignored U c0 o0 s P) in E. congruence. }
      destruct (Nat.eq_dec c0 c) as [->|N].
      * apply (Step o0); [|destruct o0; try reflexivity; rewrite Nat.eqb_refl; destruct (Nat.ltb_spec c (List.length (n_conns s))); [reflexivity|lia]].
        rewrite (conn_step U c o0 s k0 P E0) in E. cbn [n_conns] in E. rewrite (nth_upd_same _ _ _ _ E0) in E. congruence.
      * apply Same; [|destruct o0; try reflexivity; destruct (Nat.eqb_spec c0 c); [congruence|reflexivity]]. destruct (nth_error (n_conns s) c0) as [k1|] eqn:E1; [|rewrite (conn_none U c0 o0 s E1) in E; congruence].
        rewrite (conn_step U c0 o0 s k1 P E1) in E. cbn [n_conns] in E. rewrite nth_upd_other in E by exact N. congruence.
    + destruct (Nat.lt_ge_cases (workers s) MAX_WORKER) as [W|W]; [|apply Same; [rewrite (take_full U s W) in E; congruence|reflexivity]]. destruct (n_queue s) as [|(c0, j0) q] eqn:Q; [apply Same; [rewrite (take_empty U s Q) in E; congruence|reflexivity]|].
      cbn [lrun_step] in E. destruct (Nat.ltb_spec (workers s) MAX_WORKER) as [_|]; [|lia]. rewrite Q in E. cbn [on_conn n_conns] in E. destruct (Nat.eq_dec c0 c) as [->|N].
      * apply (Step (JobRun j0)); [|reflexivity]. rewrite (nth_upd_same _ _ _ _ E0) in E. congruence.
      * apply Same; [|reflexivity]. rewrite nth_upd_other in E by exact N. congruence.
  - assert (Lt : List.length (n_conns s) <= c) by (apply nth_error_None; exact E0).
    assert (Nil : received U c (linit reg) l = []) by (destruct (received_none U c l (linit reg)) as [H|H]; [exact H|]; change (lfrom U (linit reg) l) with s in H; lia). rewrite Nil. cbn [app].
    destruct o as [tr'|name sv|c0 o0|].
    + cbn [lrun_step n_conns] in E. rewrite nth_error_app2 in E by exact Lt. destruct (c - List.length (n_conns s)) as [|x]; [|destruct x; discriminate]. cbn in E. injection E as <-. exists (n_reg s), tr', []. auto.
    + cbn [lrun_step n_conns] in E. rewrite nth_error_map, E0 in E. discriminate.
    + exfalso. assert (P : plain o0 \/ ~ plain o0) by (destruct o0; cbn; tauto). destruct P as [P|P]; [|rewrite (conn_ignored U c0 o0 s P) in E; congruence].
      destruct (nth_error (n_conns s) c0) as [k1|] eqn:E1; [|rewrite (conn_none U c0 o0 s E1) in E; congruence].
      rewrite (conn_step U c0 o0 s k1 P E1) in E. cbn [n_conns] in E. assert (N : c0 <> c) by congruence. rewrite nth_upd_other in E by exact N. congruence.
    + exfalso. destruct (Nat.lt_ge_cases (workers s) MAX_WORKER) as [W|W]; [|rewrite (take_full U s W) in E; congruence]. destruct (n_queue s) as [|(c0, j0) q] eqn:Q; [rewrite (take_empty U s Q) in E; congruence|].
      cbn [lrun_step] in E. destruct (Nat.ltb_spec (workers s) MAX_WORKER) as [_|]; [|lia]. rewrite Q in E. cbn [on_conn n_conns] in E. apply nth_upd_inv in E as [(-> & x & E & _)|(_ & E)]; congruence.
Qed.

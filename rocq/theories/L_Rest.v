(** Lemmas behind C87: a system that is left alone comes to rest. *)
From Coq Require Import ZifyBool Wellfounded.
From Verif Require Import PyBase L_PyBase PyDict PyInt M_SofaHeader M_Package M_RpcId M_Trace M_AioServer S_Server L_AioServer2 M_System S_System L_System S_Settle L_Settle2 L_Settle S_Rest L_Rest2.
From Verif Require M_AioClient L_AioClient L_System1 L_Settle1 L_Front L_Rest1.
Import L_Rest1 (total, total_app, busy, unread).
Open Scope nat_scope.

(** ** Order *)
Fixpoint lex (a b : list nat) : Prop := match a, b with x :: a, y :: b => x < y \/ (x = y /\ lex a b) | _, _ => False end.
Definition below (a b : list nat) : Prop := List.length a = List.length b /\ lex a b.
Lemma below_wf : forall b, Acc below b.
Proof.
  assert (K : forall n b, List.length b = n -> Acc below b); [|intros b; exact (K _ b eq_refl)].
  induction n as [|n IH]; intros b L; [destruct b; [|discriminate]; constructor; intros a (_ & H); destruct a; destruct H|].
  destruct b as [|x b]; [discriminate|]. injection L as L. revert b L. induction x as [x IHx] using (well_founded_induction lt_wf). intros b L.
  pose proof (IH b L) as A. induction A as [b _ IHb]. constructor. intros a (La & Ha). destruct a as [|x' a]; [destruct Ha|]. cbn in La, Ha. injection La as La.
  destruct Ha as [H|(-> & H)]; [apply IHx; [exact H|congruence]|]. apply IHb; [split; assumption|congruence].
Qed.

(** ** Sums over the connections *)
Fixpoint sumi {A} (f : nat -> A -> nat) (i : nat) (l : list A) : nat := match l with [] => 0 | x :: l => f i x + sumi f (S i) l end.
Lemma sumi_upd {A} (f : nat -> A -> nat) g l : forall c i x, nth_error l c = Some x -> sumi f i (upd c g l) + f (i + c) x = sumi f i l + f (i + c) (g x).
Proof.
  induction l as [|y l IH]; intros [|c] i x H; cbn in *; try discriminate; [injection H as ->; rewrite Nat.add_0_r; lia|]. specialize (IH c (S i) x H). replace (i + S c) with (S i + c) by lia. lia.
Qed.
Lemma sumi_ext {A} (f g : nat -> A -> nat) l : forall i, (forall j x, f j x = g j x) -> sumi f i l = sumi g i l.
Proof. induction l as [|y l IH]; intros i H; cbn; [reflexivity|]. rewrite H, (IH (S i) H). reflexivity. Qed.
Lemma sumi_after {A} (f g : nat -> A -> nat) l : forall i, (forall j x, i <= j -> f j x = g j x) -> sumi f i l = sumi g i l.
Proof. induction l as [|y l IH]; intros i H; cbn; [reflexivity|]. rewrite H by lia. rewrite (IH (S i)); [reflexivity|]. intros j x L. apply H. lia. Qed.
Lemma sumi_at {A} (f g : nat -> A -> nat) l : forall c i x, nth_error l c = Some x -> (forall j z, j <> i + c -> f j z = g j z) -> sumi f i l + g (i + c) x = sumi g i l + f (i + c) x.
Proof.
  induction l as [|y l IH]; intros [|c] i x H E; cbn in *; try discriminate.
  - injection H as ->. rewrite Nat.add_0_r in *. rewrite (sumi_after f g l (S i)) by (intros j z L; apply E; lia). lia.
  - replace (i + S c) with (S i + c) in * by lia. specialize (IH c (S i) x H ltac:(intros j z N; apply E; lia)). rewrite (E i y) by lia. lia.
Qed.
Lemma sumi_total {A} (f : A -> nat) l : forall i, sumi (fun _ => f) i l = total f l.
Proof. unfold total, list_sum. induction l as [|y l IH]; intros i; cbn; [reflexivity|]. rewrite (IH (S i)). reflexivity. Qed.

(** ** The measure *)
Definition to_servers (t : M_AioClient.timer) (y : sys) : nat := sumi (fun c k => List.length (y_sent (y_client t y) c) - List.length (y_got k)) 0 (y_conns y).
Definition to_parse (U : tables) (y : sys) : nat := total (fun k => unparsed (y_server U k)) (y_conns y).
Definition to_do (U : tables) (y : sys) : nat := total (fun k => undone (y_server U k)) (y_conns y).
Definition arrived (s : M_AioClient.st) (c : nat) : nat := match nth_error (L_System1.ins s) c with Some b => List.length b | None => 0 end.
Definition to_client (U : tables) (t : M_AioClient.timer) (y : sys) : nat := sumi (fun c k => List.length (y_replied (y_server U k)) - arrived (y_client t y) c) 0 (y_conns y).
Definition rank (U : tables) (t : M_AioClient.timer) (y : sys) : list nat := [busy (y_client t y); to_servers t y; to_parse U y; to_do U y; to_client U t y; unread (y_client t y)].

Lemma client_rank U t y o : L_Rest1.own_step o -> unchanged U t y (y_client_step o y) \/ below (rank U t (y_client_step o y)) (rank U t y).
Proof.
  intros H. unfold unchanged. rewrite client_snoc. destruct (L_Rest1.client_lowers o (y_client t y) H) as [E|[E|([E1 E2 E3 E4] & E)]]; [left; auto|right; split; [reflexivity|]; left; rewrite client_snoc; exact E|].
  right. split; [reflexivity|]. set (s' := M_AioClient.run_step o (y_client t y)) in *. assert (Es : y_client t (y_client_step o y) = s') by apply client_snoc.
  cbn [rank lex]. right. split; [rewrite Es; unfold busy; rewrite E1, E2; reflexivity|]. right. split; [unfold to_servers; apply sumi_ext; intros c k; rewrite Es; unfold y_sent; rewrite E3; reflexivity|].
  right. split; [reflexivity|]. right. split; [reflexivity|]. right. split; [|left; rewrite Es; exact E].
  unfold to_client. apply sumi_ext. intros c k. rewrite Es. unfold arrived, L_System1.ins. rewrite E4. reflexivity.
Qed.
Lemma server_rank U t y c o : own_sstep o -> unchanged U t y (y_server_step c o y) \/ below (rank U t (y_server_step c o y)) (rank U t y).
Proof.
  intros H. set (y' := y_server_step c o y). assert (Ec : y_client t y' = y_client t y) by reflexivity. destruct (nth_error (y_conns y) c) as [k|] eqn:Hk.
  2:{ left. split; [reflexivity|]. unfold y', y_server_step. cbn [y_conns]. rewrite upd_same by (left; exact Hk). reflexivity. }
  set (k' := {| y_reg := y_reg k; y_tr := y_tr k; y_steps := y_steps k ++ [o] |}). assert (Es : y_server U k' = srun_step U o (y_server U k)) by apply server_snoc.
  assert (B : to_servers t y' = to_servers t y).
  { unfold to_servers. rewrite Ec. unfold y', y_server_step. cbn [y_conns]. match goal with |- sumi ?f 0 (upd c ?g _) = _ => pose proof (sumi_upd f g (y_conns y) c 0 k Hk) as V end. cbn beta in V. rewrite got_snoc in V.
    replace (match o with Feed bs => bs | _ => [] end) with (@nil byte) in V by (destruct o; try reflexivity; destruct H). rewrite app_nil_r in V. apply Nat.add_cancel_r in V. exact V. }
  assert (C : to_parse U y' + unparsed (y_server U k) = to_parse U y + unparsed (y_server U k')) by (unfold to_parse, y', y_server_step; cbn [y_conns]; exact (total_upd (fun k => unparsed (y_server U k)) _ (y_conns y) c k Hk)).
  assert (D : to_do U y' + undone (y_server U k) = to_do U y + undone (y_server U k')) by (unfold to_do, y', y_server_step; cbn [y_conns]; exact (total_upd (fun k => undone (y_server U k)) _ (y_conns y) c k Hk)).
  rewrite Es in C, D. destruct (server_lowers U o (y_server U k) H) as [E|E].
  - left. split; [reflexivity|]. unfold y', y_server_step. cbn [y_conns]. rewrite (L_System1.map_upd_comm (y_server U) _ (srun_step U o)) by (intros k0; apply server_snoc). apply upd_same. right. exists (y_server U k). rewrite nth_error_map, Hk. split; [reflexivity|exact E].
  - right. split; [reflexivity|]. cbn [rank lex]. rewrite Ec, B. right. split; [reflexivity|]. right. split; [reflexivity|]. destruct E as [E|(E1 & E2)]; [left; lia|right; split; [lia|left; lia]].
Qed.
Lemma set_same s : set_stream s (v_buf s ++ []) (v_eof s) (v_exn s) (v_in s ++ []) = s.
Proof. rewrite !app_nil_r. apply same_stream. Qed.
Lemma up_rank U t y c n : unchanged U t y (y_step U t (YUp c n) y) \/ below (rank U t (y_step U t (YUp c n) y)) (rank U t y).
Proof.
  cbn [y_step]. destruct (nth_error (y_conns y) c) as [k|] eqn:Hk; [|left; split; reflexivity]. set (x := firstn n _). set (y' := y_server_step c (Feed x) y). destruct (Nat.eq_dec (List.length x) 0) as [Ex|Ex].
  - apply length_zero_iff_nil in Ex. left. split; [reflexivity|]. unfold y', y_server_step. rewrite Ex. cbn [y_conns]. rewrite (L_System1.map_upd_comm (y_server U) _ (srun_step U (Feed []))) by (intros k0; apply server_snoc). apply upd_same. right. exists (y_server U k). rewrite nth_error_map, Hk. split; [reflexivity|]. apply set_same.
  - right. split; [reflexivity|]. cbn [rank lex]. right. split; [reflexivity|]. left. unfold to_servers. change (y_client t y') with (y_client t y). unfold y', y_server_step. cbn [y_conns].
    match goal with |- sumi ?f 0 (upd c ?g _) < _ => pose proof (sumi_upd f g (y_conns y) c 0 k Hk) as V end. cbn beta in V. rewrite got_snoc, app_length in V. change (0 + c) with c in V.
    assert (M : List.length x <= List.length (skipn (List.length (y_got k)) (y_sent (y_client t y) c))) by (unfold x; rewrite firstn_length; lia). rewrite skipn_length in M. lia.
Qed.
Lemma down_rank U t y c n : unchanged U t y (y_step U t (YDown c n) y) \/ below (rank U t (y_step U t (YDown c n) y)) (rank U t y).
Proof.
  cbn [y_step]. destruct (nth_error (y_conns y) c) as [k|] eqn:Hk; [|left; split; reflexivity]. destruct (nth_error (M_AioClient.s_links (y_client t y)) c) as [lk|] eqn:Hl; [|left; split; reflexivity].
  set (x := firstn n _). assert (Hi : nth_error (L_System1.ins (y_client t y)) c = Some (M_AioClient.k_in lk)) by (unfold L_System1.ins; rewrite nth_error_map, Hl; reflexivity). destruct (Nat.eq_dec (List.length x) 0) as [Ex|Ex].
  - apply length_zero_iff_nil in Ex. rewrite Ex. left. unfold unchanged. rewrite client_snoc. split; [|reflexivity]. cbn [M_AioClient.run_step]. unfold M_AioClient.on_link. rewrite upd_same; [destruct (y_client t y); reflexivity|]. right. exists lk. split; [exact Hl|]. rewrite !app_nil_r. destruct lk. reflexivity.
  - right. split; [reflexivity|]. set (y' := y_client_step (M_AioClient.Feed c x) y). assert (Es : y_client t y' = M_AioClient.run_step (M_AioClient.Feed c x) (y_client t y)) by apply client_snoc.
    cbn [rank lex]. right. split; [rewrite Es; reflexivity|]. right. split; [unfold to_servers; apply sumi_ext; intros c0 k0; rewrite Es; reflexivity|]. right. split; [reflexivity|]. right. split; [reflexivity|]. left.
    destruct (L_System1.step_moves (M_AioClient.Feed c x) (y_client t y)) as (I & _). rewrite <- Es in I. unfold to_client. change (y_conns y') with (y_conns y).
    pose proof (sumi_at (fun c k => List.length (y_replied (y_server U k)) - arrived (y_client t y') c) (fun c k => List.length (y_replied (y_server U k)) - arrived (y_client t y) c) (y_conns y) c 0 k Hk) as V. cbn beta in V. change (0 + c) with c in V.
    assert (A1 : arrived (y_client t y) c = List.length (M_AioClient.k_in lk)) by (unfold arrived; rewrite Hi; reflexivity).
    assert (A2 : arrived (y_client t y') c = List.length (M_AioClient.k_in lk) + List.length x) by (unfold arrived; rewrite I, (L_Front.upd_here _ _ _ _ Hi), app_length; reflexivity).
    assert (A3 : forall j z, j <> c -> List.length (y_replied (y_server U z)) - arrived (y_client t y') j = List.length (y_replied (y_server U z)) - arrived (y_client t y) j).
    { intros j z N. unfold arrived. rewrite I. rewrite L_AioClient.upd_other by congruence. reflexivity. }
    specialize (V A3). rewrite A1, A2 in V. assert (M : List.length x <= List.length (skipn (List.length (M_AioClient.k_in lk)) (y_replied (y_server U k)))) by (unfold x; rewrite firstn_length; lia). rewrite skipn_length in M. lia.
Qed.
Lemma dial_rank U t y i reg tr : unchanged U t y (y_step U t (YDial i reg tr) y) \/ below (rank U t (y_step U t (YDial i reg tr) y)) (rank U t y).
Proof.
  cbn [y_step]. cbv zeta. destruct (Nat.ltb _ _) eqn:L; [|left; split; reflexivity]. right. split; [reflexivity|]. rewrite client_snoc in L. apply Nat.ltb_lt in L. cbn [rank lex]. left.
  set (y' := {| y_hist := _; y_conns := _ |}). assert (Es : y_client t y' = M_AioClient.run_step (M_AioClient.DialOk i) (y_client t y)) by (exact (client_snoc t y (M_AioClient.DialOk i))). rewrite Es.
  destruct (L_Rest1.client_lowers (M_AioClient.DialOk i) (y_client t y) Logic.I) as [E|[E|([_ _ _ E] & _)]]; [rewrite E in L; lia|exact E|]. apply (f_equal (@List.length _)) in E. rewrite !map_length in E. lia.
Qed.
Lemma step_rank U t o y : left_alone o -> unchanged U t y (y_step U t o y) \/ below (rank U t (y_step U t o y)) (rank U t y).
Proof.
  intros H. destruct o as [d rid a|i reg tr|o|c o|c n|c n]; [destruct H|apply dial_rank| | |apply up_rank|apply down_rank].
  - destruct o; try destruct H; cbn [y_step]; try (left; split; reflexivity); apply client_rank; exact Logic.I.
  - destruct o; try destruct H; cbn [y_step]; try (left; split; reflexivity); apply server_rank; exact Logic.I.
Qed.
Lemma terminates U t y : Acc (goes_on U t) y.
Proof.
  assert (K : forall r, Acc below r -> forall y, rank U t y = r -> Acc (goes_on U t) y); [|exact (K _ (below_wf (rank U t y)) y eq_refl)].
  intros r A. induction A as [r _ IH]. intros z <-. constructor. intros z' (o & Ho & -> & N). destruct (step_rank U t o z Ho) as [E|E]; [contradiction|]. exact (IH _ E _ eq_refl).
Qed.
(** in particular: of the steps of an endless schedule one changes nothing *)
Lemma after_shift U t f y n : after U t f (S n) y = after U t (fun m => f (S m)) n (y_step U t (f 0) y).
Proof. induction n as [|n IH]; [reflexivity|]. cbn [after] in *. rewrite IH. reflexivity. Qed.

(** ** Coming to rest *)
(** enough to try these *)
Definition canon (reg : registry) (o : ystep) : ystep :=
  match o with
  | YDial i _ _ => YDial i reg t_init | YUp c _ => YUp c 1 | YDown c _ => YDown c 1
  | YServer c (Dispatch i _) => YServer c (Dispatch i []) | YServer c (JobEnd j _) => YServer c (JobEnd j (Ok PNone))
  | _ => o
  end.
Definition serverwise (i j : nat) : list ystep := map (YServer i) [Read; DrainR true; Dispatch j []; Drain j true; Result j; JobRun j; JobEnd j (Ok PNone)].
Definition probes (reg : registry) (n : nat) : list ystep :=
  flat_map (fun i => [YDial i reg t_init; YUp i 1; YDown i 1; YClient (M_AioClient.Run i); YClient (M_AioClient.Acquire i); YClient (M_AioClient.DrainOk i); YClient (M_AioClient.Wake i); YClient (M_AioClient.Read i)] ++
    flat_map (serverwise i) (seq 0 n)) (seq 0 n).
Definition accepts (reg : registry) (o : ystep) : Prop := routine o /\ match o with YDial _ r _ => r = reg | _ => True end.
Lemma probes_routine reg n : Forall (accepts reg) (probes reg n).
Proof.
  apply Forall_forall. intros o H. apply in_flat_map in H as (i & _ & H). apply in_app_iff in H as [H|H]; [cbn in H; decompose [or] H; subst; try (split; [exact Logic.I|]; try reflexivity; exact Logic.I); contradiction|].
  apply in_flat_map in H as (j & _ & H). cbn in H. decompose [or] H; subst; try (split; [exact Logic.I|]; try reflexivity; exact Logic.I); contradiction.
Qed.
Lemma routine_alone o : routine o -> left_alone o.
Proof. destruct o as [d rid a|i reg tr|o|c o|c n|c n]; cbn; try tauto; destruct o; tauto. Qed.
Lemma probe_all reg U t y l : Forall (accepts reg) l -> Forall (fun o => unchanged U t y (y_step U t o y)) l \/ exists o, accepts reg o /\ below (rank U t (y_step U t o y)) (rank U t y).
Proof.
  induction l as [|o l IH]; intros R; [left; constructor|]. pose proof (Forall_inv R) as Ro. destruct (step_rank U t o y (routine_alone o (proj1 Ro))) as [E|E]; [|right; eauto]. destruct (IH (Forall_inv_tail R)) as [A|A]; [left; constructor; assumption|right; exact A].
Qed.
Definition index (o : ystep) : nat * nat :=
  match o with
  | YDial i _ _ | YUp i _ | YDown i _ => (i, 0)
  | YClient (M_AioClient.Run i) | YClient (M_AioClient.Acquire i) | YClient (M_AioClient.DrainOk i) | YClient (M_AioClient.Wake i) | YClient (M_AioClient.Read i) => (i, 0)
  | YServer c (Dispatch j _) | YServer c (Drain j _) | YServer c (Result j) | YServer c (JobRun j) | YServer c (JobEnd j _) => (c, j)
  | YServer c _ => (c, 0)
  | _ => (0, 0)
  end.
Lemma canon_probe reg n o : routine o -> fst (index o) < n -> snd (index o) < n -> In (canon reg o) (probes reg n).
Proof.
  intros R A B. apply in_flat_map. exists (fst (index o)). split; [apply in_seq; lia|]. apply in_or_app.
  destruct o as [d rid a|i rg tr|o|c o|c m|c m]; try destruct R; cbn [canon index fst snd] in *; try (left; cbn; tauto).
  - left. destruct o; try destruct R; cbn; tauto.
  - right. apply in_flat_map. destruct o as [| | | | |[]|j f|j []|j|j r|j|]; try destruct R; cbn [fst snd] in *; try (exists j; split; [apply in_seq; lia|]; cbn; tauto); exists 0; (split; [apply in_seq; lia|]; cbn; tauto).
Qed.
Lemma unchanged_server U t y c o : unchanged U t y (y_server_step c o y) <-> forall k, nth_error (y_conns y) c = Some k -> srun_step U o (y_server U k) = y_server U k.
Proof.
  split.
  - intros (_ & A) k Hk. exact (server_same U y c k o Hk A).
  - intros H. split; [reflexivity|]. cbn [y_server_step y_conns]. rewrite (L_System1.map_upd_comm (y_server U) _ (srun_step U o)) by (intros k; apply server_snoc). apply upd_same. rewrite nth_error_map.
    destruct (nth_error (y_conns y) c) as [k|] eqn:Hk; [right; exists (y_server U k); split; [reflexivity|exact (H k eq_refl)]|left; reflexivity].
Qed.
Lemma unchanged_client U t y o : unchanged U t y (y_client_step o y) <-> M_AioClient.run_step o (y_client t y) = y_client t y.
Proof. unfold unchanged. rewrite client_snoc. split; [intros (A & _); exact A|auto]. Qed.
Lemma feed_nil U x s : srun_step U (Feed x) s = s -> x = [].
Proof. intros A. apply (f_equal v_in) in A. cbn [srun_step set_stream v_in] in A. apply (f_equal (@List.length _)) in A. rewrite app_length in A. destruct x; [reflexivity|cbn in A; lia]. Qed.
Lemma first_nil {A} (x : list A) n : firstn 1 x = [] -> firstn n x = [].
Proof. destruct x; [intros _; apply firstn_nil|discriminate]. Qed.
Lemma canon_same reg U t y o : routine o -> unchanged U t y (y_step U t (canon reg o) y) -> unchanged U t y (y_step U t o y).
Proof.
  intros R H. destruct o as [d rid a|i rg tr|o|c o|c m|c m]; try destruct R; cbn [canon y_step] in *.
  - cbv zeta in *. rewrite client_snoc in *. destruct (dialok_grows (y_client t y) i) as [E|E]; [rewrite E, Nat.ltb_irrefl; split; reflexivity|]. exfalso. pose proof E as E'. apply Nat.ltb_lt in E'. rewrite E' in H. destruct H as (H & _). unfold y_client in H at 1. cbn [y_hist y_client_step] in H. rewrite L_Settle1.run_snoc in H. fold (y_client t y) in H. rewrite H in E. lia.
  - exact H.
  - destruct o as [| | | | |[]|j f|j []|j|j r|j|]; try destruct R; try exact H.
    + apply unchanged_server. intros k Hk. apply (proj1 (unchanged_server U t y c _)) with (k := k) in H; [|exact Hk]. cbn [srun_step] in *. destruct (nth_error (v_tasks (y_server U k)) j) as [tk|] eqn:Hi; [|reflexivity]. destruct (a_pc tk) eqn:Hp; try reflexivity. destruct (a_req tk) as [q|]; [|reflexivity].
      pose proof (dispatch_undone U j (a_frame tk) q [] (y_server U k) tk Hi Hp) as (_ & L). rewrite H in L. lia.
    + apply unchanged_server. intros k Hk. apply (proj1 (unchanged_server U t y c _)) with (k := k) in H; [|exact Hk]. cbn [srun_step] in *. destruct (nth_error (v_jobs (y_server U k)) j) as [b|] eqn:Hj; [|reflexivity]. destruct (j_state b) eqn:Hs; try reflexivity.
      destruct (jstate_undone j (JEnded (Ok PNone)) (y_server U k) b Hj) as (_ & L); [rewrite Hs; cbn; lia|]. rewrite H in L. lia.
  - destruct (nth_error (y_conns y) c) as [k|] eqn:Hk; [|exact H]. apply unchanged_server. intros k' Hk'. assert (k' = k) by congruence. subst k'. apply (proj1 (unchanged_server U t y c _)) with (k := k) in H; [|exact Hk]. apply feed_nil in H. apply first_nil with (n := m) in H. rewrite H. apply set_same.
  - destruct (nth_error (y_conns y) c) as [k|] eqn:Hk; [|exact H]. destruct (nth_error (M_AioClient.s_links (y_client t y)) c) as [lk|] eqn:Hl; [|exact H]. apply unchanged_client. apply unchanged_client in H.
    set (x := skipn _ _) in *. assert (X : firstn 1 x = []).
    { destruct (L_System1.step_moves (M_AioClient.Feed c (firstn 1 x)) (y_client t y)) as (I & _). rewrite H in I. assert (Hi : nth_error (L_System1.ins (y_client t y)) c = Some (M_AioClient.k_in lk)) by (unfold L_System1.ins; rewrite nth_error_map, Hl; reflexivity).
      apply (f_equal (fun m => nth_error m c)) in I. rewrite (L_Front.upd_here _ _ _ _ Hi), Hi in I. injection I as I. apply (f_equal (@List.length _)) in I. rewrite app_length in I. destruct x; [reflexivity|cbn in I; lia]. }
    apply first_nil with (n := m) in X. rewrite X. cbn [M_AioClient.run_step]. unfold M_AioClient.on_link. rewrite upd_same; [destruct (y_client t y); reflexivity|]. right. exists lk. split; [exact Hl|]. rewrite !app_nil_r. destruct lk. reflexivity.
Qed.
Definition size (U : tables) (t : M_AioClient.timer) (y : sys) : nat :=
  S (List.length (M_AioClient.s_tasks (y_client t y)) + List.length (M_AioClient.s_links (y_client t y)) + List.length (y_conns y) + total (fun k => List.length (v_tasks (y_server U k)) + List.length (v_jobs (y_server U k))) (y_conns y)).
Lemma total_member {A} (f : A -> nat) l x : In x l -> f x <= total f l.
Proof. unfold total, list_sum. induction l as [|y l IH]; intros []; cbn; [subst; lia|]. specialize (IH H). lia. Qed.
Lemma nth_big {A} (l : list A) i : List.length l <= i -> nth_error l i = None.
Proof. apply nth_error_None. Qed.
Lemma in_range U t y o : routine o -> unchanged U t y (y_step U t o y) \/ (fst (index o) < size U t y /\ snd (index o) < size U t y).
Proof.
  intros R. unfold size. set (M := total _ _). destruct o as [d rid a|i rg tr|o|c o|c m|c m]; try destruct R; cbn [y_step index fst snd].
  - destruct (Nat.lt_ge_cases i (List.length (M_AioClient.s_tasks (y_client t y)))) as [L|L]; [right; lia|left]. cbv zeta. rewrite client_snoc. cbn [M_AioClient.run_step]. rewrite (nth_big _ _ L), Nat.ltb_irrefl. split; reflexivity.
  - destruct o as [r ad|i|i|i|i|i|i|i|i|c bs|c|c|c|rid|]; try destruct R; cbn [fst snd].
    1-4: destruct (Nat.lt_ge_cases i (List.length (M_AioClient.s_tasks (y_client t y)))) as [L|L]; [right; lia|left]; apply unchanged_client; cbn [M_AioClient.run_step]; rewrite (nth_big _ _ L); reflexivity.
    destruct (Nat.lt_ge_cases c (List.length (M_AioClient.s_links (y_client t y)))) as [L|L]; [right; lia|left]; apply unchanged_client; cbn [M_AioClient.run_step]; unfold M_AioClient.read; rewrite (nth_big _ _ L); reflexivity.
  - assert (W : match o with Feed _ => y | _ => y_server_step c o y end = y_server_step c o y) by (destruct o; try reflexivity; destruct R). rewrite W. clear W.
    destruct (nth_error (y_conns y) c) as [k|] eqn:Hk; [|left; apply unchanged_server; congruence]. assert (Lc : c < List.length (y_conns y)) by (apply nth_error_Some; congruence).
    assert (Lk : List.length (v_tasks (y_server U k)) + List.length (v_jobs (y_server U k)) <= M) by (apply (total_member (fun k => List.length (v_tasks (y_server U k)) + List.length (v_jobs (y_server U k)))); eapply nth_error_In; exact Hk).
    destruct o as [| | | | |[]|j f|j []|j|j r|j|]; try destruct R; cbn [fst snd]; try (right; lia).
    all: match goal with |- unchanged _ _ _ (y_server_step _ (JobRun _) _) \/ _ => destruct (Nat.lt_ge_cases j (List.length (v_jobs (y_server U k)))) as [L|L] | |- unchanged _ _ _ (y_server_step _ (JobEnd _ _) _) \/ _ => destruct (Nat.lt_ge_cases j (List.length (v_jobs (y_server U k)))) as [L|L] | _ => destruct (Nat.lt_ge_cases j (List.length (v_tasks (y_server U k)))) as [L|L] end; [right; lia|left].
    all: apply unchanged_server; intros k' Hk'; assert (k' = k) by congruence; subst k'; cbn [srun_step]; rewrite (nth_big _ _ L); reflexivity.
  - destruct (nth_error (y_conns y) c) as [k|] eqn:Hk; [|left; split; reflexivity]. right. assert (Lc : c < List.length (y_conns y)) by (apply nth_error_Some; congruence). lia.
  - destruct (nth_error (y_conns y) c) as [k|] eqn:Hk; [|left; split; reflexivity]. right. assert (Lc : c < List.length (y_conns y)) by (apply nth_error_Some; congruence). lia.
Qed.
Lemma settled_or_not reg U t y : settled U t y \/ exists o, accepts reg o /\ below (rank U t (y_step U t o y)) (rank U t y).
Proof.
  destruct (probe_all reg U t y (probes reg (size U t y)) (probes_routine reg _)) as [A|A]; [left|right; exact A]. intros o R. destruct (in_range U t y o R) as [E|(E1 & E2)]; [exact E|]. apply (canon_same reg); [exact R|].
  rewrite Forall_forall in A. apply A. exact (canon_probe reg _ o R E1 E2).
Qed.
Lemma comes_to_rest reg U t y : exists l, Forall (accepts reg) l /\ settled U t (y_from U t y l).
Proof.
  assert (K : forall r, Acc below r -> forall y, rank U t y = r -> exists l, Forall (accepts reg) l /\ settled U t (y_from U t y l)); [|exact (K _ (below_wf (rank U t y)) y eq_refl)].
  intros r A. induction A as [r _ IH]. intros z <-. destruct (settled_or_not reg U t z) as [S|(o & R & B)]; [exists []; split; [constructor|exact S]|].
  destruct (IH _ B _ eq_refl) as (l & Rl & S). exists (o :: l). split; [constructor; assumption|exact S].
Qed.
(** of the steps of an endless schedule at least one changes nothing; and from then on the same holds again *)
Lemma not_for_ever U t y f : (forall n, left_alone (f n)) -> exists n, unchanged U t (after U t f n y) (after U t f (S n) y).
Proof.
  assert (K : forall r, Acc below r -> forall y f, rank U t y = r -> (forall n, left_alone (f n)) -> exists n, unchanged U t (after U t f n y) (after U t f (S n) y)); [|exact (K _ (below_wf (rank U t y)) y f eq_refl)].
  intros r A. induction A as [r _ IH]. intros z g <- Hg. destruct (step_rank U t (g 0) z (Hg 0)) as [E|E]; [exists 0; exact E|].
  destruct (IH _ E _ (fun m => g (S m)) eq_refl (fun m => Hg (S m))) as (n & H). exists (S n). rewrite (after_shift U t g z n), (after_shift U t g z (S n)). exact H.
Qed.

Lemma from_run U t l l2 : y_from U t (y_run U t l) l2 = y_run U t (l ++ l2).
Proof. unfold y_from, y_run. rewrite fold_left_app. reflexivity. Qed.
Lemma accepts_smooth reg o : accepts reg o -> smooth o.
Proof. intros (R & _). destruct o as [d rid a|i r tr|o|c o|c n|c n]; try destruct R; try exact Logic.I; [destruct o; try destruct R; exact Logic.I|destruct o as [| | | | |[]|j f|j []|j|j r|j|]; try destruct R; exact Logic.I]. Qed.
Lemma accepts_ids reg l : Forall (accepts reg) l -> y_ids l = [].
Proof.
  induction l as [|o l IH]; intros F; [reflexivity|]. pose proof (Forall_inv F) as (R & _). unfold y_ids in *. cbn [map concat]. rewrite (IH (Forall_inv_tail F)). destruct o as [d rid a|i r tr|o|c o|c n|c n]; try destruct R; try reflexivity. destruct o; try destruct R; reflexivity.
Qed.
Lemma ids_app l l2 : y_ids (l ++ l2) = y_ids l ++ y_ids l2.
Proof. unfold y_ids. rewrite map_app, concat_app. reflexivity. Qed.
Lemma served_more d l reg l2 : served d l -> offers reg (y_interface d) (y_method d) -> Forall (accepts reg) l2 -> served d (l ++ l2).
Proof.
  intros (A & B & C & D) O F. rewrite Forall_forall in F. split; [exact A|]. split; [exact B|]. split.
  - intros i r tr H. apply in_app_iff in H as [H|H]; [exact (C i r tr H)|]. destruct (F _ H) as (_ & ->). exact O.
  - intros c x H. apply in_app_iff in H as [H|H]; [exact (D c x H)|]. destruct (F _ H) as ([] & _).
Qed.
Lemma call_can_end U t l d rid a reg : Forall smooth l -> NoDup (y_ids l) -> In (YCall d rid (Ok a)) l -> (exists p, y_request d rid = Ok p) -> y_ptype d <> 2%Z -> served d l -> clear_trace U d -> offers reg (y_interface d) (y_method d) ->
  exists l2, Forall routine l2 /\ let y := y_run U t (l ++ l2) in exists c k lk n r, nth_error (y_conns y) c = Some k /\ nth_error (M_AioClient.s_links (y_client t y)) c = Some lk /\ M_AioClient.k_addr lk = a /\
    In (n, y_interface d, y_method d, y_content d) (calls_on U k) /\ ended_with (y_server U k) n r /\
    (passed_on (y_client t y) rid r \/ ((exists v, r = Ok v /\ sendable v) /\ gives (y_client t y) rid (Raise KeyError))).
Proof.
  intros S N I P Pt Sv Cl O. destruct (comes_to_rest reg U t (y_run U t l)) as (l2 & F & R). rewrite from_run in R. exists l2. split; [apply Forall_impl with (2 := F); intros o (K & _); exact K|].
  apply outcome_any; auto.
  - apply Forall_app. split; [exact S|]. apply Forall_impl with (2 := F). apply accepts_smooth.
  - rewrite ids_app, (accepts_ids reg l2 F), app_nil_r. exact N.
  - apply in_or_app. left. exact I.
  - apply served_there; [|exact (served_more d l reg l2 Sv O F)]. apply Forall_app. split; [exact S|]. apply Forall_impl with (2 := F). apply accepts_smooth.
Qed.

(** Lemmas behind C69-C72: the callers of the asyncio client. *)
From Coq Require Import ZifyBool.
From Verif Require Import PyBase L_PyBase PyDict L_PyDict PyInt Struct M_SofaHeader M_Package L_Package M_RpcId M_Trace M_AioServer S_Server L_AioServer2 M_System S_System L_System M_Front S_Front.
From Verif Require S_Wire L_Codec M_AioClient L_AioClient L_AioClient2 L_AioClient3 L_AioClient4 L_AioClient6 L_System1.
Open Scope Z_scope.
Notation tasks U t h := (M_AioClient.s_tasks (y_client t (y_run U t h))).
Notation t_pc := M_AioClient.t_pc. Notation t_req := M_AioClient.t_req. Notation t_addr := M_AioClient.t_addr. Notation Done := M_AioClient.Done.

(** ** The client only goes on *)
Lemma yhist_step U t o y : exists m, y_hist (y_step U t o y) = y_hist y ++ m.
Proof.
  assert (N : exists m, y_hist y = y_hist y ++ m) by (exists []; rewrite app_nil_r; reflexivity).
  destruct o as [d rid a|i reg tr|o|c o|c n|c n]; cbn [y_step].
  - destruct (y_request d rid); [eexists; reflexivity|exact N].
  - cbv zeta. destruct (Nat.ltb _ _); [eexists; reflexivity|exact N].
  - destruct o; try exact N; eexists; reflexivity.
  - destruct o; try exact N; exact N.
  - destruct (nth_error (y_conns y) c); exact N.
  - destruct (nth_error (y_conns y) c); [|exact N]. destruct (nth_error _ c); [eexists; reflexivity|exact N].
Qed.
Lemma yhist_app U t h h' : exists m, y_hist (y_run U t (h ++ h')) = y_hist (y_run U t h) ++ m.
Proof.
  induction h' as [|o h' IH] using rev_ind; [rewrite app_nil_r; exists []; rewrite app_nil_r; reflexivity|].
  rewrite app_assoc. unfold y_run at 1. rewrite fold_left_app. cbn [fold_left]. fold (y_run U t (h ++ h')).
  destruct (yhist_step U t o (y_run U t (h ++ h'))) as (m & ->). destruct IH as (m' & ->). exists (m' ++ m). rewrite app_assoc. reflexivity.
Qed.
Lemma specs_from m : forall s, exists x, L_System1.specs (fold_left (fun s o => M_AioClient.run_step o s) m s) = L_System1.specs s ++ x.
Proof.
  induction m as [|o m IH]; intros s; [exists []; rewrite app_nil_r; reflexivity|]. cbn [fold_left]. destruct (IH (M_AioClient.run_step o s)) as (x & ->).
  pose proof (L_System1.step_moves o s) as M. assert (E : exists z, L_System1.specs (M_AioClient.run_step o s) = L_System1.specs s ++ z).
  { destruct o; cbn [L_System1.moves] in M; try (destruct M as (_ & ->); exists []; rewrite app_nil_r; reflexivity); try (destruct M as (_ & ->); eexists; reflexivity).
    destruct M as (_ & [->|(p & a & _ & ->)]); [exists []; rewrite app_nil_r; reflexivity|eexists; reflexivity]. }
  destruct E as (z & ->). exists (z ++ x). rewrite app_assoc. reflexivity.
Qed.
Lemma task_grows U t h h' i tk : nth_error (tasks U t h) i = Some tk ->
  exists tk', nth_error (tasks U t (h ++ h')) i = Some tk' /\ t_req tk' = t_req tk /\ t_addr tk' = t_addr tk /\ (forall r, t_pc tk = Done r -> tk' = tk).
Proof.
  intros H. destruct (yhist_app U t h h') as (m & E). unfold y_client in *. rewrite E. unfold M_AioClient.run in *. rewrite fold_left_app. fold (M_AioClient.run t (y_hist (y_run U t h))) in *.
  destruct (specs_from m (M_AioClient.run t (y_hist (y_run U t h)))) as (x & Es). unfold L_System1.specs in Es. set (s' := fold_left _ m _) in *.
  assert (Hs : nth_error (map (fun t => (t_req t, t_addr t)) (M_AioClient.s_tasks s')) i = Some (t_req tk, t_addr tk)).
  { rewrite Es, nth_error_app1; [|rewrite map_length; apply nth_error_Some; rewrite H; discriminate]. rewrite nth_error_map, H. reflexivity. }
  rewrite nth_error_map in Hs. destruct (nth_error (M_AioClient.s_tasks s') i) as [tk'|] eqn:Hi; [|discriminate]. injection Hs as Hq Ha. exists tk'. split; [reflexivity|]. split; [exact Hq|]. split; [exact Ha|].
  intros r Hr. pose proof (L_AioClient2.done_from m (M_AioClient.run t (y_hist (y_run U t h))) i tk r (L_AioClient.inv_run _ _) H Hr) as K. unfold L_AioClient.from in K. fold s' in K. congruence.
Qed.
Lemma new_task U t h d rid a p : y_request d rid = Ok p ->
  exists tk, nth_error (tasks U t (h ++ [YCall d rid a])) (List.length (tasks U t h)) = Some tk /\ y_request d rid = Ok (t_req tk) /\ t_addr tk = a.
Proof.
  intros E. unfold y_run. rewrite fold_left_app. cbn [fold_left y_step]. fold (y_run U t h). rewrite E. rewrite client_snoc. cbn [M_AioClient.run_step M_AioClient.call M_AioClient.set_tasks M_AioClient.s_tasks].
  rewrite nth_error_app2, Nat.sub_diag by lia. eexists. split; [reflexivity|]. split; reflexivity.
Qed.

(** ** What the log says about one call *)
Definition about (j : nat) (e : fevent) : bool := match e with EOver i _ | ECallback i _ | ELate i => Nat.eqb i j end.
Definition cb_of (j : nat) (g : list fevent) : list pyobj := concat (map (fun e => match e with ECallback i v => if Nat.eqb i j then [v] else [] | _ => [] end) g).
Definition ov_of (j : nat) (g : list fevent) : list (res pyobj) := concat (map (fun e => match e with EOver i r => if Nat.eqb i j then [r] else [] | _ => [] end) g).
Lemma cb_app j a b : cb_of j (a ++ b) = cb_of j a ++ cb_of j b.
Proof. unfold cb_of. rewrite map_app, concat_app. reflexivity. Qed.
Lemma ov_app j a b : ov_of j (a ++ b) = ov_of j a ++ ov_of j b.
Proof. unfold ov_of. rewrite map_app, concat_app. reflexivity. Qed.
Lemma silent j g : (forall e, In e g -> about j e = false) -> cb_of j g = [] /\ ov_of j g = [] /\ ~ In (ELate j) g.
Proof.
  induction g as [|e g IH]; intros H; [repeat split; auto|]. destruct IH as (A & B & C); [intros x Hx; apply H; right; exact Hx|]. pose proof (H e (or_introl eq_refl)) as He.
  unfold cb_of, ov_of in *. cbn [map concat]. rewrite A, B, !app_nil_r. destruct e; cbn in He; try rewrite He; repeat split; try reflexivity; intros [K|K]; try discriminate; auto.
  injection K as ->. rewrite Nat.eqb_refl in He. discriminate.
Qed.

Definition failed_early (l : list fstep) (j : nat) (r : res pyobj) : Prop := exists k d rid a e, nth_error (invocations l) j = Some (k, d, rid, a) /\ r = Raise e /\
  ((entry_ok k d = false /\ e = AssertionError) \/ y_request (entry_call k d) rid = Raise e).
Lemma failed_more l o j r : failed_early l j r -> failed_early (l ++ [o]) j r.
Proof. intros (k & d & rid & a & e & N & R). exists k, d, rid, a, e. split; [unfold invocations; rewrite map_app, concat_app, nth_error_app1; [exact N|]; apply nth_error_Some; unfold invocations in N; rewrite N; discriminate|exact R]. Qed.
Record cinv (U : tables) (t : M_AioClient.timer) (l : list fstep) (h : list ystep) (g : list fevent) (j : nat) (c : fcall) : Prop := {
  ci_call : exists k d rid a, nth_error (invocations l) j = Some (k, d, rid, a) /\ (f_api c = k \/ (k = AAsync true /\ f_api c = AAsync false /\ f_over c = true)) /\
    (f_fut c = FNone \/ (In (YCall (entry_call k d) rid a) h /\ exists tk, nth_error (tasks U t h) (f_task c) = Some tk /\ y_request (entry_call k d) rid = Ok (t_req tk) /\ t_addr tk = a));
  ci_none : f_fut c = FNone -> f_over c = true;
  ci_done : forall r, f_fut c = FDone r -> exists tk, nth_error (tasks U t h) (f_task c) = Some tk /\ t_pc tk = Done r;
  ci_canc : f_fut c = FCancelled -> (In (WCancel j) l /\ f_api c <> ASync) \/ exists tk, nth_error (tasks U t h) (f_task c) = Some tk /\ t_pc tk = Done (M_AioClient.RetErr CancelledError);
  ci_cb : cb_of j g = match f_api c, f_fut c with AAsync true, FDone (M_AioClient.RetPkg p) => [p_content p] | _, _ => [] end;
  ci_open : f_over c = false -> ov_of j g = [] /\ (f_api c = ASync -> ~ In (ELate j) g);
  ci_over : f_over c = true -> exists r, ov_of j g = [r] /\
    (result_now (f_fut c) = Some r \/ (In (ELate j) g /\ r = Raise TimeoutError) \/ (f_fut c = FNone /\ failed_early l j r) \/ (f_api c <> ASync /\ r = Raise TypeError))
}.
Record finv (U : tables) (t : M_AioClient.timer) (l : list fstep) (w : front) : Prop := {
  fi_len : List.length (w_calls w) = List.length (invocations l);
  fi_call : forall j c, nth_error (w_calls w) j = Some c -> cinv U t l (w_hist w) (w_log w) j c;
  fi_log : forall e, In e (w_log w) -> exists j, (j < List.length (w_calls w))%nat /\ about j e = true
}.
Lemma inv_app l o : invocations (l ++ [o]) = invocations l ++ match o with WInvoke k d rid a => [(k, d, rid, a)] | _ => [] end.
Proof. unfold invocations. rewrite map_app, concat_app. cbn. rewrite app_nil_r. reflexivity. Qed.
Lemma nth_more {A} (a b : list A) j x : nth_error a j = Some x -> nth_error (a ++ b) j = Some x.
Proof. intros H. rewrite nth_error_app1; [exact H|]. apply nth_error_Some. rewrite H. discriminate. Qed.
Lemma cinv_more U t l o h h' g g' j c : cinv U t l h g j c -> (forall e, In e g' -> about j e = false) -> cinv U t (l ++ [o]) (h ++ h') (g ++ g') j c.
Proof.
  intros [A B C X D E F] S. destruct (silent j g' S) as (S1 & S2 & S3). constructor.
  - destruct A as (k & d & rid & a & N & Ea & [H|(Hi & tk & Ht & Hr & Hd)]); exists k, d, rid, a; (split; [rewrite inv_app; apply nth_more; exact N|]); (split; [exact Ea|]); [left; exact H|].
    right. split; [apply in_or_app; left; exact Hi|]. destruct (task_grows U t h h' _ _ Ht) as (tk' & G1 & G2 & G3 & _). exists tk'. rewrite G2, G3. auto.
  - exact B.
  - intros r H. destruct (C r H) as (tk & Ht & Hd). destruct (task_grows U t h h' _ _ Ht) as (tk' & G1 & _ & _ & G4). exists tk. rewrite (G4 r Hd) in G1. auto.
  - intros H. destruct (X H) as [(X1 & X2)|(tk & Ht & Hd)]; [left; split; [apply in_or_app; auto|exact X2]|]. destruct (task_grows U t h h' _ _ Ht) as (tk' & G1 & _ & _ & G4). right. exists tk. rewrite (G4 _ Hd) in G1. auto.
  - rewrite cb_app, S1, app_nil_r. exact D.
  - intros H. destruct (E H) as (E1 & E2). rewrite ov_app, S2, app_nil_r. split; [exact E1|]. intros K L. apply in_app_or in L as [L|L]; [exact (E2 K L)|exact (S3 L)].
  - intros H. destruct (F H) as (r & F1 & F2). exists r. rewrite ov_app, S2, app_nil_r. split; [exact F1|]. destruct F2 as [F2|[(F2 & F3)|[(F2 & F3)|F2]]]; [auto|right; left; split; [apply in_or_app; auto|exact F3]|auto 6 using failed_more|auto].
Qed.
(** nothing happens to calls *)
Lemma finv_same U t l o w h : finv U t l w -> match o with WInvoke _ _ _ _ => False | _ => True end ->
  finv U t (l ++ [o]) {| w_hist := w_hist w ++ h; w_calls := w_calls w; w_log := w_log w |}.
Proof.
  intros [A B C] N. assert (E : invocations (l ++ [o]) = invocations l) by (rewrite inv_app; destruct o; [destruct N|..]; apply app_nil_r). constructor; cbn.
  - rewrite E. exact A.
  - intros j c H. rewrite <- (app_nil_r (w_log w)). apply cinv_more; [exact (B j c H)|intros e []].
  - exact C.
Qed.
Lemma finv_keep U t l o w : finv U t l w -> match o with WInvoke _ _ _ _ => False | _ => True end -> finv U t (l ++ [o]) w.
Proof. intros F N. pose proof (finv_same U t l o w [] F N) as H. rewrite app_nil_r in H. destruct w. exact H. Qed.
(** one call changes *)
Lemma finv_one U t l o w j c f g : finv U t l w -> match o with WInvoke _ _ _ _ => False | _ => True end -> nth_error (w_calls w) j = Some c ->
  (forall e, In e g -> about j e = true) -> cinv U t (l ++ [o]) (w_hist w) (w_log w ++ g) j (f c) -> finv U t (l ++ [o]) (set_call j f g w).
Proof.
  intros [A B C] N H G K. assert (E : invocations (l ++ [o]) = invocations l) by (rewrite inv_app; destruct o; [destruct N|..]; apply app_nil_r).
  assert (Lj : (j < List.length (w_calls w))%nat) by (apply nth_error_Some; rewrite H; discriminate). constructor; cbn [set_call w_calls w_log w_hist].
  - rewrite L_AioServer2.length_upd, E. exact A.
  - intros i ci Hi. apply L_AioServer2.nth_upd_inv in Hi as [(-> & x & Hx & ->)|(Ne & Hi)].
    2: { rewrite <- (app_nil_r (w_hist w)). apply cinv_more; [exact (B i ci Hi)|]. intros e He. specialize (G e He). destruct e; cbn in *; lia. }
    assert (x = c) by congruence. subst x. exact K.
  - intros e He. rewrite L_AioServer2.length_upd. apply in_app_or in He as [He|He]; [exact (C e He)|]. exists j. auto.
Qed.

(** ** Every step *)
Lemma over_ev j r : cb_of j [EOver j r] = [] /\ ov_of j [EOver j r] = [r].
Proof. unfold cb_of, ov_of. cbn. rewrite Nat.eqb_refl. auto. Qed.
Lemma fresh_log U t l w : finv U t l w -> let j := List.length (w_calls w) in cb_of j (w_log w) = [] /\ ov_of j (w_log w) = [] /\ ~ In (ELate j) (w_log w).
Proof. intros F j. apply silent. intros e He. destruct (fi_log _ _ _ _ F e He) as (i & Li & Ai). unfold j. destruct e; cbn in *; lia. Qed.
Lemma finv_add U t l w k d rid a c h g : finv U t l w -> (forall e, In e g -> about (List.length (w_calls w)) e = true) ->
  cinv U t (l ++ [WInvoke k d rid a]) (w_hist w ++ h) (w_log w ++ g) (List.length (w_calls w)) c -> finv U t (l ++ [WInvoke k d rid a]) (add_call c h g w).
Proof.
  intros F G K. destruct F as [A B C]. constructor; cbn [add_call w_calls w_log w_hist].
  - rewrite inv_app, !app_length, A. reflexivity.
  - intros j cj Hj. destruct (Nat.lt_ge_cases j (List.length (w_calls w))) as [L|L].
    + rewrite nth_error_app1 in Hj by exact L. apply cinv_more; [exact (B j cj Hj)|]. intros e He. specialize (G e He). destruct e; cbn in *; lia.
    + rewrite nth_error_app2 in Hj by exact L. destruct (j - List.length (w_calls w))%nat as [|x] eqn:E; [|destruct x; discriminate]. assert (j = List.length (w_calls w)) by lia. subst j. injection Hj as <-. exact K.
  - intros e He. rewrite app_length. cbn. apply in_app_or in He as [He|He].
    + destruct (C e He) as (j & L & E). exists j. split; [lia|exact E].
    + exists (List.length (w_calls w)). split; [lia|exact (G e He)].
Qed.
Lemma finv_step U t l o w : finv U t l w -> finv U t (l ++ [o]) (w_step U t o w).
Proof.
  intros F. destruct o as [k d rid a|o|j|j|j|j]; cbn [w_step].
  - cbv zeta. destruct (fresh_log U t l w F) as (L1 & L2 & L3). pose proof (fi_len _ _ _ _ F) as Len.
    assert (Nj : nth_error (invocations (l ++ [WInvoke k d rid a])) (List.length (w_calls w)) = Some (k, d, rid, a)) by (rewrite inv_app, nth_error_app2, Len, Nat.sub_diag by lia; reflexivity).
    assert (Fail : forall e, (entry_ok k d = false /\ e = AssertionError) \/ y_request (entry_call k d) rid = Raise e -> finv U t (l ++ [WInvoke k d rid a]) (add_call {| f_api := k; f_task := 0; f_fut := FNone; f_over := true |} [] [EOver (List.length (w_calls w)) (Raise e)] w)).
    { intros e Why. apply finv_add; [exact F|intros x [<-|[]]; apply Nat.eqb_refl|]. constructor; cbn [f_api f_fut f_over f_task].
      - exists k, d, rid, a. auto.
      - reflexivity.
      - discriminate.
      - discriminate.
      - rewrite cb_app, L1. destruct k as [|[]|]; reflexivity.
      - discriminate.
      - intros _. exists (Raise e). rewrite ov_app, L2. split; [apply over_ev|]. right. right. left. split; [reflexivity|]. exists k, d, rid, a, e. auto. }
    destruct (entry_ok k d) eqn:Ek0; [|apply Fail; auto]. destruct (y_request (entry_call k d) rid) as [p|e] eqn:Er; [|apply Fail; auto].
    destruct (new_task U t (w_hist w) _ rid a p Er) as (tk & T1 & T2 & T3). destruct (callback_ok k d) eqn:Ck.
    + apply finv_add; [exact F|intros x []|]. rewrite app_nil_r. constructor; cbn [f_api f_fut f_over f_task].
      * exists k, d, rid, a. split; [exact Nj|]. split; [auto|]. right. split; [apply in_or_app; right; left; reflexivity|]. exists tk. auto.
      * discriminate.
      * discriminate.
      * discriminate.
      * rewrite L1. destruct k as [|[]|]; reflexivity.
      * auto.
      * discriminate.
    + apply finv_add; [exact F|intros x [<-|[]]; apply Nat.eqb_refl|]. assert (Ek : k = AAsync true) by (destruct k as [|[]|]; try discriminate; reflexivity). constructor; cbn [f_api f_fut f_over f_task].
      * exists k, d, rid, a. split; [exact Nj|]. split; [auto|]. right. split; [apply in_or_app; right; left; reflexivity|]. exists tk. auto.
      * discriminate.
      * discriminate.
      * discriminate.
      * rewrite cb_app, L1. reflexivity.
      * discriminate.
      * intros _. exists (Raise TypeError). rewrite ov_app, L2. split; [apply over_ev|]. right. right. right. split; [discriminate|reflexivity].
  - destruct o; try (apply finv_same; [exact F|exact Logic.I]). apply finv_keep; [exact F|exact Logic.I].
  - destruct (nth_error (w_calls w) j) as [c|] eqn:Hc; [|apply finv_keep; [exact F|exact Logic.I]]. pose proof (fi_call _ _ _ _ F j c Hc) as K.
    destruct (f_fut c) eqn:Hf; try (apply finv_keep; [exact F|exact Logic.I]). destruct (nth_error _ (f_task c)) as [tk|] eqn:Ht; [|apply finv_keep; [exact F|exact Logic.I]].
    destruct (t_pc tk) as [| | | | | |r] eqn:Hp; try (apply finv_keep; [exact F|exact Logic.I]).
    assert (Gj : forall e, In e (callback_wrapper (f_api c) j (future_of r)) -> about j e = true).
    { intros e. unfold callback_wrapper. destruct (f_api c) as [|[]|]; try (intros []). destruct (future_of r) as [| | |[|p|]]; try (intros []); subst; try apply Nat.eqb_refl; contradiction. }
    eapply finv_one; [exact F|exact Logic.I|exact Hc|exact Gj|]. destruct K as [A B C X D E G]. constructor; cbn [with_fut f_api f_fut f_over f_task].
    + destruct A as (k & d & rid & a & N & Ea & [H|H]); [congruence|]. exists k, d, rid, a. rewrite inv_app, app_nil_r. auto.
    + intros H. unfold future_of in H. destruct r as [| |[]]; discriminate.
    + intros r' H. exists tk. split; [exact Ht|]. unfold future_of in H. destruct r as [| |[]]; first [discriminate H|injection H as <-; exact Hp].
    + intros H. right. exists tk. split; [exact Ht|]. unfold future_of in H. destruct r as [| |[]]; try discriminate H. exact Hp.
    + rewrite cb_app, D, Hf. assert (Em : match f_api c with AAsync true => @nil pyobj | _ => [] end = []) by (destruct (f_api c) as [|[]|]; reflexivity).
      unfold callback_wrapper. destruct (f_api c) as [|[]|]; try reflexivity. destruct r as [|p|[]]; try reflexivity. unfold cb_of. cbn. rewrite Nat.eqb_refl. reflexivity.
    + intros H. destruct (E H) as (E1 & E2). rewrite ov_app, E1. assert (Z : ov_of j (callback_wrapper (f_api c) j (future_of r)) = []) by (unfold callback_wrapper; destruct (f_api c) as [|[]|]; try reflexivity; destruct (future_of r) as [| | |[]]; reflexivity).
      rewrite Z. split; [reflexivity|]. intros K I. apply in_app_or in I as [I|I]; [exact (E2 K I)|]. rewrite K in I. destruct I.
    + intros H. destruct (G H) as (x & G1 & G2). exists x. assert (Z : ov_of j (callback_wrapper (f_api c) j (future_of r)) = []) by (unfold callback_wrapper; destruct (f_api c) as [|[]|]; try reflexivity; destruct (future_of r) as [| | |[]]; reflexivity).
      rewrite ov_app, G1, Z. split; [reflexivity|]. rewrite Hf in G2. destruct G2 as [G2|[(G2 & G3)|[(G2 & _)|G2]]]; try discriminate; [|auto]. right. left. split; [apply in_or_app; auto|exact G3].
  - destruct (nth_error (w_calls w) j) as [c|] eqn:Hc; [|apply finv_keep; [exact F|exact Logic.I]]. pose proof (fi_call _ _ _ _ F j c Hc) as K.
    destruct (f_api c) as [|cb|] eqn:Ha; try (apply finv_keep; [exact F|exact Logic.I]). destruct (f_fut c) eqn:Hf; try (apply finv_keep; [exact F|exact Logic.I]).
    assert (Z : callback_wrapper (AAsync cb) j FCancelled = []) by (destruct cb; reflexivity). rewrite Z. eapply finv_one; [exact F|exact Logic.I|exact Hc|intros e []|]. rewrite app_nil_r. destruct K as [A B C X D E G]. constructor; cbn [with_fut f_api f_fut f_over f_task].
    + destruct A as (k & d & rid & a & N & Ea & [H|H]); [congruence|]. exists k, d, rid, a. rewrite inv_app, app_nil_r. auto.
    + discriminate.
    + discriminate.
    + intros _. left. split; [apply in_or_app; right; left; reflexivity|rewrite Ha; discriminate].
    + rewrite D, Ha, Hf. destruct cb; reflexivity.
    + exact E.
    + intros H. destruct (G H) as (x & G1 & G2). exists x. split; [exact G1|]. rewrite Hf in G2. destruct G2 as [G2|[G2|[(G2 & _)|G2]]]; try discriminate; auto.
  - destruct (nth_error (w_calls w) j) as [c|] eqn:Hc; [|apply finv_keep; [exact F|exact Logic.I]]. pose proof (fi_call _ _ _ _ F j c Hc) as K.
    assert (Same : (f_api c <> ASync \/ f_over c = true) -> finv U t (l ++ [WLate j]) (set_call j (fun c => c) [ELate j] w)).
    { intros O. eapply finv_one; [exact F|exact Logic.I|exact Hc|intros e [<-|[]]; apply Nat.eqb_refl|]. destruct K as [A B C X D E G]. constructor; auto.
      - rewrite inv_app, app_nil_r. exact A.
      - intros H. destruct (X H) as [(X1 & X2)|X1]; [left; split; [apply in_or_app; auto|exact X2]|auto].
      - rewrite cb_app, D. apply app_nil_r.
      - intros H. destruct (E H) as (E1 & E2). rewrite ov_app, E1. split; [reflexivity|]. intros K. destruct O as [O|O]; congruence.
      - intros H. destruct (G H) as (x & G1 & G2). exists x. rewrite ov_app, G1. split; [reflexivity|]. destruct G2 as [G2|[(G2 & G3)|[(G2 & G3)|G2]]]; [auto|right; left; split; [apply in_or_app; auto|exact G3]|auto 6 using failed_more|auto]. }
    destruct (f_api c) eqn:Ha; [|apply Same; left; congruence..]. destruct (f_over c) eqn:Ho; [apply Same; auto|]. clear Same.
    eapply finv_one; [exact F|exact Logic.I|exact Hc|intros e [<-|[<-|[]]]; apply Nat.eqb_refl|]. destruct K as [A B C X D E G]. destruct (E Ho) as (E1 & E2). constructor; cbn [mark_over f_api f_fut f_over f_task].
    + rewrite inv_app, app_nil_r. destruct A as (k & d & rid & a & A1 & [A2|(_ & A2 & _)] & A3); [exists k, d, rid, a; auto|congruence].
    + reflexivity.
    + exact C.
    + intros H. destruct (X H) as [(X1 & X2)|X1]; [left; split; [apply in_or_app; auto|exact X2]|auto].
    + rewrite cb_app, D. apply app_nil_r.
    + discriminate.
    + intros _. eexists. rewrite ov_app, E1. split; [unfold ov_of; cbn; rewrite Nat.eqb_refl; reflexivity|]. destruct (result_now (f_fut c)) as [r|]; [auto|]. right. left. split; [apply in_or_app; right; left; reflexivity|reflexivity].
  - destruct (nth_error (w_calls w) j) as [c|] eqn:Hc; [|apply finv_keep; [exact F|exact Logic.I]]. pose proof (fi_call _ _ _ _ F j c Hc) as K.
    destruct (f_api c) eqn:Ha; try (apply finv_keep; [exact F|exact Logic.I]). destruct (f_over c) eqn:Ho; try (apply finv_keep; [exact F|exact Logic.I]). destruct (result_now (f_fut c)) as [r|] eqn:Hr; try (apply finv_keep; [exact F|exact Logic.I]).
    eapply finv_one; [exact F|exact Logic.I|exact Hc|intros e [<-|[]]; apply Nat.eqb_refl|]. destruct K as [A B C X D E G]. destruct (E Ho) as (E1 & E2). constructor; cbn [mark_over f_api f_fut f_over f_task].
    + rewrite inv_app, app_nil_r. destruct A as (k & d & rid & a & A1 & [A2|(_ & A2 & _)] & A3); [exists k, d, rid, a; auto|congruence].
    + reflexivity.
    + exact C.
    + intros H. destruct (X H) as [(X1 & X2)|X1]; [left; split; [apply in_or_app; auto|exact X2]|auto].
    + rewrite cb_app, D. apply app_nil_r.
    + discriminate.
    + intros _. exists r. rewrite ov_app, E1. split; [apply over_ev|auto].
Qed.
Lemma finv_run U t l : finv U t l (w_run U t l).
Proof.
  induction l as [|o l IH] using rev_ind.
  - constructor; cbn; [reflexivity|intros [|j] c H; discriminate|intros e []].
  - unfold w_run. rewrite fold_left_app. cbn [fold_left]. apply finv_step. exact IH.
Qed.

(** ** The callers *)
Lemma call_of U t l j x : nth_error (invocations l) j = Some x -> exists c, nth_error (w_calls (w_run U t l)) j = Some c /\ cinv U t l (w_hist (w_run U t l)) (w_log (w_run U t l)) j c.
Proof.
  intros H. pose proof (finv_run U t l) as F. destruct (nth_error (w_calls (w_run U t l)) j) as [c|] eqn:Hc; [exists c; split; [reflexivity|exact (fi_call _ _ _ _ F j c Hc)]|].
  apply nth_error_None in Hc. rewrite (fi_len _ _ _ _ F) in Hc. assert (K : nth_error (invocations l) j <> None) by congruence. apply nth_error_Some in K. lia.
Qed.
Lemma no_call U t l j : nth_error (invocations l) j = None -> callbacks j (w_run U t l) = [] /\ outcomes j (w_run U t l) = [] /\ ~ late j (w_run U t l).
Proof.
  intros H. pose proof (finv_run U t l) as F. apply nth_error_None in H. rewrite <- (fi_len _ _ _ _ F) in H. apply silent. intros e He. destruct (fi_log _ _ _ _ F e He) as (i & Li & Ai). destruct e; cbn in *; lia.
Qed.
Lemma one_callback U t l j : (List.length (callbacks j (w_run U t l)) <= 1)%nat.
Proof.
  destruct (nth_error (invocations l) j) as [x|] eqn:Hx; [|rewrite (proj1 (no_call U t l j Hx)); cbn; lia]. destruct (call_of U t l j x Hx) as (c & _ & K).
  change (callbacks j (w_run U t l)) with (cb_of j (w_log (w_run U t l))). rewrite (ci_cb _ _ _ _ _ _ _ K). destruct (f_api c) as [|[]|]; cbn; try lia. destruct (f_fut c) as [| | |[]]; cbn; lia.
Qed.
Lemma one_outcome U t l j : (List.length (outcomes j (w_run U t l)) <= 1)%nat.
Proof.
  destruct (nth_error (invocations l) j) as [x|] eqn:Hx; [|rewrite (proj1 (proj2 (no_call U t l j Hx))); cbn; lia]. destruct (call_of U t l j x Hx) as (c & _ & K).
  change (outcomes j (w_run U t l)) with (ov_of j (w_log (w_run U t l))). destruct (f_over c) eqn:Ho; [destruct (ci_over _ _ _ _ _ _ _ K Ho) as (r & -> & _)|destruct (ci_open _ _ _ _ _ _ _ K Ho) as (-> & _)]; cbn; lia.
Qed.
(** a future that ended with a package *)
Lemma value_of U t l j c p d rid a k : ids_differ U t l -> cinv U t l (w_hist (w_run U t l)) (w_log (w_run U t l)) j c -> f_fut c = FDone (M_AioClient.RetPkg p) ->
  nth_error (invocations l) j = Some (k, d, rid, a) -> method_returned U t (w_run U t l) d a (p_content p).
Proof.
  intros N K Hf Hj. destruct (ci_call _ _ _ _ _ _ _ K) as (k' & d' & rid' & a' & Hj' & _ & [H|(Hi & tk & Ht & Hr & Ha)]); [congruence|]. assert (E : (k', d', rid', a') = (k, d, rid, a)) by congruence. injection E as -> -> -> ->.
  destruct (ci_done _ _ _ _ _ _ _ K _ Hf) as (tk' & Ht' & Hp). assert (tk' = tk) by congruence. subst tk'.
  destruct (result_of_call U t (w_hist (w_run U t l)) (entry_call k d) rid a (p_content p) N Hi) as (c0 & kk & lk & n & bs & R).
  { exists (f_task c), tk, (M_AioClient.RetPkg p). split; [exact Ht|]. split; [exact (proj2 (request_id _ _ _ Hr))|]. auto. }
  exists c0, kk, lk, n, bs. exact R.
Qed.
Lemma callback_value U t l j v : ids_differ U t l -> In v (callbacks j (w_run U t l)) ->
  exists d rid a, nth_error (invocations l) j = Some (AAsync true, d, rid, a) /\ method_returned U t (w_run U t l) d a v.
Proof.
  intros N H. destruct (nth_error (invocations l) j) as [x|] eqn:Hx; [|rewrite (proj1 (no_call U t l j Hx)) in H; destruct H]. destruct (call_of U t l j x Hx) as (c & _ & K).
  change (callbacks j (w_run U t l)) with (cb_of j (w_log (w_run U t l))) in H. rewrite (ci_cb _ _ _ _ _ _ _ K) in H. destruct (f_api c) as [|[]|] eqn:Ha; try destruct H. destruct (f_fut c) as [| | |[|p|]] eqn:Hf; try destruct H; [|contradiction].
  destruct (ci_call _ _ _ _ _ _ _ K) as (k & d & rid & a & Hj & Hk & _). assert (Ek : k = AAsync true) by (destruct Hk as [Hk|(_ & Hk & _)]; congruence). subst k. exists d, rid, a. split; [congruence|]. subst v.
  exact (value_of U t l j c p d rid a _ N K Hf Hj).
Qed.
Lemma sync_value U t l j v d rid a : ids_differ U t l -> nth_error (invocations l) j = Some (ASync, d, rid, a) -> In (Ok v) (outcomes j (w_run U t l)) -> method_returned U t (w_run U t l) d a v.
Proof.
  intros N Hj H. destruct (call_of U t l j _ Hj) as (c & _ & K). change (outcomes j (w_run U t l)) with (ov_of j (w_log (w_run U t l))) in H.
  destruct (f_over c) eqn:Ho; [|rewrite (proj1 (ci_open _ _ _ _ _ _ _ K Ho)) in H; destruct H]. destruct (ci_over _ _ _ _ _ _ _ K Ho) as (r & E & W). rewrite E in H. destruct H as [->|[]].
  destruct W as [W|[(_ & W)|[(_ & W)|(_ & W)]]]; try discriminate W; [|destruct W as (? & ? & ? & ? & ? & _ & W & _); discriminate W].
  destruct (f_fut c) as [| | |r] eqn:Hf; try discriminate W. cbn in W. destruct r as [|p|e]; try discriminate W. injection W as <-. exact (value_of U t l j c p d rid a _ N K Hf Hj).
Qed.
Lemma late_is_over U t l j d rid a : nth_error (invocations l) j = Some (ASync, d, rid, a) -> late j (w_run U t l) -> exists r, outcomes j (w_run U t l) = [r].
Proof.
  intros Hj H. destruct (call_of U t l j _ Hj) as (c & _ & K). change (outcomes j (w_run U t l)) with (ov_of j (w_log (w_run U t l))). destruct (f_over c) eqn:Ho; [destruct (ci_over _ _ _ _ _ _ _ K Ho) as (r & E & _); eauto|].
  destruct (ci_open _ _ _ _ _ _ _ K Ho) as (_ & L). destruct (ci_call _ _ _ _ _ _ _ K) as (k & d' & rid' & a' & Hj' & Hk & _). assert (k = ASync) by congruence. subst k. destruct Hk as [Hk|(Hk & _)]; [|discriminate]. destruct (L Hk H).
Qed.
Lemma timeout_is_late U t l j d rid a p : nth_error (invocations l) j = Some (ASync, d, rid, a) -> y_request (entry_call ASync d) rid = Ok p -> a <> Raise TimeoutError ->
  In (Raise TimeoutError) (outcomes j (w_run U t l)) -> late j (w_run U t l).
Proof.
  intros Hj Er Na H. destruct (call_of U t l j _ Hj) as (c & _ & K). change (outcomes j (w_run U t l)) with (ov_of j (w_log (w_run U t l))) in H.
  destruct (f_over c) eqn:Ho; [|rewrite (proj1 (ci_open _ _ _ _ _ _ _ K Ho)) in H; destruct H]. destruct (ci_over _ _ _ _ _ _ _ K Ho) as (r & E & W). rewrite E in H. destruct H as [->|[]].
  destruct W as [W|[(W & _)|[(_ & W)|(_ & W)]]]; [|exact W| |discriminate W].
  - destruct (f_fut c) as [| | |r] eqn:Hf; try discriminate W. cbn in W. destruct r as [|q|e]; try discriminate W. injection W as ->. destruct (ci_done _ _ _ _ _ _ _ K _ Hf) as (tk & Ht & Hp).
    destruct (L_AioClient3.endings_run t _ _ _ _ Ht Hp) as [X|[X|X]]; try discriminate X. destruct (ci_call _ _ _ _ _ _ _ K) as (k & d' & rid' & a' & Hj' & _ & [Y|(_ & tk' & Ht' & _ & Ha)]); [congruence|]. congruence.
  - destruct W as (k & d' & rid' & a' & e & Hj' & Ee & [(_ & ->)|X]); [discriminate|]. assert (Eq : (k, d', rid', a') = (ASync, d, rid, a)) by congruence. injection Eq as -> -> -> ->. congruence.
Qed.

(** the task of a call is the only one with its id *)
Lemma nodup_nth {A} (l : list A) i j x : NoDup l -> nth_error l i = Some x -> nth_error l j = Some x -> i = j.
Proof. intros N Hi Hj. apply (proj1 (NoDup_nth_error l) N); [apply nth_error_Some; congruence|congruence]. Qed.
Lemma only_task U t h i i' tk tk' rid : NoDup (y_ids h) -> nth_error (tasks U t h) i = Some tk -> nth_error (tasks U t h) i' = Some tk' ->
  p_request_id (t_req tk) = PInt rid -> p_request_id (t_req tk') = PInt rid -> i = i'.
Proof.
  intros N Hi Hi' Hr Hr'. pose proof (yi_ids _ _ _ _ (yinv_run U t h) N) as D. unfold L_System1.specs in D. rewrite map_map in D. cbn [fst] in D. apply (nodup_nth _ i i' rid D); rewrite nth_error_map; [rewrite Hi|rewrite Hi']; cbn; unfold M_AioClient.rid_of; [rewrite Hr|rewrite Hr']; reflexivity.
Qed.
Lemma given U t l j k d rid a r : ids_differ U t l -> nth_error (invocations l) j = Some (k, d, rid, a) -> outcomes j (w_run U t l) = [] -> gives (w_client U t (w_run U t l)) rid r ->
  exists c tk o, nth_error (w_calls (w_run U t l)) j = Some c /\ cinv U t l (w_hist (w_run U t l)) (w_log (w_run U t l)) j c /\ f_over c = false /\ f_api c = k /\ f_fut c <> FNone /\
    nth_error (tasks U t (w_hist (w_run U t l))) (f_task c) = Some tk /\ t_pc tk = Done o /\ M_AioClient.caller_sees o = r.
Proof.
  intros N Hj Ho (i & tk & o & Hi & Hr & Hp & Hs). destruct (call_of U t l j _ Hj) as (c & Hc & K). change (outcomes j (w_run U t l)) with (ov_of j (w_log (w_run U t l))) in Ho.
  assert (O : f_over c = false) by (destruct (f_over c) eqn:E; [destruct (ci_over _ _ _ _ _ _ _ K E) as (x & X & _); congruence|reflexivity]).
  assert (Nn : f_fut c <> FNone) by (intros X; pose proof (ci_none _ _ _ _ _ _ _ K X); congruence).
  destruct (ci_call _ _ _ _ _ _ _ K) as (k' & d' & rid' & a' & Hj' & Hk & [H|(_ & tk' & Ht & Hr' & Ha)]); [congruence|]. assert (E : (k', d', rid', a') = (k, d, rid, a)) by congruence. injection E as -> -> -> ->.
  assert (f_task c = i) by (eapply only_task; [exact N|exact Ht|exact Hi|exact (proj2 (request_id _ _ _ Hr'))|exact Hr]). subst i. assert (tk' = tk) by (unfold w_client in Hi; congruence). subst tk'.
  exists c, tk, o. split; [exact Hc|]. split; [exact K|]. split; [exact O|]. split; [|auto 6]. destruct Hk as [Hk|(_ & _ & Hk)]; [exact Hk|congruence].
Qed.
Lemma w_app U t l l2 : w_run U t (l ++ l2) = fold_left (fun w o => w_step U t o w) l2 (w_run U t l).
Proof. unfold w_run. rewrite fold_left_app. reflexivity. Qed.
Lemma result_future o : result_now (future_of o) = Some (M_AioClient.caller_sees o).
Proof. destruct o as [| |[]]; reflexivity. Qed.
(** a response is passed on *)
Lemma callback_settled U t l j d rid a v : ids_differ U t l -> nth_error (invocations l) j = Some (AAsync true, d, rid, a) -> outcomes j (w_run U t l) = [] ->
  ~ In (WCancel j) l -> gives (w_client U t (w_run U t l)) rid (Ok v) -> callbacks j (w_run U t (l ++ [WSettle j])) = [v].
Proof.
  intros N Hj Ho Nc G. destruct (given U t l j _ d rid a _ N Hj Ho G) as (c & tk & o & Hc & K & O & Ha & Nn & Ht & Hp & Hs).
  destruct o as [|p|e]; try discriminate Hs. injection Hs as <-. rewrite w_app. cbn [fold_left w_step]. rewrite Hc. pose proof (ci_cb _ _ _ _ _ _ _ K) as Cb. rewrite Ha in Cb.
  destruct (f_fut c) as [| | |r] eqn:Hf; [congruence| | |].
  - unfold w_client. rewrite Ht, Hp. unfold set_call. change (cb_of j (w_log (w_run U t l) ++ callback_wrapper (f_api c) j (FDone (M_AioClient.RetPkg p))) = [p_content p]). rewrite cb_app, Cb, Ha. unfold cb_of. cbn. rewrite Nat.eqb_refl. reflexivity.
  - destruct (ci_canc _ _ _ _ _ _ _ K Hf) as [(X & _)|(tk' & X & Y)]; [contradiction|congruence].
  - change (cb_of j (w_log (w_run U t l)) = [p_content p]). rewrite Cb. destruct (ci_done _ _ _ _ _ _ _ K _ Hf) as (tk' & X & Y). assert (tk' = tk) by congruence. subst tk'. assert (r = M_AioClient.RetPkg p) by congruence. subst r. reflexivity.
Qed.
Lemma upd_here {A} j (f : A -> A) l x : nth_error l j = Some x -> nth_error (upd j f l) j = Some (f x).
Proof. apply L_AioServer2.nth_upd_same. Qed.
Lemma sync_settled U t l j d rid a r : ids_differ U t l -> nth_error (invocations l) j = Some (ASync, d, rid, a) -> outcomes j (w_run U t l) = [] ->
  gives (w_client U t (w_run U t l)) rid r -> outcomes j (w_run U t (l ++ [WSettle j; WReturn j])) = [r].
Proof.
  intros N Hj Ho G. destruct (given U t l j _ d rid a _ N Hj Ho G) as (c & tk & o & Hc & K & O & Ha & Nn & Ht & Hp & Hs).
  rewrite w_app. cbn [fold_left]. set (w := w_run U t l) in *.
  assert (S : exists c' , nth_error (w_calls (w_step U t (WSettle j) w)) j = Some c' /\ f_api c' = ASync /\ f_over c' = false /\ result_now (f_fut c') = Some r /\ ov_of j (w_log (w_step U t (WSettle j) w)) = []).
  { cbn [w_step]. rewrite Hc. destruct (f_fut c) as [| | |r'] eqn:Hf; [congruence| | |].
    - unfold w_client. rewrite Ht, Hp. cbn [set_call w_calls w_log]. exists (with_fut (future_of o) c). split; [exact (upd_here j _ _ _ Hc)|]. split; [exact Ha|]. split; [exact O|]. split; [cbn; rewrite result_future; congruence|]. rewrite Ha. cbn [callback_wrapper]. rewrite app_nil_r. exact Ho.
    - exists c. split; [exact Hc|]. split; [exact Ha|]. split; [exact O|]. split; [|exact Ho]. rewrite Hf. cbn. destruct (ci_canc _ _ _ _ _ _ _ K Hf) as [(_ & X)|(tk' & X & Y)]; [contradiction|]. assert (tk' = tk) by congruence. subst tk'. assert (o = M_AioClient.RetErr CancelledError) by congruence. subst o. rewrite <- Hs. reflexivity.
    - exists c. split; [exact Hc|]. split; [exact Ha|]. split; [exact O|]. split; [|exact Ho]. rewrite Hf. cbn. destruct (ci_done _ _ _ _ _ _ _ K _ Hf) as (tk' & X & Y). assert (tk' = tk) by congruence. subst tk'. congruence. }
  destruct S as (c' & S1 & S2 & S3 & S4 & S5). set (w' := w_step U t (WSettle j) w) in *. cbn [w_step]. rewrite S1, S2, S3, S4. change (ov_of j (w_log w' ++ [EOver j r]) = [r]). rewrite ov_app, S5. apply over_ev.
Qed.
(** a future that is done stays as it is *)
Lemma fut_step U t o w j c : nth_error (w_calls w) j = Some c -> f_fut c <> FPending ->
  exists c', nth_error (w_calls (w_step U t o w)) j = Some c' /\ f_fut c' = f_fut c /\ f_api c' = f_api c.
Proof.
  intros Hc Hf. assert (Id : exists c', nth_error (w_calls w) j = Some c' /\ f_fut c' = f_fut c /\ f_api c' = f_api c) by eauto.
  assert (Ad : forall x h g, exists c', nth_error (w_calls (add_call x h g w)) j = Some c' /\ f_fut c' = f_fut c /\ f_api c' = f_api c) by (intros x h g; exists c; split; [cbn; apply nth_more; exact Hc|auto]).
  assert (Ot : forall i f g, (i = j -> forall x, f_fut (f x) = f_fut x /\ f_api (f x) = f_api x) -> exists c', nth_error (w_calls (set_call i f g w)) j = Some c' /\ f_fut c' = f_fut c /\ f_api c' = f_api c).
  { intros i f g H. cbn. destruct (Nat.eq_dec i j) as [->|Ne]; [exists (f c); split; [exact (upd_here _ _ _ _ Hc)|exact (H eq_refl c)]|]. exists c. rewrite L_AioServer2.nth_upd_other by exact Ne. auto. }
  destruct o as [k d rid a|o|i|i|i|i]; cbn [w_step].
  - cbv zeta. destruct (entry_ok k d); [|apply Ad]. destruct (y_request _ _); [|apply Ad]. destruct (callback_ok k d); apply Ad.
  - destruct o; exact Id.
  - destruct (nth_error (w_calls w) i) as [x|] eqn:Hx; [|exact Id]. destruct (f_fut x) eqn:Hfx; try exact Id. destruct (nth_error _ (f_task x)) as [tk|]; [|exact Id]. destruct (t_pc tk); try exact Id. apply Ot. intros ->. congruence.
  - destruct (nth_error (w_calls w) i) as [x|] eqn:Hx; [|exact Id]. destruct (f_api x); try exact Id. destruct (f_fut x) eqn:Hfx; try exact Id. apply Ot. intros ->. congruence.
  - destruct (nth_error (w_calls w) i) as [x|] eqn:Hx; [|exact Id]. destruct (f_api x); try (apply Ot; auto). destruct (f_over x); apply Ot; auto.
  - destruct (nth_error (w_calls w) i) as [x|] eqn:Hx; [|exact Id]. destruct (f_api x); try exact Id. destruct (f_over x); try exact Id. destruct (result_now _); try exact Id. apply Ot; auto.
Qed.
Lemma fut_from U t l2 : forall w j c, nth_error (w_calls w) j = Some c -> f_fut c <> FPending ->
  exists c', nth_error (w_calls (fold_left (fun w o => w_step U t o w) l2 w)) j = Some c' /\ f_fut c' = f_fut c /\ f_api c' = f_api c.
Proof.
  induction l2 as [|o l2 IH]; intros w j c Hc Hf; [cbn; eauto|]. cbn [fold_left]. destruct (fut_step U t o w j c Hc Hf) as (c1 & H1 & F1 & A1). destruct (IH _ j c1 H1) as (c2 & H2 & F2 & A2); [congruence|]. exists c2. split; [exact H2|split; congruence].
Qed.
Lemma cancelled_silent U t l l2 j x : nth_error (invocations l) j = Some x -> callbacks j (w_run U t (l ++ WCancel j :: l2)) = callbacks j (w_run U t l).
Proof.
  intros Hx. destruct (call_of U t l j x Hx) as (c & Hc & K). assert (Hx2 : nth_error (invocations (l ++ WCancel j :: l2)) j = Some x) by (unfold invocations; rewrite map_app, concat_app; apply nth_more; exact Hx).
  destruct (call_of U t (l ++ WCancel j :: l2) j x Hx2) as (c2 & Hc2 & K2). change (callbacks j ?w) with (cb_of j (w_log w)). rewrite (ci_cb _ _ _ _ _ _ _ K), (ci_cb _ _ _ _ _ _ _ K2).
  destruct (ci_call _ _ _ _ _ _ _ K) as (k & d & rid & a & Hj & Hk & _). destruct (ci_call _ _ _ _ _ _ _ K2) as (k2 & d2 & rid2 & a2 & Hj2 & Hk2 & _).
  rewrite w_app in Hc2. cbn [fold_left] in Hc2. 
  assert (S : (exists c1, nth_error (w_calls (w_step U t (WCancel j) (w_run U t l))) j = Some c1 /\ f_api c1 = f_api c /\ f_fut c1 <> FPending /\ (f_fut c1 = f_fut c \/ f_fut c1 = FCancelled /\ f_fut c = FPending)) \/ (f_api c = ASync \/ f_api c = AOneway)).
  { cbn [w_step]. rewrite Hc. destruct (f_api c) as [|b|] eqn:Ha; auto. left. destruct (f_fut c) eqn:Hf.
    - exists c. rewrite Hf. split; [exact Hc|]. split; [exact Ha|]. split; [discriminate|auto].
    - exists (with_fut FCancelled c). split; [exact (upd_here _ _ _ _ Hc)|]. split; [exact Ha|]. split; [discriminate|auto].
    - exists c. rewrite Hf. split; [exact Hc|]. split; [exact Ha|]. split; [discriminate|auto].
    - exists c. rewrite Hf. split; [exact Hc|]. split; [exact Ha|]. split; [discriminate|auto]. }
  destruct S as [(c1 & C1 & A1 & F1 & F2)|S].
  - destruct (fut_from U t l2 _ j c1 C1 F1) as (c3 & C3 & F3 & A3). assert (c3 = c2) by congruence. subst c3. rewrite A3, A1, F3. destruct F2 as [->|(-> & ->)]; [reflexivity|]. destruct (f_api c) as [|[]|]; reflexivity.
  - assert (E : k2 = k) by congruence. subst k2. assert (f_api c2 <> AAsync true) by (destruct Hk as [Hk|(Hk & Hk' & _)]; [|destruct S; congruence]; destruct Hk2 as [Hk2|(Hk2 & _)]; destruct S; congruence).
    destruct (f_api c2) as [|[]|]; try congruence; destruct S as [-> | ->]; reflexivity.
Qed.

(** ** What a caller that gave up leaves behind *)
Definition hist_ids (h : list M_AioClient.step) : list Z := concat (map (fun o => match L_AioClient.new_rid o with Some r => [r] | None => [] end) h).
Lemma hist_app a b : hist_ids (a ++ b) = hist_ids a ++ hist_ids b.
Proof. unfold hist_ids. rewrite map_app, concat_app. reflexivity. Qed.
Inductive sublist {A} : list A -> list A -> Prop := Sub_nil : sublist [] [] | Sub_skip x a b : sublist a b -> sublist a (x :: b) | Sub_keep x a b : sublist a b -> sublist (x :: a) (x :: b).
Lemma sub_in {A} (a b : list A) x : sublist a b -> In x a -> In x b.
Proof. induction 1; cbn; [tauto|auto|]. intros [->|K]; auto. Qed.
Lemma sub_nodup {A} (a b : list A) : sublist a b -> NoDup b -> NoDup a.
Proof. induction 1 as [|x a b S IH|x a b S IH]; intros N; [constructor| |]; inversion N; subst; auto. constructor; [|auto]. intros K. apply (sub_in _ _ _ S) in K. contradiction. Qed.
Lemma sub_refl {A} (a : list A) : sublist a a. Proof. induction a; [constructor|apply Sub_keep; assumption]. Qed.
Lemma sub_nil {A} (b : list A) : sublist [] b. Proof. induction b; [constructor|apply Sub_skip; assumption]. Qed.
Lemma sub_app {A} (a b c d : list A) : sublist a b -> sublist c d -> sublist (a ++ c) (b ++ d).
Proof. induction 1; cbn; auto using Sub_skip, Sub_keep. Qed.
Lemma hist_sub U t h : sublist (hist_ids (y_hist (y_run U t h))) (y_ids h).
Proof.
  induction h as [|o h IH] using rev_ind; [constructor|]. rewrite ids_snoc. unfold y_run. rewrite fold_left_app. cbn [fold_left]. fold (y_run U t h).
  assert (S : exists m, y_hist (y_step U t o (y_run U t h)) = y_hist (y_run U t h) ++ m /\ sublist (hist_ids m) (match o with YCall _ rid _ => [rid] | YClient (M_AioClient.Beat rid) => [rid] | _ => [] end)).
  { assert (Z : forall b, exists m, y_hist (y_run U t h) = y_hist (y_run U t h) ++ m /\ sublist (hist_ids m) b) by (intros b; exists []; rewrite app_nil_r; split; [reflexivity|apply sub_nil]).
    destruct o as [d rid a|i reg tr|o|c o|c n|c n]; cbn [y_step].
    - destruct (y_request d rid) as [p|] eqn:Er; [|apply Z]. eexists. split; [reflexivity|]. cbn. rewrite (proj1 (request_id _ _ _ Er)). apply sub_refl.
    - cbv zeta. destruct (Nat.ltb _ _); [|apply Z]. eexists. split; [reflexivity|]. apply sub_refl.
    - destruct o; try apply Z; eexists; (split; [reflexivity|]); apply sub_refl.
    - destruct o; apply Z.
    - destruct (nth_error (y_conns _) c); apply Z.
    - destruct (nth_error (y_conns _) c); [|apply Z]. destruct (nth_error _ c); [|apply Z]. eexists. split; [reflexivity|]. apply sub_refl. }
  destruct S as (m & -> & S). rewrite hist_app. apply sub_app; assumption.
Qed.
Lemma run_specs_ids t h x : In x (L_System1.specs (M_AioClient.run t h)) -> In (M_AioClient.rid_of (fst x)) (hist_ids h).
Proof.
  revert x. induction h as [|o h IH] using rev_ind; intros x H; [destruct H|]. rewrite hist_app. apply in_or_app. unfold M_AioClient.run in H. rewrite fold_left_app in H. cbn [fold_left] in H. fold (M_AioClient.run t h) in H.
  pose proof (L_System1.step_moves o (M_AioClient.run t h)) as M. destruct o; cbn [L_System1.moves] in M; try (destruct M as (_ & M); rewrite M in H; auto).
  - apply in_app_or in H as [H|[<-|[]]]; [auto|]. right. left. reflexivity.
  - destruct M as (_ & [M|(p & a & Ep & M)]); rewrite M in H; [auto|]. apply in_app_or in H as [H|[<-|[]]]; [auto|]. right. left. cbn. symmetry. exact (proj1 (beat_id _ _ Ep)).
Qed.
Lemma ids_distinct t h : NoDup (hist_ids h) -> L_AioClient2.distinct_ids (M_AioClient.init t) h.
Proof.
  induction h as [|o h IH] using rev_ind; intros N; [exact Logic.I|]. rewrite hist_app in N. apply L_AioClient2.distinct_app. split; [apply IH; exact (NoDup_left _ _ N)|]. split; [|exact Logic.I].
  intros r Hr (i & tk & Hi & Hl & E). apply (proj2 (NoDup_remove (hist_ids h) [] r ltac:(unfold hist_ids in N at 2; cbn in N; rewrite Hr in N; exact N))). rewrite app_nil_r. rewrite <- E.
  apply (run_specs_ids t h (t_req tk, t_addr tk)). unfold L_System1.specs. apply in_map_iff. exists tk. split; [reflexivity|]. eapply nth_error_In. exact Hi.
Qed.
Lemma whist_step U t o w : exists m, w_hist (w_step U t o w) = w_hist w ++ m /\ forall i, In (YClient (M_AioClient.Cancel i)) m -> o = WSys (YClient (M_AioClient.Cancel i)).
Proof.
  assert (Z : exists m, w_hist w = w_hist w ++ m /\ forall i, In (YClient (M_AioClient.Cancel i)) m -> o = WSys (YClient (M_AioClient.Cancel i))) by (exists []; rewrite app_nil_r; split; [reflexivity|intros ? []]).
  destruct o as [k d rid a|o|i|i|i|i]; cbn [w_step].
  - cbv zeta. destruct (entry_ok k d); [|exists []; split; [reflexivity|intros ? []]]. destruct (y_request _ _); [|exists []; split; [reflexivity|intros ? []]].
    destruct (callback_ok k d); eexists; (split; [reflexivity|]); intros ? [H|[]]; discriminate.
  - destruct o; try exact Z; eexists; (split; [reflexivity|]); intros ? [H|[]]; congruence.
  - destruct (nth_error (w_calls w) i) as [x|]; [|exact Z]. destruct (f_fut x); try exact Z. destruct (nth_error _ (f_task x)) as [tk|]; [|exact Z]. destruct (t_pc tk); exact Z.
  - destruct (nth_error (w_calls w) i) as [x|]; [|exact Z]. destruct (f_api x); try exact Z. destruct (f_fut x); exact Z.
  - destruct (nth_error (w_calls w) i) as [x|]; [|exact Z]. destruct (f_api x); try exact Z. destruct (f_over x); exact Z.
  - destruct (nth_error (w_calls w) i) as [x|]; [|exact Z]. destruct (f_api x); try exact Z. destruct (f_over x); try exact Z. destruct (result_now _); exact Z.
Qed.
Lemma whist_app U t l l2 : exists m, w_hist (w_run U t (l ++ l2)) = w_hist (w_run U t l) ++ m /\ forall i, In (YClient (M_AioClient.Cancel i)) m -> In (WSys (YClient (M_AioClient.Cancel i))) l2.
Proof.
  induction l2 as [|o l2 IH] using rev_ind; [exists []; rewrite !app_nil_r; split; [reflexivity|intros i []]|]. rewrite app_assoc, w_app. cbn [fold_left]. destruct IH as (m & E & C).
  destruct (whist_step U t o (w_run U t (l ++ l2))) as (m' & E' & C'). exists (m ++ m'). rewrite E', E, app_assoc. split; [reflexivity|]. intros i H. apply in_or_app. apply in_app_or in H as [H|H]; [left; auto|]. right. left. auto.
Qed.
Lemma ycancel_step U t o y : exists m, y_hist (y_step U t o y) = y_hist y ++ m /\ forall i, In (M_AioClient.Cancel i) m -> o = YClient (M_AioClient.Cancel i).
Proof.
  assert (Z : exists m, y_hist y = y_hist y ++ m /\ forall i, In (M_AioClient.Cancel i) m -> o = YClient (M_AioClient.Cancel i)) by (exists []; rewrite app_nil_r; split; [reflexivity|intros ? []]).
  destruct o as [d rid a|i reg tr|o|c o|c n|c n]; cbn [y_step].
  - destruct (y_request d rid); [eexists; (split; [reflexivity|]); intros ? [H|[]]; discriminate|exact Z].
  - cbv zeta. destruct (Nat.ltb _ _); [eexists; (split; [reflexivity|]); intros i' [H|[]]; discriminate|exact Z].
  - destruct o; try exact Z; eexists; (split; [reflexivity|]); intros i' [H|[]]; congruence.
  - destruct o; exact Z.
  - destruct (nth_error (y_conns y) c); exact Z.
  - destruct (nth_error (y_conns y) c); [|exact Z]. destruct (nth_error _ c); [eexists; (split; [reflexivity|]); intros i' [H|[]]; discriminate|exact Z].
Qed.
Lemma ycancel_app U t h h' : exists m, y_hist (y_run U t (h ++ h')) = y_hist (y_run U t h) ++ m /\ forall i, In (M_AioClient.Cancel i) m -> In (YClient (M_AioClient.Cancel i)) h'.
Proof.
  induction h' as [|o h' IH] using rev_ind; [exists []; rewrite !app_nil_r; split; [reflexivity|intros i []]|]. rewrite app_assoc. unfold y_run at 1. rewrite fold_left_app. cbn [fold_left]. fold (y_run U t (h ++ h')). destruct IH as (m & E & C).
  destruct (ycancel_step U t o (y_run U t (h ++ h'))) as (m' & E' & C'). exists (m ++ m'). rewrite E', E, app_assoc. split; [reflexivity|]. intros i H. apply in_or_app. apply in_app_or in H as [H|H]; [left; auto|]. right. left. auto.
Qed.
Lemma leftover U t l l2 i tk ev rid : ids_differ U t (l ++ l2) ->
  nth_error (M_AioClient.s_tasks (w_client U t (w_run U t l))) i = Some tk -> t_pc tk = M_AioClient.WaitResp ev -> p_request_id (t_req tk) = PInt rid ->
  ~ In (WSys (YClient (M_AioClient.Cancel i))) l2 ->
  (forall c k frame f, nth_error (M_AioClient.s_links (w_client U t (w_run U t (l ++ l2)))) c = Some k -> In frame (M_AioClient.k_frames k) -> S_Wire.response_layout frame f -> S_Wire.fr_request_id f <> rid) ->
  dmem rid (M_AioClient.s_req (w_client U t (w_run U t (l ++ l2)))) = true /\ nth_error (M_AioClient.s_tasks (w_client U t (w_run U t (l ++ l2)))) i = Some tk.
Proof.
  intros N Hi Hp Hr Nc Nf. unfold ids_differ in N. destruct (whist_app U t l l2) as (m & Em & Cm). unfold w_client in *. rewrite Em in *. destruct (ycancel_app U t (w_hist (w_run U t l)) m) as (m' & Em' & Cm').
  pose proof (ids_distinct t _ (sub_nodup _ _ (hist_sub U t _) N)) as D. unfold y_client in *. rewrite Em' in *. set (h := y_hist (y_run U t (w_hist (w_run U t l)))) in *.
  assert (Nc' : ~ In (M_AioClient.Cancel i) m') by auto. pose proof (L_AioClient4.forever t h m' i rid tk ev Hi Hp Hr Nc' Nf) as T.
  split; [|exact T]. pose proof (L_AioClient2.inv_all_from (h ++ m') (M_AioClient.init t)) as A. destruct A as (I & V & L); try apply (L_AioClient.inv_run t []); try apply (L_AioClient2.inv_ev_run t []); [|exact D|].
  { constructor; intros [|x] ? ? H; discriminate. }
  change (L_AioClient.from (M_AioClient.init t) (h ++ m')) with (M_AioClient.run t (h ++ m')) in *.
  destruct (L_AioClient2.e_own _ V i tk ev T Hp) as (Le & _ & Sn). destruct (nth_error (M_AioClient.s_events (M_AioClient.run t (h ++ m'))) ev) as [[|]|] eqn:Ee.
  - exfalso. destruct (Sn eq_refl) as (p & (c & k & frame & Hk & Hin & Hf) & Ep). change BoltResponse with (L_Package.resp_class (cls_name BoltResponse)) in Hf. apply L_Package.from_stream_resp_iff in Hf as (f & kvs & hb & Ly & _ & _ & _ & _ & ->).
    apply (Nf c k frame f Hk Hin Ly). unfold M_AioClient.rid_of in Ep. rewrite Hr in Ep. exact Ep.
  - pose proof (L_AioClient2.l_wait _ L i tk ev T Hp Ee) as G. unfold M_AioClient.rid_of in G. rewrite Hr in G. cbn in G. unfold dmem. rewrite G. reflexivity.
  - apply nth_error_None in Ee. lia.
Qed.
Lemma nothing_left U t l : ids_differ U t l -> (forall i, ~ In (WSys (YClient (M_AioClient.Cancel i))) l) ->
  (forall i tk, nth_error (M_AioClient.s_tasks (w_client U t (w_run U t l))) i = Some tk -> exists r, t_pc tk = Done r) -> M_AioClient.s_req (w_client U t (w_run U t l)) = [].
Proof.
  intros N Nc D. unfold w_client, y_client in *. apply L_AioClient2.no_request_left; [exact (ids_distinct t _ (sub_nodup _ _ (hist_sub U t _) N))| |exact D].
  intros i H. destruct (whist_app U t [] l) as (m & Em & Cm). cbn [app w_hist] in Em. change (w_hist (w_run U t [])) with (@nil ystep) in Em. cbn in Em. rewrite Em in H. destruct (ycancel_app U t [] m) as (m' & Em' & Cm'). cbn [app] in Em'. change (y_hist (y_run U t [])) with (@nil M_AioClient.step) in Em'. cbn [app] in Em'. rewrite Em' in H. exact (Nc i (Cm i (Cm' i H))).
Qed.

(** ** Timeouts that cannot be encoded *)
Lemma value_was_encoded U t l j c p d rid a k : cinv U t l (w_hist (w_run U t l)) (w_log (w_run U t l)) j c -> f_fut c = FDone (M_AioClient.RetPkg p) ->
  nth_error (invocations l) j = Some (k, d, rid, a) -> exists q bs, y_request (entry_call k d) rid = Ok q /\ to_stream q = Ok bs.
Proof.
  intros K Hf Hj. destruct (ci_call _ _ _ _ _ _ _ K) as (k' & d' & rid' & a' & Hj' & _ & [H|(Hi & tk & Ht & Hr & Ha)]); [congruence|]. assert (E : (k', d', rid', a') = (k, d, rid, a)) by congruence. injection E as -> -> -> ->.
  destruct (ci_done _ _ _ _ _ _ _ K _ Hf) as (tk' & Ht' & Hp). assert (tk' = tk) by congruence. subst tk'. unfold y_client in Ht.
  pose proof (L_AioClient6.w_tasks _ _ (L_AioClient6.wr_run t (y_hist (y_run U t (w_hist (w_run U t l))))) _ _ Ht) as W.
  assert (Ns : L_AioClient6.sends (f_task c) (M_AioClient.init t) (y_hist (y_run U t (w_hist (w_run U t l)))) <> []) by (apply (L_AioClient6.o_past _ _ _ _ W); rewrite Hp; exact Logic.I).
  destruct (L_AioClient6.sends _ _ _) as [|(c0, bs) r] eqn:Es; [congruence|]. destruct (L_AioClient6.o_sent _ _ _ _ W c0 bs) as (T & _); [left; reflexivity|]. exists (t_req tk), bs. auto.
Qed.
Lemma sync_encoded U t l j v d rid a : nth_error (invocations l) j = Some (ASync, d, rid, a) -> In (Ok v) (outcomes j (w_run U t l)) -> exists q bs, y_request (entry_call ASync d) rid = Ok q /\ to_stream q = Ok bs.
Proof.
  intros Hj H. destruct (call_of U t l j _ Hj) as (c & _ & K). change (outcomes j (w_run U t l)) with (ov_of j (w_log (w_run U t l))) in H.
  destruct (f_over c) eqn:Ho; [|rewrite (proj1 (ci_open _ _ _ _ _ _ _ K Ho)) in H; destruct H]. destruct (ci_over _ _ _ _ _ _ _ K Ho) as (r & E & W). rewrite E in H. destruct H as [->|[]].
  destruct W as [W|[(_ & W)|[(_ & W)|(_ & W)]]]; try discriminate W; [|destruct W as (? & ? & ? & ? & ? & _ & W & _); discriminate W].
  destruct (f_fut c) as [| | |r] eqn:Hf; try discriminate W. cbn in W. destruct r as [|p|e]; try discriminate W. exact (value_was_encoded U t l j c p d rid a _ K Hf Hj).
Qed.

(** the timeout is written into the frame as it is given: a fraction cannot be *)
Lemma timeout_kept d rid q : y_request d rid = Ok q -> p_timeout q = py_or (y_timeout d) (PInt (-1)) /\ legal_pkg q /\ p_cls q = BoltRequest.
Proof.
  unfold y_request. destruct (build_header _ _ _ _ _ _) as [h|]; [|discriminate]. cbn [bind]. unfold new_request. intros H. apply L_Package.mk_package_Ok in H as (M1 & _ & _ & _ & M5 & _ & _ & _ & _ & _ & _ & Lg). split; [|auto].
  rewrite M5. unfold py_or. destruct (truthy (y_timeout d)) eqn:E; [rewrite E|]; reflexivity.
Qed.
Lemma float_not_encoded d rid q bs n m : y_request d rid = Ok q -> y_timeout d = PFloat n m -> truthy (PFloat n m) = true -> to_stream q <> Ok bs.
Proof.
  intros H Hf Ht T. destruct (timeout_kept _ _ _ H) as (A & Lg & C). rewrite Hf in A. unfold py_or in A. rewrite Ht in A. change BoltRequest with (req_class (cls_name BoltRequest)) in C.
  apply (L_Codec.to_stream_req_iff _ _ _ C Lg) in T. destruct T as (r & tm & ct & _ & E & _). rewrite A in E. discriminate E.
Qed.
Lemma float_never U t l j d rid a n m v : nth_error (invocations l) j = Some (ASync, d, rid, a) -> y_timeout d = PFloat n m -> truthy (PFloat n m) = true -> ~ In (Ok v) (outcomes j (w_run U t l)).
Proof.
  intros Hj Hf Ht H. destruct (sync_encoded U t l j v d rid a Hj H) as (q & bs & A & B). exact (float_not_encoded (entry_call ASync d) rid q bs n m A Hf Ht B).
Qed.
(** an accepted invoke_async or invoke_oneway has not raised *)
Lemma accepted_open U t l j k d rid a q : nth_error (invocations l) j = Some (k, d, rid, a) -> k <> ASync -> y_request (entry_call k d) rid = Ok q -> callback_ok k d = true ->
  exists c, nth_error (w_calls (w_run U t l)) j = Some c /\ f_api c = k /\ f_over c = false.
Proof.
  intros Hj Nk Hq Hc. revert Hj. induction l as [|o l IH] using rev_ind; intros Hj; [destruct j; discriminate Hj|].
  rewrite inv_app in Hj. pose proof (fi_len _ _ _ _ (finv_run U t l)) as Len. rewrite w_app. cbn [fold_left].
  assert (Old : nth_error (invocations l) j = Some (k, d, rid, a) -> exists c, nth_error (w_calls (w_step U t o (w_run U t l))) j = Some c /\ f_api c = k /\ f_over c = false).
  { intros Ho. destruct (IH Ho) as (c & Nc & Ec & Oc).
    assert (Up : forall i f g c0, nth_error (w_calls (w_run U t l)) i = Some c0 -> (i = j -> f_api (f c0) = f_api c0 /\ f_over (f c0) = f_over c0) ->
      exists c, nth_error (w_calls (set_call i f g (w_run U t l))) j = Some c /\ f_api c = k /\ f_over c = false).
    { intros i f g c0 Ni Hf. cbn [set_call w_calls]. destruct (Nat.eq_dec i j) as [->|Ne].
      - exists (f c). rewrite (upd_here j f _ _ Nc). assert (c0 = c) by congruence. subst c0. destruct (Hf eq_refl) as [-> ->]. auto.
      - exists c. rewrite L_AioServer2.nth_upd_other by congruence. auto. }
    destruct o as [k' d' rid' a'|o|i|i|i|i]; cbn [w_step].
    - cbv zeta. destruct (entry_ok k' d'); [destruct (y_request (entry_call k' d') rid'); [destruct (callback_ok k' d')|]|]; exists c; cbn [add_call w_calls]; split; auto; apply nth_more; exact Nc.
    - exists c. destruct o; auto.
    - destruct (nth_error (w_calls (w_run U t l)) i) as [c0|] eqn:Ni; [|exists c; auto]. destruct (f_fut c0); try (exists c; auto; fail).
      destruct (nth_error _ (f_task c0)) as [tk|]; [|exists c; auto]. destruct (M_AioClient.t_pc tk); try (exists c; auto; fail). apply (Up i _ _ c0 Ni). auto.
    - destruct (nth_error (w_calls (w_run U t l)) i) as [c0|] eqn:Ni; [|exists c; auto]. destruct (f_api c0) eqn:A0; try (exists c; auto; fail). destruct (f_fut c0); try (exists c; auto; fail). apply (Up i _ _ c0 Ni). cbn. auto.
    - destruct (nth_error (w_calls (w_run U t l)) i) as [c0|] eqn:Ni; [|exists c; auto]. destruct (f_api c0) eqn:A0; [destruct (f_over c0) eqn:O0|..]; apply (Up i _ _ c0 Ni); auto.
      intros ->. assert (c0 = c) by congruence. subst c0. congruence.
    - destruct (nth_error (w_calls (w_run U t l)) i) as [c0|] eqn:Ni; [|exists c; auto]. destruct (f_api c0) eqn:A0; try (exists c; auto; fail). destruct (f_over c0) eqn:O0; [exists c; auto|]. destruct (result_now (f_fut c0)); [|exists c; auto].
      apply (Up i _ _ c0 Ni). intros ->. assert (c0 = c) by congruence. subst c0. congruence. }
  destruct (Nat.lt_ge_cases j (List.length (invocations l))) as [Lt|Ge]; [rewrite nth_error_app1 in Hj by lia; exact (Old Hj)|].
  rewrite nth_error_app2 in Hj by lia. destruct o as [k' d' rid' a'|o|i|i|i|i]; try (destruct (j - _)%nat; discriminate Hj).
  destruct (j - List.length (invocations l))%nat as [|n] eqn:Ej; [|destruct n; discriminate Hj]. cbn in Hj. injection Hj as -> -> -> ->.
  assert (j = List.length (w_calls (w_run U t l))) by lia. subst j. cbn [w_step]. cbv zeta.
  replace (entry_ok k d) with true by (destruct k; [congruence|reflexivity|reflexivity]). rewrite Hq, Hc. cbn [add_call w_calls].
  eexists. rewrite nth_error_app2, Nat.sub_diag by lia. cbn. split; [reflexivity|]. cbn. auto.
Qed.
Lemma accepted_silent U t l j k d rid a q : nth_error (invocations l) j = Some (k, d, rid, a) -> k <> ASync -> y_request (entry_call k d) rid = Ok q -> 
  (y_timeout d = PNone \/ (exists z, y_timeout d = PInt z) \/ exists n m, y_timeout d = PFloat n m) -> outcomes j (w_run U t l) = [].
Proof.
  intros Hj Nk Hq Ht. assert (Hc : callback_ok k d = true).
  { unfold callback_ok. destruct k as [|[]|]; try reflexivity. destruct Ht as [-> |[[z ->]|[n [m ->]]]]; cbn [is_number]; try apply orb_true_r. reflexivity. }
  destruct (accepted_open U t l j k d rid a q Hj Nk Hq Hc) as (c & Nc & _ & Oc). pose proof (fi_call _ _ _ _ (finv_run U t l) j c Nc) as K.
  exact (proj1 (ci_open _ _ _ _ _ _ _ K Oc)).
Qed.
(** the log only grows *)
Lemma log_step U t o w : exists g, w_log (w_step U t o w) = w_log w ++ g.
Proof.
  assert (N : exists g, w_log w = w_log w ++ g) by (exists []; rewrite app_nil_r; reflexivity).
  destruct o as [k d rid a|o|i|i|i|i]; cbn [w_step].
  - cbv zeta. destruct (entry_ok k d); [destruct (y_request _ _); [destruct (callback_ok k d)|]|]; cbn [add_call w_log]; eauto.
  - destruct o; exact N.
  - destruct (nth_error (w_calls w) i) as [x|]; [|exact N]. destruct (f_fut x); try exact N. destruct (nth_error _ (f_task x)) as [tk|]; [|exact N]. destruct (M_AioClient.t_pc tk); try exact N. cbn [set_call w_log]. eauto.
  - destruct (nth_error (w_calls w) i) as [x|]; [|exact N]. destruct (f_api x); try exact N. destruct (f_fut x); try exact N. cbn [set_call w_log]. eauto.
  - destruct (nth_error (w_calls w) i) as [x|]; [|exact N]. destruct (f_api x); [destruct (f_over x)|..]; cbn [set_call w_log]; eauto.
  - destruct (nth_error (w_calls w) i) as [x|]; [|exact N]. destruct (f_api x); try exact N. destruct (f_over x); try exact N. destruct (result_now _); try exact N. cbn [set_call w_log]. eauto.
Qed.
Lemma first_outcome U t l j k d rid a r : nth_error (invocations l) j = Some (k, d, rid, a) ->
  (forall w, List.length (w_calls w) = j -> In (EOver j r) (w_log (w_step U t (WInvoke k d rid a) w))) -> outcomes j (w_run U t l) = [r].
Proof.
  intros Hj Hr. assert (Hin : In (EOver j r) (w_log (w_run U t l))).
  { revert Hj. induction l as [|o l IH] using rev_ind; intros Hj; [destruct j; discriminate Hj|]. rewrite inv_app in Hj. pose proof (fi_len _ _ _ _ (finv_run U t l)) as Len. rewrite w_app. cbn [fold_left].
    destruct (Nat.lt_ge_cases j (List.length (invocations l))) as [Lt|Ge].
    - rewrite nth_error_app1 in Hj by lia. destruct (log_step U t o (w_run U t l)) as (g & ->). apply in_app_iff. left. exact (IH Hj).
    - rewrite nth_error_app2 in Hj by lia. destruct o as [k' d' rid' a'|o|i|i|i|i]; try (destruct (j - _)%nat; discriminate Hj).
      destruct (j - List.length (invocations l))%nat as [|n] eqn:Ej; [|destruct n; discriminate Hj]. cbn in Hj. injection Hj as -> -> -> ->. apply Hr. lia. }
  pose proof (one_outcome U t l j) as M. assert (Ho : In r (outcomes j (w_run U t l))).
  { unfold outcomes. apply in_concat. exists [r]. split; [|left; reflexivity]. apply in_map_iff. exists (EOver j r). rewrite Nat.eqb_refl. auto. }
  destruct (outcomes j (w_run U t l)) as [|x [|y q]]; [destruct Ho| |cbn in M; lia]. destruct Ho as [->|[]]. reflexivity.
Qed.
Lemma rejected_sync U t l j d rid a : nth_error (invocations l) j = Some (ASync, d, rid, a) ->
  (forall b, y_timeout d <> PBool b) -> (forall z, y_timeout d <> PInt z) -> (forall n m, y_timeout d <> PFloat n m) -> outcomes j (w_run U t l) = [Raise AssertionError].
Proof.
  intros Hj B I F. apply (first_outcome U t l j ASync d rid a _ Hj). intros w Hw. cbn [w_step]. cbv zeta. assert (E : entry_ok ASync d = false).
  { cbn [entry_ok]. unfold is_number. destruct (y_timeout d) eqn:Et; try reflexivity; exfalso; [eapply B|eapply I|eapply F]; reflexivity. }
  rewrite E. cbn [add_call w_log]. apply in_app_iff. right. left. rewrite Hw. reflexivity.
Qed.
Lemma rejected_async U t l j d rid a q : nth_error (invocations l) j = Some (AAsync true, d, rid, a) -> y_request (entry_call (AAsync true) d) rid = Ok q -> truthy (y_timeout d) = true ->
  (forall b, y_timeout d <> PBool b) -> (forall z, y_timeout d <> PInt z) -> (forall n m, y_timeout d <> PFloat n m) -> outcomes j (w_run U t l) = [Raise TypeError].
Proof.
  intros Hj Hq Ht B I F. apply (first_outcome U t l j (AAsync true) d rid a _ Hj). intros w Hw. cbn [w_step entry_ok]. cbv zeta. rewrite Hq. assert (E : callback_ok (AAsync true) d = false).
  { cbn [callback_ok]. rewrite Ht. unfold is_number. destruct (y_timeout d) eqn:Et; try reflexivity; exfalso; [eapply B|eapply I|eapply F]; reflexivity. }
  rewrite E. cbn [add_call w_log]. apply in_app_iff. right. left. rewrite Hw. reflexivity.
Qed.
(** the callback of a call that was refused when the callback was to be registered *)
Lemma api_kept U t o w j c : nth_error (w_calls w) j = Some c -> exists c', nth_error (w_calls (w_step U t o w)) j = Some c' /\ f_api c' = f_api c.
Proof.
  intros Nc.
  assert (Up : forall i f g, (forall c0, f_api (f c0) = f_api c0) -> exists c', nth_error (w_calls (set_call i f g w)) j = Some c' /\ f_api c' = f_api c).
  { intros i f g Hf. cbn [set_call w_calls]. destruct (Nat.eq_dec i j) as [->|Ne]; [exists (f c); rewrite (upd_here j f _ _ Nc); auto|exists c; rewrite L_AioServer2.nth_upd_other by congruence; auto]. }
  destruct o as [k' d' rid' a'|o|i|i|i|i]; cbn [w_step].
  - cbv zeta. destruct (entry_ok k' d'); [destruct (y_request (entry_call k' d') rid'); [destruct (callback_ok k' d')|]|]; exists c; cbn [add_call w_calls]; split; auto; apply nth_more; exact Nc.
  - exists c. destruct o; auto.
  - destruct (nth_error (w_calls w) i) as [c0|]; [|exists c; auto]. destruct (f_fut c0); try (exists c; auto; fail).
    destruct (nth_error _ (f_task c0)) as [tk|]; [|exists c; auto]. destruct (M_AioClient.t_pc tk); try (exists c; auto; fail). apply Up. reflexivity.
  - destruct (nth_error (w_calls w) i) as [c0|]; [|exists c; auto]. destruct (f_api c0); try (exists c; auto; fail). destruct (f_fut c0); try (exists c; auto; fail). apply Up. reflexivity.
  - destruct (nth_error (w_calls w) i) as [c0|]; [|exists c; auto]. destruct (f_api c0); [destruct (f_over c0)|..]; apply Up; reflexivity.
  - destruct (nth_error (w_calls w) i) as [c0|]; [|exists c; auto]. destruct (f_api c0); try (exists c; auto; fail). destruct (f_over c0); [exists c; auto|]. destruct (result_now (f_fut c0)); [|exists c; auto]. apply Up. reflexivity.
Qed.
Lemma rejected_callback U t l j d rid a q : nth_error (invocations l) j = Some (AAsync true, d, rid, a) -> y_request (entry_call (AAsync true) d) rid = Ok q -> callback_ok (AAsync true) d = false -> callbacks j (w_run U t l) = [].
Proof.
  intros Hj Hq Hc. assert (A : exists c, nth_error (w_calls (w_run U t l)) j = Some c /\ f_api c = AAsync false).
  { revert Hj. induction l as [|o l IH] using rev_ind; intros Hj; [destruct j; discriminate Hj|]. rewrite inv_app in Hj. pose proof (fi_len _ _ _ _ (finv_run U t l)) as Len. rewrite w_app. cbn [fold_left].
    destruct (Nat.lt_ge_cases j (List.length (invocations l))) as [Lt|Ge].
    - rewrite nth_error_app1 in Hj by lia. destruct (IH Hj) as (c & Nc & Ac). destruct (api_kept U t o _ j c Nc) as (c' & Nc' & Ac'). exists c'. split; [exact Nc'|congruence].
    - rewrite nth_error_app2 in Hj by lia. destruct o as [k' d' rid' a'|o|i|i|i|i]; try (destruct (j - _)%nat; discriminate Hj).
      destruct (j - List.length (invocations l))%nat as [|n] eqn:Ej; [|destruct n; discriminate Hj]. cbn in Hj. injection Hj as -> -> -> ->.
      assert (j = List.length (w_calls (w_run U t l))) by lia. subst j. cbn [w_step entry_ok]. cbv zeta. rewrite Hq, Hc. cbn [add_call w_calls].
      eexists. rewrite nth_error_app2, Nat.sub_diag by lia. cbn. split; reflexivity. }
  destruct A as (c & Nc & Ac). pose proof (fi_call _ _ _ _ (finv_run U t l) j c Nc) as K. change (callbacks j (w_run U t l)) with (cb_of j (w_log (w_run U t l))). rewrite (ci_cb _ _ _ _ _ _ _ K), Ac. reflexivity.
Qed.
Lemma refused_async U t l j d rid a q : nth_error (invocations l) j = Some (AAsync true, d, rid, a) -> y_request (entry_call (AAsync true) d) rid = Ok q -> truthy (y_timeout d) = true ->
  (forall b, y_timeout d <> PBool b) -> (forall z, y_timeout d <> PInt z) -> (forall n m, y_timeout d <> PFloat n m) -> outcomes j (w_run U t l) = [Raise TypeError] /\ callbacks j (w_run U t l) = [].
Proof.
  intros Hj Hq Ht B I F. split; [exact (rejected_async U t l j d rid a q Hj Hq Ht B I F)|]. apply (rejected_callback U t l j d rid a q Hj Hq).
  cbn [callback_ok]. rewrite Ht. unfold is_number. destruct (y_timeout d) eqn:Et; try reflexivity; exfalso; [eapply B|eapply I|eapply F]; reflexivity.
Qed.

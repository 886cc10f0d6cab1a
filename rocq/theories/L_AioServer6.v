(** Lemmas about the asyncio server: runs. *)
From Coq Require Import ZifyBool Strings.String.
From Verif Require Import PyBase L_PyBase PyDict L_PyDict PyInt Struct M_SofaHeader L_SofaHeader M_Package L_Package L_Codec M_RpcId M_Trace S_Wire M_AioServer S_Server L_AioServer L_AioServer2 L_AioServer3 L_AioServer4 L_AioServer5.
Open Scope Z_scope.

Definition sfrom (U : tables) (s : sst) (l : list sstep) : sst := fold_left (fun s o => srun_step U o s) l s.
Definition good (s : sst) : Prop := sinv s /\ exists reg fin, out_ok s reg fin.
Lemma good_step U o s : good s -> good (srun_step U o s).
Proof. intros (V & reg & fin & O). split; [apply sinv_step; exact V|]. destruct (out_step U o s reg fin V O) as (r & f & O' & _). eauto. Qed.
Lemma good_from U l : forall s, good s -> good (sfrom U s l).
Proof. induction l as [|o l IH]; intros s G; [exact G|]. apply IH. apply good_step. exact G. Qed.
Lemma good_init reg tr : good (sinit reg tr).
Proof.
  split; [split; [|split]|].
  - constructor; cbn; auto; [exists []; split; [apply Cuts_nil|reflexivity]].
  - constructor; [reflexivity|]. intros [|i] t H; discriminate.
  - constructor; cbn; [constructor|intros [|i] ? H; discriminate..].
  - exists [], []. constructor; cbn; auto; try constructor; try discriminate; try (intros [|i] ? H; discriminate); try (intros [|i] ? ? H; discriminate). intros n bs [].
Qed.
Lemma good_run U reg tr l : good (srun U reg tr l).
Proof. apply good_from. apply good_init. Qed.
Lemma srun_app U reg tr l1 l2 : srun U reg tr (l1 ++ l2) = sfrom U (srun U reg tr l1) l2.
Proof. apply fold_left_app. Qed.
Lemma sfrom_app U s l1 l2 : sfrom U s (l1 ++ l2) = sfrom U (sfrom U s l1) l2.
Proof. apply fold_left_app. Qed.

(** ** What never changes back *)
Lemma in_step U o s : good s -> v_in (srun_step U o s) = v_in s ++ match o with Feed bs => bs | _ => [] end.
Proof.
  intros ((I & T & J) & _). assert (D : (exists bs, o = Feed bs) \/ forall bs, o <> Feed bs) by (destruct o; eauto; right; discriminate). destruct D as [(bs & ->)|D]; [reflexivity|].
  replace (match o with Feed bs => bs | _ => [] end) with (@nil byte) by (destruct o; try reflexivity; exfalso; eapply D; reflexivity). rewrite app_nil_r.
  pose proof (step_eff U o s I T) as E. remember (srun_step U o s) as s1 eqn:E1. clear E1.
  destruct E as [o|name sv|bs| | |s' E|ok s' E|o i s' E O|o s' E O]; try reflexivity.
  - exfalso. eapply D. reflexivity.
  - apply rstep_same in E as (_ & _ & _ & _ & _ & _ & E). exact E.
  - apply deff_same in E as (_ & _ & _ & _ & _ & E & _). exact E.
  - apply teff_same in E as ((_ & _ & _ & _ & _ & _ & E) & _). exact E.
  - apply jeff_same in E as ((_ & _ & _ & _ & _ & _ & E) & _). exact E.
Qed.
Lemma in_from U l : forall s, good s -> v_in (sfrom U s l) = v_in s ++ fed l.
Proof.
  induction l as [|o l IH]; intros s G; [now rewrite app_nil_r|]. change (sfrom U s (o :: l)) with (sfrom U (srun_step U o s) l). rewrite IH by (apply good_step; exact G). rewrite in_step by exact G.
  unfold fed. cbn [map concat]. now rewrite <- app_assoc.
Qed.
Lemma in_run U reg tr l : v_in (srun U reg tr l) = fed l.
Proof. unfold srun. fold (sfrom U (sinit reg tr) l). rewrite in_from by apply good_init. reflexivity. Qed.
Lemma closed_step U o s : good s -> v_closed (srun_step U o s) = false -> v_closed s = false.
Proof.
  intros ((I & T & J) & _) H. pose proof (step_eff U o s I T) as E. remember (srun_step U o s) as s1 eqn:E1. clear E1.
  destruct E as [o|name sv|bs| | |s' E|ok s' E|o i s' E O|o s' E O]; try exact H.
  - apply rstep_same in E as (_ & E & _). congruence.
  - inversion E; subst; cbn in H; congruence.
  - apply teff_same in E as (_ & E & _). congruence.
  - apply jeff_same in E as (_ & E & _). congruence.
Qed.
Lemma closed_from U l : forall s, good s -> v_closed (sfrom U s l) = false -> v_closed s = false.
Proof. induction l as [|o l IH]; intros s G H; [exact H|]. apply (closed_step U o s G). apply IH; [apply good_step; exact G|exact H]. Qed.
Lemma items_step U o s : good s -> exists m, v_items (srun_step U o s) = v_items s ++ m.
Proof.
  intros ((I & T & J) & _). pose proof (step_eff U o s I T) as E. remember (srun_step U o s) as s1 eqn:E1. clear E1.
  destruct E as [o|name sv|bs| | |s' E|ok s' E|o i s' E O|o s' E O]; try (exists []; now rewrite app_nil_r).
  - exact (rstep_items _ _ E).
  - apply deff_same in E as (_ & _ & _ & _ & E & _). exists []. now rewrite app_nil_r.
  - apply teff_same in E as ((_ & _ & _ & _ & _ & E & _) & _). exists []. now rewrite app_nil_r.
  - apply jeff_same in E as ((_ & _ & _ & _ & _ & E & _) & _). exists []. now rewrite app_nil_r.
Qed.
Lemma jgrow_trans a b c : jgrow a b -> jgrow b c -> jgrow a c.
Proof.
  intros F G j x N. destruct (F j x N) as (y & N' & E1 & K1 & C1 & Q1 & R1). destruct (G j y N') as (z & N'' & E2 & K2 & C2 & Q2 & R2). exists z. split; [exact N''|]. split; [congruence|]. split; [auto|]. split; [auto|]. split; [auto|].
  intros H. destruct (R1 H) as [H'|(r & H')]; [exact (R2 H')|right; exists r; exact (K2 r H')].
Qed.
Lemma jobs_from U l : forall s, good s -> jgrow s (sfrom U s l).
Proof.
  induction l as [|o l IH]; intros s G; [apply jgrow_same; reflexivity|]. apply (jgrow_trans s (srun_step U o s)); [|apply IH; apply good_step; exact G].
  destruct G as ((I & T & J) & _). exact (jgrow_step U o s _ (step_eff U o s I T)).
Qed.

(** ** One coroutine *)
Lemma answers_app n x l : map snd (filter (fun y : nat * bytes => Nat.eqb (fst y) n) (l ++ x)) = map snd (filter (fun y : nat * bytes => Nat.eqb (fst y) n) l) ++ map snd (filter (fun y : nat * bytes => Nat.eqb (fst y) n) x).
Proof. rewrite filter_app, map_app. reflexivity. Qed.
Lemma answers_other n k bs s s' : v_out s' = v_out s ++ [(k, bs)] -> k <> n -> answers n s' = answers n s.
Proof. intros H D. unfold answers. rewrite H, answers_app. cbn [filter fst]. destruct (Nat.eqb_spec k n); [contradiction|]. cbn. apply app_nil_r. Qed.
Lemma answers_same n k bs s s' : v_out s' = v_out s ++ [(k, bs)] -> k = n -> answers n s' = answers n s ++ [bs].
Proof. intros H ->. unfold answers. rewrite H, answers_app. cbn [filter fst]. rewrite Nat.eqb_refl. reflexivity. Qed.
Lemma answers_eq n s s' : v_out s' = v_out s -> answers n s' = answers n s.
Proof. unfold answers. congruence. Qed.

Definition op_of (i : nat) (o : sstep) : Prop := o = Result i \/ o = Expire i \/ (exists f, o = Dispatch i f) \/ (exists ok, o = Drain i ok).
Lemma step_task U o s i t : good s -> nth_error (v_tasks s) i = Some t -> v_closed (srun_step U o s) = false ->
  (nth_error (v_tasks (srun_step U o s)) i = Some t /\ answers (a_frame t) (srun_step U o s) = answers (a_frame t) s) \/ (teff U s i (srun_step U o s) /\ op_of i o).
Proof.
  intros ((I & T & J) & reg & fin & Out) N Cl. pose proof (step_eff U o s I T) as E. remember (srun_step U o s) as s1 eqn:E1. clear E1.
  destruct E as [o|name sv|bs| | |s' E|ok s' E|o k s' E O|o s' E O]; try (left; split; [exact N|reflexivity]).
  - left. pose proof (rstep_same _ _ E) as (So & _). split; [|apply answers_eq; exact So]. destruct (rstep_tasks _ _ E) as [Ht|(q & p & Ht & _)]; rewrite Ht; [exact N|apply nth_app_some; exact N].
  - left. pose proof (deff_same _ _ E) as (_ & _ & _ & _ & Si & _ & St & _). split; [congruence|]. inversion E as [bs R C E0|R E0|R E0|st fi R Fi E0|R E0]; subst; try reflexivity; [|discriminate].
    apply (answers_other _ (List.length (v_heads s) - 1) bs); [reflexivity|]. intros K. destruct (oo_reader _ _ _ Out bs R) as (_ & id & st & Nx & _). destruct (task_item s i t T N) as (y & Ny & Fy). rewrite <- K, Nx in Ny. injection Ny as <-.
    destruct (a_req t); cbn in Fy; [discriminate|]. destruct Fy; discriminate.
  - destruct (Nat.eq_dec k i) as [->|D]; [right; split; [exact E|exact O]|left]. destruct (teff_tasks _ _ _ _ E) as (p & Ht). split; [rewrite Ht, nth_upd_other by exact D; exact N|].
    inversion E; subst; try reflexivity.
    + apply answers_eq. apply expire_out.
    + eapply answers_other; [reflexivity|]. intros K. apply D. eapply task_unique; eassumption.
  - left. pose proof (jeff_same _ _ E) as (_ & _ & _ & St & So). split; [congruence|apply answers_eq; exact So].
Qed.

(** *** It has its answer in hand *)
Definition fate (s : sst) (i n : nat) (r : option request) (bs : bytes) : Prop :=
  (answering s i n r (TDrain1 bs) /\ answers n s = []) \/ ((answering s i n r TDrain2 \/ answering s i n r TDone \/ exists e, answering s i n r (TRaised e)) /\ answers n s = [bs]) \/
  ((exists e, answering s i n r (TRaised e)) /\ answers n s = []).
Definition over (s : sst) (i n : nat) (r : option request) : Prop := answering s i n r TDone /\ answers n s = [].
Lemma answering_tgoto s i n r p p' s0 : answering s i n r p -> v_tasks s0 = v_tasks s -> answering (tgoto i p' s0) i n r p'.
Proof. unfold answering, tgoto. cbn [set_tasks v_tasks]. intros H ->. erewrite nth_upd_same by exact H. reflexivity. Qed.

Lemma fate_step U o s i n r bs : good s -> v_closed (srun_step U o s) = false -> fate s i n r bs -> fate (srun_step U o s) i n r bs.
Proof.
  intros G Cl F.
  assert (go : forall p, answering s i n r p -> p = TDrain1 bs \/ p = TDrain2 \/ p = TDone \/ (exists e, p = TRaised e) -> fate s i n r bs -> fate (srun_step U o s) i n r bs).
  { intros p A Hp F0. destruct (step_task U o s i _ G A Cl) as [(N & An)|(E & _)].
    - cbn [a_frame] in An. change (answering (srun_step U o s) i n r p) in N. assert (same : forall p', answering s i n r p' -> answering (srun_step U o s) i n r p') by (intros p' A'; unfold answering in *; congruence).
      unfold fate in *. rewrite An. destruct F0 as [(A0 & B0)|[([A0|[A0|(e & A0)]] & B0)|((e & A0) & B0)]]; eauto 10.
    - remember (srun_step U o s) as s1 eqn:E1. clear E1.
      inversion E as [i0 t q st bs0 tr Nt Rq Pc Rf Fb|i0 t q e tr Nt Rq Pc Ex|i0 t q sv m c tr fresh Nt Rq Pc Ns Nm Of Ex|i0 t q j b r0 p0 Nt Rq Pc Nj Sj Co|i0 t q j bs0 Nt Rq Pc To Fb|i0 t bs0 Nt Pc Cl0|i0 t bs0 e Nt Pc|i0 t p0 Nt Pc Hp0]; subst i0 s1; unfold answering in A; rewrite A in Nt; injection Nt as <-; cbn [a_req a_pc a_frame] in *;
        try (exfalso; destruct Hp as [->|[->|[->|(? & ->)]]]; discriminate).
      + subst p. destruct F0 as [(A0 & B0)|[([A0|[A0|(e & A0)]] & B0)|((e & A0) & B0)]]; unfold answering in A0; rewrite A in A0; try discriminate. injection A0 as ->.
        right. left. split; [left; apply (answering_tgoto s i n r (TDrain1 bs)); [exact A|reflexivity]|]. erewrite answers_same; [|reflexivity|reflexivity]. rewrite B0. reflexivity.
      + subst p. destruct F0 as [(A0 & B0)|[([A0|[A0|(e0 & A0)]] & B0)|((e0 & A0) & B0)]]; unfold answering in A0; rewrite A in A0; try discriminate.
        right. right. split; [exists e; apply (answering_tgoto s i n r (TDrain1 bs0)); [exact A|reflexivity]|]. exact B0.
      + subst p. destruct F0 as [(A0 & B0)|[([A0|[A0|(e0 & A0)]] & B0)|((e0 & A0) & B0)]]; unfold answering in A0; rewrite A in A0; try discriminate.
        right. left. split; [|exact B0]. right. pose proof (answering_tgoto s i n r TDrain2 p0 s A eq_refl) as K. destruct Hp0 as [->|(e & ->)]; eauto. }
  pose proof F as F0. destruct F as [(A & B)|[([A|[A|(e & A)]] & B)|((e & A) & B)]]; eapply go; eauto 10.
Qed.
Lemma fate_from U l i n r bs : forall s, good s -> v_closed (sfrom U s l) = false -> fate s i n r bs -> fate (sfrom U s l) i n r bs.
Proof.
  induction l as [|o l IH]; intros s G Cl F; [exact F|]. change (sfrom U s (o :: l)) with (sfrom U (srun_step U o s) l) in *. pose proof (good_step U o s G) as G'.
  apply IH; auto. apply fate_step; auto. exact (closed_from U l _ G' Cl).
Qed.
Lemma over_step U o s i n r : good s -> v_closed (srun_step U o s) = false -> over s i n r -> over (srun_step U o s) i n r.
Proof.
  intros G Cl (A & B). destruct (step_task U o s i _ G A Cl) as [(N & An)|(E & _)]; [split; [exact N|cbn in An; congruence]|]. exfalso.
  remember (srun_step U o s) as s1 eqn:E1. clear E1. inversion E; subst; unfold answering in A; congruence || (rewrite A in *; match goal with H : Some _ = Some _ |- _ => injection H as <- end; discriminate).
Qed.
Lemma over_from U l i n r : forall s, good s -> v_closed (sfrom U s l) = false -> over s i n r -> over (sfrom U s l) i n r.
Proof.
  induction l as [|o l IH]; intros s G Cl F; [exact F|]. change (sfrom U s (o :: l)) with (sfrom U (srun_step U o s) l) in *. pose proof (good_step U o s G) as G'.
  apply IH; auto. apply over_step; auto. exact (closed_from U l _ G' Cl).
Qed.
(** and it is written when the drain succeeds *)
Lemma fate_write U s i n r bs : good s -> v_closed s = false -> fate s i n r bs -> (forall e, ~ answering s i n r (TRaised e)) -> answers n (srun_step U (Drain i true) s) = [bs].
Proof.
  intros G Cl F Nr. destruct F as [(A & B)|[([A|[A|(e & A)]] & B)|((e & A) & B)]]; try (exfalso; exact (Nr _ A)); cbn [srun_step]; pose proof A as A'; unfold answering in A'; rewrite A'; cbn [a_pc a_frame].
  - unfold swrite. rewrite Cl. erewrite answers_same; [|reflexivity|reflexivity]. rewrite B. reflexivity.
  - exact B.
  - exact B.
Qed.
(** it raises only if a drain fails *)
Lemma raised_step U o s i n r e bs : good s -> v_closed (srun_step U o s) = false -> fate s i n r bs -> (forall e, ~ answering s i n r (TRaised e)) -> answering (srun_step U o s) i n r (TRaised e) -> o = Drain i false.
Proof.
  intros G Cl F Nr H.
  assert (D : (exists ok, o = Drain i ok) \/ forall ok, o <> Drain i ok) by (destruct o as [| | | | | | |k ok| | | |]; try (right; discriminate); destruct (Nat.eq_dec k i) as [->|D]; [left; eauto|right; congruence]).
  destruct D as [(ok & ->)|D].
  - destruct ok; [exfalso|reflexivity]. pose proof (closed_step U _ s G Cl) as Cl0. destruct F as [(A & B)|[([A|[A|(e0 & A)]] & B)|((e0 & A) & B)]]; try (exact (Nr _ A)); cbn [srun_step] in H; pose proof A as A'; unfold answering in A'; rewrite A' in H; cbn [a_pc a_frame] in H.
    + unfold swrite in H. rewrite Cl0 in H. pose proof (answering_tgoto s i n r _ TDrain2 (set_out s (v_out s ++ [(n, bs)]) (v_closed s)) A eq_refl) as K. unfold answering in *. congruence.
    + pose proof (answering_tgoto s i n r _ TDone s A eq_refl) as K. unfold answering in *. congruence.
    + unfold answering in *. congruence.
  - exfalso. assert (X : exists p, answering s i n r p /\ (p = TDrain1 bs \/ p = TDrain2 \/ p = TDone)) by (destruct F as [(A & B)|[([A|[A|(e0 & A)]] & B)|((e0 & A) & B)]]; eauto 6; exfalso; exact (Nr _ A)).
    destruct X as (p & A & Hp). destruct (step_task U o s i _ G A Cl) as [(N & _)|(E & Op)].
    + unfold answering in H. rewrite N in H. injection H as ->. destruct Hp as [?|[?|?]]; discriminate.
    + destruct Op as [->|[->|[(f & ->)|(ok & ->)]]]; [..|exact (D ok eq_refl)]; cbn [srun_step] in H; pose proof A as A'; unfold answering in A'; rewrite A' in H; cbn [a_pc a_req] in H; destruct Hp as [->|[->| ->]]; unfold answering in H; congruence.
Qed.

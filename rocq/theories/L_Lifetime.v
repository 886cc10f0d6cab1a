(** Lemmas for C133 *)
From Coq Require Import Lia.
From Verif Require Import PyBase PyDict M_ConnPool M_SyncClient M_Lifetime S_Lifetime.

Lemma cid_eqb_eq a b : cid_eqb a b = true <-> a = b.
Proof.
  unfold cid_eqb. destruct a as [a1 a2], b as [b1 b2]. cbn. rewrite Bool.andb_true_iff, !Nat.eqb_eq.
  split; [intros [-> ->]; reflexivity | intros H; injection H; auto].
Qed.
Lemma member_In c l : member c l = true <-> In c l.
Proof.
  unfold member. rewrite existsb_exists. split.
  - intros (x & Hx & E). apply cid_eqb_eq in E. subst. exact Hx.
  - intros H. exists c. split; [exact H | apply cid_eqb_eq; reflexivity].
Qed.

Lemma nth_replace_same {A} (y : A) l : forall i x, nth_error l i = Some x -> nth_error (replace i y l) i = Some y.
Proof. induction l as [|a l IH]; intros [|i] x H; try discriminate H; cbn in *; [reflexivity | eapply IH; exact H]. Qed.
Lemma nth_replace_other {A} (y : A) l : forall i j, i <> j -> nth_error (replace i y l) j = nth_error l j.
Proof.
  induction l as [|a l IH]; intros [|i] [|j] H; cbn; try reflexivity; try (exfalso; apply H; reflexivity).
  apply IH. intros ->. apply H. reflexivity.
Qed.
Lemma length_replace {A} (y : A) l : forall i, List.length (replace i y l) = List.length l.
Proof. induction l as [|a l IH]; intros [|i]; cbn; try reflexivity. rewrite IH. reflexivity. Qed.

(** the pool of one connection that _get_pool makes *)
Definition pool1 : pool := {| p_free := Some [0%nat]; p_num := 1; p_attempts := 1; p_closed := [] |}.
Definition pool2 : pool := {| p_free := Some [1%nat]; p_num := 2; p_attempts := 2; p_closed := [] |}.
Definition pool2d : pool := {| p_free := Some [1%nat]; p_num := 1; p_attempts := 2; p_closed := [0%nat] |}.
Definition pool2f : pool := {| p_free := Some []; p_num := 2; p_attempts := 2; p_closed := [] |}.
Lemma build_default mk : build default_config mk = if mk 0%nat then Built pool1 else Failed OSError.
Proof. unfold build, fill. cbn. destruct (mk 0%nat); reflexivity. Qed.
Lemma get_default mk dr : get_conn default_config mk dr pool1 =
  if mk 1%nat then (if dr 0%nat then (pool2d, Ok 0%nat) else (pool2, Ok 0%nat)) else (pool2f, Raise OSError).
Proof. unfold get_conn. cbn. destruct (mk 1%nat); [|reflexivity]. cbn. unfold dropped. cbn. destruct (dr 0%nat); reflexivity. Qed.
Lemma put_default : mem_nat (p_attempts pool1) (p_closed (put_conn default_config pool1 (p_attempts pool1))) = false.
Proof. reflexivity. Qed.

(** what holds of each call: i is its number, [ms] the makers of the pools *)
Definition sound (ms : list nat) (i : nat) (f : frame) : Prop :=
  (forall c, In c (refs f) -> nth_error ms (fst c) = Some i) /\
  match f_pc f with
  | Get _ | Give => exists n, f_pool f = Some (n, pool1) /\ nth_error ms n = Some i /\ f_got f = None
  | Got _ => exists n p, f_pool f = Some (n, p) /\ (p = pool2 \/ p = pool2d) /\ f_got f = Some (n, 0%nat)
  | Returned | Dropped _ | Begin => refs f = []
  | _ => f_pool f = None /\ f_got f = None
  end /\
  match f_pc f with Give | LookupBack | Last | Wait => f_conn f <> None | _ => True end.

Lemma created_in mk n a b c : In c (created mk n a b) -> fst c = n /\ (a <= snd c < b)%nat /\ mk (snd c) = true.
Proof.
  unfold created. intros H. apply in_map_iff in H as (k & <- & H). apply filter_In in H as (H & M). apply in_seq in H.
  cbn. repeat split; try lia. exact M.
Qed.

Lemma nth_app_keep {A} (l m : list A) k x : nth_error l k = Some x -> nth_error (l ++ m) k = Some x.
Proof. intros H. rewrite nth_error_app1; [exact H | apply nth_error_Some; rewrite H; discriminate]. Qed.

Lemma sound_grow ms m i f : sound ms i f -> sound (ms ++ m) i f.
Proof.
  intros (R & P & Q). split; [|split; [|exact Q]].
  - intros c Hc. apply nth_app_keep, R, Hc.
  - destruct (f_pc f); try exact P; destruct P as (n & A & B & C); exists n; (split; [exact A | split; [apply nth_app_keep, B | exact C]]).
Qed.

Lemma refs_goto k f : refs (goto k f) = held (f_conn f).
Proof. unfold refs, goto. cbn. rewrite app_nil_r. reflexivity. Qed.

Lemma sound_goto ms i k f : (forall c, In c (held (f_conn f)) -> nth_error ms (fst c) = Some i) ->
  match k with Get _ | Give | Got _ | Returned | Dropped _ | Begin => False | LookupBack | Last | Wait => f_conn f <> None | _ => True end ->
  sound ms i (goto k f).
Proof.
  intros R K. split; [|split].
  - rewrite refs_goto. exact R.
  - cbn. destruct k; try contradiction; auto.
  - cbn. destruct k; try contradiction; auto.
Qed.
Lemma sound_failed ms i r e f : (forall c, In c (held (f_conn f)) -> nth_error ms (fst c) = Some i) -> sound ms i (failed r e f).
Proof. intros R. unfold failed. destruct e; try (apply sound_goto; [exact R | exact I]). destruct (Nat.ltb (S r) 3); apply sound_goto; try exact R; exact I. Qed.

Lemma conn_refs f c : In c (held (f_conn f)) -> In c (refs f).
Proof. intros H. unfold refs. apply in_or_app. left. exact H. Qed.

Lemma fstep_sound ms i x f : sound ms i f ->
  sound (ms ++ if makes x f then [i] else []) i (fst (fst (fstep (List.length ms) x f))).
Proof.
  intros Hf. pose proof Hf as (R & P & Q).
  assert (R' : forall m c, In c (held (f_conn f)) -> nth_error (ms ++ m) (fst c) = Some i).
  { intros m c Hc. apply nth_app_keep, R, conn_refs, Hc. }
  assert (NEW : forall m, nth_error (ms ++ i :: m) (List.length ms) = Some i).
  { intros m. rewrite nth_error_app2 by lia. rewrite Nat.sub_diag. reflexivity. }
  unfold fstep, makes. destruct (f_pc f) as [|r|r|r|r| | | | | | |e|e] eqn:K; cbn [fst snd].
  - destruct (i_error x); apply sound_goto; try apply R'; exact I.
  - destruct (i_error x) as [e|]; [apply sound_failed, R'|]. rewrite build_default.
    destruct (i_mk x 0%nat); [|apply sound_failed, R'].
    split; [|split; [|exact I]].
    + intros c. unfold refs. cbn. intros Hc. apply in_app_or in Hc as [Hc|[<-|[]]]; [apply R', Hc | apply NEW].
    + exists (List.length ms). auto.
  - destruct P as (m & A & B & C). rewrite A, get_default. destruct (i_mk x 1%nat); [|apply sound_failed, R'].
    assert (Z : forall p, (p = pool2 \/ p = pool2d) -> sound (ms ++ []) i {| f_oneway := f_oneway f; f_pc := Got r; f_conn := f_conn f; f_pool := Some (m, p); f_got := Some (m, 0%nat) |}).
    { intros p Hp. split; [|split; [|exact I]].
      - intros c. unfold refs. cbn [f_conn f_got f_pool held pooled]. intros Hc. apply in_app_or in Hc as [Hc|Hc]; [apply R', Hc|].
        apply nth_app_keep. replace (fst c) with m; [exact B|].
        destruct Hp as [-> | ->]; cbn in Hc; destruct Hc as [<-|[<-|[]]]; reflexivity.
      - exists m, p. auto. }
    destruct (i_dr x 0%nat); cbn [fst snd]; apply Z; auto.
  - rewrite app_nil_r. destruct P as (n & p & A & B & C). split; [|split; [|exact I]].
    + intros c. unfold refs. cbn. rewrite !app_nil_r. intros Hc. apply R. unfold refs. apply in_or_app. right. apply in_or_app. left. exact Hc.
    + cbn. auto.
  - destruct (i_error x); [apply sound_failed, R' | apply sound_goto; [apply R' | exact I]].
  - destruct (f_conn f) as [c|] eqn:E; [|apply sound_goto; [rewrite E; intros ? [] | exact I]].
    destruct (f_oneway f); (apply sound_goto; [rewrite E; apply R' | rewrite E; discriminate]).
  - destruct (i_error x); [apply sound_goto; [apply R' | exact I]|].
    destruct (i_silent x); [apply sound_goto; [apply R' | exact I]|].
    destruct (i_all x); [apply sound_goto; [apply R' | exact Q]|]. rewrite app_nil_r. exact Hf.
  - destruct (i_error x); [apply sound_goto; [apply R' | exact I]|]. rewrite build_default.
    destruct (i_mk x 0%nat); [|apply sound_goto; [apply R' | exact I]].
    split; [|split; [|exact Q]].
    + intros c. unfold refs. cbn. intros Hc. apply in_app_or in Hc as [Hc|[<-|[]]]; [apply R', Hc | apply NEW].
    + exists (List.length ms). auto.
  - destruct P as (m & A & B & C). rewrite A. destruct (f_conn f) as [c|] eqn:E; [|contradiction (Q eq_refl)].
    apply sound_goto; [rewrite E; apply R' | rewrite E; discriminate].
  - destruct (if f_oneway f then None else i_error x); [apply sound_goto; [apply R' | exact I]|].
    split; [intros c []|]. split; [reflexivity | exact I].
  - rewrite app_nil_r. exact Hf.
  - split; [intros c []|]. split; [reflexivity | exact I].
  - rewrite app_nil_r. exact Hf.
Qed.

Definition all_sound (s : heap) : Prop := forall i f, nth_error (g_calls s) i = Some f -> sound (g_makers s) i f.

Lemma hstep_sound s e : all_sound s -> all_sound (hstep s e).
Proof.
  intros H. destruct e as [ow|i x]; cbn.
  - intros j f. cbn. intros Hj. destruct (Nat.lt_ge_cases j (List.length (g_calls s))) as [L|L].
    + rewrite nth_error_app1 in Hj by exact L. apply H, Hj.
    + rewrite nth_error_app2 in Hj by exact L. destruct (j - List.length (g_calls s))%nat as [|k]; [|destruct k; discriminate Hj].
      injection Hj as <-. split; [intros c []|]. split; [reflexivity | exact I].
  - destruct (nth_error (g_calls s) i) as [f|] eqn:Ei; [|exact H].
    pose proof (fstep_sound (g_makers s) i x f (H _ _ Ei)) as F.
    destruct (fstep (List.length (g_makers s)) x f) as [[f' new] gone] eqn:Ef. cbn in F.
    intros j g. cbn. intros Hj. destruct (Nat.eq_dec i j) as [<-|N].
    + rewrite (nth_replace_same _ _ _ _ Ei) in Hj. injection Hj as <-. exact F.
    + rewrite nth_replace_other in Hj by exact N. apply sound_grow, H, Hj.
Qed.

(** open connections are referred to *)
Definition kept_open (s : heap) : Prop := forall c, In c (g_open s) -> In c (flat_map refs (g_calls s)).
Lemma hstep_kept s e : kept_open s -> kept_open (hstep s e).
Proof.
  intros H. destruct e as [ow|i x]; cbn.
  - intros c Hc. cbn in *. rewrite flat_map_app. apply in_or_app. left. apply H, Hc.
  - destruct (nth_error (g_calls s) i) as [f|] eqn:Ei; [|exact H].
    destruct (fstep (List.length (g_makers s)) x f) as [[f' new] gone] eqn:Ef. intros c. cbn. intros Hc.
    unfold collect in Hc. apply filter_In in Hc as (_ & Hc). apply member_In, Hc.
Qed.

Lemma hrun_snoc evs e : hrun (evs ++ [e]) = hstep (hrun evs) e.
Proof. unfold hrun. rewrite fold_left_app. reflexivity. Qed.
Lemma hrun_ind (P : heap -> Prop) : P {| g_makers := []; g_open := []; g_calls := [] |} -> (forall s e, P s -> P (hstep s e)) -> forall evs, P (hrun evs).
Proof. intros H0 H evs. induction evs as [|e evs IH] using rev_ind; [exact H0 | rewrite hrun_snoc; apply H, IH]. Qed.

Lemma run_sound evs : all_sound (hrun evs).
Proof. apply hrun_ind; [intros [|i] f H; discriminate H | apply hstep_sound]. Qed.
Lemma run_kept evs : kept_open (hrun evs).
Proof. apply hrun_ind; [intros c [] | apply hstep_kept]. Qed.

(** an open connection of call i is referred to by call i *)
Lemma open_ref evs i c : opened_by (hrun evs) i c -> In c (g_open (hrun evs)) -> exists f, nth_error (g_calls (hrun evs)) i = Some f /\ In c (refs f).
Proof.
  intros O H. apply run_kept, in_flat_map in H as (f & Hf & Hc). apply In_nth_error in Hf as (j & Hj).
  destruct (run_sound evs j f Hj) as (R & _). specialize (R c Hc). unfold opened_by in O. rewrite O in R. injection R as ->.
  exists f. auto.
Qed.
Lemma closed_over evs i c : opened_by (hrun evs) i c -> over (hrun evs) i -> ~ In c (g_open (hrun evs)).
Proof.
  intros O V H. destruct (open_ref evs i c O H) as (f & Hf & Hc). pose proof (run_sound evs i f Hf) as (_ & P & _).
  assert (E : refs f = []).
  { destruct V as [(g & Hg & K)|(e & g & Hg & K)]; rewrite Hf in Hg; injection Hg as <-; rewrite K in P; exact P. }
  rewrite E in Hc. exact Hc.
Qed.
Lemma only_one evs i c k : opened_by (hrun evs) i c -> at_pc (hrun evs) i k -> (match k with Lookup _ | Send _ | Return | Wait | Last | Kept _ => True | _ => False end) ->
  In c (g_open (hrun evs)) -> exists f, nth_error (g_calls (hrun evs)) i = Some f /\ f_conn f = Some c.
Proof.
  intros O (f & Hf & K) Hk H. destruct (open_ref evs i c O H) as (g & Hg & Hc). rewrite Hf in Hg. injection Hg as <-.
  exists f. split; [exact Hf|]. pose proof (run_sound evs i f Hf) as (_ & P & _). rewrite K in P.
  assert (E : f_pool f = None /\ f_got f = None) by (destruct k; try contradiction; exact P). destruct E as (E1 & E2).
  unfold refs in Hc. rewrite E1, E2 in Hc. cbn in Hc. rewrite app_nil_r in Hc.
  destruct (f_conn f) as [d|]; [|contradiction]. destruct Hc as [->|[]]. reflexivity.
Qed.

(** the connection a call uses is the first of its pool *)
Definition firsts (s : heap) : Prop := forall i f c, nth_error (g_calls s) i = Some f -> f_conn f = Some c -> snd c = 0%nat.
Lemma failed_conn r e f : f_conn (failed r e f) = f_conn f.
Proof. unfold failed. destruct e; try reflexivity. destruct (Nat.ltb (S r) 3); reflexivity. Qed.
Lemma fstep_conn ms i x f f' new gone : sound ms i f -> fstep (List.length ms) x f = (f', new, gone) ->
  f_conn f' = f_conn f \/ f_conn f' = None \/ exists n, f_conn f' = Some (n, 0%nat).
Proof.
  intros (_ & P & _). unfold fstep. destruct (f_pc f) as [|r|r|r|r| | | | | | |e|e] eqn:K.
  - intros H; injection H as <- _ _. destruct (i_error x); auto.
  - destruct (i_error x); [intros H; injection H as <- _ _; left; apply failed_conn|]. rewrite build_default.
    destruct (i_mk x 0%nat); intros H; injection H as <- _ _; [auto | left; reflexivity].
  - destruct P as (m & A & _). rewrite A, get_default. destruct (i_mk x 1%nat); [destruct (i_dr x 0%nat)|]; intros H; injection H as <- _ _; left; reflexivity.
  - intros H; injection H as <- _ _. destruct P as (n & p & _ & _ & G). right. right. exists n. cbn. exact G.
  - intros H; injection H as <- _ _. destruct (i_error x); [left; apply failed_conn | auto].
  - intros H; injection H as <- _ _. left. destruct (f_conn f) eqn:E; [destruct (f_oneway f)|]; cbn; exact E || rewrite E; reflexivity.
  - destruct (i_error x); [intros H; injection H as <- _ _; auto|]. destruct (i_silent x); [intros H; injection H as <- _ _; auto|].
    destruct (i_all x); intros H; injection H as <- _ _; auto.
  - destruct (i_error x); [intros H; injection H as <- _ _; auto|]. rewrite build_default.
    destruct (i_mk x 0%nat); intros H; injection H as <- _ _; auto.
  - destruct (f_pool f) as [[m p]|]; [destruct (f_conn f) eqn:E|]; intros H; injection H as <- _ _; left; cbn; try exact E; reflexivity.
  - intros H; injection H as <- _ _. destruct (if f_oneway f then None else i_error x); auto.
  - intros H; injection H as <- _ _; auto.
  - intros H; injection H as <- _ _; auto.
  - intros H; injection H as <- _ _; auto.
Qed.
Lemma run_firsts evs : firsts (hrun evs).
Proof.
  induction evs as [|e evs IH] using rev_ind; [intros [|i] f c H; discriminate H|]. rewrite hrun_snoc.
  destruct e as [ow|i x]; cbn.
  - intros j f c. cbn. intros Hj. destruct (Nat.lt_ge_cases j (List.length (g_calls (hrun evs)))) as [L|L].
    + rewrite nth_error_app1 in Hj by exact L. apply (IH _ _ _ Hj).
    + rewrite nth_error_app2 in Hj by exact L. destruct (j - _)%nat as [|k]; [|destruct k; discriminate Hj]. injection Hj as <-. discriminate.
  - destruct (nth_error (g_calls (hrun evs)) i) as [f|] eqn:Ei; [|exact IH].
    destruct (fstep (List.length (g_makers (hrun evs))) x f) as [[f' new] gone] eqn:Ef.
    intros j g c. cbn. intros Hj. destruct (Nat.eq_dec i j) as [<-|N].
    + rewrite (nth_replace_same _ _ _ _ Ei) in Hj. injection Hj as <-. intros C.
      destruct (fstep_conn _ _ _ _ _ _ _ (run_sound evs i f Ei) Ef) as [E|[E|(n & E)]]; rewrite E in C.
      * apply (IH _ _ _ Ei C).
      * discriminate C.
      * injection C as <-. reflexivity.
    + rewrite nth_replace_other in Hj by exact N. apply (IH _ _ _ Hj).
Qed.

(** what a step opens, and what it closes itself *)
Lemma fstep_new ms i x f f' new gone : sound ms i f -> fstep (List.length ms) x f = (f', new, gone) ->
  NoDup new /\ (forall c, In c new -> (fst c = List.length ms) \/ (snd c = 1%nat /\ nth_error ms (fst c) = Some i /\ exists r, f_pc f = Get r /\ f_pool f = Some (fst c, pool1))).
Proof.
  intros (_ & P & _). unfold fstep. destruct (f_pc f) as [|r|r|r|r| | | | | | |e|e] eqn:K;
    try (intros H; injection H as _ <- _; split; [constructor | intros c []]).
  - destruct (i_error x); [intros H; injection H as _ <- _; split; [constructor | intros c []]|]. rewrite build_default.
    destruct (i_mk x 0%nat) eqn:M; intros H; injection H as _ <- _; (split; [|intros c Hc]).
    + unfold created. cbn. rewrite M. repeat constructor. intros [].
    + left. apply created_in in Hc as (Hc & _). exact Hc.
    + constructor.
    + contradiction.
  - destruct P as (m & A & B & _). rewrite A, get_default. destruct (i_mk x 1%nat) eqn:M; [destruct (i_dr x 0%nat)|]; intros H; injection H as _ <- _;
      (split; [unfold created; cbn; rewrite M; repeat constructor; intros []|]; intros c Hc; apply created_in in Hc as (Hc & L & _); right; cbn in L; split; [lia|];
      rewrite Hc; split; [exact B | exists r; auto]).
  - destruct (i_error x); [intros H; injection H as _ <- _; split; [constructor | intros c []]|].
    destruct (i_silent x); [intros H; injection H as _ <- _; split; [constructor | intros c []]|].
    destruct (i_all x); intros H; injection H as _ <- _; (split; [constructor | intros c []]).
  - destruct (i_error x); [intros H; injection H as _ <- _; split; [constructor | intros c []]|]. rewrite build_default.
    destruct (i_mk x 0%nat) eqn:M; intros H; injection H as _ <- _; (split; [|intros c Hc]).
    + unfold created. cbn. rewrite M. repeat constructor. intros [].
    + left. apply created_in in Hc as (Hc & _). exact Hc.
    + constructor.
    + contradiction.
  - destruct (f_pool f) as [[m p]|]; [destruct (f_conn f)|]; intros H; injection H as _ E _; subst new; (split; [apply NoDup_nil | intros d []]).
Qed.
Lemma fstep_gone ms i x f f' new gone : sound ms i f -> fstep (List.length ms) x f = (f', new, gone) ->
  forall c, In c gone -> nth_error ms (fst c) = Some i.
Proof.
  intros (R & P & _). unfold fstep. destruct (f_pc f) as [|r|r|r|r| | | | | | |e|e] eqn:K;
    try (intros H; injection H as _ _ <-; intros c []).
  - destruct (i_error x); [intros H; injection H as _ _ <-; intros c []|]. rewrite build_default.
    destruct (i_mk x 0%nat) eqn:M; intros H; injection H as _ _ <-; intros c [].
  - destruct P as (m & A & B & _). rewrite A, get_default. destruct (i_mk x 1%nat) eqn:M; [destruct (i_dr x 0%nat)|]; intros H; injection H as _ _ <-;
      intros c Hc; try contradiction. destruct Hc as [<-|[]]. exact B.
  - destruct (i_error x); [intros H; injection H as _ _ <-; intros c []|].
    destruct (i_silent x); [intros H; injection H as _ _ <-|].
    + intros c Hc. apply R, conn_refs. unfold held. destruct (f_conn f); [exact Hc | contradiction].
    + destruct (i_all x); intros H; injection H as _ _ <-; intros c [].
  - destruct (i_error x); [intros H; injection H as _ _ <-; intros c []|]. rewrite build_default.
    destruct (i_mk x 0%nat) eqn:M; intros H; injection H as _ _ <-; intros c [].
  - destruct P as (m & A & B & _). rewrite A. destruct (f_conn f) as [d|] eqn:E; intros H; injection H as _ _ <-; intros c Hc; contradiction.
Qed.

Lemma NoDup_filter' {A} (p : A -> bool) l : NoDup l -> NoDup (filter p l).
Proof.
  induction 1 as [|x l N _ IH]; cbn; [constructor|]. destruct (p x); [|exact IH]. constructor; [|exact IH].
  intros H. apply filter_In in H as (H & _). exact (N H).
Qed.
Lemma NoDup_app' {A} (l m : list A) : NoDup l -> NoDup m -> (forall x, In x l -> ~ In x m) -> NoDup (l ++ m).
Proof.
  induction 1 as [|x l N _ IH]; intros M D; [exact M|]. cbn. constructor.
  - intros H. apply in_app_or in H as [H|H]; [exact (N H) | exact (D x (or_introl eq_refl) H)].
  - apply IH; [exact M | intros y Hy; apply D; right; exact Hy].
Qed.

Lemma run_nodup evs : NoDup (g_open (hrun evs)).
Proof.
  induction evs as [|e evs IH] using rev_ind; [constructor|]. rewrite hrun_snoc.
  destruct e as [ow|i x]; cbn; [exact IH|].
  destruct (nth_error (g_calls (hrun evs)) i) as [f|] eqn:Ei; [|exact IH].
  destruct (fstep (List.length (g_makers (hrun evs))) x f) as [[f' new] gone] eqn:Ef. cbn. unfold collect.
  apply NoDup_filter', NoDup_filter'.
  pose proof (run_sound evs i f Ei) as Sf. destruct (fstep_new _ _ _ _ _ _ _ Sf Ef) as (D & N).
  apply NoDup_app'; [exact IH | exact D|]. intros c Hc Hn.
  assert (O : exists j, opened_by (hrun evs) j c).
  { pose proof (run_kept evs c Hc) as H. apply in_flat_map in H as (g & Hg & Hcg). apply In_nth_error in Hg as (j & Hj).
    exists j. apply (run_sound evs j g Hj), Hcg. }
  destruct O as (j & O). destruct (N c Hn) as [E|(E1 & E2 & r & K & E3)].
  - unfold opened_by in O. rewrite E in O. assert (L : (List.length (g_makers (hrun evs)) < List.length (g_makers (hrun evs)))%nat) by (apply nth_error_Some; rewrite O; discriminate). lia.
  - destruct (open_ref evs i c E2 Hc) as (g & Hg & Hr). rewrite Ei in Hg. injection Hg as <-.
    destruct Sf as (_ & P & _). rewrite K in P. destruct P as (m & A & _ & G).
    unfold refs in Hr. rewrite E3, G in Hr. cbn in Hr. apply in_app_or in Hr as [Hr|[Hr|[]]].
    + destruct (f_conn f) as [d|] eqn:C; [|contradiction]. destruct Hr as [->|[]].
      pose proof (run_firsts evs _ _ _ Ei C) as Z. rewrite Z in E1. discriminate E1.
    + rewrite <- Hr in E1. discriminate E1.
Qed.

Lemma refs_length ms i f : sound ms i f -> (List.length (refs f) <= if is_running f then 3 else if is_kept f then 1 else 0)%nat.
Proof.
  intros (_ & P & _).
  assert (C : (List.length (held (f_conn f)) <= 1)%nat) by (destruct (f_conn f); cbn; lia).
  assert (A : f_pool f = None /\ f_got f = None -> (List.length (refs f) <= 1)%nat).
  { intros (E1 & E2). unfold refs. rewrite E1, E2. cbn. rewrite app_nil_r. exact C. }
  assert (B : (exists n, f_pool f = Some (n, pool1) /\ nth_error ms n = Some i /\ f_got f = None) -> (List.length (refs f) <= 2)%nat).
  { intros (n & E1 & _ & E2). unfold refs. rewrite E1, E2. cbn. rewrite app_length. cbn. lia. }
  assert (D : (exists n p, f_pool f = Some (n, p) /\ (p = pool2 \/ p = pool2d) /\ f_got f = Some (n, 0%nat)) -> (List.length (refs f) <= 3)%nat).
  { intros (n & p & E1 & E2 & E3). unfold refs. rewrite E1, E3. rewrite !app_length. destruct E2 as [-> | ->]; cbn; lia. }
  assert (E : refs f = [] -> List.length (refs f) = 0%nat) by (intros ->; reflexivity).
  unfold is_running, is_kept. destruct (f_pc f); try (specialize (A P); lia); try (specialize (B P); lia); try (specialize (D P); lia); specialize (E P); lia.
Qed.
Lemma bounded evs : (List.length (g_open (hrun evs)) <= 3 * count is_running (hrun evs) + count is_kept (hrun evs))%nat.
Proof.
  assert (L : (List.length (g_open (hrun evs)) <= List.length (flat_map refs (g_calls (hrun evs))))%nat).
  { apply NoDup_incl_length; [apply run_nodup | exact (run_kept evs)]. }
  assert (B : forall l, (forall f, In f l -> (List.length (refs f) <= if is_running f then 3 else if is_kept f then 1 else 0)%nat) ->
    (List.length (flat_map refs l) <= 3 * List.length (filter is_running l) + List.length (filter is_kept l))%nat).
  { induction l as [|f l IH]; intros H; cbn [flat_map filter List.length]; [lia|]. rewrite app_length.
    pose proof (H f (or_introl eq_refl)) as Hf. specialize (IH (fun g Hg => H g (or_intror Hg))).
    destruct (is_running f), (is_kept f); cbn [List.length]; lia. }
  unfold count. etransitivity; [exact L|]. apply B. intros f Hf. apply In_nth_error in Hf as (i & Hi).
  exact (refs_length _ _ _ (run_sound evs i f Hi)).
Qed.

(** ** Connections are not taken from those who use them *)
Lemma in_replace {A} (y : A) l i x : nth_error l i = Some x -> In y (replace i y l).
Proof. intros H. eapply nth_error_In. eapply nth_replace_same. exact H. Qed.
Lemma hstep_ref s i f x f' new gone c : nth_error (g_calls s) i = Some f -> fstep (List.length (g_makers s)) x f = (f', new, gone) ->
  In c (g_open s ++ new) -> ~ In c gone -> In c (flat_map refs (replace i f' (g_calls s))) -> In c (g_open (hstep s (ERun i x))).
Proof.
  intros Ei Ef H G R. cbn. rewrite Ei, Ef. cbn. unfold collect. apply filter_In. split; [|apply member_In, R].
  apply filter_In. split; [exact H|]. destruct (member c gone) eqn:M; [apply member_In in M; contradiction | reflexivity].
Qed.
Lemma stays evs e i f c : nth_error (g_calls (hrun evs)) i = Some f -> In c (refs f) -> In c (g_open (hrun evs)) -> leaves i e ->
  nth_error (g_calls (hrun (evs ++ [e]))) i = Some f /\ In c (g_open (hrun (evs ++ [e]))).
Proof.
  intros Hi Hc Ho Hl. rewrite hrun_snoc. destruct e as [ow|j x].
  - cbn. split; [apply nth_app_keep, Hi | exact Ho].
  - cbn in Hl. destruct (nth_error (g_calls (hrun evs)) j) as [g|] eqn:Ej; [|cbn; rewrite Ej; auto].
    destruct (fstep (List.length (g_makers (hrun evs))) x g) as [[g' new] gone] eqn:Ef. split.
    + cbn. rewrite Ej, Ef. cbn. rewrite nth_replace_other by exact Hl. exact Hi.
    + apply (hstep_ref _ _ _ _ _ _ _ _ Ej Ef).
      * apply in_or_app. left. exact Ho.
      * intros G. apply (fstep_gone _ _ _ _ _ _ _ (run_sound evs j g Ej) Ef) in G.
        pose proof (proj1 (run_sound evs i f Hi) c Hc) as O. rewrite O in G. injection G as ->. apply Hl. reflexivity.
      * apply in_flat_map. exists f. split; [|exact Hc]. apply nth_error_In with i. rewrite nth_replace_other by exact Hl. exact Hi.
Qed.
Lemma stays_long evs' : forall evs i f c, nth_error (g_calls (hrun evs)) i = Some f -> In c (refs f) -> In c (g_open (hrun evs)) -> Forall (leaves i) evs' ->
  nth_error (g_calls (hrun (evs ++ evs'))) i = Some f /\ In c (g_open (hrun (evs ++ evs'))).
Proof.
  induction evs' as [|e evs' IH]; intros evs i f c Hi Hc Ho Hl; [rewrite app_nil_r; auto|].
  inversion Hl as [|? ? L1 L2]; subst. destruct (stays evs e i f c Hi Hc Ho L1) as (A & B).
  replace (evs ++ e :: evs') with ((evs ++ [e]) ++ evs') by (rewrite <- app_assoc; reflexivity). apply IH; assumption.
Qed.

(** with healthy connections, what a running call refers to is open *)
Definition alive (s : heap) : Prop := forall i f c, nth_error (g_calls s) i = Some f -> is_kept f = false -> In c (refs f) -> In c (g_open s).
Lemma failed_refs r e f : refs (failed r e f) = held (f_conn f).
Proof. unfold failed. destruct e; try apply refs_goto. destruct (Nat.ltb (S r) 3); apply refs_goto. Qed.
Lemma fstep_alive ms i x f f' new gone : sound ms i f -> (forall k, i_dr x k = false) -> fstep (List.length ms) x f = (f', new, gone) -> is_kept f' = false ->
  gone = [] /\ forall c, In c (refs f') -> is_kept f = false /\ In c (refs f ++ new).
Proof.
  intros (R & P & Q) Hd.
  assert (CN : forall c, In c (held (f_conn f)) -> In c (refs f ++ new)) by (intros c Hc; apply in_or_app; left; apply conn_refs, Hc).
  unfold fstep. assert (KF : forall k, f_pc f = k -> is_kept f = match k with Kept _ => true | _ => false end) by (intros k <-; reflexivity).
  destruct (f_pc f) as [|r|r|r|r| | | | | | |e|e] eqn:K; rewrite (KF _ eq_refl).
  - intros H _; injection H as <- _ <-. split; [reflexivity|]. intros c Hc. split; [reflexivity|]. apply CN. destruct (i_error x); rewrite refs_goto in Hc; exact Hc.
  - destruct (i_error x); [intros H _; injection H as <- _ <-; split; [reflexivity|]; intros c Hc; split; [reflexivity|]; apply CN; rewrite failed_refs in Hc; exact Hc|].
    rewrite build_default. destruct (i_mk x 0%nat) eqn:M; intros H _; injection H as <- <- <-; (split; [reflexivity|]; intros c Hc; split; [reflexivity|]).
    + unfold created. unfold refs in Hc. cbn in Hc |- *. rewrite M. apply in_app_or in Hc as [Hc|Hc].
      * apply in_or_app. left. apply conn_refs, Hc.
      * apply in_or_app. right. exact Hc.
    + apply CN. rewrite refs_goto in Hc. exact Hc.
  - destruct P as (m & A & B & C). rewrite A, get_default. rewrite (Hd 0%nat). destruct (i_mk x 1%nat) eqn:M; intros H _; injection H as <- <- <-; (split; [reflexivity|]; intros c Hc; split; [reflexivity|]).
    + unfold created. unfold refs in *. rewrite A, C. cbn in Hc |- *. rewrite M. cbn. apply in_app_or in Hc as [Hc|Hc].
      * apply in_or_app. left. apply in_or_app. left. exact Hc.
      * destruct Hc as [<-|[<-|[]]]; apply in_or_app; [left; apply in_or_app; right; left; reflexivity | right; left; reflexivity].
    + apply CN. rewrite refs_goto in Hc. exact Hc.
  - intros H _; injection H as <- <- <-. split; [reflexivity|]. intros c Hc. split; [reflexivity|]. unfold refs in Hc. cbn in Hc. rewrite app_nil_r in Hc.
    rewrite app_nil_r. unfold refs. apply in_or_app. right. apply in_or_app. left. exact Hc.
  - intros H _; injection H as <- _ <-. split; [reflexivity|]. intros c Hc. split; [reflexivity|]. apply CN. destruct (i_error x); [rewrite failed_refs in Hc | rewrite refs_goto in Hc]; exact Hc.
  - intros H _; injection H as <- _ <-. split; [reflexivity|]. intros c Hc. split; [reflexivity|]. apply CN. destruct (f_conn f) eqn:E; [destruct (f_oneway f)|]; rewrite refs_goto, E in Hc; exact Hc.
  - destruct (i_error x); [intros H Z; injection H as <- _ _; discriminate Z|]. destruct (i_silent x); [intros H Z; injection H as <- _ _; discriminate Z|].
    destruct (i_all x); intros H _; injection H as <- _ <-; (split; [reflexivity|]; intros c Hc; split; [reflexivity|]).
    + apply CN. rewrite refs_goto in Hc. exact Hc.
    + apply in_or_app. left. exact Hc.
  - destruct (i_error x); [intros H Z; injection H as <- _ _; discriminate Z|]. rewrite build_default.
    destruct (i_mk x 0%nat) eqn:M; intros H Z; injection H as <- <- <-; [|discriminate Z]. split; [reflexivity|]; intros c Hc; split; [reflexivity|].
    unfold created. unfold refs in Hc. cbn in Hc |- *. rewrite M. apply in_app_or in Hc as [Hc|Hc].
    + apply in_or_app. left. apply conn_refs, Hc.
    + apply in_or_app. right. exact Hc.
  - destruct P as (m & A & B & C). rewrite A. destruct (f_conn f) as [d|] eqn:E; intros H _; injection H as <- _ <-; (split; [reflexivity|]; intros c Hc; split; [reflexivity|]); apply CN; rewrite refs_goto, E in Hc; exact Hc.
  - intros H Z; injection H as <- _ <-. split; [reflexivity|]. intros c Hc. destruct (if f_oneway f then None else i_error x); [discriminate Z | contradiction].
  - intros H Z; injection H as <- _ <-. split; [reflexivity|]. intros c Hc. split; [reflexivity|]. apply in_or_app. left. exact Hc.
  - intros H Z; injection H as <- _ <-. split; [reflexivity|]. intros c [].
  - intros H Z; injection H as <- _ <-. split; [reflexivity|]. intros c Hc. split; [reflexivity|]. apply in_or_app. left. exact Hc.
Qed.

Lemma run_alive evs : Forall healthy evs -> alive (hrun evs).
Proof.
  induction evs as [|e evs IH] using rev_ind; intros Hh; [intros [|i] f c H; discriminate H|].
  apply Forall_app in Hh as (H1 & H2). inversion H2 as [|? ? H3 _]; subst. specialize (IH H1). rewrite hrun_snoc.
  destruct e as [ow|j x].
  - intros i f c. cbn. intros Hi Hk Hc. destruct (Nat.lt_ge_cases i (List.length (g_calls (hrun evs)))) as [L|L].
    + rewrite nth_error_app1 in Hi by exact L. apply (IH _ _ _ Hi Hk Hc).
    + rewrite nth_error_app2 in Hi by exact L. destruct (i - _)%nat as [|k]; [|destruct k; discriminate Hi]. injection Hi as <-. contradiction.
  - destruct (nth_error (g_calls (hrun evs)) j) as [g|] eqn:Ej; [|intros i f c; cbn; rewrite Ej; apply IH].
    destruct (fstep (List.length (g_makers (hrun evs))) x g) as [[g' new] gone] eqn:Ef.
    intros i f c Hi Hk Hc. destruct (Nat.eq_dec j i) as [<-|N].
    + cbn in Hi. rewrite Ej, Ef in Hi. cbn in Hi. rewrite (nth_replace_same _ _ _ _ Ej) in Hi. injection Hi as <-.
      destruct (fstep_alive _ _ _ _ _ _ _ (run_sound evs j g Ej) H3 Ef Hk) as (G & A). destruct (A c Hc) as (Kg & Hr).
      apply (hstep_ref _ _ _ _ _ _ _ _ Ej Ef).
      * apply in_app_or in Hr as [Hr|Hr]; apply in_or_app; [left; apply (IH _ _ _ Ej Kg Hr) | right; exact Hr].
      * rewrite G. intros [].
      * apply in_flat_map. exists g'. split; [eapply in_replace; exact Ej | exact Hc].
    + assert (Hi0 : nth_error (g_calls (hrun evs)) i = Some f).
      { cbn in Hi. rewrite Ej, Ef in Hi. cbn in Hi. rewrite nth_replace_other in Hi by exact N. exact Hi. }
      pose proof (stays evs (ERun j x) i f c Hi0 Hc (IH _ _ _ Hi0 Hk Hc) N) as (_ & Z). rewrite hrun_snoc in Z. exact Z.
Qed.

Lemma in_use evs i f c : Forall healthy evs -> nth_error (g_calls (hrun evs)) i = Some f -> is_running f = true -> f_conn f = Some c -> In c (g_open (hrun evs)).
Proof.
  intros Hh Hi Hr Hc. apply (run_alive evs Hh i f c Hi).
  - unfold is_running in Hr. unfold is_kept. destruct (f_pc f); try reflexivity; discriminate Hr.
  - apply conn_refs. rewrite Hc. left. reflexivity.
Qed.

Lemma timed_out evs i x c : at_pc (hrun evs) i Wait -> i_error x = None -> i_silent x = true ->
  opened_by (hrun (evs ++ [ERun i x])) i c -> ~ In c (g_open (hrun (evs ++ [ERun i x]))).
Proof.
  intros (f & Hf & K) He Hs O H. destruct (open_ref _ _ _ O H) as (g & Hg & Hc). rewrite hrun_snoc in Hg, H. cbn in Hg, H. rewrite Hf in Hg, H.
  unfold fstep in Hg, H. rewrite K, He, Hs in Hg, H. cbn in Hg, H. rewrite (nth_replace_same _ _ _ _ Hf) in Hg. injection Hg as <-.
  rewrite refs_goto in Hc. unfold collect in H. apply filter_In in H as (H & _). apply filter_In in H as (_ & H).
  destruct (f_conn f) as [d|]; [|contradiction]. destruct Hc as [->|[]].
  rewrite (proj2 (member_In c [c]) (or_introl eq_refl)) in H. discriminate H.
Qed.

(** a call that is answered, and whose last lines raise e *)
Definition fine : input := {| i_mk := fun _ => true; i_dr := fun _ => false; i_error := None; i_silent := false; i_all := true |}.
Definition raising (e : exn) : input := {| i_mk := fun _ => true; i_dr := fun _ => false; i_error := Some e; i_silent := false; i_all := true |}.
Definition bad_answer (e : exn) : list levent := EStart false :: repeat (ERun 0 fine) 9 ++ [ERun 0 (raising e)].
Lemma kept_error e : at_pc (hrun (bad_answer e)) 0 (Kept e) /\ opened_by (hrun (bad_answer e)) 0 (0, 0)%nat /\
  forall evs, Forall (leaves 0) evs -> In (0, 0)%nat (g_open (hrun (bad_answer e ++ evs))) /\ at_pc (hrun (bad_answer e ++ evs)) 0 (Kept e).
Proof.
  set (f := {| f_oneway := false; f_pc := Kept e; f_conn := Some (0, 0)%nat; f_pool := None; f_got := None |}).
  assert (F : nth_error (g_calls (hrun (bad_answer e))) 0 = Some f) by reflexivity.
  assert (O : In (0, 0)%nat (g_open (hrun (bad_answer e)))) by (left; reflexivity).
  split; [exists f; split; [exact F | reflexivity]|]. split; [reflexivity|]. intros evs Hl.
  destruct (stays_long evs (bad_answer e) 0%nat f (0, 0)%nat F (or_introl eq_refl) O Hl) as (A & B).
  split; [exact B | exists f; auto].
Qed.

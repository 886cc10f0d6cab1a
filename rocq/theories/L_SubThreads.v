(** Lemmas behind C141. *)
From Coq Require Import Strings.String Lia.
From Verif Require Import PyBase L_PyBase PyDict L_PyDict PyInt M_Mesh S_Mesh L_Mesh M_AioServer M_SubThreads S_SubThreads.
Open Scope nat_scope.

Lemma nth_snoc {A} (l : list A) x n : nth_error (l ++ [x]) n = if Nat.eq_dec n (List.length l) then Some x else nth_error l n.
Proof.
  destruct (Nat.eq_dec n (List.length l)) as [->|N]; [rewrite nth_error_app2, Nat.sub_diag by lia; reflexivity|].
  destruct (Nat.lt_ge_cases n (List.length l)) as [H|H]; [now rewrite nth_error_app1|]. rewrite (proj2 (nth_error_None l n) H). apply nth_error_None. rewrite app_length. cbn. lia.
Qed.
Lemma sub_yes ans log x : accepted (ans (List.length log)) -> subscribed ans (log ++ [sub_post x]) x.
Proof.
  intros A. exists (List.length log). rewrite nth_snoc. destruct (Nat.eq_dec _ _) as [_|N]; [|congruence]. split; [reflexivity|]. split; [exact A|].
  intros n' L H. exfalso. assert (n' < List.length (log ++ [sub_post x])) by (apply nth_error_Some; congruence). rewrite app_length in *. cbn in *. lia.
Qed.
Lemma sub_no ans log x : accepted (ans (List.length log)) -> ~ subscribed ans (log ++ [unsub_post x]) x.
Proof.
  intros A (n & H & _ & F). rewrite nth_snoc in H. destruct (Nat.eq_dec n (List.length log)) as [->|N]; [discriminate|]. assert (n < List.length log) by (apply nth_error_Some; congruence).
  refine (F (List.length log) _ _ A); [assumption|]. rewrite nth_snoc. destruct (Nat.eq_dec _ _); congruence.
Qed.
Lemma sub_same ans log x p : (~ accepted (ans (List.length log)) \/ (p <> sub_post x /\ p <> unsub_post x)) -> subscribed ans (log ++ [p]) x <-> subscribed ans log x.
Proof.
  intros Hp. split; intros (n & H & A & F).
  - rewrite nth_snoc in H. destruct (Nat.eq_dec n (List.length log)) as [->|N]; [exfalso; destruct Hp as [Hp|(Hp & _)]; [auto|congruence]|]. exists n. split; [exact H|]. split; [exact A|]. intros n' L H'. apply F; [exact L|]. rewrite nth_snoc.
    destruct (Nat.eq_dec n' (List.length log)) as [->|_]; [|exact H']. assert (List.length log < List.length log) by (apply nth_error_Some; congruence). lia.
  - assert (n < List.length log) by (apply nth_error_Some; congruence). exists n. rewrite nth_snoc. destruct (Nat.eq_dec n (List.length log)); [lia|]. split; [exact H|]. split; [exact A|]. intros n' L H'. rewrite nth_snoc in H'.
    destruct (Nat.eq_dec n' (List.length log)) as [->|_]; [destruct Hp as [Hp|(_ & Hp)]; [exact Hp|congruence]|apply F; assumption].
Qed.
Lemma post_of (b : bool) ans log x : (if b then mesh_subscribe else mesh_unsubscribe) ans log x = (log ++ [if b then sub_post x else unsub_post x], post_result (ans (List.length log))).
Proof. destruct b; reflexivity. Qed.
Lemma other_post (b : bool) x y : x <> y -> (if b then sub_post y else unsub_post y) <> sub_post x /\ (if b then sub_post y else unsub_post y) <> unsub_post x.
Proof. intros N. unfold sub_post, unsub_post. destruct b; split; intros [= H]; congruence. Qed.

(** what a thread's place says about x *)
Definition place_ok (x : pystr) (on : Prop) (p : upc) : Prop :=
  match p with UMap true y _ | UStore y _ => y = x -> on | UMap false y _ => y = x -> ~ on | UPost _ _ => True end.
Definition has (d : service_map) x : Prop := dget x d = Some mesh_service_address.
Definition sinv x ans (s : ust) : Prop :=
  wf_dict (u_map s) /\ (forall a, dget x (u_map s) = Some a -> a = mesh_service_address) /\ (forall j p, nth_error (u_threads s) j = Some p -> place_ok x (subscribed ans (u_log s) x) p) /\
  ((forall i, ~ halfway x s i) -> (has (u_map s) x <-> subscribed ans (u_log s) x)).

Lemma upd_nth {A} (f : A -> A) : forall (l : list A) (i j : nat), nth_error (upd i f l) j = if Nat.eq_dec j i then option_map f (nth_error l i) else nth_error l j.
Proof.
  induction l as [|a l IH]; intros i j; [destruct (Nat.eq_dec j i); destruct i, j; reflexivity|]. destruct i as [|i], j as [|j]; try reflexivity. change (nth_error (upd i f l) j = if Nat.eq_dec (S j) (S i) then option_map f (nth_error l i) else nth_error l j). rewrite IH. destruct (Nat.eq_dec j i), (Nat.eq_dec (S j) (S i)); try reflexivity; congruence.
Qed.
Lemma place_iff x (P Q : Prop) p : (P <-> Q) -> place_ok x P p -> place_ok x Q p.
Proof. intros H. destruct p as [b r|[] y r|y r]; cbn; tauto. Qed.

(** a move of thread i from place p to place q *)
Lemma move ans x (s : ust) i p q d l : sinv x ans s -> nth_error (u_threads s) i = Some p -> let s' := {| u_map := d; u_log := l; u_threads := upd i (fun _ => q) (u_threads s) |} in
  wf_dict d -> (forall a, dget x d = Some a -> a = mesh_service_address) -> place_ok x (subscribed ans l x) q ->
  ((subscribed ans (u_log s) x <-> subscribed ans l x) \/ (halfway x s' i /\ forall j j', halfway x s' j -> halfway x s' j' -> j = j')) ->
  ((forall j, ~ halfway x s' j) -> (has d x <-> subscribed ans l x)) -> sinv x ans s'.
Proof.
  intros (W & M & P & H) Ep s' Wd Md Pq C F. split; [exact Wd|]. split; [exact Md|]. split; [|exact F]. intros j r Ej. cbn [s' u_threads u_log] in *. pose proof Ej as Ej0. rewrite upd_nth in Ej. destruct (Nat.eq_dec j i) as [->|N].
  - rewrite Ep in Ej. cbn in Ej. injection Ej as <-. exact Pq.
  - destruct C as [C|(Hi & U)]; [exact (place_iff _ _ _ _ C (P j r Ej))|]. destruct r as [b r|b y r|y r]; [exact Logic.I| |].
    + destruct b; cbn; intros ->; exfalso; apply N; apply (U j i); [eexists; split; [exact Ej0|reflexivity]|exact Hi|eexists; split; [exact Ej0|reflexivity]|exact Hi].
    + cbn. intros ->. exfalso. apply N. apply (U j i); [eexists; split; [exact Ej0|reflexivity]|exact Hi].
Qed.
(** if the moving thread was not halfway with x, nobody is halfway before if nobody is after *)
Lemma still_none x (s : ust) i p q d l : nth_error (u_threads s) i = Some p -> (match p with UMap _ y _ | UStore y _ => y <> x | UPost _ _ => True end) ->
  (forall j, ~ halfway x {| u_map := d; u_log := l; u_threads := upd i (fun _ => q) (u_threads s) |} j) -> forall j, ~ halfway x s j.
Proof.
  intros Ep Np H j (r & Er & Hr). destruct (Nat.eq_dec j i) as [->|N]; [assert (r = p) by congruence; subst r; destruct p; auto|]. apply (H j). exists r. split; [|exact Hr]. cbn. rewrite upd_nth. destruct (Nat.eq_dec j i); [congruence|exact Er].
Qed.
Lemma wf_set (d : service_map) x a : wf_dict d -> wf_dict (dset x a d).
Proof. apply wf_dset. Qed.
Lemma pop_cases x (d : service_map) : fst (imm_pop x d) = d /\ dget x d = None \/ fst (imm_pop x d) = ddel x d.
Proof. unfold imm_pop. destruct (dget x d) eqn:E; [right; reflexivity|left; split; reflexivity]. Qed.
Lemma sinv_step ans x i s : sinv x ans s -> (forall j j', halfway x (u_step ans i s) j -> halfway x (u_step ans i s) j' -> j = j') -> sinv x ans (u_step ans i s).
Proof.
  intros I U. pose proof I as (W & M & P & H). unfold u_step in *. destruct (nth_error (u_threads s) i) as [[b [|y r]|[] y r|y r]|] eqn:Ei; try exact I.
  - rewrite post_of in *. destruct (post_result (ans (List.length (u_log s)))) as [u|e] eqn:Er.
    + assert (A : accepted (ans (List.length (u_log s)))) by (apply post_result_accepted; eauto). destruct (pystr_eq_dec x y) as [<-|N].
      * assert (Hi : halfway x {| u_map := u_map s; u_log := u_log s ++ [if b then sub_post x else unsub_post x]; u_threads := upd i (fun _ => UMap b x r) (u_threads s) |} i).
        { exists (UMap b x r). split; [|reflexivity]. cbn. rewrite upd_nth, Ei. destruct (Nat.eq_dec i i); [reflexivity|congruence]. }
        refine (move ans x s i _ _ _ _ I Ei W M _ (or_intror (conj Hi U)) _); [|intros F; destruct (F i Hi)]. destruct b; cbn; intros _; [apply sub_yes|apply sub_no]; exact A.
      * pose proof (sub_same ans (u_log s) x (if b then sub_post y else unsub_post y) (or_intror (other_post b x y N))) as C.
        refine (move ans x s i _ _ _ _ I Ei W M _ (or_introl (iff_sym C)) _); [destruct b; cbn; congruence|]. intros F. rewrite C. apply H. exact (still_none _ _ _ _ _ _ _ Ei Logic.I F).
    + pose proof (sub_same ans (u_log s) x (if b then sub_post y else unsub_post y) (or_introl (post_result_raise _ _ Er))) as C.
      refine (move ans x s i _ _ _ _ I Ei W M _ (or_introl (iff_sym C)) _); [exact Logic.I|]. intros F. rewrite C. apply H. exact (still_none _ _ _ _ _ _ _ Ei Logic.I F).
  - pose proof (P i _ Ei) as Pi. cbn in Pi. destruct (dmem y (u_map s)) eqn:D; (refine (move ans x s i _ _ _ _ I Ei W M _ (or_introl (iff_refl _)) _); [cbn; auto|]); intros F; destruct (pystr_eq_dec y x) as [->|N].
    + unfold dmem in D. unfold has. destruct (dget x (u_map s)) as [a|] eqn:Ea; [|discriminate]. rewrite (M a eq_refl). split; [auto|reflexivity].
    + apply H. exact (still_none _ _ _ _ _ _ _ Ei N F).
    + exfalso. apply (F i). exists (UStore x r). split; [|reflexivity]. cbn. rewrite upd_nth, Ei. destruct (Nat.eq_dec i i); [reflexivity|congruence].
    + apply H. exact (still_none _ _ _ _ _ _ _ Ei N F).
  - pose proof (P i _ Ei) as Pi. cbn in Pi. assert (W' : wf_dict (fst (imm_pop y (u_map s)))) by (destruct (pop_cases y (u_map s)) as [(-> & _)| ->]; [exact W|apply wf_ddel; exact W]).
    assert (G : dget x (fst (imm_pop y (u_map s))) = if pystr_eq_dec x y then None else dget x (u_map s)).
    { destruct (pop_cases y (u_map s)) as [(-> & E)| ->]; destruct (pystr_eq_dec x y) as [->|N]; auto; [apply dget_ddel_same; exact W|apply dget_ddel_other; exact N]. }
    refine (move ans x s i _ _ _ _ I Ei W' _ _ (or_introl (iff_refl _)) _); [|exact Logic.I|].
    + intros a. rewrite G. destruct (pystr_eq_dec x y); [discriminate|apply M].
    + intros F. unfold has. rewrite G. destruct (pystr_eq_dec x y) as [<-|N]; [split; [discriminate|intros S1; destruct (Pi eq_refl S1)]|]. apply H. refine (still_none _ _ _ _ _ _ _ Ei _ F). congruence.
  - pose proof (P i _ Ei) as Pi. cbn in Pi. destruct (pystr_eq_dec x y) as [<-|N].
    + refine (move ans x s i _ _ _ _ I Ei (wf_set _ _ _ W) _ _ (or_introl (iff_refl _)) _); [intros a; rewrite dget_dset_same; congruence|exact Logic.I|]. intros _. unfold has. rewrite dget_dset_same. split; [auto|reflexivity].
    + assert (G : dget x (dset y mesh_service_address (u_map s)) = dget x (u_map s)) by (apply dget_dset_other; exact N).
      refine (move ans x s i _ _ _ _ I Ei (wf_set _ _ _ W) _ _ (or_introl (iff_refl _)) _); [intros a; rewrite G; apply M|exact Logic.I|]. intros F. unfold has. rewrite G. apply H. refine (still_none _ _ _ _ _ _ _ Ei _ F). congruence.
Qed.
Lemma sinv_init ans d calls x : wf_dict d -> dget x d = None -> sinv x ans (u_init d calls).
Proof.
  intros W D. split; [exact W|]. split; [cbn; congruence|]. split.
  - cbn. intros j p E. apply nth_error_In, in_map_iff in E as (c & <- & _). exact Logic.I.
  - intros _. unfold has. cbn. rewrite D. split; [discriminate|]. intros ([|n] & E & _); discriminate.
Qed.
Lemma u_snoc ans d calls l i : u_run ans d calls (l ++ [i]) = u_step ans i (u_run ans d calls l).
Proof. unfold u_run. now rewrite fold_left_app. Qed.
Lemma sinv_run ans d calls x l : wf_dict d -> dget x d = None -> apart x ans d calls l -> sinv x ans (u_run ans d calls l).
Proof.
  intros W D. induction l as [|i l IH] using rev_ind; intros A; [apply sinv_init; assumption|]. rewrite u_snoc. apply sinv_step.
  - apply IH. intros l1 l2 j j' E. apply (A l1 (l2 ++ [i])). rewrite E, app_assoc. reflexivity.
  - rewrite <- u_snoc. intros j j'. apply (A (l ++ [i]) []). now rewrite app_nil_r.
Qed.
Lemma agree ans d calls x l : wf_dict d -> dget x d = None -> apart x ans d calls l -> (forall i, ~ halfway x (u_run ans d calls l) i) ->
  (dget x (u_map (u_run ans d calls l)) = Some mesh_service_address <-> subscribed ans (u_log (u_run ans d calls l)) x) /\
  (dget x (u_map (u_run ans d calls l)) = None <-> ~ subscribed ans (u_log (u_run ans d calls l)) x).
Proof.
  intros W D A N. destruct (sinv_run ans d calls x l W D A) as (_ & M & _ & H). specialize (H N). unfold has in H. split; [exact H|]. rewrite <- H. destruct (dget x (u_map (u_run ans d calls l))) as [a|]; [rewrite (M a eq_refl)|]; split; congruence.
Qed.
Lemma returned_none x s : all_returned s -> forall i, ~ halfway x s i.
Proof. intros R i (p & E & Hp). apply nth_error_In in E. destruct (R p E) as (b & ->). exact Hp. Qed.

(** ** One call by itself *)
Lemma sub1_log ans st x : c_log (subscribe1 ans st x) = c_log st ++ [sub_post x].
Proof. unfold subscribe1, mesh_subscribe, do_post. destruct (post_result _); reflexivity. Qed.
Lemma unsub1_log ans st x : c_log (unsubscribe1 ans st x) = c_log st ++ [unsub_post x].
Proof. unfold unsubscribe1, mesh_unsubscribe, do_post. destruct (post_result _); reflexivity. Qed.
Lemma fold_log f (g : pystr -> post) : (forall st x, c_log (f st x) = c_log st ++ [g x]) -> forall names st, c_log (fold_left f names st) = c_log st ++ map g names.
Proof. intros H. induction names as [|x names IH]; intros st; cbn; [now rewrite app_nil_r|]. rewrite IH, H, <- app_assoc. reflexivity. Qed.
Lemma told ans log (b : bool) : forall names x, (forall n, n < List.length names -> accepted (ans (List.length log + n))) -> In x names ->
  if b then subscribed ans (log ++ map sub_post names) x else ~ subscribed ans (log ++ map unsub_post names) x.
Proof.
  induction names as [|y names IH] using rev_ind; intros x A Hx; [destruct Hx|]. rewrite !map_app, !app_assoc. cbn [map].
  assert (Ay : forall g : pystr -> post, accepted (ans (List.length (log ++ map g names)))) by (intros g; rewrite app_length, map_length; apply A; rewrite app_length; cbn; lia).
  destruct (pystr_eq_dec x y) as [<-|N]; [destruct b; [apply sub_yes|apply sub_no]; apply Ay|]. apply in_app_or in Hx as [Hx|[Hx|[]]]; [|congruence].
  assert (A' : forall n, n < List.length names -> accepted (ans (List.length log + n))) by (intros n Hn; apply A; rewrite app_length; lia). specialize (IH x A' Hx).
  destruct b; [apply (sub_same ans _ x (sub_post y)) in IH; [exact IH|right; exact (other_post true x y N)]|]. intros Hs. apply IH. apply (sub_same ans _ x (unsub_post y)); [right; exact (other_post false x y N)|exact Hs].
Qed.
Lemma took_effect ans m st names x : (forall n, n < List.length names -> accepted (ans (List.length (c_log st) + n))) -> In x names ->
  subscribed ans (c_log (fst (subscribe ans (Some m) st names))) x /\ ~ subscribed ans (c_log (fst (unsubscribe ans (Some m) st names))) x.
Proof.
  intros A Hx. unfold subscribe, unsubscribe. cbn [fst]. rewrite (fold_log _ sub_post (sub1_log ans)), (fold_log _ unsub_post (unsub1_log ans)). split; [exact (told ans _ true names x A Hx)|exact (told ans _ false names x A Hx)].
Qed.
Lemma refused ans m st x : ~ accepted (ans (List.length (c_log st))) -> let '(st1, r) := subscribe ans m st [x] in r = Ok tt /\ c_map st1 = c_map st /\ (subscribed ans (c_log st1) x <-> subscribed ans (c_log st) x).
Proof.
  intros N. destruct m as [m|]; cbn [subscribe]; [|repeat split; auto]. cbn [fold_left]. split; [reflexivity|]. rewrite sub1_log. split; [|apply sub_same; left; exact N]. unfold subscribe1, mesh_subscribe, do_post.
  destruct (post_result (ans (List.length (c_log st)))) eqn:E; [|reflexivity]. exfalso. apply N, post_result_accepted. eauto.
Qed.

(** ** For examples *)
Lemma returned_intro s : forallb (fun p => match p with UPost _ [] => true | _ => false end) (u_threads s) = true -> all_returned s.
Proof. intros H p Hp. rewrite forallb_forall in H. specialize (H p Hp). destruct p as [b [|y r]|b y r|y r]; try discriminate. eauto. Qed.
Definition half_b (x : pystr) (p : upc) : bool := match p with UMap _ y _ | UStore y _ => pystr_eqb y x | _ => false end.
Definition only_b (x : pystr) (k : nat) (l : list upc) : bool := forallb (fun q => Nat.eqb (fst q) k || negb (half_b x (snd q))) (combine (seq 0 (List.length l)) l).
Lemma combine_at {A} : forall (l : list A) n i a, nth_error l i = Some a -> In (n + i, a) (combine (seq n (List.length l)) l).
Proof.
  induction l as [|b l IH]; intros n [|i] a E; try discriminate; cbn in *.
  - injection E as <-. left. now rewrite Nat.add_0_r.
  - right. replace (n + S i) with (S n + i) by lia. apply IH, E.
Qed.
Lemma apart_intro x ans d calls l k : forallb (fun n => only_b x k (u_threads (u_run ans d calls (firstn n l)))) (seq 0 (S (List.length l))) = true -> apart x ans d calls l.
Proof.
  intros H l1 l2 i j E Hi Hj. assert (O : only_b x k (u_threads (u_run ans d calls l1)) = true).
  { rewrite forallb_forall in H. specialize (H (List.length l1)). rewrite E, firstn_app, Nat.sub_diag, firstn_all, app_nil_r in H. apply H. apply in_seq. rewrite app_length. lia. }
  assert (Z : forall m, halfway x (u_run ans d calls l1) m -> m = k).
  { intros m (p & Em & Hp). unfold only_b in O. rewrite forallb_forall in O. specialize (O _ (combine_at _ 0 m p Em)). cbn in O. apply orb_true_iff in O as [O|O]; [apply Nat.eqb_eq, O|].
    destruct p as [b r|b y r|y r]; cbn in Hp, O; [destruct Hp| |]; subst y; rewrite pystr_eqb_refl in O; discriminate. }
  now rewrite (Z i Hi), (Z j Hj).
Qed.

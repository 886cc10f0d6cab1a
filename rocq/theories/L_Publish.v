(** Lemmas for C125: what the mesh agent knows of the listeners of a process. *)
From Coq Require Import Strings.String.
From Verif Require Import PyBase PyDict L_PyDict PyInt L_PyInt M_Mesh S_Mesh L_Mesh M_Publish S_Publish.
Open Scope nat_scope.

Lemma Some_inj {A} (a b : A) : Some a = Some b -> b = a.
Proof. intros H. injection H as H. auto. Qed.
Lemma prun_snoc ans l o : p_run ans (l ++ [o]) = fst (p_step ans o (p_run ans l)).
Proof. unfold p_run. rewrite fold_left_app. reflexivity. Qed.
Lemma news_snoc l o : news (l ++ [o]) = news l + match o with New _ _ _ => 1 | _ => 0 end.
Proof. unfold news. rewrite filter_app, app_length. destruct o; reflexivity. Qed.

Lemma latest_unique ans log s x y : latest ans log s x -> latest ans log s y -> x = y.
Proof.
  intros (n & A & B & C & D) (m & A' & B' & C' & D'). destruct (Nat.lt_trichotomy n m) as [H|[->|H]].
  - destruct (D m y H A' B' C').
  - congruence.
  - destruct (D' n x H A B C).
Qed.
Lemma latest_other ans log t s x : (forall y, In y t -> ~ about y s) -> latest ans (log ++ t) s x <-> latest ans log s x.
Proof.
  intros N. assert (L : forall n y, nth_error (log ++ t) n = Some y -> about y s -> nth_error log n = Some y).
  { intros n y E A. destruct (Nat.lt_ge_cases n (List.length log)) as [H|H]; [rewrite nth_error_app1 in E by exact H; exact E|].
    rewrite nth_error_app2 in E by exact H. apply nth_error_In in E. destruct (N y E A). }
  assert (R : forall n y, nth_error log n = Some y -> nth_error (log ++ t) n = Some y).
  { intros n y E. rewrite nth_error_app1; [exact E|]. apply nth_error_Some. congruence. }
  split; intros (n & A & B & C & D); exists n.
  - split; [exact (L n x A B)|]. split; [exact B|]. split; [exact C|]. intros m y H E. apply D; auto.
  - split; [exact (R n x A)|]. split; [exact B|]. split; [exact C|]. intros m y H E F. apply (D m y); auto.
Qed.

(** posts that are each about their name *)
Definition names_it (mk : pystr -> post) : Prop := forall a s, about (mk a) s <-> a = s.
Lemma latest_last ans log mk names s : names_it mk -> NoDup names -> In s names ->
  (forall i, i < List.length names -> accepted (ans (List.length log + i))) -> latest ans (log ++ map mk names) s (mk s).
Proof.
  intros M N I A. apply In_nth_error in I as (i & I). assert (L : i < List.length names) by (apply nth_error_Some; congruence).
  exists (List.length log + i). rewrite nth_error_app2 by lia. replace (List.length log + i - List.length log) with i by lia.
  split; [rewrite nth_error_map, I; reflexivity|]. split; [apply M; reflexivity|]. split; [exact (A i L)|].
  intros m y H E F. rewrite nth_error_app2 in E by lia. rewrite nth_error_map in E. destruct (nth_error names (m - List.length log)) as [a|] eqn:Ea; [|discriminate].
  injection E as <-. apply M in F. subst a. exfalso.
  assert (i = m - List.length log) by (apply (NoDup_nth_error names); [exact N|exact L|congruence]). lia.
Qed.

Lemma pub_names port app : names_it (fun s => (EP_pub, publish_doc port app s)).
Proof.
  intros a s. split.
  - intros (_ & d & E & G). injection E as <-. vm_compute in G. injection G as G. exact G.
  - intros ->. split; [left; reflexivity|]. eexists. split; [reflexivity|]. vm_compute. reflexivity.
Qed.
Lemma unpub_names : names_it (fun s => (EP_unpub, name_doc s)).
Proof.
  intros a s. split.
  - intros (_ & d & E & G). injection E as <-. vm_compute in G. injection G as G. exact G.
  - intros ->. split; [right; left; reflexivity|]. eexists. split; [reflexivity|]. vm_compute. reflexivity.
Qed.

(** the registry *)
Lemma add_name_in s a l : In s (add_name a l) <-> a = s \/ In s l.
Proof.
  unfold add_name. destruct (existsb (pystr_eqb a) l) eqn:E.
  - apply existsb_exists in E as (x & I & E). unfold pystr_eqb in E. destruct (pystr_eq_dec a x) as [->|]; [|discriminate]. split; [auto|]. intros [<-|H]; assumption.
  - rewrite in_app_iff. cbn [In]. tauto.
Qed.
Lemma add_name_nodup a l : NoDup l -> NoDup (add_name a l).
Proof.
  intros N. unfold add_name. destruct (existsb (pystr_eqb a) l) eqn:E; [exact N|].
  assert (J : ~ In a l). { intros I. assert (X : existsb (pystr_eqb a) l = true); [|congruence]. apply existsb_exists. exists a. split; [exact I|]. unfold pystr_eqb. destruct (pystr_eq_dec a a); congruence. }
  clear E. induction N as [|x l H N IH]; cbn [app]; [constructor; [intros []|constructor]|].
  constructor; [|apply IH; intros I; apply J; right; exact I]. intros I. apply in_app_iff in I as [I|[<-|[]]]; [exact (H I)|apply J; left; reflexivity].
Qed.
Lemma prun_names ans l : NoDup (p_names (p_run ans l)) /\ forall s, In s (p_names (p_run ans l)) <-> exists j, In (Register j s) l.
Proof.
  induction l as [|o l IH] using rev_ind.
  - split; [constructor|]. intros s. split; [intros []|intros (j & [])].
  - rewrite prun_snoc. destruct IH as [N IH].
    assert (K : p_names (fst (p_step ans o (p_run ans l))) = match o with Register _ a => add_name a (p_names (p_run ans l)) | _ => p_names (p_run ans l) end).
    { destruct o as [port app info|i a|i|i|b a]; cbn [p_step].
      - destruct (open_mesh ans (p_log (p_run ans l)) info); reflexivity.
      - reflexivity.
      - destruct (nth_error (p_listeners (p_run ans l)) i); [|reflexivity]. destruct (listener_publish _ _ _ _ _ _); reflexivity.
      - destruct (nth_error (p_listeners (p_run ans l)) i); [|reflexivity]. destruct (listener_unpublish _ _ _ _); reflexivity.
      - reflexivity. }
    rewrite K. split; [destruct o; try exact N; apply add_name_nodup, N|]. intros s.
    assert (X : In s (match o with Register _ a => add_name a (p_names (p_run ans l)) | _ => p_names (p_run ans l) end) <-> (exists j, o = Register j s) \/ In s (p_names (p_run ans l))).
    { destruct o; try (split; [auto|intros [(j & H)|H]; [discriminate H|exact H]]). rewrite add_name_in. split; intros [H|H]; auto.
      - left. subst name. eexists. reflexivity.
      - left. destruct H as (j & H). injection H as _ H. exact H. }
    rewrite X, IH. split.
    + intros [(j & ->)|(j & H)]; exists j; apply in_app_iff; [right; left; reflexivity|left; exact H].
    + intros (j & H). apply in_app_iff in H as [H|[->|[]]]; [right|left]; exists j; auto.
Qed.

(** the listeners *)
Lemma open_mesh_spec ans log info : fst (open_mesh ans log info) = log ++ [(EP_app, appinfo_doc info)] /\ (snd (open_mesh ans log info) <> None <-> accepted (ans (List.length log))).
Proof.
  unfold open_mesh, startup, new_mesh, do_post. cbn [m_started m_info]. rewrite <- post_result_accepted. destruct (post_result (ans (List.length log))) as [r|e]; cbn [fst snd]; (split; [reflexivity|]).
  - split; [intros _; eexists; reflexivity|discriminate].
  - split; [intros H; destruct (H eq_refl)|intros (r & H); discriminate].
Qed.
Lemma step_listeners ans o p : p_listeners (fst (p_step ans o p)) = p_listeners p ++ match o with New port app info => [{| l_port := port; l_app := app; l_mesh := snd (open_mesh ans (p_log p) info) |}] | _ => [] end.
Proof.
  destruct o as [port app info|i a|i|i|b a]; cbn [p_step].
  - destruct (open_mesh ans (p_log p) info); reflexivity.
  - cbn. rewrite app_nil_r. reflexivity.
  - rewrite app_nil_r. destruct (nth_error (p_listeners p) i); [|reflexivity]. destruct (listener_publish _ _ _ _ _ _); reflexivity.
  - rewrite app_nil_r. destruct (nth_error (p_listeners p) i); [|reflexivity]. destruct (listener_unpublish _ _ _ _); reflexivity.
  - cbn. rewrite app_nil_r. reflexivity.
Qed.
Lemma prun_listeners ans l : List.length (p_listeners (p_run ans l)) = news l.
Proof. induction l as [|o l IH] using rev_ind; [reflexivity|]. rewrite prun_snoc, step_listeners, app_length, news_snoc, IH. destruct o; reflexivity. Qed.
Lemma prun_keeps ans l2 : forall l i x, nth_error (p_listeners (p_run ans l)) i = Some x -> nth_error (p_listeners (p_run ans (l ++ l2))) i = Some x.
Proof.
  induction l2 as [|o l2 IH] using rev_ind; intros l i x H; [rewrite app_nil_r; exact H|].
  rewrite app_assoc, prun_snoc, step_listeners. rewrite nth_error_app1; [apply IH; exact H|]. apply nth_error_Some. rewrite (IH _ _ _ H). discriminate.
Qed.
Lemma made_listener ans l i port app ok : made ans l i port app ok -> exists m, nth_error (p_listeners (p_run ans l)) i = Some {| l_port := port; l_app := app; l_mesh := m |} /\ (m <> None <-> ok).
Proof.
  intros (l1 & info & l2 & -> & <- & K). exists (snd (open_mesh ans (p_log (p_run ans l1)) info)). split.
  - change (New port app info :: l2) with ([New port app info] ++ l2). rewrite app_assoc. apply prun_keeps. rewrite prun_snoc, step_listeners, nth_error_app2 by (rewrite prun_listeners; lia).
    rewrite prun_listeners, Nat.sub_diag. reflexivity.
  - rewrite <- K. apply open_mesh_spec.
Qed.
Lemma made_snoc ans l o i port app ok : made ans l i port app ok -> made ans (l ++ [o]) i port app ok.
Proof. intros (l1 & info & l2 & -> & A & B). exists l1, info, (l2 ++ [o]). split; [rewrite <- app_assoc; reflexivity|]. auto. Qed.
Lemma listener_made ans l : forall i x, nth_error (p_listeners (p_run ans l)) i = Some x -> made ans l i (l_port x) (l_app x) (l_mesh x <> None).
Proof.
  induction l as [|o l IH] using rev_ind; intros i x H; [destruct i; discriminate|]. rewrite prun_snoc, step_listeners in H.
  destruct (Nat.lt_ge_cases i (List.length (p_listeners (p_run ans l)))) as [L|L].
  - rewrite nth_error_app1 in H by exact L. apply made_snoc, IH, H.
  - rewrite nth_error_app2 in H by exact L. destruct o as [port app info|j a|j|j|b a]; try (destruct (i - List.length (p_listeners (p_run ans l))); discriminate H).
    destruct (i - List.length (p_listeners (p_run ans l))) as [|k] eqn:E; [|destruct k; discriminate]. injection H as <-. cbn [l_port l_app l_mesh].
    exists l, info, []. split; [reflexivity|]. split; [rewrite <- (prun_listeners ans); lia|]. symmetry. apply open_mesh_spec.
Qed.

(** publish *)
Lemma publishes ans p i port app m : nth_error (p_listeners p) i = Some {| l_port := port; l_app := app; l_mesh := Some m |} ->
  exists k, k <= List.length (p_names p) /\ p_log (fst (p_step ans (Publish i) p)) = p_log p ++ map (fun s => (EP_pub, publish_doc port app s)) (firstn k (p_names p)) /\
    (snd (p_step ans (Publish i) p) = Ok tt -> k = List.length (p_names p) /\ forall n, n < k -> accepted (ans (List.length (p_log p) + n))).
Proof.
  intros H. cbn [p_step]. rewrite H. cbn [l_port l_app l_mesh listener_publish].
  destruct (post_each_spec ans (fun l s => mesh_publish ans l port app s) (fun s => (EP_pub, publish_doc port app s)) (fun l s => eq_refl) (p_names p) (p_log p)) as (k & Hk & A & _ & B).
  exists k. destruct (post_each (fun l s => mesh_publish ans l port app s) (p_log p) (p_names p)) as [log r]. cbn [fst snd p_log] in *. split; [exact Hk|]. split; [exact A|]. intros ->. exact B.
Qed.
Lemma unpublishes ans p i port app m : nth_error (p_listeners p) i = Some {| l_port := port; l_app := app; l_mesh := Some m |} ->
  exists k, k <= List.length (p_names p) /\ p_log (fst (p_step ans (Unpublish i) p)) = p_log p ++ map (fun s => (EP_unpub, name_doc s)) (firstn k (p_names p)) /\
    (snd (p_step ans (Unpublish i) p) = Ok tt -> k = List.length (p_names p) /\ forall n, n < k -> accepted (ans (List.length (p_log p) + n))).
Proof.
  intros H. cbn [p_step]. rewrite H. cbn [l_port l_app l_mesh listener_unpublish].
  destruct (post_each_spec ans (fun l s => mesh_unpublish ans l s) (fun s => (EP_unpub, name_doc s)) (fun l s => eq_refl) (p_names p) (p_log p)) as (k & Hk & A & _ & B).
  exists k. destruct (post_each (fun l s => mesh_unpublish ans l s) (p_log p) (p_names p)) as [log r]. cbn [fst snd p_log] in *. split; [exact Hk|]. split; [exact A|]. intros ->. exact B.
Qed.
Lemma doc_known ans log s port app : latest ans log s (EP_pub, publish_doc port app s) -> known ans log s port app.
Proof. intros H. eexists. eexists. split; [exact H|]. repeat split; vm_compute; reflexivity. Qed.

Lemma after_publish ans l i port app : made ans l i port app True -> snd (p_step ans (Publish i) (p_run ans l)) = Ok tt ->
  forall j s, In (Register j s) l -> known ans (p_log (p_run ans (l ++ [Publish i]))) s port app.
Proof.
  intros M R j s I. apply made_listener in M as (m & M & K). destruct m as [m|]; [|destruct (proj2 K Logic.I eq_refl)].
  destruct (publishes ans _ _ _ _ _ M) as (k & _ & A & B). destruct (B R) as [-> C]. rewrite prun_snoc, A, firstn_all. apply doc_known.
  destruct (prun_names ans l) as [N X]. apply (latest_last ans _ (fun s => (EP_pub, publish_doc port app s)) _ s (pub_names port app) N); [apply X; eexists; exact I|exact C].
Qed.
Lemma after_unpublish ans l i port app : made ans l i port app True -> snd (p_step ans (Unpublish i) (p_run ans l)) = Ok tt ->
  forall j s, In (Register j s) l -> unknown ans (p_log (p_run ans (l ++ [Unpublish i]))) s.
Proof.
  intros M R j s I x Lx. apply made_listener in M as (m & M & K). destruct m as [m|]; [|destruct (proj2 K Logic.I eq_refl)].
  destruct (unpublishes ans _ _ _ _ _ M) as (k & _ & A & B). destruct (B R) as [-> C]. rewrite prun_snoc, A, firstn_all in Lx.
  destruct (prun_names ans l) as [N X].
  assert (Y := latest_last ans (p_log (p_run ans l)) (fun s => (EP_unpub, name_doc s)) _ s unpub_names N (proj2 (X s) (ex_intro (fun j => In (Register j s) l) j I)) C).
  rewrite (latest_unique _ _ _ _ _ Lx Y). cbn. intros E. vm_compute in E. discriminate E.
Qed.
(** only one port *)
Lemma known_one ans log s port app port' app' : known ans log s port app -> known ans log s port' app' -> port = port' /\ app = app'.
Proof.
  intros (d & m & L & A & B & C) (d' & m' & L' & A' & B' & C'). assert (E := latest_unique _ _ _ _ _ L L'). injection E as E. subst d'.
  rewrite A in A'. injection A' as A'. rewrite B in B'. injection B' as <-. rewrite C in C'. injection C' as C'. split; [apply str_int_inj; exact A'|exact C'].
Qed.
Lemma known_not_unknown ans log s port app : known ans log s port app -> ~ unknown ans log s.
Proof. intros (d & m & L & _) U. exact (U _ L eq_refl). Qed.
(** a listener without the agent *)
Lemma without_agent ans l i port app : made ans l i port app False -> p_step ans (Publish i) (p_run ans l) = (p_run ans l, Ok tt) /\ p_step ans (Unpublish i) (p_run ans l) = (p_run ans l, Ok tt).
Proof.
  intros M. apply made_listener in M as (m & M & K). destruct m as [m|]; [destruct (proj1 K ltac:(discriminate))|]. cbn [p_step]. rewrite M. cbn [l_mesh listener_publish listener_unpublish].
  destruct (p_run ans l); split; reflexivity.
Qed.

(** what is posted in one step *)
Lemma step_posts ans o p : exists t, p_log (fst (p_step ans o p)) = p_log p ++ t /\
  forall x, In x t -> match o with
    | New _ _ _ => fst x = EP_app
    | Register _ _ => False
    | Client b _ => fst x = (if b then EP_sub else EP_unsub)
    | Publish i => exists y s, nth_error (p_listeners p) i = Some y /\ l_mesh y <> None /\ In s (p_names p) /\ x = (EP_pub, publish_doc (l_port y) (l_app y) s)
    | Unpublish i => exists y s, nth_error (p_listeners p) i = Some y /\ l_mesh y <> None /\ In s (p_names p) /\ x = (EP_unpub, name_doc s)
    end.
Proof.
  assert (F : forall (k : nat) (l : list pystr) s, In s (firstn k l) -> In s l) by (intros k l s H; rewrite <- (firstn_skipn k l); apply in_app_iff; left; exact H).
  destruct o as [port app info|i a|i|i|b a].
  - cbn [p_step]. destruct (open_mesh_spec ans (p_log p) info) as [E _]. destruct (open_mesh ans (p_log p) info) as [log m]. cbn [fst p_log] in *. exists [(EP_app, appinfo_doc info)].
    split; [exact E|]. intros x [<-|[]]. reflexivity.
  - exists []. split; [cbn; rewrite app_nil_r; reflexivity|intros x []].
  - destruct (nth_error (p_listeners p) i) as [[port app [m|]]|] eqn:E.
    + destruct (publishes ans p i port app m E) as (k & _ & A & _). eexists. split; [exact A|]. intros x H. apply in_map_iff in H as (s & <- & H). eexists. exists s.
      split; [reflexivity|]. split; [discriminate|]. split; [exact (F _ _ _ H)|reflexivity].
    + exists []. cbn [p_step]. rewrite E. cbn. rewrite app_nil_r. split; [reflexivity|intros x []].
    + exists []. cbn [p_step]. rewrite E. cbn. rewrite app_nil_r. split; [reflexivity|intros x []].
  - destruct (nth_error (p_listeners p) i) as [[port app [m|]]|] eqn:E.
    + destruct (unpublishes ans p i port app m E) as (k & _ & A & _). eexists. split; [exact A|]. intros x H. apply in_map_iff in H as (s & <- & H). eexists. exists s.
      split; [reflexivity|]. split; [discriminate|]. split; [exact (F _ _ _ H)|reflexivity].
    + exists []. cbn [p_step]. rewrite E. cbn. rewrite app_nil_r. split; [reflexivity|intros x []].
    + exists []. cbn [p_step]. rewrite E. cbn. rewrite app_nil_r. split; [reflexivity|intros x []].
  - destruct b; eexists; (split; [reflexivity|]); intros x [<-|[]]; reflexivity.
Qed.
Lemma ep_about x s : In (fst x) [EP_app; EP_sub; EP_unsub] -> ~ about x s.
Proof. intros H ([E|[E|[]]] & _); rewrite <- E in H; repeat (destruct H as [H|H]; [vm_compute in H; discriminate H|]); destruct H. Qed.
(** nothing but publish and unpublish changes what the agent knows, and these only for registered interfaces *)
Lemma nothing_else ans l o s x : (forall i, o = Publish i \/ o = Unpublish i -> ~ exists j, In (Register j s) l) ->
  latest ans (p_log (p_run ans (l ++ [o]))) s x <-> latest ans (p_log (p_run ans l)) s x.
Proof.
  intros N. rewrite prun_snoc. destruct (step_posts ans o (p_run ans l)) as (t & -> & T). apply latest_other. intros y I. specialize (T y I). destruct o as [port app info|i a|i|i|b a].
  - apply ep_about. rewrite T. left. reflexivity.
  - destruct T.
  - destruct T as (z & s' & _ & _ & J & ->). intros A. apply (pub_names (l_port z) (l_app z)) in A. subst s'. apply (N i (or_introl eq_refl)). apply (prun_names ans l), J.
  - destruct T as (z & s' & _ & _ & J & ->). intros A. apply unpub_names in A. subst s'. apply (N i (or_intror eq_refl)). apply (prun_names ans l), J.
  - apply ep_about. rewrite T. destruct b; [right; left|right; right; left]; reflexivity.
Qed.
(** who published *)
Lemma published_by ans l : forall x, In x (p_log (p_run ans l)) -> fst x = EP_pub ->
  exists i port app s j, x = (EP_pub, publish_doc port app s) /\ made ans l i port app True /\ In (Publish i) l /\ In (Register j s) l.
Proof.
  induction l as [|o l IH] using rev_ind; intros x I E; [destruct I|]. rewrite prun_snoc in I. destruct (step_posts ans o (p_run ans l)) as (t & A & T). rewrite A in I.
  apply in_app_iff in I as [I|I].
  - destruct (IH x I E) as (i & port & app & s & j & -> & M & P & R). exists i, port, app, s, j. split; [reflexivity|]. split; [apply made_snoc, M|]. split; apply in_app_iff; left; assumption.
  - specialize (T x I). destruct o as [port app info|i a|i|i|b a].
    + rewrite T in E. vm_compute in E. discriminate.
    + destruct T.
    + destruct T as (y & s & N & K & J & ->). apply (prun_names ans l) in J as (j & J). exists i, (l_port y), (l_app y), s, j. split; [reflexivity|].
      split; [|split; apply in_app_iff; [right; left; reflexivity|left; exact J]]. apply made_snoc. apply listener_made in N as (l1 & info & l2 & -> & B & C).
      exists l1, info, l2. split; [reflexivity|]. split; [exact B|]. split; [auto|]. intros _. apply C, K.
    + destruct T as (y & s & N & K & J & ->). vm_compute in E. discriminate.
    + rewrite T in E. destruct b; vm_compute in E; discriminate.
Qed.
Lemma only_published ans l s port app : known ans (p_log (p_run ans l)) s port app -> exists i j, made ans l i port app True /\ In (Publish i) l /\ In (Register j s) l.
Proof.
  intros (d & m & L & A & B & C). destruct L as (n & N & Ab & _). apply nth_error_In in N. destruct (published_by ans l _ N eq_refl) as (i & port' & app' & s' & j & E & M & P & R).
  injection E as E. subst d. assert (s' = s). { destruct Ab as (_ & d & D & G). injection D as <-. vm_compute in G. injection G as G. exact G. }
  subst s'. vm_compute in B. injection B as <-. vm_compute in C. injection C as <-.
  change (dget (str "port") [(str "serviceName", JStr s); (str "providerMetaInfo", JObj [(str "protocol", JStr (str "1")); (str "version", JStr (str "4.0")); (str "serializeType", JStr (str "protobuf")); (str "appName", JStr app')]); (str "port", JStr (str_int port')); (str "protocolType", JStr (str "DEFAULT")); (str "onlyPublishInCloud", JBool false)]) with (Some (JStr (str_int port'))) in A.
  injection A as A. apply str_int_inj in A. subst port'. exists i, j. auto.
Qed.
(** no listener was made while the agent answered: nothing is ever known, though publish() returns *)
Lemma never_known ans l : (forall i port app, ~ made ans l i port app True) -> forall s port app, ~ known ans (p_log (p_run ans l)) s port app.
Proof. intros N s port app K. apply only_published in K as (i & j & M & _). exact (N _ _ _ M). Qed.

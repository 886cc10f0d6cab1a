(** Lemmas behind C145. *)
From Coq Require Import Strings.String Lia.
From Verif Require Import PyBase L_PyBase PyDict PyInt M_Mesh S_Mesh L_Mesh L_Publish M_Register S_Register.
Open Scope nat_scope.

Lemma keep_told (name : string) v d rest : json_truthy d = false ->
  filter (fun kv : pystr * json => json_truthy (snd kv)) ((str name, or_else d v) :: rest) = says name v ++ filter (fun kv => json_truthy (snd kv)) rest.
Proof.
  intros D. cbn [filter snd]. destruct v as [[|[|]|[|z|z]|[|c s]|[|j l]|[|x l]]|]; cbn; try reflexivity. now rewrite D.
Qed.
Lemma doc_client g : appinfo_doc (client_info g) = described g.
Proof.
  unfold appinfo_doc, described, appinfo_fields, client_info. cbn [ai_appName ai_dataCenter ai_zone ai_registryEndPoint ai_accessKey ai_secretKey ai_antShareCloud]. f_equal.
  change (g_app g) with (or_else JNull (Some (g_app g))) at 1. rewrite !keep_told by reflexivity. cbn [filter]. now rewrite app_nil_r.
Qed.
Lemma doc_listener g : appinfo_doc (listener_info g) = described g.
Proof.
  unfold appinfo_doc, described, appinfo_fields, listener_info. cbn [ai_appName ai_dataCenter ai_zone ai_registryEndPoint ai_accessKey ai_secretKey ai_antShareCloud]. f_equal.
  change (g_app g) with (or_else JNull (Some (g_app g))) at 1. rewrite !keep_told by reflexivity. cbn [filter]. now rewrite app_nil_r.
Qed.
Lemma regs_app l l' : registrations (l ++ l') = registrations l ++ registrations l'.
Proof. unfold registrations. now rewrite filter_app, map_app. Qed.
Lemma make_posts ans a p : r_posts (make ans a p) = r_posts p ++ [(EP_app, appinfo_doc a)].
Proof. unfold make. destruct (open_mesh_spec ans (r_posts p) a) as [E _]. destruct (open_mesh ans (r_posts p) a) as [log m]. exact E. Qed.
Lemma make_objs ans a p : exists m, r_objs (make ans a p) = r_objs p ++ [m] /\ (m <> None <-> accepted (ans (List.length (r_posts p)))).
Proof. unfold make. destruct (open_mesh_spec ans (r_posts p) a) as [_ E]. destruct (open_mesh ans (r_posts p) a) as [log m]. exists m. split; [reflexivity|exact E]. Qed.
Lemma use_posts ans log u : exists q, do_use ans log u = log ++ [q] /\ registrations [q] = [].
Proof. destruct u; cbn; eexists; split; reflexivity. Qed.
Lemma r_app ans l1 l2 : r_run ans (l1 ++ l2) = fold_left (r_step ans) l2 (r_run ans l1).
Proof. apply fold_left_app. Qed.
Lemma one_each ans l : registrations (r_posts (r_run ans l)) = map described (constructors l).
Proof.
  induction l as [|o l IH] using rev_ind; [reflexivity|]. rewrite r_app. cbn [fold_left]. unfold constructors. rewrite flat_map_app, map_app. fold (constructors l). rewrite <- IH. destruct o as [g|g|i u]; cbn [r_step flat_map app map].
  - rewrite make_posts, regs_app, doc_client. reflexivity.
  - rewrite make_posts, regs_app, doc_listener. reflexivity.
  - rewrite app_nil_r. destruct (nth_error (r_objs (r_run ans l)) i) as [[m|]|]; try reflexivity. cbn [r_posts]. destruct (use_posts ans (r_posts (r_run ans l)) u) as (q & -> & E). now rewrite regs_app, E, app_nil_r.
Qed.
Lemma objs_grow ans l o : exists t, r_objs (r_run ans (l ++ [o])) = r_objs (r_run ans l) ++ t.
Proof.
  rewrite r_app. cbn [fold_left]. destruct o as [g|g|i u]; cbn [r_step].
  - destruct (make_objs ans (client_info g) (r_run ans l)) as (m & -> & _). eauto.
  - destruct (make_objs ans (listener_info g) (r_run ans l)) as (m & -> & _). eauto.
  - exists []. rewrite app_nil_r. destruct (nth_error (r_objs (r_run ans l)) i) as [[m|]|]; reflexivity.
Qed.
Lemma objs_count ans l : List.length (r_objs (r_run ans l)) = List.length (constructors l).
Proof.
  induction l as [|o l IH] using rev_ind; [reflexivity|]. rewrite r_app. cbn [fold_left]. unfold constructors. rewrite flat_map_app, app_length. fold (constructors l). rewrite <- IH. destruct o as [g|g|i u]; cbn [r_step flat_map app List.length].
  - destruct (make_objs ans (client_info g) (r_run ans l)) as (m & -> & _). rewrite app_length. reflexivity.
  - destruct (make_objs ans (listener_info g) (r_run ans l)) as (m & -> & _). rewrite app_length. reflexivity.
  - rewrite Nat.add_0_r. destruct (nth_error (r_objs (r_run ans l)) i) as [[m|]|]; reflexivity.
Qed.
Lemma objs_stay ans l1 l2 i m : nth_error (r_objs (r_run ans l1)) i = Some m -> nth_error (r_objs (r_run ans (l1 ++ l2))) i = Some m.
Proof.
  intros E. induction l2 as [|o l2 IH] using rev_ind; [now rewrite app_nil_r|]. rewrite app_assoc. destruct (objs_grow ans (l1 ++ l2) o) as (t & ->). rewrite nth_error_app1; [exact IH|]. apply nth_error_Some. congruence.
Qed.
Lemma own_answer ans l1 o g l2 : o = RClient g \/ o = RListener g -> let i := List.length (constructors l1) in
  exists m, nth_error (r_objs (r_run ans (l1 ++ o :: l2))) i = Some m /\ (m <> None <-> accepted (ans (List.length (r_posts (r_run ans l1))))).
Proof.
  intros C i. change (o :: l2) with ([o] ++ l2). rewrite app_assoc. assert (X : exists m, r_objs (r_run ans (l1 ++ [o])) = r_objs (r_run ans l1) ++ [m] /\ (m <> None <-> accepted (ans (List.length (r_posts (r_run ans l1)))))) by (rewrite r_app; destruct C as [->| ->]; apply make_objs).
  destruct X as (m & E & A). exists m. split; [|exact A]. apply objs_stay. rewrite E. unfold i. rewrite <- (objs_count ans l1). rewrite nth_error_app2, Nat.sub_diag; [reflexivity|lia].
Qed.
Lemma use_iff ans l i u m : nth_error (r_objs (r_run ans l)) i = Some m ->
  (m = None -> r_posts (r_run ans (l ++ [RUse i u])) = r_posts (r_run ans l)) /\
  (m <> None -> exists q, r_posts (r_run ans (l ++ [RUse i u])) = r_posts (r_run ans l) ++ [q] /\ registrations [q] = []).
Proof.
  intros E. rewrite r_app. cbn [fold_left r_step]. rewrite E. destruct m as [m|]; (split; [|]); try congruence. intros _. cbn [r_posts]. apply use_posts.
Qed.

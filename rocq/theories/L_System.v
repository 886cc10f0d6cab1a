(** Lemmas behind C67 and C68: the client, the network and the servers put together. *)
From Coq Require Import ZifyBool Strings.String.
From Verif Require Import PyBase L_PyBase PyDict L_PyDict PyInt L_PyInt Struct M_SofaHeader L_SofaHeader M_Package L_Package L_Codec M_RpcId S_Rpc L_RpcId M_Trace L_Trace L_Trace2 L_Trace3 S_Wire M_SyncClient L_SyncClient
  M_AioServer S_Server L_AioServer L_AioServer2 L_AioServer3 L_AioServer4 L_AioServer5 L_AioServer6 L_AioServer7 L_AioServer8 L_AioServer9 S_EndToEnd L_EndToEnd M_System S_System.
From Verif Require M_AioClient L_AioClient L_AioClient2 L_AioClient4 L_AioClient6 L_System1.
Open Scope Z_scope.

Notation client_run := M_AioClient.run.
Notation ins := L_System1.ins.
Notation specs := L_System1.specs.
Notation rid_of := M_AioClient.rid_of.

(** ** The invariant *)
Definition prefix {A} (a b : list A) : Prop := exists c, b = a ++ c.
Lemma prefix_app {A} (a b x : list A) : prefix a b -> prefix a (b ++ x).
Proof. intros (c & ->). exists (c ++ x). rewrite app_assoc. reflexivity. Qed.
Lemma prefix_next {A} (a b : list A) n : prefix a b -> prefix (a ++ firstn n (skipn (List.length a) b)) b.
Proof.
  intros (c & ->). rewrite skipn_app, skipn_all, Nat.sub_diag. cbn. exists (skipn n c). rewrite <- app_assoc, firstn_skipn. reflexivity.
Qed.
(** where a call of the client comes from *)
Definition origin (l : list ystep) (x : pkg * res Z) : Prop :=
  (exists d rid, In (YCall d rid (snd x)) l /\ y_request d rid = Ok (fst x)) \/ (exists rid, In (YClient (M_AioClient.Beat rid)) l /\ heartbeat_new_request rid = Ok (fst x)).
Record yinv (U : tables) (t : M_AioClient.timer) (l : list ystep) (y : sys) : Prop := {
  yi_conns : List.length (y_conns y) = List.length (ins (y_client t y));
  yi_up : forall c k, nth_error (y_conns y) c = Some k -> prefix (y_got k) (y_sent (y_client t y) c);
  yi_down : forall c k b, nth_error (y_conns y) c = Some k -> nth_error (ins (y_client t y)) c = Some b -> prefix b (y_replied (y_server U k));
  yi_from : forall x, In x (specs (y_client t y)) -> origin l x;
  yi_ids : NoDup (y_ids l) -> NoDup (map (fun x => rid_of (fst x)) (specs (y_client t y)))
}.

Lemma client_snoc t y o : y_client t (y_client_step o y) = M_AioClient.run_step o (y_client t y).
Proof. unfold y_client, y_client_step, M_AioClient.run. cbn [y_hist]. rewrite fold_left_app. reflexivity. Qed.
Lemma sent_grows o s c : exists x, y_sent (M_AioClient.run_step o s) c = y_sent s c ++ x.
Proof.
  unfold y_sent. destruct (L_System1.step_written o s) as (x & -> & _). rewrite filter_app, map_app, concat_app. eauto.
Qed.
Lemma replied_grows U k o : exists x, y_replied (y_server U {| y_reg := y_reg k; y_tr := y_tr k; y_steps := y_steps k ++ [o] |}) = y_replied (y_server U k) ++ x.
Proof.
  unfold y_replied, y_server. cbn [y_reg y_tr y_steps]. rewrite srun_app. cbn [sfrom fold_left].
  destruct (out_grows U o _ (good_run U (y_reg k) (y_tr k) (y_steps k))) as (x & ->). rewrite map_app, concat_app. eauto.
Qed.
Lemma got_snoc k o : y_got {| y_reg := y_reg k; y_tr := y_tr k; y_steps := y_steps k ++ [o] |} = y_got k ++ match o with Feed bs => bs | _ => [] end.
Proof. unfold y_got. cbn [y_steps]. rewrite map_app, concat_app. cbn. rewrite app_nil_r. reflexivity. Qed.
Lemma origin_more l o x : origin l x -> origin (l ++ [o]) x.
Proof. intros [(d & rid & H & E)|(rid & H & E)]; [left; exists d, rid|right; exists rid]; (split; [apply in_or_app; left; exact H|exact E]). Qed.
Lemma ids_snoc l o : y_ids (l ++ [o]) = y_ids l ++ match o with YCall _ rid _ => [rid] | YClient (M_AioClient.Beat rid) => [rid] | _ => [] end.
Proof. unfold y_ids. rewrite map_app, concat_app. cbn. rewrite app_nil_r. reflexivity. Qed.
Lemma request_id d rid p : y_request d rid = Ok p -> rid_of p = rid /\ p_request_id p = PInt rid.
Proof.
  unfold y_request. intros H. apply bind_Ok in H as (h & _ & N). unfold new_request in N. apply mk_package_Ok in N as (_ & _ & _ & M4 & _). unfold rid_of, M_AioClient.rid_of. rewrite M4. auto.
Qed.
Lemma beat_id rid p : heartbeat_new_request rid = Ok p -> rid_of p = rid /\ p_request_id p = PInt rid.
Proof. unfold heartbeat_new_request. intros N. apply mk_package_Ok in N as (_ & _ & _ & M4 & _). unfold M_AioClient.rid_of. rewrite M4. auto. Qed.
Lemma origin_id l x : origin l x -> In (rid_of (fst x)) (y_ids l).
Proof.
  intros [(d & rid & H & E)|(rid & H & E)].
  - apply request_id in E as (-> & _). unfold y_ids. apply in_concat. exists [rid]. split; [|left; reflexivity]. apply in_map_iff. exists (YCall d rid (snd x)). auto.
  - apply beat_id in E as (-> & _). unfold y_ids. apply in_concat. exists [rid]. split; [|left; reflexivity]. apply in_map_iff. exists (YClient (M_AioClient.Beat rid)). auto.
Qed.
Lemma NoDup_left {A} (a b : list A) : NoDup (a ++ b) -> NoDup a.
Proof. induction a as [|x a IH]; intros H; [constructor|]. inversion H as [|? ? N H']; subst. constructor; [intros K; apply N; apply in_or_app; auto|auto]. Qed.
Lemma NoDup_last {A} (a : list A) x : NoDup (a ++ [x]) -> ~ In x a.
Proof. intros H K. apply NoDup_remove in H as (_ & N). apply N. rewrite app_nil_r. exact K. Qed.
Lemma nodup_more (l : list ystep) o : NoDup (y_ids (l ++ [o])) -> NoDup (y_ids l).
Proof. rewrite ids_snoc. apply NoDup_left. Qed.

Lemma yinv_label U t l o y : yinv U t l y -> yinv U t (l ++ [o]) y.
Proof. intros [A B C D E]. constructor; auto; [intros x H; apply origin_more; auto|intros N; apply E; apply (nodup_more l o N)]. Qed.
Lemma yinv_client U t l y lab o : yinv U t l y -> let s := y_client t y in let s' := M_AioClient.run_step o s in
  ins s' = ins s -> (specs s' = specs s \/ exists x, specs s' = specs s ++ [x] /\ origin (l ++ [lab]) x /\ match lab with YCall _ rid _ => [rid] | YClient (M_AioClient.Beat rid) => [rid] | _ => [] end = [rid_of (fst x)]) ->
  yinv U t (l ++ [lab]) (y_client_step o y).
Proof.
  intros [A B C D E] s s' I S. assert (Es : y_client t (y_client_step o y) = s') by apply client_snoc. constructor; rewrite Es; cbn [y_client_step y_conns].
  - rewrite I. exact A.
  - intros c k H. destruct (sent_grows o s c) as (x & Ex). fold s' in Ex. rewrite Ex. apply prefix_app. apply (B c k H).
  - intros c k b Hk Hb. rewrite I in Hb. exact (C c k b Hk Hb).
  - intros x H. destruct S as [S|(z & S & Oz & _)]; rewrite S in H; [apply origin_more, D; exact H|]. apply in_app_iff in H as [H|[<-|[]]]; [apply origin_more, D; exact H|exact Oz].
  - intros N. pose proof (E (nodup_more _ _ N)) as E'. destruct S as [S|(z & S & Oz & Iz)]; rewrite S; [exact E'|]. rewrite map_app. cbn [map]. rewrite ids_snoc, Iz in N.
    apply NoDup_last in N. apply NoDup_snoc; [exact E'|]. intros H. apply N. apply in_map_iff in H as (w & <- & Hw). apply origin_id. apply D. exact Hw.
Qed.
Lemma yinv_server U t l y lab c o : yinv U t l y -> (forall k, nth_error (y_conns y) c = Some k -> prefix (y_got k ++ match o with Feed bs => bs | _ => [] end) (y_sent (y_client t y) c)) ->
  yinv U t (l ++ [lab]) (y_server_step c o y).
Proof.
  intros [A B C D E] H. constructor; change (y_client t (y_server_step c o y)) with (y_client t y); cbn [y_server_step y_conns].
  - rewrite length_upd. exact A.
  - intros d k Hk. apply nth_upd_inv in Hk as [(<- & x & Hx & ->)|(_ & Hk)]; [|exact (B d k Hk)]. rewrite got_snoc. apply H. exact Hx.
  - intros d k b Hk Hb. apply nth_upd_inv in Hk as [(<- & x & Hx & ->)|(_ & Hk)]; [|exact (C d k b Hk Hb)]. destruct (replied_grows U x o) as (z & ->). apply prefix_app. exact (C c x b Hx Hb).
  - intros x Hx. apply origin_more, D. exact Hx.
  - intros N. apply E. exact (nodup_more _ _ N).
Qed.
Lemma links_ins s : List.length (M_AioClient.s_links s) = List.length (ins s).
Proof. unfold L_System1.ins. rewrite map_length. reflexivity. Qed.
Lemma yinv_step U t l o y : yinv U t l y -> yinv U t (l ++ [o]) (y_step U t o y).
Proof.
  intros Y. destruct o as [d rid a|i reg tr|o|c o|c n|c n]; cbn [y_step].
  - destruct (y_request d rid) as [p|e] eqn:Er; [|apply yinv_label; exact Y]. destruct (L_System1.step_moves (M_AioClient.Call p a) (y_client t y)) as (I & S).
    apply yinv_client; [exact Y|exact I|]. right. exists (p, a). split; [exact S|]. split; [|cbn; apply request_id in Er as (-> & _); reflexivity].
    left. exists d, rid. split; [apply in_or_app; right; left; reflexivity|exact Er].
  - destruct (L_System1.step_moves (M_AioClient.DialOk i) (y_client t y)) as (I & S). cbv zeta. rewrite client_snoc, !links_ins.
    destruct (Nat.ltb_spec (List.length (ins (y_client t y))) (List.length (ins (M_AioClient.run_step (M_AioClient.DialOk i) (y_client t y))))) as [L|_]; [|apply yinv_label; exact Y].
    destruct I as [I|I]; [rewrite I in L; lia|]. destruct Y as [A B C D E].
    match goal with |- yinv _ _ _ ?z => assert (Es : y_client t z = M_AioClient.run_step (M_AioClient.DialOk i) (y_client t y)) by (rewrite <- client_snoc; reflexivity) end.
    constructor; rewrite Es; cbn [y_conns].
    + rewrite I, !app_length, A. reflexivity.
    + intros c k H. destruct (sent_grows (M_AioClient.DialOk i) (y_client t y) c) as (x & ->). apply prefix_app. destruct (Nat.lt_ge_cases c (List.length (y_conns y))) as [Lc|Lc].
      * rewrite nth_error_app1 in H by exact Lc. exact (B c k H).
      * rewrite nth_error_app2 in H by exact Lc. apply nth_error_In in H. destruct H as [<-|[]]. exists (y_sent (y_client t y) c). reflexivity.
    + intros c k b Hk Hb. rewrite I in Hb. destruct (Nat.lt_ge_cases c (List.length (y_conns y))) as [Lc|Lc].
      * rewrite nth_error_app1 in Hk by exact Lc. rewrite nth_error_app1 in Hb by (rewrite <- A; exact Lc). exact (C c k b Hk Hb).
      * rewrite nth_error_app2 in Hb by (rewrite <- A; exact Lc). apply nth_error_In in Hb. destruct Hb as [<-|[]]. eexists. reflexivity.
    + rewrite S. intros x H. apply origin_more, D. exact H.
    + rewrite S. intros N. apply E. exact (nodup_more _ _ N).
  - pose proof (L_System1.step_moves o (y_client t y)) as M. destruct o as [r ad|i|i|i|i|i|i|i|i|c bs|c|c|c|rid|]; cbn [L_System1.moves] in M;
      try (apply yinv_label; exact Y); try (apply yinv_client; [exact Y|exact (proj1 M)|left; exact (proj2 M)]).
    destruct M as (I & M). apply yinv_client; [exact Y|exact I|]. destruct M as [M|(p & a & Hp & M)]; [left; exact M|]. right. exists (p, Ok a). split; [exact M|].
    split; [|cbn; apply beat_id in Hp as (-> & _); reflexivity]. right. exists rid. split; [apply in_or_app; right; left; reflexivity|exact Hp].
  - destruct o; try (apply yinv_label; exact Y); (apply yinv_server; [exact Y|]; intros k Hk; rewrite app_nil_r; exact (yi_up _ _ _ _ Y c k Hk)).
  - destruct (nth_error (y_conns y) c) as [k|] eqn:Hk; [|apply yinv_label; exact Y]. apply yinv_server; [exact Y|]. intros k' Hk'. assert (k' = k) by congruence. subst k'.
    apply prefix_next. exact (yi_up _ _ _ _ Y c k Hk).
  - destruct (nth_error (y_conns y) c) as [k|] eqn:Hk; [|apply yinv_label; exact Y]. destruct (nth_error (M_AioClient.s_links (y_client t y)) c) as [x|] eqn:Hx; [|apply yinv_label; exact Y].
    set (bs := firstn n _). destruct (L_System1.step_moves (M_AioClient.Feed c bs) (y_client t y)) as (I & S). destruct Y as [A B C D E].
    assert (Hi : nth_error (ins (y_client t y)) c = Some (M_AioClient.k_in x)) by (unfold L_System1.ins; rewrite nth_error_map, Hx; reflexivity).
    constructor; rewrite client_snoc; cbn [y_client_step y_conns].
    + rewrite I, A. clear. generalize (ins (y_client t y)) as v. intros v. revert c. induction v as [|z v IH]; intros [|c]; cbn; congruence.
    + intros d k' H. destruct (sent_grows (M_AioClient.Feed c bs) (y_client t y) d) as (z & ->). apply prefix_app. exact (B d k' H).
    + intros d k' b Hk' Hb. rewrite I in Hb. apply L_AioClient.upd_get in Hb as [(N & Hb)|(<- & b0 & Hb & ->)]; [exact (C d k' b Hk' Hb)|].
      assert (k' = k) by congruence. assert (b0 = M_AioClient.k_in x) by congruence. subst. apply prefix_next. exact (C c k _ Hk Hi).
    + rewrite S. intros z H. apply origin_more, D. exact H.
    + rewrite S. intros N. apply E. exact (nodup_more _ _ N).
Qed.
Lemma yinv_run U t l : yinv U t l (y_run U t l).
Proof.
  induction l as [|o l IH] using rev_ind.
  - constructor; cbn; try (intros c k H; destruct c; discriminate); try reflexivity; [intros x []|constructor].
  - unfold y_run. rewrite fold_left_app. cbn [fold_left]. apply yinv_step. exact IH.
Qed.

(** ** What is on a connection *)
Definition names_of (d : ycall) (h : dict pystr pystr) : Prop :=
  dget (str "sofa_head_target_service") h = Some (y_interface d) /\ dget (str "service") h = Some (y_interface d) /\ dget (str "sofa_head_method_name") h = Some (y_method d).
Lemma names_interface d h sv : names_of d h -> names_service h sv -> sv = y_interface d.
Proof. intros (A & B & _) (N & [E|([E|E] & F)]); congruence. Qed.
Lemma names_the_method d h m : names_of d h -> names_method h m -> m = y_method d.
Proof. intros (_ & _ & A) (N & E). congruence. Qed.
Lemma NoDup_disjoint {A} (a c : list A) : NoDup a -> NoDup c -> (forall k, In k a -> ~ In k c) -> NoDup (a ++ c).
Proof.
  induction a as [|x a IH]; intros Na Nc D; [exact Nc|]. inversion Na as [|? ? N1 N2]; subst. cbn. constructor; [|apply IH; auto; intros k Hk; apply D; right; exact Hk].
  intros H. apply in_app_iff in H as [H|H]; [contradiction|]. exact (D x (or_introl eq_refl) H).
Qed.
Lemma build_names b i m t u extra h : build_header b i m t u extra = Ok h ->
  wf_dict h /\ dget (str "sofa_head_target_service") h = Some i /\ dget (str "service") h = Some i /\ dget (str "sofa_head_method_name") h = Some m.
Proof.
  unfold build_header. destruct (existsb (fun k => mem_str k build_params) (keys extra)); [discriminate|]. intros H. apply bind_Ok in H as (e & _ & H). cbv zeta in H.
  set (kw := dupdate (dupdate [] extra) e) in *. destruct (existsb (fun k => mem_str k call_params) (keys kw)) eqn:E2; [discriminate|].
  match type of H with Ok ?x = _ => assert (Eh : x = h) by congruence end. rewrite <- Eh. clear H Eh. split; [|repeat split; reflexivity].
  assert (W : wf_dict kw) by (apply wf_dupdate, wf_dupdate; constructor). unfold wf_dict, keys in *. rewrite map_app.
  apply NoDup_disjoint; [apply wf_dict_of|exact W|]. intros k Hk Hc. change (In k call_params) in Hk.
  rewrite <- not_true_iff_false in E2. apply E2. apply existsb_exists. exists k. split; [exact Hc|]. apply mem_str_iff. exact Hk.
Qed.
Lemma call_unit d rid p bs : y_request d rid = Ok p -> to_stream p = Ok bs ->
  exists q, one bs (IRequest q) /\ q_id q = rid /\ q_body q = y_content d /\ names_of d (q_header q).
Proof.
  intros Er T. unfold y_request in Er. apply bind_Ok in Er as (h & Bh & N). destruct (build_names _ _ _ _ _ _ _ Bh) as (Wh & G).
  unfold new_request in N. apply mk_package_Ok in N as (M1 & M2 & M3 & M4 & M5 & M6 & M7 & M8 & M9 & M10 & M11 & L).
  rewrite BoltRequest_eq in M1. destruct (req_layout_of p _ bs M1 L T) as (r & tm & ct & A & B & C & Lay).
  rewrite M4 in A. cbn [int_value] in *. injection A as <-. rewrite M3 in C. injection C as <-. injection M7 as M7. injection M8 as M8.
  pose proof L as (_ & _ & _ & _ & _ & _ & L7). rewrite M2 in L7.
  assert (Q : dict_of h = h) by (apply dict_of_id; exact Wh).
  exists (as_request (frame_of p rid tm (y_content d)) h). cbn [as_request q_id q_body q_header frame_of fr_request_id fr_content]. rewrite Q. split; [|split; [reflexivity|split; [reflexivity|exact G]]].
  apply One_request; [exact Lay| | | |].
  - apply to_bytes_strings in L7. exact L7.
  - cbn [frame_of fr_cmdcode]. rewrite <- M8. discriminate.
  - cbn [frame_of fr_cmdcode]. rewrite <- M8. discriminate.
  - cbn [frame_of fr_class]. rewrite M1. reflexivity.
Qed.
Lemma beat_unit rid p bs : heartbeat_new_request rid = Ok p -> to_stream p = Ok bs -> one bs (IHeartbeat rid).
Proof.
  intros N T. unfold heartbeat_new_request in N. apply mk_package_Ok in N as (M1 & M2 & M3 & M4 & M5 & M6 & M7 & M8 & M9 & M10 & M11 & L).
  destruct (req_layout_of p (cls_name HeartbeatRequest) bs M1 L T) as (r & tm & ct & A & B & C & Lay). rewrite M4 in A. cbn [int_value] in *. injection A as <-. injection M8 as M8.
  pose proof L as (_ & _ & _ & _ & _ & _ & L7). rewrite M2 in L7. apply to_bytes_strings in L7.
  change rid with (fr_request_id (frame_of p rid tm ct)) at 1. eapply One_heartbeat; [exact Lay|exact L7|]. cbn [frame_of fr_cmdcode]. rewrite <- M8. reflexivity.
Qed.
(** what the client has written on connection c, with the number of the call *)
Definition on (c : nat) (x : nat * (nat * bytes)) : bool := Nat.eqb (fst (snd x)) c.
Definition written_on (t : M_AioClient.timer) (y : sys) (c : nat) : list (nat * (nat * bytes)) := filter (on c) (L_System1.wlog (M_AioClient.init t) (y_hist y)).
Lemma sent_written t y c : y_sent (y_client t y) c = concat (map (fun w => snd (snd w)) (written_on t y c)).
Proof.
  unfold y_sent, written_on, y_client. rewrite L_System1.run_written. generalize (L_System1.wlog (M_AioClient.init t) (y_hist y)). intros w. f_equal.
  induction w as [|x w IH]; [reflexivity|]. cbn [map filter]. unfold on at 1. destruct (Nat.eqb (fst (snd x)) c); [cbn [map]; rewrite IH; reflexivity|exact IH].
Qed.
(** each write is one unit *)
Definition unit_of_call (l : list ystep) (x : pkg * res Z) (i : item) : Prop :=
  (exists d rid q, In (YCall d rid (snd x)) l /\ y_request d rid = Ok (fst x) /\ i = IRequest q /\ q_id q = rid /\ q_body q = y_content d /\ names_of d (q_header q)) \/
  (exists rid, In (YClient (M_AioClient.Beat rid)) l /\ heartbeat_new_request rid = Ok (fst x) /\ i = IHeartbeat rid).
Definition unit_written (l : list ystep) (s : M_AioClient.st) (w : nat * (nat * bytes)) (i : item) : Prop :=
  one (snd (snd w)) i /\ exists tk, nth_error (M_AioClient.s_tasks s) (fst w) = Some tk /\ unit_of_call l (M_AioClient.t_req tk, M_AioClient.t_addr tk) i.
Lemma writes_are_units U t l : let y := y_run U t l in forall w, In w (L_System1.wlog (M_AioClient.init t) (y_hist y)) -> exists i, unit_written l (y_client t y) w i.
Proof.
  intros y (i, (c, bs)) H. apply In_nth_error in H as (p & H). destruct (L_System1.wlog_task _ _ _ _ _ _ H) as (tk & Hi & _ & T). fold (y_client t y) in Hi.
  pose proof (yinv_run U t l) as Y. fold y in Y. assert (Hx : In (M_AioClient.t_req tk, M_AioClient.t_addr tk) (specs (y_client t y))) by (unfold L_System1.specs; apply in_map_iff; exists tk; split; [reflexivity|eapply nth_error_In; exact Hi]).
  destruct (yi_from _ _ _ _ Y _ Hx) as [(d & rid & In1 & Er)|(rid & In1 & Er)]; cbn [fst snd] in *.
  - destruct (call_unit d rid _ bs Er T) as (q & O & Q). exists (IRequest q). split; [exact O|]. exists tk. split; [exact Hi|]. left. exists d, rid, q. auto 10.
  - pose proof (beat_unit _ _ _ Er T) as O. exists (IHeartbeat rid). split; [exact O|]. exists tk. split; [exact Hi|]. right. exists rid. auto.
Qed.
Lemma unit_nonfatal l s w i : unit_written l s w i -> nonfatal i.
Proof. intros (_ & tk & _ & [(d & rid & q & _ & _ & -> & _)|(rid & _ & _ & ->)]) F; exact F. Qed.
Lemma stream_units l s ws : (forall w, In w ws -> exists i, unit_written l s w i) ->
  exists items, Forall2 (unit_written l s) ws items /\ cuts (concat (map (fun w => snd (snd w)) ws)) items [].
Proof.
  induction ws as [|w ws IH]; intros H; [exists []; split; [constructor|constructor]|]. destruct (H w (or_introl eq_refl)) as (i & Hi). destruct IH as (items & F & C); [intros v Hv; apply H; right; exact Hv|].
  exists (i :: items). split; [constructor; assumption|]. cbn [map concat]. apply Cuts_cons; [exact (proj1 Hi)|exact (unit_nonfatal _ _ _ _ Hi)|exact C].
Qed.
Lemma Forall2_nth {A B} (R : A -> B -> Prop) a b n y : Forall2 R a b -> nth_error b n = Some y -> exists x, nth_error a n = Some x /\ R x y.
Proof. intros F. revert n. induction F as [|x z a b H F IH]; intros [|n] E; try discriminate; [injection E as <-; exists x; auto|exact (IH n E)]. Qed.
Lemma one_some a i x : one a i -> a ++ x = [] -> False.
Proof. intros O E. apply app_eq_nil in E as (-> & _). apply one_unit in O. discriminate. Qed.
Lemma cuts_all bs la m r : cuts bs la [] -> Forall nonfatal la -> cuts bs (la ++ m) r -> m = [].
Proof.
  intros C. remember [] as e eqn:Ee. induction C as [bs|a i r0 O F|a i bs l r0 O F C IH]; intros Nf Cb.
  - subst. cbn in Cb. inversion Cb as [|? ? ? O F E|? ? ? ? ? O F C E]; subst; [reflexivity|destruct (one_some _ _ _ O E)..].
  - inversion Nf; subst. contradiction.
  - inversion Nf as [|? ? N1 N2]; subst. cbn in Cb. inversion Cb as [|? ? ? O' F' E|? ? ? ? ? O' F' C' E]; subst; [contradiction|].
    destruct (one_fun _ _ _ _ _ _ O' O E) as (_ & -> & _). exact (IH eq_refl N2 C').
Qed.
(** the n-th unit a server finds is the n-th write of the client on that connection *)
Lemma unit_is_write U t l c k items rest n x : let y := y_run U t l in nth_error (y_conns y) c = Some k -> cuts (fed (y_steps k)) items rest -> nth_error items n = Some x ->
  exists w, nth_error (written_on t y c) n = Some w /\ unit_written l (y_client t y) w x.
Proof.
  intros y Hk C Nx. pose proof (yinv_run U t l) as Y. fold y in Y. destruct (yi_up _ _ _ _ Y c k Hk) as (post & E). rewrite sent_written in E.
  destruct (stream_units l (y_client t y) (written_on t y c)) as (all & F & Ca); [intros w Hw; apply filter_In in Hw as (Hw & _); exact (writes_are_units U t l w Hw)|].
  change (y_got k) with (fed (y_steps k)) in E. pose proof (cuts_more _ _ _ post C) as Cm. rewrite <- E in Cm. apply (Forall2_nth _ _ _ n x F).
  destruct (cuts_comparable _ _ _ _ _ Cm Ca) as [(m & ->)|(m & ->)]; [apply nth_app_some; exact Nx|].
  assert (m = []); [|subst m; rewrite app_nil_r in Nx; exact Nx]. apply (cuts_all _ _ _ _ Ca) with (2 := Cm). clear - F. induction F as [|w i ws is H F IH]; constructor; [exact (unit_nonfatal _ _ _ _ H)|exact IH].
Qed.

(** ** A success answer, whether the connection is still open or not *)
Lemma success_any U reg tr h n bs id c : let s := srun U reg tr h in In (n, bs) (v_out s) -> response bs id 2 0 c ->
  exists q sv m b rest, cuts (fed h) (v_items s) rest /\ nth_error (v_items s) n = Some (IRequest q) /\ q_id q = id /\ In (n, sv, m, b) (executions U (sinit reg tr) h) /\
    names_service (q_header q) sv /\ names_method (q_header q) m /\ b = q_body q /\ ended_with s n (Ok (PBytes c)) /\ c <> [].
Proof.
  intros s H R. pose proof (good_run U reg tr h) as G. fold s in G. pose proof G as ((I & _ & Jo) & r & f & O). destruct (run_cuts U reg tr h) as (rest & C). fold s in C.
  rewrite (oo_split _ _ _ O) in H. apply in_app_iff in H as [H|H].
  - destruct (oo_answers _ _ _ O n bs H) as (x & Nx & An). destruct x as [q|id'|id' st'|id']; cbn in An.
    + destruct An as (st & c' & R' & D). destruct (response_fun _ _ _ _ _ _ _ _ _ R R') as (-> & _ & <- & <-). destruct D as [(_ & (j & b & Nj & Fj & Sj) & Nc & _)|([D|(D & _)] & _)]; [|cbn in D; lia..].
      destruct (started_executed U h (sinit reg tr) j b (good_init reg tr) Nj (or_intror (ex_intro _ _ Sj))) as [E|(y & Ny & _)]; [|destruct j; discriminate].
      destruct (jo_named _ Jo j b Nj) as (q' & Nq & A & B & D). assert (q' = q) by congruence. subst q'. unfold call in E. rewrite Fj in E.
      exists q, (j_service b), (j_method b), (j_body b), rest. repeat (split; [assumption|]). split; [reflexivity|]. repeat (split; [assumption|]). split; [|exact Nc]. exists b. split; [eapply nth_error_In; exact Nj|auto].
    + destruct (response_fun _ _ _ _ _ _ _ _ _ R An) as (_ & K & _). discriminate.
    + destruct (response_fun _ _ _ _ _ _ _ _ _ R An) as (_ & _ & K & _). subst st'. exfalso.
      assert (Z : forall bs l r, cuts bs l r -> ~ In (IBad id' 0) l) by (clear; induction 1 as [bs|a i r O F|a i bs l r O F C IH]; intros H; [destruct H|destruct H as [->|[]]; destruct F|destruct H as [->|H]; [inversion O|exact (IH H)]]).
      apply nth_error_In in Nx. exact (Z _ _ _ C Nx).
    + destruct An.
  - destruct (oo_fin _ _ _ O) as [->|(_ & id' & st & bs' & -> & _ & R' & L)]; [destruct H|]. destruct H as [E|[]]. injection E as _ <-.
    destruct (response_fun _ _ _ _ _ _ _ _ _ R R') as (_ & _ & K & _). destruct L as [(L & _)|(L & _)]; lia.
Qed.
Lemma outs_frames U reg tr h : Forall L_AioClient.frame_ok (map snd (v_out (srun U reg tr h))).
Proof.
  apply Forall_forall. intros bs H. apply L_AioClient4.frame_ok_iff. destruct (once_any U reg tr h) as (items & rest & ns & r & last & C & E & _ & F & L). cbv zeta in E. rewrite E in H.
  apply in_app_iff in H as [H|H].
  - clear - F H. induction F as [|n b ns r R F IH]; [destruct H|]. destruct H as [<-|H]; [|exact (IH H)]. destruct R as (x & cmd & st & c & _ & f & Lay & _). eauto.
  - destruct L as [->|(b & id & st & -> & (f & Lay & _) & _)]; [destruct H|]. destruct H as [<-|[]]. eauto.
Qed.
(** a frame that the client has consumed is one that the server has written *)
Lemma frame_from_server U t l c k frame : let y := y_run U t l in nth_error (M_AioClient.s_links (y_client t y)) c = Some k -> In frame (M_AioClient.k_frames k) ->
  exists x n, nth_error (y_conns y) c = Some x /\ In (n, frame) (v_out (y_server U x)).
Proof.
  intros y Hk Hf. pose proof (yinv_run U t l) as Y. fold y in Y.
  assert (Hi : nth_error (ins (y_client t y)) c = Some (M_AioClient.k_in k)) by (unfold L_System1.ins; rewrite nth_error_map, Hk; reflexivity).
  destruct (nth_error (y_conns y) c) as [x|] eqn:Hx; [|exfalso; apply nth_error_None in Hx; rewrite (yi_conns _ _ _ _ Y) in Hx; apply nth_error_None in Hx; congruence].
  exists x. destruct (yi_down _ _ _ _ Y c x _ Hx Hi) as (post & E). unfold y_replied in E. pose proof (L_AioClient.run_links_ok t (y_hist y) c k Hk) as LO. destruct (L_AioClient.lo_prefix _ LO) as (rest & P). rewrite P in E.
  assert (E' : concat (M_AioClient.k_frames k) ++ (rest ++ post) = concat (map snd (v_out (y_server U x))) ++ []) by (rewrite app_nil_r, app_assoc; symmetry; exact E). clear E. rename E' into E.
  assert (K : In frame (map snd (v_out (y_server U x)))).
  { destruct (L_AioClient4.frames_comparable _ _ _ _ (L_AioClient.lo_frames _ LO) (outs_frames U (y_reg x) (y_tr x) (y_steps x)) E) as [(r & R)|(r & R)].
    - change (srun U (y_reg x) (y_tr x) (y_steps x)) with (y_server U x) in R. rewrite R. apply in_or_app. left. exact Hf.
    - assert (r = []); [|subst r; rewrite app_nil_r in R; rewrite R in Hf; exact Hf]. change (srun U (y_reg x) (y_tr x) (y_steps x)) with (y_server U x) in R. rewrite R, concat_app, <- app_assoc in E.
      apply app_inv_head in E. apply app_eq_nil in E as (E & _).
      pose proof (L_AioClient.lo_frames _ LO) as F. rewrite R in F. apply Forall_app in F as (_ & F). destruct r as [|a r]; [reflexivity|]. inversion F as [|? ? (A & _) _]; subst.
      cbn [concat] in E. apply app_eq_nil in E as (-> & _). cbv in A. congruence. }
  apply in_map_iff in K as ((n, b) & <- & K). exists n. auto.
Qed.
Lemma outs_response U reg tr h n bs : In (n, bs) (v_out (srun U reg tr h)) -> exists id cmd st c, response bs id cmd st c.
Proof.
  intros H. apply (in_map snd) in H. cbn [snd] in H. destruct (once_any U reg tr h) as (items & rest & ns & r & last & C & E & _ & F & L). cbv zeta in E. rewrite E in H.
  apply in_app_iff in H as [H|H].
  - clear - F H. induction F as [|m b ns r R F IH]; [destruct H|]. destruct H as [<-|H]; [|exact (IH H)]. destruct R as (x & cmd & st & c & _ & R). eauto.
  - destruct L as [->|(b & id & st & -> & R & _)]; [destruct H|]. destruct H as [<-|[]]. eauto.
Qed.

(** ** C67 *)
Lemma label_unique l d rid a d' a' : NoDup (y_ids l) -> In (YCall d rid a) l -> In (YCall d' rid a') l -> d = d' /\ a = a'.
Proof.
  induction l as [|o l IH]; intros N H K; [destruct H|]. change (y_ids (o :: l)) with (match o with YCall _ rid _ => [rid] | YClient (M_AioClient.Beat rid) => [rid] | _ => [] end ++ y_ids l) in N.
  assert (N' : NoDup (y_ids l)). { revert N. clear. match goal with |- NoDup (?u ++ _) -> _ => generalize u end. intros u. induction u as [|z u IHu]; intros N; [exact N|]. inversion N; auto. }
  assert (Z : forall d a, In (YCall d rid a) l -> In rid (y_ids l)) by (intros d0 a0 Hd; unfold y_ids; apply in_concat; exists [rid]; split; [apply in_map_iff; exists (YCall d0 rid a0); auto|left; reflexivity]).
  destruct H as [->|H], K as [K|K]; [injection K as <- <-; auto| | |exact (IH N' H K)].
  - inversion N as [|? ? N1 _]; subst. contradiction N1. exact (Z _ _ K).
  - subst o. inversion N as [|? ? N1 _]; subst. contradiction N1. exact (Z _ _ H).
Qed.
Lemma result_of_call U t l d rid a v : NoDup (y_ids l) -> let y := y_run U t l in In (YCall d rid a) l -> gives (y_client t y) rid (Ok v) ->
  exists c k lk n bs, nth_error (y_conns y) c = Some k /\ nth_error (M_AioClient.s_links (y_client t y)) c = Some lk /\ a = Ok (M_AioClient.k_addr lk) /\
    In (n, y_interface d, y_method d, y_content d) (calls_on U k) /\ v = PBytes bs /\ bs <> [] /\ ended_with (y_server U k) n (Ok v).
Proof.
  intros N y Hd (i & tk & o & Hi & Hr & Ho & Hv). destruct o as [|p|e]; try discriminate. cbn in Hv. injection Hv as Hv.
  pose proof (L_AioClient.inv_run t (y_hist y)) as I. destruct (L_AioClient.i_done _ I i tk p Hi Ho) as (A & (B1 & B2) & (c & lk & frame & Hk & Hf & Hs)).
  destruct (frame_from_server U t l c lk frame Hk Hf) as (k & n & Hc & Ho2). fold y in Hc.
  destruct (outs_response _ _ _ _ _ _ Ho2) as (id & cmd & st & ct & R). pose proof R as (f & Lay & _ & _ & F1 & F2 & F3 & F4 & _).
  change BoltResponse with (resp_class (cls_name BoltResponse)) in Hs. apply from_stream_resp_iff in Hs as (f' & kvs & hb & Lay' & _ & _ & _ & _ & ->).
  assert (f' = f) by (apply resp_layout_iff in Lay as (_ & _ & ->); apply resp_layout_iff in Lay' as (_ & _ & ->); reflexivity). subst f'. cbn in A, B1, B2, Hv.
  assert (H : id = rid) by (unfold M_AioClient.rid_of in A; rewrite Hr in A; cbn in A; congruence). assert (H0 : cmd = 2) by (rewrite <- F1; exact B1). assert (H1 : st = 0) by (rewrite <- F3; exact B2). rewrite H, H0, H1 in R.
  destruct (success_any U (y_reg k) (y_tr k) (y_steps k) n frame rid ct Ho2 R) as (q & sv & m & b & rest & C & Nq & Q & E & Ns & Nm & Eb & En & Nc).
  destruct (unit_is_write U t l c k _ _ n _ Hc C Nq) as ((j, (c', bs)) & Hw & _ & tk' & Htk & Un). fold y in Hw, Htk. cbn [fst] in Htk.
  apply nth_error_In in Hw. apply filter_In in Hw as (Hw & Hon). unfold on in Hon. cbn in Hon. apply Nat.eqb_eq in Hon. subst c'.
  apply In_nth_error in Hw as (pp & Hw). destruct (L_System1.wlog_task _ _ _ _ _ _ Hw) as (tk2 & Htk2 & Sd & _). fold (y_client t y) in Htk2. assert (tk2 = tk') by congruence. subst tk2.
  destruct (L_AioClient6.o_sent _ _ _ _ (L_AioClient6.w_tasks _ _ (L_AioClient6.wr_run t (y_hist y)) j tk' Htk2) c bs Sd) as (_ & ad & Ead & Lad).
  destruct Un as [(d' & rid' & q' & Hd' & _ & Eq & Q1 & Q2 & Q3)|(rid' & _ & _ & Eq)]; [|discriminate]. injection Eq as <-. cbn [fst snd] in Hd'.
  assert (E1 : rid' = rid) by congruence. rewrite E1 in Hd'. destruct (label_unique l d rid a d' _ N Hd Hd') as (<- & ->).
  pose proof (names_interface _ _ _ Q3 Ns). pose proof (names_the_method _ _ _ Q3 Nm). subst sv m b. rewrite Q2 in E.
  exists c, k, lk, n, ct. split; [exact Hc|]. split; [exact Hk|]. split.
  { rewrite Ead. f_equal. unfold L_AioClient6.addrs in Lad. rewrite nth_error_map in Lad. rewrite Hk in Lad. cbn in Lad. congruence. }
  split; [exact E|]. rewrite F4 in Hv. subst v. auto.
Qed.

(** ** C68 *)
Lemma executed_position U t l rid i tk c n : NoDup (y_ids l) -> let y := y_run U t l in
  nth_error (M_AioClient.s_tasks (y_client t y)) i = Some tk -> p_request_id (M_AioClient.t_req tk) = PInt rid -> executed_for U y rid c n ->
  exists p bs, nth_error (L_System1.wlog (M_AioClient.init t) (y_hist y)) p = Some (i, (c, bs)) /\ List.length (filter (on c) (firstn p (L_System1.wlog (M_AioClient.init t) (y_hist y)))) = n.
Proof.
  intros N y Hi Hr (k & items & rest & q & sv & m & b & Hk & _ & C & Nq & Q). destruct (unit_is_write U t l c k items rest n _ Hk C Nq) as ((j, (c', bs)) & Hw & _ & tk' & Htk & Un). fold y in Hw, Htk.
  cbn [fst] in Htk. apply L_System1.filter_nth in Hw as (p & Hp & Hon & Hl). unfold on in Hon. cbn in Hon. apply Nat.eqb_eq in Hon. subst c'.
  destruct Un as [(d' & rid' & q' & Hd' & Er & Eq & Q1 & _)|(rid' & _ & _ & Eq)]; [|discriminate]. injection Eq as <-. cbn [fst] in Er. apply request_id in Er as (Er & _).
  assert (j = i); [|subst j; exists p, bs; auto]. pose proof (yi_ids _ _ _ _ (yinv_run U t l) N) as Nd. fold y in Nd.
  assert (G : forall u tku, nth_error (M_AioClient.s_tasks (y_client t y)) u = Some tku -> nth_error (map (fun x => rid_of (fst x)) (specs (y_client t y))) u = Some (rid_of (M_AioClient.t_req tku))).
  { intros u tku Hu. unfold L_System1.specs. rewrite map_map, nth_error_map, Hu. reflexivity. }
  pose proof (G _ _ Hi) as G1. pose proof (G _ _ Htk) as G2. rewrite NoDup_nth_error in Nd. apply Nd; [apply nth_error_Some; congruence|]. rewrite G1, G2. f_equal. unfold M_AioClient.rid_of at 2. rewrite Hr. cbn. congruence.
Qed.
Lemma choose {A B} (R : A -> B -> Prop) l : (forall x, In x l -> exists y, R x y) -> exists m, Forall2 R l m.
Proof. induction l as [|x l IH]; intros H; [exists []; constructor|]. destruct (H x (or_introl eq_refl)) as (y & Hy). destruct IH as (m & F); [intros z Hz; apply H; right; exact Hz|]. exists (y :: m). constructor; assumption. Qed.
Lemma Forall2_In_l {A B} (R : A -> B -> Prop) l m y : Forall2 R l m -> In y m -> exists x, In x l /\ R x y.
Proof. induction 1 as [|x z l m H F IH]; intros K; [destruct K|]. destruct K as [<-|K]; [exists x; split; [left; reflexivity|exact H]|]. destruct (IH K) as (w & A1 & A2). exists w. split; [right; exact A1|exact A2]. Qed.
Lemma executed_bound U t l rid i tk L : NoDup (y_ids l) -> let y := y_run U t l in
  nth_error (M_AioClient.s_tasks (y_client t y)) i = Some tk -> p_request_id (M_AioClient.t_req tk) = PInt rid -> NoDup L -> (forall c n, In (c, n) L -> executed_for U y rid c n) ->
  (List.length L <= List.length (L_AioClient6.sends i (M_AioClient.init t) (y_hist y)))%nat.
Proof.
  intros N y Hi Hr Nd HL. set (w := L_System1.wlog (M_AioClient.init t) (y_hist y)).
  destruct (choose (fun cn p => exists bs, nth_error w p = Some (i, (fst cn, bs)) /\ List.length (filter (on (fst cn)) (firstn p w)) = snd cn) L) as (ps & F).
  { intros (c, n) H. destruct (executed_position U t l rid i tk c n N Hi Hr (HL c n H)) as (p & bs & A & B). exists p, bs. auto. }
  assert (Lp : List.length L = List.length ps) by (clear - F; induction F; cbn; congruence). rewrite Lp. rewrite <- L_System1.wlog_sends, map_length. fold w. rewrite <- L_System1.positions_length. apply NoDup_incl_length.
  - clear Lp HL. induction F as [|cn p L' ps' (bs & A & B) F IH]; [constructor|]. inversion Nd as [|? ? N1 N2]; subst. constructor; [|exact (IH N2)]. intros H. destruct (Forall2_In_l _ _ _ _ F H) as (cn' & H1 & bs' & A' & B').
    apply N1. assert (cn' = cn); [|subst cn'; exact H1]. destruct cn as (c1, n1), cn' as (c2, n2). cbn in *. rewrite A in A'. injection A' as -> _. congruence.
  - intros p H. destruct (Forall2_In_l _ _ _ _ F H) as (cn & _ & bs & A & _). apply (L_System1.positions_in _ _ _ _ A). cbn. apply Nat.eqb_refl.
Qed.

(** ** For examples *)
Lemma gives_intro s rid r i : match nth_error (M_AioClient.s_tasks s) i with
    Some tk => match M_AioClient.t_pc tk with M_AioClient.Done o => p_request_id (M_AioClient.t_req tk) = PInt rid /\ M_AioClient.caller_sees o = r | _ => False end | None => False end -> gives s rid r.
Proof. destruct (nth_error (M_AioClient.s_tasks s) i) as [tk|] eqn:E; [|intros []]. destruct (M_AioClient.t_pc tk) as [| | | | | |o] eqn:P; intros F; try contradiction. destruct F as (A & B). exists i, tk, o. auto. Qed.
Lemma executed_intro U y rid c n : match nth_error (y_conns y) c with
    Some k => In n (map (fun x => fst (fst (fst x))) (calls_on U k)) /\ match nth_error (v_items (y_server U k)) n with Some (IRequest q) => q_id q = rid | _ => False end | None => False end -> executed_for U y rid c n.
Proof.
  destruct (nth_error (y_conns y) c) as [k|] eqn:E; [|intros []]. intros (A & B). apply in_map_iff in A as ((((n', sv), m), b) & <- & A). cbn [fst] in *. destruct (nth_error (v_items (y_server U k)) n') as [[q| | |]|] eqn:N; try destruct B; try contradiction.
  destruct (run_cuts U (y_reg k) (y_tr k) (y_steps k)) as (rest & C). exists k, (v_items (y_server U k)), rest, q, sv, m, b. auto 10.
Qed.

(** Lemmas behind C99: the asyncio client and threads of a threaded listener put together. *)
From Coq Require Import ZifyBool Strings.String.
From Verif Require Import PyBase L_PyBase PyDict L_PyDict PyInt L_PyInt Struct M_SofaHeader L_SofaHeader M_Package L_Package L_Codec M_RpcId S_Rpc L_RpcId M_Trace L_Trace L_Trace2 L_Trace3 S_Wire M_SyncClient L_SyncClient
  M_AioServer S_Server L_AioServer L_AioServer2 L_AioServer3 L_AioServer4 L_AioServer5 L_AioServer6 L_AioServer7 L_AioServer8 L_AioServer9 S_EndToEnd L_EndToEnd M_System S_System L_System
  M_SockServer S_SockServer L_SockServer M_AioSock S_AioSock.
From Verif Require M_AioClient L_AioClient L_AioClient2 L_AioClient4 L_AioClient6 L_System1 M_Deploy L_Deploy S_SyncSystem.
Open Scope Z_scope.

(** ** The client's part of what happens, as in M_System *)
Definition ylab1 (o : astep) : list ystep := match o with ACall d rid a => [YCall d rid a] | AClient o => [YClient o] | _ => [] end.
Definition ylab (l : list astep) : list ystep := concat (map ylab1 l).
Lemma ylab_snoc l o : ylab (l ++ [o]) = ylab l ++ ylab1 o.
Proof. unfold ylab. rewrite map_app, concat_app. cbn. rewrite app_nil_r. reflexivity. Qed.
Lemma ids_app a b : y_ids (a ++ b) = y_ids a ++ y_ids b.
Proof. unfold y_ids. rewrite map_app, concat_app. reflexivity. Qed.
Lemma ylab_ids l : y_ids (ylab l) = a_ids l.
Proof.
  induction l as [|o l IH]; [reflexivity|]. change (ylab (o :: l)) with (ylab1 o ++ ylab l). rewrite ids_app, IH. destruct o as [d rid a|i f r tr fr ca e|o|c n|c n|c e]; try reflexivity. cbn [ylab1].
  change (a_ids (AClient o :: l)) with (match o with M_AioClient.Beat rid => [rid] | _ => [] end ++ a_ids l). unfold y_ids. cbn. rewrite app_nil_r. reflexivity.
Qed.
Lemma ylab_call l d rid a : In (ACall d rid a) l <-> In (YCall d rid a) (ylab l).
Proof.
  unfold ylab. rewrite in_concat. split.
  - intros H. exists [YCall d rid a]. split; [|left; reflexivity]. apply in_map_iff. exists (ACall d rid a). auto.
  - intros (x & H & K). apply in_map_iff in H as (o & <- & H). destruct o as [d' rid' a'|i f r tr fr ca e|o|c n|c n|c e]; cbn in K; try contradiction; destruct K as [K|[]]; [injection K as -> -> ->; exact H|discriminate].
Qed.

(** ** The invariant *)
Record ainv (U : tables) (t : M_AioClient.timer) (l : list astep) (s : asys) : Prop := {
  ai_thrs : List.length (a_thrs s) = List.length (ins (a_client t s));
  ai_up : forall c x, nth_error (a_thrs s) c = Some x -> prefix (M_Deploy.arrived (M_Deploy.th_net x)) (y_sent (a_client t s) c);
  ai_down : forall c x b, nth_error (a_thrs s) c = Some x -> nth_error (ins (a_client t s)) c = Some b -> prefix b (a_replied U x);
  ai_from : forall x, In x (specs (a_client t s)) -> origin (ylab l) x;
  ai_ids : NoDup (a_ids l) -> NoDup (map (fun x => rid_of (fst x)) (specs (a_client t s)))
}.
Lemma aclient_snoc t s o : a_client t (a_client_step o s) = M_AioClient.run_step o (a_client t s).
Proof. unfold a_client, a_client_step, M_AioClient.run. cbn [a_hist]. rewrite fold_left_app. reflexivity. Qed.
Lemma origin_app l m x : origin l x -> origin (l ++ m) x.
Proof. intros [(d & rid & H & E)|(rid & H & E)]; [left; exists d, rid|right; exists rid]; (split; [apply in_or_app; left; exact H|exact E]). Qed.
Lemma aids_snoc l o : a_ids (l ++ [o]) = a_ids l ++ match o with ACall _ rid _ => [rid] | AClient (M_AioClient.Beat rid) => [rid] | _ => [] end.
Proof. unfold a_ids. rewrite map_app, concat_app. cbn. rewrite app_nil_r. reflexivity. Qed.
Lemma anodup_more l o : NoDup (a_ids (l ++ [o])) -> NoDup (a_ids l).
Proof. rewrite aids_snoc. apply NoDup_left. Qed.
Lemma ainv_label U t l o s : ainv U t l s -> ainv U t (l ++ [o]) s.
Proof. intros [A B C D E]. constructor; auto; [intros x H; rewrite ylab_snoc; apply origin_app; auto|intros N; apply E; apply (anodup_more l o N)]. Qed.
Lemma ainv_client U t l s lab o : ainv U t l s -> let k := a_client t s in let k' := M_AioClient.run_step o k in
  ins k' = ins k -> (specs k' = specs k \/ exists x, specs k' = specs k ++ [x] /\ origin (ylab (l ++ [lab])) x /\ match lab with ACall _ rid _ => [rid] | AClient (M_AioClient.Beat rid) => [rid] | _ => [] end = [rid_of (fst x)]) ->
  ainv U t (l ++ [lab]) (a_client_step o s).
Proof.
  intros [A B C D E] k k' I S. assert (Es : a_client t (a_client_step o s) = k') by apply aclient_snoc. constructor; rewrite Es; cbn [a_client_step a_thrs].
  - rewrite I. exact A.
  - intros c x H. destruct (sent_grows o k c) as (z & Ez). fold k' in Ez. rewrite Ez. apply prefix_app. apply (B c x H).
  - intros c x b Hx Hb. rewrite I in Hb. exact (C c x b Hx Hb).
  - intros x H. destruct S as [S|(z & S & Oz & _)]; rewrite S in H; [rewrite ylab_snoc; apply origin_app, D; exact H|]. apply in_app_iff in H as [H|[<-|[]]]; [rewrite ylab_snoc; apply origin_app, D; exact H|exact Oz].
  - intros N. pose proof (E (anodup_more _ _ N)) as E'. destruct S as [S|(z & S & Oz & Iz)]; rewrite S; [exact E'|]. rewrite map_app. cbn [map]. rewrite aids_snoc, Iz in N.
    apply NoDup_last in N. apply NoDup_snoc; [exact E'|]. intros H. apply N. apply in_map_iff in H as (w & <- & Hw). rewrite <- ylab_ids. apply origin_id. apply D. exact Hw.
Qed.
Lemma prefix_step {A} (a b c : list A) : prefix a b -> S_SyncSystem.prefix_of b c -> prefix a c.
Proof. intros (x & ->) (y & ->). exists (x ++ y). rewrite app_assoc. reflexivity. Qed.
Lemma ainv_arrive U t l s lab c a : ainv U t l s -> (forall x b, nth_error (a_thrs s) c = Some x -> a = Arrive b -> prefix (M_Deploy.arrived (M_Deploy.th_net x) ++ b) (y_sent (a_client t s) c)) ->
  ainv U t (l ++ [lab]) (a_arrive c a s).
Proof.
  intros [A B C D E] H. constructor; change (a_client t (a_arrive c a s)) with (a_client t s); cbn [a_arrive a_thrs].
  - rewrite length_upd. exact A.
  - intros d x Hx. apply nth_upd_inv in Hx as [(<- & y & Hy & ->)|(_ & Hx)]; [|exact (B d x Hx)]. cbn [M_Deploy.th_arrive M_Deploy.th_net].
    destruct (L_Deploy.arrived_snoc (M_Deploy.th_net y) a) as [->|(b & -> & ->)]; [exact (B c y Hy)|exact (H y b Hy eq_refl)].
  - intros d x b Hx Hb. apply nth_upd_inv in Hx as [(<- & y & Hy & ->)|(_ & Hx)]; [|exact (C d x b Hx Hb)]. exact (prefix_step _ _ _ (C c y b Hy Hb) (L_Deploy.th_sent_more U y a)).
  - intros x Hx. rewrite ylab_snoc. apply origin_app, D. exact Hx.
  - intros N. apply E. exact (anodup_more _ _ N).
Qed.
Lemma ainv_step U t l o s : ainv U t l s -> ainv U t (l ++ [o]) (a_step U t o s).
Proof.
  intros Y. destruct o as [d rid a|i f reg tr fr ca e|o|c n|c n|c e]; cbn [a_step].
  - destruct (y_request d rid) as [p|e] eqn:Er; [|apply ainv_label; exact Y]. destruct (L_System1.step_moves (M_AioClient.Call p a) (a_client t s)) as (I & S).
    apply ainv_client; [exact Y|exact I|]. right. exists (p, a). split; [exact S|]. split; [|cbn; apply request_id in Er as (-> & _); reflexivity].
    left. exists d, rid. split; [rewrite ylab_snoc; apply in_or_app; right; left; reflexivity|exact Er].
  - destruct (L_System1.step_moves (M_AioClient.DialOk i) (a_client t s)) as (I & S). cbv zeta. rewrite aclient_snoc.
    destruct (skipn (List.length (M_AioClient.s_links (a_client t s))) (M_AioClient.s_links (M_AioClient.run_step (M_AioClient.DialOk i) (a_client t s)))) as [|k r] eqn:Ek; [apply ainv_label; exact Y|].
    destruct I as [I|I].
    { exfalso. assert (L : List.length (M_AioClient.s_links (M_AioClient.run_step (M_AioClient.DialOk i) (a_client t s))) = List.length (M_AioClient.s_links (a_client t s))) by (rewrite !links_ins, I; reflexivity).
      rewrite <- L, skipn_all in Ek. discriminate. }
    destruct Y as [A B C D E].
    match goal with |- ainv _ _ _ ?z => assert (Es : a_client t z = M_AioClient.run_step (M_AioClient.DialOk i) (a_client t s)) by (rewrite <- aclient_snoc; reflexivity) end.
    constructor; rewrite Es; cbn [a_thrs].
    + rewrite I, !app_length, A. reflexivity.
    + intros c x H. destruct (sent_grows (M_AioClient.DialOk i) (a_client t s) c) as (z & ->). apply prefix_app. destruct (Nat.lt_ge_cases c (List.length (a_thrs s))) as [Lc|Lc].
      * rewrite nth_error_app1 in H by exact Lc. exact (B c x H).
      * rewrite nth_error_app2 in H by exact Lc. apply nth_error_In in H. destruct H as [<-|[]]. exists (y_sent (a_client t s) c). reflexivity.
    + intros c x b Hk Hb. rewrite I in Hb. destruct (Nat.lt_ge_cases c (List.length (a_thrs s))) as [Lc|Lc].
      * rewrite nth_error_app1 in Hk by exact Lc. rewrite nth_error_app1 in Hb by (rewrite <- A; exact Lc). exact (C c x b Hk Hb).
      * rewrite nth_error_app2 in Hb by (rewrite <- A; exact Lc). apply nth_error_In in Hb. destruct Hb as [<-|[]]. eexists. reflexivity.
    + rewrite S. intros x H. rewrite ylab_snoc. apply origin_app, D. exact H.
    + rewrite S. intros N. apply E. exact (anodup_more _ _ N).
  - pose proof (L_System1.step_moves o (a_client t s)) as M. destruct o as [r ad|i|i|i|i|i|i|i|i|c bs|c|c|c|rid|]; cbn [L_System1.moves] in M;
      try (apply ainv_label; exact Y); try (apply ainv_client; [exact Y|exact (proj1 M)|left; exact (proj2 M)]).
    destruct M as (I & M). apply ainv_client; [exact Y|exact I|]. destruct M as [M|(p & a & Hp & M)]; [left; exact M|]. right. exists (p, Ok a). split; [exact M|].
    split; [|cbn; apply beat_id in Hp as (-> & _); reflexivity]. right. exists rid. split; [rewrite ylab_snoc; apply in_or_app; right; left; reflexivity|exact Hp].
  - destruct (nth_error (a_thrs s) c) as [x|] eqn:Hx; [|apply ainv_label; exact Y]. apply ainv_arrive; [exact Y|]. intros y b Hy [= <-]. assert (y = x) by congruence. subst y.
    apply prefix_next. exact (ai_up _ _ _ _ Y c x Hx).
  - destruct (nth_error (a_thrs s) c) as [x|] eqn:Hx; [|apply ainv_label; exact Y]. destruct (nth_error (M_AioClient.s_links (a_client t s)) c) as [k|] eqn:Hk; [|apply ainv_label; exact Y].
    set (bs := firstn n _). destruct (L_System1.step_moves (M_AioClient.Feed c bs) (a_client t s)) as (I & S). destruct Y as [A B C D E].
    assert (Hi : nth_error (ins (a_client t s)) c = Some (M_AioClient.k_in k)) by (unfold L_System1.ins; rewrite nth_error_map, Hk; reflexivity).
    constructor; rewrite aclient_snoc; cbn [a_client_step a_thrs].
    + rewrite I, A. clear. generalize (ins (a_client t s)) as v. intros v. revert c. induction v as [|z v IH]; intros [|c]; cbn; congruence.
    + intros d y H. destruct (sent_grows (M_AioClient.Feed c bs) (a_client t s) d) as (z & ->). apply prefix_app. exact (B d y H).
    + intros d y b Hy Hb. rewrite I in Hb. apply L_AioClient.upd_get in Hb as [(N & Hb)|(<- & b0 & Hb & ->)]; [exact (C d y b Hy Hb)|].
      assert (y = x) by congruence. assert (b0 = M_AioClient.k_in k) by congruence. subst. apply prefix_next. exact (C c x _ Hx Hi).
    + rewrite S. intros z H. rewrite ylab_snoc. apply origin_app, D. exact H.
    + rewrite S. intros N. apply E. exact (anodup_more _ _ N).
  - apply ainv_arrive; [exact Y|]. intros x b _ H. destruct e; discriminate.
Qed.
Lemma ainv_run U t l : ainv U t l (a_run U t l).
Proof.
  induction l as [|o l IH] using rev_ind.
  - constructor; cbn; try (intros c k H; destruct c; discriminate); try reflexivity; [intros x []|constructor].
  - unfold a_run. rewrite fold_left_app. cbn [fold_left]. apply ainv_step. exact IH.
Qed.

(** ** What is on a connection *)
Definition awritten (t : M_AioClient.timer) (s : asys) (c : nat) : list (nat * (nat * bytes)) := filter (on c) (L_System1.wlog (M_AioClient.init t) (a_hist s)).
Lemma asent_written t s c : y_sent (a_client t s) c = concat (map (fun w => snd (snd w)) (awritten t s c)).
Proof.
  unfold y_sent, awritten, a_client. rewrite L_System1.run_written. generalize (L_System1.wlog (M_AioClient.init t) (a_hist s)). intros w. f_equal.
  induction w as [|x w IH]; [reflexivity|]. cbn [map filter]. unfold on at 1. destruct (Nat.eqb (fst (snd x)) c); [cbn [map]; rewrite IH; reflexivity|exact IH].
Qed.
Lemma awrites_are_units U t l : let s := a_run U t l in forall w, In w (L_System1.wlog (M_AioClient.init t) (a_hist s)) -> exists i, unit_written (ylab l) (a_client t s) w i.
Proof.
  intros s (i, (c, bs)) H. apply In_nth_error in H as (p & H). destruct (L_System1.wlog_task _ _ _ _ _ _ H) as (tk & Hi & _ & T). fold (a_client t s) in Hi.
  pose proof (ainv_run U t l) as Y. fold s in Y. assert (Hx : In (M_AioClient.t_req tk, M_AioClient.t_addr tk) (specs (a_client t s))) by (unfold L_System1.specs; apply in_map_iff; exists tk; split; [reflexivity|eapply nth_error_In; exact Hi]).
  destruct (ai_from _ _ _ _ Y _ Hx) as [(d & rid & In1 & Er)|(rid & In1 & Er)]; cbn [fst snd] in *.
  - destruct (call_unit d rid _ bs Er T) as (q & O & Q). exists (IRequest q). split; [exact O|]. exists tk. split; [exact Hi|]. left. exists d, rid, q. auto 10.
  - pose proof (beat_unit _ _ _ Er T) as O. exists (IHeartbeat rid). split; [exact O|]. exists tk. split; [exact Hi|]. right. exists rid. auto.
Qed.
(** what a thread reads is the first write of the client on the connection *)
Lemma thread_reads U t l c x i : let s := a_run U t l in nth_error (a_thrs s) c = Some x -> begins (received (M_Deploy.th_net x)) i ->
  exists w, nth_error (awritten t s c) 0 = Some w /\ unit_written (ylab l) (a_client t s) w i.
Proof.
  intros s Hx (a & rest & E & O). pose proof (ainv_run U t l) as Y. fold s in Y. destruct (ai_up _ _ _ _ Y c x Hx) as (post & P). rewrite asent_written, L_Deploy.arrived_received, E in P.
  assert (AU : forall w, In w (awritten t s c) -> exists i, unit_written (ylab l) (a_client t s) w i) by (intros w Hw; apply filter_In in Hw as (Hw & _); exact (awrites_are_units U t l w Hw)).
  destruct (awritten t s c) as [|w ws]; [|exists w; split; [reflexivity|]].
  - cbn in P. symmetry in P. rewrite <- app_assoc in P. destruct (one_some _ _ _ O P).
  - destruct (AU w (or_introl eq_refl)) as (j & Uj). assert (j = i); [|subst j; exact Uj]. cbn [map concat] in P. rewrite <- app_assoc in P. symmetry in P.
    destruct (one_fun _ _ _ _ _ _ O (proj1 Uj) P) as (_ & _ & ->). reflexivity.
Qed.

(** ** A frame that the client has consumed is the one that the thread has written *)
Lemma reply_frame reg call D o bs : reply_for reg call D o bs -> exists id cmd st c, response bs id cmd st c.
Proof. intros [(id & _ & R & _)|[(q & _ & _ & R & _)|(q & sv & m & c & v & _ & _ & _ & _ & _ & _ & R)]]; eauto. Qed.
Lemma sent_whole reg call D o w frame bs f : response_layout frame f -> sent_of w [frame] bs -> reply_for reg call D o bs -> bs = frame.
Proof.
  intros L (p & more & E & -> & _) R. injection E as <-. destruct (reply_frame _ _ _ _ _ R) as (? & ? & ? & ? & g & Lg & _). symmetry. apply (L_Codec.resp_prefix_free _ _ more [] _ _ L Lg). rewrite app_nil_r. reflexivity.
Qed.
Lemma aframe U t l c k frame : let s := a_run U t l in nth_error (M_AioClient.s_links (a_client t s)) c = Some k -> In frame (M_AioClient.k_frames k) ->
  exists x, nth_error (a_thrs s) c = Some x /\ o_sent (M_Deploy.th_out U x) = [frame].
Proof.
  intros s Hk Hf. pose proof (ainv_run U t l) as Y. fold s in Y.
  assert (Hi : nth_error (ins (a_client t s)) c = Some (M_AioClient.k_in k)) by (unfold L_System1.ins; rewrite nth_error_map, Hk; reflexivity).
  destruct (nth_error (a_thrs s) c) as [x|] eqn:Hx; [|exfalso; apply nth_error_None in Hx; rewrite (ai_thrs _ _ _ _ Y) in Hx; apply nth_error_None in Hx; congruence].
  exists x. split; [reflexivity|]. destruct (ai_down _ _ _ _ Y c x _ Hx Hi) as (post & E). unfold a_replied in E. pose proof (L_AioClient.run_links_ok t (a_hist s) c k Hk) as LO. destruct (L_AioClient.lo_prefix _ LO) as (rest & P). rewrite P in E.
  pose proof (sock_effects (M_Deploy.th_fuel x) U (M_Deploy.th_reg x) (M_Deploy.th_tr x) (M_Deploy.th_fresh x) (M_Deploy.th_call x) (M_Deploy.th_err x) (M_Deploy.th_net x)) as (So & _).
  fold (M_Deploy.th_out U x) in So.
  assert (Hw : exists fs more, concat fs = concat (o_sent (M_Deploy.th_out U x)) ++ more /\ (fs = [] \/ exists bs p, fs = [bs] /\ o_sent (M_Deploy.th_out U x) = [p] /\ bs = p ++ more) /\ Forall L_AioClient.frame_ok fs).
  { destruct So as [->|(bs & (p & more & -> & Eb & _) & R)]; [exists [], []; split; [reflexivity|split; [auto|constructor]]|]. exists [bs], more. split; [cbn; rewrite !app_nil_r; exact Eb|]. split; [right; exists bs, p; auto|]. constructor; [|constructor]. apply L_AioClient4.frame_ok_iff. destruct (reply_frame _ _ _ _ _ R) as (? & ? & ? & ? & f & Lay & _). eauto. }
  destruct Hw as (fs & more & Ef & Fs & Fo). assert (E' : concat (M_AioClient.k_frames k) ++ (rest ++ post ++ more) = concat fs ++ []) by (rewrite app_nil_r, Ef, E, !app_assoc; reflexivity).
  assert (K : In frame fs).
  { destruct (L_AioClient4.frames_comparable _ _ _ _ (L_AioClient.lo_frames _ LO) Fo E') as [(r & R)|(r & R)].
    - rewrite R. apply in_or_app. left. exact Hf.
    - assert (r = []); [|subst r; rewrite app_nil_r in R; rewrite R in Hf; exact Hf]. rewrite R, concat_app, <- app_assoc in E'. apply app_inv_head in E'. apply app_eq_nil in E' as (E' & _).
      pose proof (L_AioClient.lo_frames _ LO) as F. rewrite R in F. apply Forall_app in F as (_ & F). destruct r as [|a r]; [reflexivity|]. inversion F as [|? ? (A & _) _]; subst.
      cbn [concat] in E'. apply app_eq_nil in E' as (-> & _). cbv in A. congruence. }
  destruct Fs as [->|(bs & p & -> & Sp & Eb)]; [destruct K|]. destruct K as [->|[]]. rewrite Sp in E |- *. cbn in E. rewrite app_nil_r in E. apply in_split in Hf as (f1 & f2 & Ek). rewrite Ek, concat_app in E. cbn [concat] in E.
  assert (L : List.length more = 0%nat) by (apply (f_equal (@List.length _)) in E, Eb; rewrite !app_length in E; rewrite app_length in Eb; lia). destruct more; [|discriminate L]. rewrite app_nil_r in Eb. rewrite Eb. reflexivity.
Qed.

(** ** The theorems *)
Lemma abrought U t l rid v : let s := a_run U t l in gives (a_client t s) rid (Ok v) ->
  exists c lk x frame ct, nth_error (M_AioClient.s_links (a_client t s)) c = Some lk /\ nth_error (a_thrs s) c = Some x /\ o_sent (M_Deploy.th_out U x) = [frame] /\ response frame rid 2 0 ct /\ v = PBytes ct.
Proof.
  intros s (i & tk & o & Hi & Hr & Ho & Hv). destruct o as [|p|e]; try discriminate. cbn in Hv. injection Hv as Hv.
  pose proof (L_AioClient.inv_run t (a_hist s)) as I. destruct (L_AioClient.i_done _ I i tk p Hi Ho) as (A & (B1 & B2) & (c & lk & frame & Hk & Hf & Hs)).
  destruct (aframe U t l c lk frame Hk Hf) as (x & Hx & So). fold s in Hx.
  pose proof (sock_effects (M_Deploy.th_fuel x) U (M_Deploy.th_reg x) (M_Deploy.th_tr x) (M_Deploy.th_fresh x) (M_Deploy.th_call x) (M_Deploy.th_err x) (M_Deploy.th_net x)) as (Se & _).
  fold (M_Deploy.th_out U x) in Se. rewrite So in Se. destruct Se as [Se|(bs & Se & Rp)]; [discriminate|].
  assert (bs = frame) by (pose proof Hs as Hs'; change BoltResponse with (resp_class (cls_name BoltResponse)) in Hs'; apply from_stream_resp_iff in Hs' as (f' & kvs & hb & Lay' & _); exact (sent_whole _ _ _ _ _ _ _ _ Lay' Se Rp)). subst bs.
  destruct (reply_frame _ _ _ _ _ Rp) as (id & cmd & st & ct & R). pose proof R as (f & Lay & _ & _ & F1 & F2 & F3 & F4 & _).
  change BoltResponse with (resp_class (cls_name BoltResponse)) in Hs. apply from_stream_resp_iff in Hs as (f' & kvs & hb & Lay' & _ & _ & _ & _ & ->).
  assert (f' = f) by (apply resp_layout_iff in Lay as (_ & _ & ->); apply resp_layout_iff in Lay' as (_ & _ & ->); reflexivity). subst f'. cbn in A, B1, B2, Hv.
  assert (H : id = rid) by (unfold M_AioClient.rid_of in A; rewrite Hr in A; cbn in A; congruence). assert (H0 : cmd = 2) by (rewrite <- F1; exact B1). assert (H1 : st = 0) by (rewrite <- F3; exact B2). rewrite H, H0, H1 in R.
  exists c, lk, x, frame, ct. rewrite F4 in Hv. auto 10.
Qed.
Lemma awrite_addr t s c w tk : In w (awritten t s c) -> nth_error (M_AioClient.s_tasks (a_client t s)) (fst w) = Some tk ->
  exists lk, nth_error (M_AioClient.s_links (a_client t s)) c = Some lk /\ M_AioClient.t_addr tk = Ok (M_AioClient.k_addr lk).
Proof.
  destruct w as (j, (c', bs)). intros Hw Htk. apply filter_In in Hw as (Hw & Hon). unfold on in Hon. cbn in Hon. apply Nat.eqb_eq in Hon. subst c'.
  apply In_nth_error in Hw as (pp & Hw). destruct (L_System1.wlog_task _ _ _ _ _ _ Hw) as (tk2 & Htk2 & Sd & _). cbn [fst] in Htk. fold (a_client t s) in Htk2. assert (tk2 = tk) by congruence. subst tk2.
  destruct (L_AioClient6.o_sent _ _ _ _ (L_AioClient6.w_tasks _ _ (L_AioClient6.wr_run t (a_hist s)) j tk Htk2) c bs Sd) as (_ & ad & Ead & Lad).
  apply L_AioClient6.addr_link in Lad as (lk & Hk & <-). exists lk. auto.
Qed.
Lemma called_as_asked U t l c x sv m b ctx : let s := a_run U t l in nth_error (a_thrs s) c = Some x -> In (sv, m, b, ctx) (called_on U x) ->
  called_on U x = [(sv, m, b, ctx)] /\ exists d rid lk q, In (ACall d rid (Ok (M_AioClient.k_addr lk))) l /\ nth_error (M_AioClient.s_links (a_client t s)) c = Some lk /\
    sv = y_interface d /\ m = y_method d /\ b = y_content d /\ begins (received (M_Deploy.th_net x)) (IRequest q) /\ q_id q = rid.
Proof.
  intros s Hx Hc. unfold called_on in *.
  pose proof (sock_effects (M_Deploy.th_fuel x) U (M_Deploy.th_reg x) (M_Deploy.th_tr x) (M_Deploy.th_fresh x) (M_Deploy.th_call x) (M_Deploy.th_err x) (M_Deploy.th_net x)) as (_ & Ce).
  fold (M_Deploy.th_out U x) in Ce. destruct Ce as [Ce|(q & sv' & m' & c' & Bq & Ns & Nm & _ & _ & Ce)]; rewrite Ce in Hc |- *; [destruct Hc|]. destruct Hc as [Hc|[]]. injection Hc as -> -> <- ->. split; [reflexivity|].
  destruct (thread_reads U t l c x _ Hx Bq) as (w & Hw & _ & tk & Htk & Un). fold s in Hw, Htk. apply nth_error_In in Hw. destruct (awrite_addr t s c w tk Hw Htk) as (lk & Hk & Ea).
  destruct Un as [(d & rid & q' & Hd & _ & Eq & Q1 & Q2 & Q3)|(rid & _ & _ & Eq)]; [|discriminate]. injection Eq as <-. cbn [fst snd] in Hd. rewrite Ea in Hd. apply ylab_call in Hd.
  exists d, rid, lk, q. rewrite (names_interface _ _ _ Q3 Ns), (names_the_method _ _ _ Q3 Nm). auto 10.
Qed.
Lemma avalue U t l d rid a v : NoDup (a_ids l) -> let s := a_run U t l in In (ACall d rid a) l -> gives (a_client t s) rid (Ok v) ->
  exists c x lk ctx, nth_error (a_thrs s) c = Some x /\ nth_error (M_AioClient.s_links (a_client t s)) c = Some lk /\ a = Ok (M_AioClient.k_addr lk) /\
    called_on U x = [(y_interface d, y_method d, y_content d, ctx)] /\ M_Deploy.th_call x (y_interface d) (y_method d) (y_content d) ctx = Some (Ok v).
Proof.
  intros N s Hd G. destruct (abrought U t l rid v G) as (c & lk & x & frame & ct & Hk & Hx & So & R & ->). fold s in Hk, Hx.
  pose proof (sock_effects (M_Deploy.th_fuel x) U (M_Deploy.th_reg x) (M_Deploy.th_tr x) (M_Deploy.th_fresh x) (M_Deploy.th_call x) (M_Deploy.th_err x) (M_Deploy.th_net x)) as (Se & _).
  fold (M_Deploy.th_out U x) in Se. rewrite So in Se. destruct Se as [Se|(bs & Se & Rp)]; [discriminate|].
  assert (bs = frame) by (pose proof R as (f' & Lay' & _); exact (sent_whole _ _ _ _ _ _ _ _ Lay' Se Rp)). subst bs.
  destruct Rp as [(id & _ & R' & _)|[(q & _ & _ & R' & _)|(q & sv & m & ctx & v & Bq & Ns & Nm & _ & Oc & Ca & R')]]; destruct (response_fun _ _ _ _ _ _ _ _ _ R R') as (E1 & E2 & E3 & E4); try discriminate.
  subst v. destruct (thread_reads U t l c x _ Hx Bq) as (w & Hw & _ & tk & Htk & Un). fold s in Hw, Htk. apply nth_error_In in Hw. destruct (awrite_addr t s c w tk Hw Htk) as (lk' & Hk' & Ea). assert (lk' = lk) by congruence. subst lk'.
  destruct Un as [(d' & rid' & q' & Hd' & _ & Eq & Q1 & Q2 & Q3)|(rid' & _ & _ & Eq)]; [|discriminate]. injection Eq as <-. cbn [fst snd] in Hd'.
  assert (E : rid' = rid) by congruence. rewrite E in Hd'. apply ylab_call in Hd. rewrite <- ylab_ids in N. destruct (label_unique _ d rid a d' _ N Hd Hd') as (<- & ->).
  rewrite (names_interface _ _ _ Q3 Ns), (names_the_method _ _ _ Q3 Nm), Q2 in Oc, Ca. exists c, x, lk, ctx. auto 10.
Qed.
(** at most one value for each connection *)
Lemma avalues_bounded U t l R : let s := a_run U t l in NoDup R -> (forall rid, In rid R -> exists v, gives (a_client t s) rid (Ok v)) -> (List.length R <= List.length (M_AioClient.s_links (a_client t s)))%nat.
Proof.
  intros s N H. destruct (choose (fun rid c => exists x frame ct, nth_error (a_thrs s) c = Some x /\ o_sent (M_Deploy.th_out U x) = [frame] /\ response frame rid 2 0 ct /\ (c < List.length (M_AioClient.s_links (a_client t s)))%nat) R) as (cs & F).
  { intros rid Hr. destruct (H rid Hr) as (v & G). destruct (abrought U t l rid v G) as (c & lk & x & frame & ct & Hk & Hx & So & Rp & _). exists c, x, frame, ct. repeat (split; [assumption|]). apply nth_error_Some. fold s in Hk. congruence. }
  assert (L : List.length R = List.length cs) by (clear - F; induction F; cbn; congruence). rewrite L, <- (seq_length (List.length (M_AioClient.s_links (a_client t s))) 0). apply NoDup_incl_length.
  - clear L H. induction F as [|rid c R' cs' (x & frame & ct & Hx & So & Rp & _) F IH]; [constructor|]. inversion N as [|? ? N1 N2]; subst. constructor; [|exact (IH N2)]. intros K.
    destruct (Forall2_In_l _ _ _ _ F K) as (rid' & Hr' & x' & frame' & ct' & Hx' & So' & Rp' & _). assert (x' = x) by congruence. subst x'. assert (frame' = frame) by congruence. subst frame'.
    destruct (response_fun _ _ _ _ _ _ _ _ _ Rp Rp') as (-> & _). contradiction.
  - intros c Hc. destruct (Forall2_In_l _ _ _ _ F Hc) as (rid & _ & x & frame & ct & _ & _ & _ & Lt). apply in_seq. lia.
Qed.
(** how often the method of a call is executed *)
Lemma aserved_position U t l rid i tk c : NoDup (a_ids l) -> let s := a_run U t l in
  nth_error (M_AioClient.s_tasks (a_client t s)) i = Some tk -> p_request_id (M_AioClient.t_req tk) = PInt rid -> served_for U s rid c ->
  exists p bs, nth_error (L_System1.wlog (M_AioClient.init t) (a_hist s)) p = Some (i, (c, bs)).
Proof.
  intros N s Hi Hr (x & q & Hx & _ & Bq & Q). destruct (thread_reads U t l c x _ Hx Bq) as ((j, (c', bs)) & Hw & _ & tk' & Htk & Un). fold s in Hw, Htk.
  cbn [fst] in Htk. apply L_System1.filter_nth in Hw as (p & Hp & Hon & Hl). unfold on in Hon. cbn in Hon. apply Nat.eqb_eq in Hon. subst c'.
  destruct Un as [(d' & rid' & q' & Hd' & Er & Eq & Q1 & _)|(rid' & _ & _ & Eq)]; [|discriminate]. injection Eq as <-. cbn [fst] in Er. apply request_id in Er as (Er & _).
  assert (j = i); [|subst j; exists p, bs; auto]. pose proof (ai_ids _ _ _ _ (ainv_run U t l) N) as Nd. fold s in Nd.
  assert (G : forall u tku, nth_error (M_AioClient.s_tasks (a_client t s)) u = Some tku -> nth_error (map (fun x => rid_of (fst x)) (specs (a_client t s))) u = Some (rid_of (M_AioClient.t_req tku))).
  { intros u tku Hu. unfold L_System1.specs. rewrite map_map, nth_error_map, Hu. reflexivity. }
  pose proof (G _ _ Hi) as G1. pose proof (G _ _ Htk) as G2. rewrite NoDup_nth_error in Nd. apply Nd; [apply nth_error_Some; congruence|]. rewrite G1, G2. f_equal. unfold M_AioClient.rid_of at 2. rewrite Hr. cbn. congruence.
Qed.
Lemma aserved_bound U t l rid i tk L : NoDup (a_ids l) -> let s := a_run U t l in
  nth_error (M_AioClient.s_tasks (a_client t s)) i = Some tk -> p_request_id (M_AioClient.t_req tk) = PInt rid -> NoDup L -> (forall c, In c L -> served_for U s rid c) ->
  (List.length L <= List.length (L_AioClient6.sends i (M_AioClient.init t) (a_hist s)))%nat.
Proof.
  intros N s Hi Hr Nd HL. set (w := L_System1.wlog (M_AioClient.init t) (a_hist s)).
  destruct (choose (fun c p => exists bs, nth_error w p = Some (i, (c, bs))) L) as (ps & F).
  { intros c H. destruct (aserved_position U t l rid i tk c N Hi Hr (HL c H)) as (p & bs & A). exists p, bs. exact A. }
  assert (Lp : List.length L = List.length ps) by (clear - F; induction F; cbn; congruence). rewrite Lp. rewrite <- L_System1.wlog_sends, map_length. fold w. rewrite <- L_System1.positions_length. apply NoDup_incl_length.
  - clear Lp HL. induction F as [|c p L' ps' (bs & A) F IH]; [constructor|]. inversion Nd as [|? ? N1 N2]; subst. constructor; [|exact (IH N2)]. intros H. destruct (Forall2_In_l _ _ _ _ F H) as (c' & H1 & bs' & A').
    apply N1. assert (c' = c); [|subst c'; exact H1]. congruence.
  - intros p H. destruct (Forall2_In_l _ _ _ _ F H) as (c & _ & bs & A). apply (L_System1.positions_in _ _ _ _ A). cbn. apply Nat.eqb_refl.
Qed.
Lemma aserved_three U t l rid i tk L : NoDup (a_ids l) -> let s := a_run U t l in
  nth_error (M_AioClient.s_tasks (a_client t s)) i = Some tk -> p_request_id (M_AioClient.t_req tk) = PInt rid -> NoDup L -> (forall c, In c L -> served_for U s rid c) ->
  (List.length L <= 1 + failed_flushes i s)%nat /\ (List.length L <= 3)%nat.
Proof.
  intros N s Hi Hr Nd HL. pose proof (aserved_bound U t l rid i tk L N Hi Hr Nd HL) as B. fold s in B.
  pose proof (L_AioClient6.w_tasks _ _ (L_AioClient6.wr_run t (a_hist s)) i tk Hi) as W.
  pose proof (L_AioClient6.o_fails _ _ _ _ W) as F. pose proof (L_AioClient6.o_three _ _ _ _ W) as T. unfold L_AioClient6.fails in F. unfold failed_flushes. lia.
Qed.

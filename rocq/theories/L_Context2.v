(** Lemmas behind C130: the contexts of calls in a deployment. *)
From Coq Require Import Lia ZifyBool Strings.String.
From Verif Require Import PyBase L_PyBase PyDict L_PyDict PyInt M_SofaHeader L_SofaHeader M_Package L_Package L_Codec M_RpcId S_Rpc L_RpcId M_Trace L_Trace L_Trace2 L_Trace3 S_Wire M_SyncClient
  M_AioServer S_Server L_AioServer L_AioServer2 L_AioServer3 L_AioServer4 L_AioServer5 L_AioServer6 L_AioServer7 L_AioServer8 L_AioServer9 M_SockServer S_SockServer L_SockServer S_EndToEnd L_EndToEnd
  M_System S_System L_System M_SyncSystem S_SyncSystem L_SyncSystem L_Settle M_Listener S_Listener L_Listener M_Net S_Net L_Net M_Deploy S_Deploy L_Deploy M_World S_World L_World S_Context L_Context.
From Verif Require M_AioClient L_AioClient L_AioClient4 L_AioClient6 L_System1 L_Rest1 L_AioSock.
Open Scope nat_scope.

(** the headers of a traced call carry its context *)
Lemma carries U d h f x : tables_ok U -> traced U d -> build_header (y_baggage d) (y_interface d) (y_method d) (y_app d) (y_uid d) (y_extra d) = Ok h ->
  arrives U h f = Some x -> forall k, dget k x = dget k (y_baggage d).
Proof.
  intros HU ((ops & c & Hb) & Hp & He & Hx) Bh A. pose proof (reachable_twf U ops) as W. pose proof (text_wf U _ _ _ W Hb) as Hwb.
  destruct (build_keys _ _ _ _ _ _ h Hp Bh He) as (Hs & Hh & Hr). destruct (build_header_prefixed _ _ _ _ _ _ h Hwb He Hs Hh Hr Hx Bh) as (Wh & G).
  destruct (extract_carrier U (trun U t_init ops) c (y_baggage d) (trun U t_init []) h f HU W (reachable_twf U []) Hb Wh G) as (st3 & c' & b' & o & o' & Ex & B' & K & _).
  rewrite (extract_text U _ h f st3 c' Ex st3 (more_refl _)), A in B'. injection B' as <-. exact K.
Qed.
(** every method call at an end is in the context that its request carries *)
Lemma end_context U t n regs s e D j : dok U t n regs s -> end_got s e = Some D -> any_started_at U s e j ->
  exists u items rest q f x, for_unit s e j u /\ cuts D items rest /\ nth_error items u = Some (IRequest q) /\ arrives U (q_header q) f = Some x /\ context_at U s e j = Some x.
Proof.
  intros Dk Hg Hj. destruct e as [a m|th]; cbn [end_got any_started_at context_at for_unit] in *.
  - destruct Hj as (x & b & Hx & Hb & Sb). rewrite Hx in Hg. cbn [option_map] in Hg. injection Hg as <-. destruct (do_net _ _ _ _ _ Dk) as (zl & Hz). assert (Hx' := Hx). rewrite Hz in Hx'. destruct (zconn_run _ _ _ _ _ _ _ _ Hx') as (reg & tr & h & ->).
    destruct (good_run U reg tr h) as ((_ & _ & J) & _). destruct (jo_named _ J j b Hb) as (q & Nq & _). destruct (run_cuts U reg tr h) as (rest & Cu).
    destruct (job_context U reg tr h j b q Hb Nq) as (f & d & A & B). exists (j_frame b), (v_items (srun U reg tr h)), rest, q, f, d. rewrite in_run, Hx, Hb. split; [exists (srun U reg tr h), b; auto|]. auto.
  - destruct Hj as (x & cl & Hx & Hc). rewrite Hx in Hg. cbn [option_map] in Hg. injection Hg as <-. rewrite Hx, Hc. destruct cl as (sm, c).
    pose proof (sock_effects (th_fuel x) U (th_reg x) (th_tr x) (th_fresh x) (th_call x) (th_err x) (th_net x)) as (_ & Ce). fold (th_out U x) in Ce. destruct Ce as [Ce|(q & sv & m & c' & Bq & _ & _ & _ & _ & Ce)]; [rewrite Ce in Hc; destruct j; discriminate|].
    assert (j = 0) by (rewrite Ce in Hc; destruct j as [|[|]]; [reflexivity|discriminate..]).
    pose proof (thread_context (th_fuel x) U (th_reg x) (th_tr x) (th_fresh x) (th_call x) (th_err x) (th_net x) q j sm c Hc Bq) as Ex. fold (th_out U x) in Ex. rewrite <- arrived_received in Bq. destruct (begins_cuts _ _ Bq) as (rest & Cu).
    pose proof (extract_text U _ _ _ _ _ Ex _ (more_refl _)) as E. destruct (arrives U (q_header q) (th_fresh x)) as [d|] eqn:Ea; [exists 0, [IRequest q], rest, q, (th_fresh x), d; auto 10|]. exfalso.
    unfold extract in Ex. unfold arrives in Ea. cbv zeta in Ea. destruct (dmem _ _ || dmem _ _); [discriminate|]. unfold context_root in Ex. destruct (mk_rpcid _ _); discriminate.
Qed.
(** the requests within what has arrived of one request *)
Lemma within_one bs q D items rest u q' : one bs (IRequest q) -> prefix D bs -> cuts D items rest -> nth_error items u = Some (IRequest q') -> q' = q.
Proof.
  intros O (post & E) C Nu. pose proof (cuts_more _ _ _ post C) as Cm. rewrite <- E in Cm. assert (Cb : cuts bs [IRequest q] []) by (rewrite <- (app_nil_r bs); apply Cuts_cons; [exact O|intros []|constructor]).
  assert (H : nth_error [IRequest q] u = Some (IRequest q')).
  { destruct (cuts_comparable _ _ _ _ _ Cm Cb) as [(m & ->)|(m & Em)]; [apply nth_app_some; exact Nu|]. rewrite Em in Cm, Nu. assert (m = []) by (apply (cuts_all _ _ _ _ Cb) with (2 := Cm); constructor; [intros []|constructor]). subst m. rewrite app_nil_r in Nu. exact Nu. }
  destruct u as [|[|]]; [|discriminate..]. cbn in H. congruence.
Qed.

(** ** Synchronous calls *)
Lemma wrote_header c out : wrote_by c out -> exists bs q h, one bs (IRequest q) /\ q_header q = h /\
  build_header (y_baggage (c_what c)) (y_interface (c_what c)) (y_method (c_what c)) (y_app (c_what c)) (y_uid (c_what c)) (y_extra (c_what c)) = Ok h /\ prefix_of out bs.
Proof.
  intros (bs & k & E & ->). apply bind_Ok in E as (p & E & T). unfold c_request in E. set (d := c_what c) in *. cbv zeta in E.
  set (pt := if c_oneway c then PTYPE_ONEWAY else PTYPE_REQUEST) in *. set (tm := py_or (if c_oneway c then PNone else y_timeout d) (PInt (-1))) in *.
  set (d' := {| y_baggage := y_baggage d; y_interface := y_interface d; y_method := y_method d; y_app := y_app d; y_uid := y_uid d; y_extra := y_extra d; y_content := y_content d; y_ptype := pt; y_timeout := tm |}).
  destruct (call_unit_more d' (c_rid c) p bs E T) as (q & h & O & _ & _ & _ & Q & _ & Bh & _). exists bs, q, h. split; [exact O|]. split; [exact Q|]. split; [exact Bh|apply take_prefix].
Qed.
Lemma sync_context U t n regs s i c w e j : dok U t n regs s -> tables_ok U -> nth_error (d_calls s) i = Some c -> traced U (c_what c) -> connection_of s i w e -> any_started_at U s e j ->
  in_context U s e j (c_what c).
Proof.
  intros D HU Hi Tr (x & Hx & <- & Hp) Hj. pose proof (do_wires _ _ _ _ _ D w x Hx) as [_ (c0 & B1 & B2 & _) P _]. assert (c0 = c) by congruence. subst c0. rewrite Hp in P. destruct P as (got & sent & Hg & Pg & Hs & _).
  destruct (end_context U t n regs s e got j D Hg Hj) as (u & items & rest & q & f & b & _ & C & Nu & A & K).
  destruct B2 as [B2|(B2 & _)].
  - exfalso. rewrite B2 in Pg. apply prefix_nil in Pg. subst got. inversion C as [bs|a i0 r O F E|a i0 bs l r O F C' E]; subst; [destruct u; discriminate| |];
      (eapply one_some; [exact O|]); first [exact E|symmetry; exact E|apply app_nil_r].
  - destruct (wrote_header c _ B2) as (bs & q0 & h & O & Q & Bh & Pb). assert (q = q0) by exact (within_one bs q0 got items rest u q O (prefix_trans _ _ _ Pg Pb) C Nu). subst q0 h.
    exists b. split; [exact K|]. exact (carries U (c_what c) _ f b HU Tr Bh A).
Qed.

(** ** The calls of asyncio clients *)
Lemma client_context U t n regs l p k e j : let x := w_run U t n regs l in tables_ok U -> nth_error (b_clients x) p = Some k -> In e (o_conns k) -> any_started_at U (b_dep x) e j ->
  exists d rid addr, In (WCall p d rid (Ok addr)) l /\ located (b_dep x) e addr /\ started_at U (b_dep x) e j d /\ (traced U d -> in_context U (b_dep x) e j d).
Proof.
  intros x HU Hp He Hj. pose proof (winv_run U t n regs l) as W. fold x in W. pose proof (wi_dok _ _ _ _ _ W) as Dk. pose proof (wi_from _ _ _ _ _ W p k Hp) as Fr. apply In_nth_error in He as (c & He).
  destruct (wi_conn _ _ _ _ _ W p k c e Hp He) as [(D & sent & b & Hg & Pg & _) (ad & Had & Lo) _].
  destruct (end_started U t regs _ e D j Dk Hg Hj) as (u & items & rest & q & sv & m & Fu & C & Nq & Ns & Nm & St).
  destruct (ounit_is_write t _ k c D items rest u _ Fr Pg C Nq) as ((wi, (wc, wb)) & Hw & Ow & tk & Htk & Un). apply nth_error_In in Hw. destruct (owrite_addr t k c _ tk Hw Htk) as (ad' & Had' & Ea). assert (ad' = ad) by congruence. subst ad'.
  destruct (end_context U t 0 regs _ e D j Dk Hg Hj) as (u' & items' & rest' & q' & f & ctx & Fu' & C' & Nq' & A & K).
  assert (u' = u). { destruct e as [a0 m0|th]; cbn [for_unit] in Fu, Fu'; [|lia]. destruct Fu as (y & b1 & Hy & Hb1 & <-), Fu' as (y' & b2 & Hy' & Hb2 & <-). assert (y' = y) by congruence. subst y'. congruence. } subst u'.
  assert (q' = q). { destruct (cuts_comparable _ _ _ _ _ C C') as [(z & Ez)|(z & Ez)]; [rewrite Ez in Nq'; pose proof (nth_some_app _ _ _ _ _ Nq Nq')|rewrite Ez in Nq; pose proof (nth_some_app _ _ _ _ _ Nq' Nq)]; congruence. } subst q'.
  assert (Hw' : In (wi, (wc, wb)) (L_System1.wlog (M_AioClient.init t) (o_hist k))) by (apply filter_In in Hw as (Hw & _); exact Hw). apply In_nth_error in Hw' as (pp & Hw').
  destruct (L_System1.wlog_task _ _ _ _ _ _ Hw') as (tk2 & Hi2 & _ & T). fold (M_AioClient.run t (o_hist k)) in Hi2. fold (o_state t k) in Hi2. cbn [fst snd] in *. assert (tk2 = tk) by congruence. subst tk2.
  assert (Hs : In (M_AioClient.t_req tk, M_AioClient.t_addr tk) (specs (o_state t k))) by (unfold L_System1.specs; apply in_map_iff; exists tk; split; [reflexivity|eapply nth_error_In; exact Htk]).
  destruct (fr_from _ _ Fr _ Hs) as [(d & rid & In1 & Er)|(rid & In1 & Er)]; cbn [fst snd] in *.
  - destruct (call_unit_more d rid _ wb Er T) as (q2 & h & O2 & _ & B2 & _ & Q2 & N2 & Bh & _). destruct (one_fun wb wb [] [] _ _ Ow O2 eq_refl) as (_ & _ & Eq). injection Eq as <-. subst h.
    rewrite Ea in In1. apply lab_call in In1. exists d, rid, ad. split; [exact In1|]. split; [exact Lo|]. split; [apply St; [exact (names_interface _ _ _ N2 Ns)|exact (names_the_method _ _ _ N2 Nm)|exact B2]|].
    intros Tr. exists ctx. split; [exact K|]. exact (carries U d _ f ctx HU Tr Bh A).
  - pose proof (beat_unit _ _ _ Er T) as O2. destruct (one_fun wb wb [] [] _ _ Ow O2 eq_refl) as (_ & _ & Eq). discriminate.
Qed.
Lemma world_sync_context U t n regs l i c w e j : let x := w_run U t n regs l in tables_ok U -> nth_error (d_calls (b_dep x)) i = Some c -> traced U (c_what c) ->
  connection_of (b_dep x) i w e -> any_started_at U (b_dep x) e j -> in_context U (b_dep x) e j (c_what c).
Proof. intros x HU Hi Tr Co St. exact (sync_context U t 0 regs _ i c w e j (wi_dok _ _ _ _ _ (winv_run U t n regs l)) HU Hi Tr Co St). Qed.
Lemma deploy_sync_context U t n regs l i c w e j : let s := d_run U t n regs l in tables_ok U -> nth_error (d_calls s) i = Some c -> traced U (c_what c) ->
  connection_of s i w e -> any_started_at U s e j -> in_context U s e j (c_what c).
Proof. intros s HU Hi Tr Co St. exact (sync_context U t n regs s i c w e j (dok_run U t n regs l) HU Hi Tr Co St). Qed.
Lemma thread_case U s i w th j d b : option_map c_what (nth_error (d_calls s) i) = Some d -> option_map (fun x => (w_call x, w_peer x)) (nth_error (d_wires s) w) = Some (i, Some (PThr th)) ->
  context_at U s (PThr th) j = Some b -> exists c, nth_error (d_calls s) i = Some c /\ c_what c = d /\ connection_of s i w (PThr th) /\ any_started_at U s (PThr th) j.
Proof.
  intros A B C. destruct (nth_error (d_calls s) i) as [c|]; [|discriminate]. injection A as A. exists c. split; [reflexivity|]. split; [exact A|]. split.
  - destruct (nth_error (d_wires s) w) as [x|] eqn:Hx; [|discriminate]. injection B as B1 B2. exists x. auto.
  - cbn [context_at any_started_at] in *. destruct (nth_error (d_thrs s) th) as [x|]; [|discriminate]. destruct (nth_error (o_calls (th_out U x)) j) as [y|] eqn:Hy; [|discriminate]. exists x, y. auto.
Qed.

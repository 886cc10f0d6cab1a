(** Lemmas behind C136. *)
From Coq Require Import Lia ZifyBool.
From Verif Require Import PyBase L_PyBase PyDict PyInt M_SofaHeader M_Package L_Package L_Codec M_RpcId M_Trace S_Wire M_AioServer S_Server L_AioServer L_AioServer2 L_AioServer3 L_AioServer4 L_AioServer5 L_AioServer6 L_AioServer7 L_AioServer8 L_AioServer9
  M_SockServer S_SockServer L_SockServer M_System S_System L_System M_Listener S_Listener L_Listener M_Net S_Net L_Net S_Settle L_Settle2 M_Deploy S_Deploy L_Deploy S_NetRest M_World S_World L_World S_WorldRest L_WorldRest2 S_WorldAnswers L_WorldAnswers.
From Verif Require L_NetRest M_AioClient L_AioClient L_AioClient2 L_AioClient3 L_AioClient4 L_AioClient6 L_AioKept L_Settle1 S_Answered L_System1 L_Settle L_DepRest L_DepRest2 S_WhyAio L_WhyAio L_WhyWorld.
Import S_Server.
Open Scope nat_scope.

(** ** A connection of an asyncio listener that has nothing left to do *)
Lemma served_among U reg tr h all n q d hd : Forall scalm h -> sidle U (srun U reg tr h) -> cuts (fed h) all [] -> Forall taken_item all -> nth_error all n = Some (IRequest q) -> q_type q <> 2%Z -> q_header q = hd -> names_of d hd -> q_body q = y_content d ->
  y_interface d <> [] -> y_method d <> [] -> offers reg (y_interface d) (y_method d) -> (forall sv, ~ In (Register (y_interface d) sv) h) -> clear U hd -> let x := srun U reg tr h in
  v_closed x = false /\ id_ok (q_id q) /\ exists b r, In b (v_jobs x) /\ j_frame b = n /\ j_service b = y_interface d /\ j_method b = y_method d /\ j_body b = y_content d /\ j_state b = JEnded r /\
    ((exists fr, concluded q r (TDrain1 fr) /\ answers n x = [fr]) \/ (concluded q r TDone /\ answers n x = [])).
Proof.
  intros Ca Si Cu Tall Nq Ty Qh Nm Qb Ni Nme Of Rg Cl x. pose proof (good_run U reg tr h) as G. fold x in G, Si.
  destruct (run_cuts U reg tr h) as (rest & C). fold x in C.
  assert (Nf : Forall nonfatal all) by (eapply Forall_impl; [|exact Tall]; intros [] K F; cbn in *; contradiction).
  assert (Ta : Forall taken_item (v_items x)).
  { destruct (cuts_comparable _ _ _ _ _ Cu C) as [(m & E)|(m & E)]; [|rewrite E in Tall; apply Forall_app in Tall as (Tall & _); exact Tall]. rewrite E in C. rewrite (cuts_all _ _ _ _ Cu Nf C), app_nil_r in E. rewrite E. exact Tall. }
  pose proof (reading_run U reg tr h Ca Ta) as Rd. pose proof (reading_open _ G Rd) as Op. destruct (scalm_flags U reg tr h Ca) as (E1 & E2). destruct (calm_jobs U reg tr h Ca Op) as (Tr & Nc). fold x in Rd, E1, E2, Tr, Nc, Op.
  assert (W : waiting x) by (split; [exact Rd|]; split; [exact E1|]; split; [exact E2|]; exact (Si Read Logic.I)).
  pose proof (waiting_item U reg tr h _ [] n (IRequest q) W Cu Nq) as N0. fold x in N0.
  destruct (answering_exists _ n _ G N0) as (K & _). destruct (K q eq_refl) as (u & pp & An). clear K. split; [exact Op|]. split; [exact (answering_id _ _ _ _ _ G An)|].
  assert (Nst : pp <> TStart) by (destruct (sidle_tasks U _ G Nc Si u n _ _ An) as [-> |(e & ->)]; discriminate). pose proof Nm as (N1 & N2 & N3).
  assert (Ex : In n (map j_frame (v_jobs x))).
  { apply (executed_any U reg tr h u n q pp (y_interface d) (y_method d)); try assumption; rewrite Qh; [split; [exact Ni|left; exact N1]|split; [exact Nme|exact N3]|exact Cl]. }
  apply in_map_iff in Ex as (b & Eb & Hb). apply In_nth_error in Hb as (j & Hj). destruct (sidle_jobs U _ Nc Si j b Hj) as (r & Hr). exists b, r.
  split; [eapply nth_error_In; exact Hj|]. split; [exact Eb|]. pose proof G as ((G1 & G2 & Jo) & _).
  destruct (jo_named _ Jo j b Hj) as (q' & Nq' & A & B & D'). rewrite Eb in Nq'. assert (q' = q) by congruence. subst q'. rewrite Qh in A, B.
  split; [exact (names_interface d hd _ Nm A)|]. split; [exact (names_the_method d hd _ Nm B)|]. split; [congruence|]. split; [exact Hr|].
  rewrite <- Eb in N0. destruct (sidle_answer U _ j b r q G Tr Nc Si Hj Hr N0 Ty) as [(fr & Co & Af)|(Co & Af)]; rewrite Eb in Af; [left; exists fr; auto|right; auto].
Qed.

(** ** The calls of an asyncio client to an asyncio listener *)
Lemma asyncio_answered U t n regs l p k i tk d rid c u a m : NoDup (w_ids p l) -> let x := w_run U t n regs l in w_settled U t x -> nth_error (b_clients x) p = Some k -> none_lost l k -> y_ptype d <> 2%Z ->
  made_for (o_state t k) i tk d rid -> left_to_itself k i -> asked_as (o_state t k) tk c u -> kept t k c -> nth_error (o_conns k) c = Some (PAio a m) -> (forall o, In (DNet (ZServer a (LConn m o))) (rest_steps l) -> ~ fails o) ->
  z_served d a regs (net_steps (rest_steps l)) -> clear_trace U d ->
  exists r, method_of_unit (d_net (b_dep x)) a m u d r /\
    match r with
    | Raise _ => gives (o_state t k) rid (Raise KeyError)
    | Ok v => (sendable v -> gives (o_state t k) rid (Ok v) \/ (gives (o_state t k) rid (Raise KeyError) /\ S_WhyAio.too_early t (o_hist k) i rid)) /\ (~ sendable v -> forall r', ~ gives (o_state t k) rid r')
    end.
Proof.
  intros N x St Hp NL Po (Hi & Er) L As (lk & Hlk & X1 & X2 & Eo) Hc Nf Sv Cl. pose proof (winv_run U t n regs l) as W. fold x in W.
  destruct (request_id _ _ _ Er) as (Rr & Pr). destruct (asked_written U t n regs l p k i tk c u N Hp Hi As) as (bs & Hw & T). destruct (L_Settle.call_unit_more d rid _ bs Er T) as (q & h & O & Qi & Qb & Qt & Qh & Nm & Bh & Pt).
  pose proof (wi_from _ _ _ _ _ W p k Hp) as Fr.
  (* the request has arrived *)
  destruct (wi_conn _ _ _ _ _ W p k c _ Hp Hc) as [(D & sent & b & Hg & Pg & Hse & Hb & Pb) _ _].
  assert (b = M_AioClient.k_in lk) by (unfold L_System1.ins in Hb; rewrite nth_error_map, Hlk in Hb; cbn in Hb; congruence). subst b.
  assert (ED : D = y_sent (o_state t k) c).
  { destruct (up_done_iff U t regs l x p c W) as (Up & _). destruct (Up (St (WUp p c 1) Logic.I) k _ D Hp Hc Hg) as [(th' & y' & e & E & _)|E]; [discriminate|exact (skip_all _ _ Pg E)]. }
  cbn [end_got end_sent] in Hg, Hse. destruct (z_conn (d_net (b_dep x)) a m) as [y|] eqn:Zy; [|discriminate]. cbn [option_map] in Hg, Hse. injection Hg as Hg. injection Hse as Hse.
  (* what the connection has seen *)
  pose proof (wsettled_dep U t x St) as Ds. destruct (wdep U t n regs l) as (dl & Ed & Hd). fold x in Ed. pose proof (dok_run U t 0 regs dl) as Dk. rewrite <- Ed in Dk.
  destruct (L_DepRest2.deploy_net_from U t 0 regs dl) as (zl & Hz & _ & _ & Frm). rewrite <- Ed in Hz. pose proof Zy as Zy'. rewrite Hz in Zy'. destruct (L_DepRest2.conn_traced U t 0 regs zl a m y Zy') as (reg & tr & hh & -> & Trc & From).
  assert (Ca : Forall scalm hh).
  { apply Forall_forall. intros o Hin. specialize (From o Hin). assert (No : fails o -> In (ZServer a (LConn m o)) zl -> False).
    { intros Fo Hz1. destruct (Frm _ Hz1) as [G|G]; [|destruct o; solve [destruct G|destruct Fo]]. unfold net_steps in G. apply in_concat in G as (g & Hg1 & Hg2). apply in_map_iff in Hg1 as (o1 & <- & Ho1). destruct o1 as [o1| | | | | | | |]; try (exfalso; exact Hg2). destruct Hg2 as [Hg2|Hg2]; [|exact Hg2]. subst o1.
      destruct (Hd _ Ho1) as [K|K]; [exact (Nf o K Fo)|destruct o; solve [destruct K|destruct Fo]]. }
    destruct o as [| | | | |[]|j f|j []|j|j r|j|]; try exact Logic.I; cbn [from_listener fst snd] in From; exact (No Logic.I From). }
  assert (Sv' : z_served d a regs zl) by (apply (L_DepRest2.served_from dl); [exact Frm|exact (wserved _ _ _ _ _ Hd Sv)]). pose proof Sv' as (Ni & Nme & _ & Nr).
  destruct (stream_units _ (o_state t k) (owritten t k c) (fun w Hx => owrites_are_units t _ k Fr w (proj1 (proj1 (filter_In _ _ _) Hx)))) as (all & Fa & Cu).
  rewrite <- osent_written, <- ED, <- Hg, in_run in Cu.
  assert (Nu : nth_error all u = Some (IRequest q)).
  { destruct (L_Settle.Forall2_nth_l _ _ _ u _ Fa Hw) as (z & Nz & (On' & _)). cbn [snd] in On'. destruct (one_fun _ _ [] [] _ _ O On' eq_refl) as (_ & _ & <-). exact Nz. }
  assert (Ta : Forall taken_item all) by (clear - Fa; induction Fa as [|w z ws zs H Fa IH]; constructor; [|exact IH]; destruct H as (_ & tk & _ & [(d & rid & q & _ & _ & -> & _)|(rid & _ & _ & ->)]); exact Logic.I).
  destruct (served_among U reg tr hh all u q d h) as (Op & Iok & b & r & Hb1 & B0 & B1 & B2 & B3 & B4 & Out); try assumption.
  { apply (L_DepRest2.zsettled_sidle U t (d_net (b_dep x)) a m); [exact (L_DepRest.dok_ok _ _ _ _ _ Dk)|exact (L_DepRest2.qt_net _ _ _ (L_DepRest2.settled_quiet_d U t 0 regs _ Dk Ds))|exact Zy]. }
  { rewrite Qt. exact Po. }
  { exact (L_NetRest.traced_offers _ _ _ _ _ Trc Sv'). }
  { intros sv Hin. exact (Nr sv (From _ Hin)). }
  { exact (Cl h Bh). }
  exists r. split; [exists (srun U reg tr hh), b; auto 10|]. set (y := srun U reg tr hh) in *.
  (* what came back has been read *)
  destruct (down_done_iff U t x p c) as (Dn & _). pose proof (Dn (St (WDown p c 1) Logic.I) k _ sent lk Hp Hc Hlk) as Ein. cbn [end_sent] in Ein. rewrite Zy in Ein. cbn [option_map] in Ein. rewrite Hse in Ein. specialize (Ein eq_refl). apply (skip_all _ _ Pb) in Ein.
  assert (Qu : forall o, w_routine (WClient p o) -> M_AioClient.run_step o (o_state t k) = o_state t k) by (intros o R; destruct (oclient_quiet U t x p o R) as (G & _); exact (G (St _ R) k Hp)).
  destruct (L_AioKept.kept_frames t (o_hist k) c lk (map snd (v_out y)) [] Hlk X1 X2 Eo (Qu (M_AioClient.Read c) Logic.I)) as (more & Ef); [rewrite app_nil_r, Ein, <- Hse; reflexivity|apply outs_frames|].
  assert (more = []).
  { pose proof (L_AioClient.run_links_ok t (o_hist k) c lk Hlk) as LO. destruct (L_AioClient.lo_prefix _ LO) as (rest & P). rewrite Ef, Ein, <- Hse in P. unfold y_replied in P. rewrite concat_app, <- app_assoc in P. rewrite <- (app_nil_r (concat (map snd (v_out y)))) in P at 1. apply app_inv_head in P. symmetry in P. apply app_eq_nil in P as (P & _).
    pose proof (L_AioClient.lo_frames _ LO) as Ff. rewrite Ef in Ff. apply Forall_app in Ff as (_ & Ff). destruct more as [|z zs]; [reflexivity|]. inversion Ff as [|? ? (A & _) _]; subst. cbn [concat] in P. apply app_eq_nil in P as (-> & _). cbv in A. congruence. }
  subst more. rewrite app_nil_r in Ef.
  (* every reply for this call is the answer to its request *)
  assert (Only : forall g, S_WhyAio.got (o_state t k) g -> M_AioClient.rid_of g = rid -> exists fr, In fr (answers u y) /\ from_stream BoltResponse fr = Ok g).
  { intros g (c' & lk' & frame & Hk' & Hf' & Hs') R. destruct (reply_unit U t n regs l p k c' lk' frame g i tk N Hp NL Hk' Hf' Hs' Hi ltac:(congruence)) as (u' & bs' & Hw' & _). destruct (one_place t k i tk _ _ _ _ _ _ L Hi Hw Hw') as (<- & _ & _).
    assert (lk' = lk) by congruence. subst lk'. rewrite Ef in Hf'. apply in_map_iff in Hf' as ((n', f') & E & Hv). cbn in E. subst f'. exists frame. split; [|exact Hs'].
    destruct (oo_answers _ _ _ (open_out _ (good_run U reg tr hh) Op) n' frame Hv) as (z & Nz & An).
    assert (Ez : item_id z = M_AioClient.rid_of g).
    { destruct z as [q0|id|id st|id]; cbn in An; [destruct An as (st & v & An & _)| | |destruct An]; destruct (L_Settle.response_pkg _ _ _ _ _ _ An Hs') as (A & _); unfold M_AioClient.rid_of; rewrite A; reflexivity. }
    destruct (run_cuts U reg tr hh) as (rest & C). rewrite <- (in_run U reg tr hh) in C. fold y in C; rewrite Hg in C. destruct (ounit_is_write t _ k c _ _ rest n' z Fr Pg C Nz) as ((j, (c'', bs'')) & Hw2 & Un).
    pose proof (owritten_on _ _ _ _ _ _ _ Hw2). subst c''. destruct (unit_id _ _ _ _ Un) as (tkj & Hj & Ej). cbn [fst] in Hj.
    assert (j = i) by (apply (same_task U t n regs l p k j i tkj tk N Hp Hj Hi); congruence). subst j. destruct (one_place t k i tk _ _ _ _ _ _ L Hi Hw Hw2) as (_ & <- & _). apply answers_in. exact Hv. }
  assert (Fz : L_AioClient6.fresh_of (M_AioClient.t_pc tk) = 0).
  { pose proof (sent_once t k i tk L Hi) as Le. apply L_System1.filter_nth in Hw as (pp & Hpp & _). destruct (L_System1.wlog_task _ _ _ _ _ _ Hpp) as (tk2 & _ & Sd & _). destruct (L_AioClient6.sends i (M_AioClient.init t) (o_hist k)); [destruct Sd|]. cbn in Le. lia. }
  assert (Ends : forall o, M_AioClient.t_pc tk = M_AioClient.Done o ->
    (exists g, o = M_AioClient.RetPkg g /\ S_WhyAio.got (o_state t k) g /\ M_AioClient.rid_of g = rid) \/
    (o = M_AioClient.RetErr KeyError /\ exists g, S_WhyAio.got (o_state t k) g /\ M_AioClient.rid_of g = rid /\ (~ S_WhyAio.says_ok g \/ S_WhyAio.too_early t (o_hist k) i rid))).
  { intros o Ho. rewrite <- Rr. apply (ends_replied U t n regs l p k i tk o N Hp L Hi); [rewrite Pt; exact Po|eauto|exact Ho]. }
  (* an answer ends the call *)
  assert (Answered : forall fr pk, answers u y = [fr] -> from_stream BoltResponse fr = Ok pk -> p_request_id pk = PInt rid ->
    (exists o, M_AioClient.t_pc tk = M_AioClient.Done o) /\ forall g, S_WhyAio.got (o_state t k) g -> M_AioClient.rid_of g = rid -> g = pk).
  { intros fr pk Ea Hpk Hid. split; [|intros g G R; destruct (Only g G R) as (f & Hf & Hs); rewrite Ea in Hf; destruct Hf as [<-|[]]; congruence].
    assert (Rp : M_AioClient.rid_of pk = rid) by (unfold M_AioClient.rid_of; rewrite Hid; reflexivity).
    assert (Sn : L_AioClient.seen (o_state t k) pk).
    { exists c, lk, fr. split; [exact Hlk|]. split; [|exact Hpk]. rewrite Ef. apply in_map_iff. exists (u, fr). split; [reflexivity|]. apply answers_in. rewrite Ea. left. reflexivity. }
    assert (Tk : dget rid (M_AioClient.s_req (o_state t k)) = None).
    { refine (world_taken U t n regs p rid l N k Hp NL _ pk Sn Rp). intros j tj Hj Rj. assert (j = i) by (apply (same_task U t n regs l p k j i tj tk N Hp Hj Hi); congruence). subst j. exact L. }
    destruct (L_AioKept.past_idle t (o_hist k) i tk Hi Fz (Qu (M_AioClient.DrainOk i) Logic.I) (Qu (M_AioClient.Wake i) Logic.I)) as [(o & Ho)|(ev & Hd' & Hev)]; [eauto|].
    exfalso. destruct (L_AioClient2.inv_all_run t (o_hist k) (L_WhyWorld.world_distinct U t n regs l p k N Hp)) as (_ & _ & [_ Lw]). pose proof (Lw i tk ev Hi Hd' Hev) as E. rewrite Rr in E. unfold o_state in Tk. congruence. }
  assert (Give : forall o z, M_AioClient.t_pc tk = M_AioClient.Done o -> M_AioClient.caller_sees o = z -> gives (o_state t k) rid z) by (intros o z Ho Hz1; exists i, tk, o; auto).
  destruct r as [v|e].
  - destruct Out as [(fr & Co & Af)|(Co & Af)]; cbn [concluded] in Co; rewrite Qi in Co.
    + destruct (truthy v) eqn:Tv; [|discriminate Co]. destruct Co as [(ct & bs' & -> & Rb & Ebs)|(_ & Ebs)]; [|discriminate Ebs]. injection Ebs as <-. destruct (result_bytes_inv _ _ _ Rb) as (ct' & Ec & Lc & Re). injection Ec as <-.
      assert (Sd : sendable (PBytes ct)) by (exists ct; split; [reflexivity|]; split; [intros ->; discriminate Tv|exact Lc]). split; [intros _|intros K; destruct (K Sd)].
      destruct (L_Settle.response_reads _ _ _ _ _ Re) as (pk & Hpk). destruct (L_Settle.response_pkg _ _ _ _ _ _ Re Hpk) as (P1 & P2 & P3 & P4). destruct (Answered fr pk Af Hpk P1) as ((o & Ho) & Same).
      destruct (Ends o Ho) as [(g & -> & G & R)|(-> & g & G & R & Why)]; rewrite (Same g G R) in *.
      * left. apply (Give _ _ Ho). cbn. rewrite P4. reflexivity.
      * right. split; [exact (Give _ _ Ho eq_refl)|]. destruct Why as [Why|Why]; [|exact Why]. exfalso. apply Why. split; [exact P2|exact P3].
    + assert (Ns : ~ sendable v).
      { intros (ct & -> & Nn & Lc). rewrite Qi in Iok. destruct (result_bytes_Ok ct rid Iok Lc) as (bs' & Rb & _). destruct (truthy (PBytes ct)) eqn:Tv; [|destruct ct; [congruence|discriminate]]. destruct Co as [(? & ? & _ & _ & K)|(K & _)]; [discriminate|]. exact (K bs' Rb). }
      split; [intros K; destruct (Ns K)|]. intros _ r' (j & tkj & o & Hj & Hr & Ho & _). assert (j = i) by (apply (same_task U t n regs l p k j i tkj tk N Hp Hj Hi); rewrite Rr; unfold M_AioClient.rid_of; rewrite Hr; reflexivity). subst j. assert (tkj = tk) by congruence. subst tkj.
      assert (K : exists g, S_WhyAio.got (o_state t k) g /\ M_AioClient.rid_of g = rid) by (destruct (Ends o Ho) as [(g & _ & G & R)|(_ & g & G & R & _)]; eauto). destruct K as (g & G & R). destruct (Only g G R) as (f & Hf & _). rewrite Af in Hf. destruct Hf.
  - destruct Out as [(fr & Co & Af)|(Co & _)]; cbn [concluded] in Co; rewrite Qi in Co; destruct Co as (bs' & Fb & Ebs); [|discriminate]. injection Ebs as <-. apply fail_bytes_inv in Fb.
    destruct (L_Settle.response_reads _ _ _ _ _ Fb) as (pk & Hpk). destruct (L_Settle.response_pkg _ _ _ _ _ _ Fb Hpk) as (P1 & P2 & P3 & P4). destruct (Answered fr pk Af Hpk P1) as ((o & Ho) & Same).
    destruct (Ends o Ho) as [(g & -> & G & R)|(-> & _)]; [|exact (Give _ _ Ho eq_refl)]. exfalso. rewrite (Same g G R) in *.
    destruct (L_AioClient.i_done _ (L_AioClient.inv_run t (o_hist k)) i tk pk Hi Ho) as (_ & B & _). destruct B as (_ & B). rewrite P3 in B. destruct e; discriminate B.
Qed.

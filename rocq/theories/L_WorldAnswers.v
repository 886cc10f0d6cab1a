(** Lemmas behind C135. *)
From Coq Require Import Lia ZifyBool.
From Verif Require Import PyBase L_PyBase PyDict PyInt M_SofaHeader M_Package L_Package L_Codec M_RpcId M_Trace S_Wire M_AioServer S_Server L_AioServer L_AioServer2 L_AioServer3 L_AioServer4 L_AioServer5 L_AioServer9
  M_SockServer S_SockServer L_SockServer M_System S_System L_System M_Listener S_Listener L_Listener M_Net S_Net L_Net M_Deploy S_Deploy L_Deploy M_World S_World L_World S_WorldRest L_WorldRest2 S_WorldAnswers.
From Verif Require M_AioClient L_AioClient L_AioClient2 L_AioClient3 L_AioClient4 L_AioClient6 L_AioKept L_Settle1 L_Settle2 S_Settle S_Answered L_System1 L_Settle L_DepRest2 S_WhyAio L_WhyAio L_WhyWorld L_AioSock.
Open Scope nat_scope.

(** ** Every reply is for a request that arrived on its connection *)
Lemma aio_replies U t n regs l a m x : let w := w_run U t n regs l in z_conn (d_net (b_dep w)) a m = Some x -> never_lost l a m ->
  exists items rest ns, cuts (v_in x) items rest /\ Forall2 (replies items) ns (map snd (v_out x)).
Proof.
  intros w Hx (N1 & N2). destruct (wdep U t n regs l) as (dl & Ed & H). fold w in Ed. rewrite Ed in Hx. destruct (L_DepRest2.deploy_net_from U t 0 regs dl) as (zl & Hz & _ & _ & Fr). rewrite Hz in Hx.
  destruct (L_DepRest2.conn_traced U t 0 regs zl a m x Hx) as (reg & tr & h & -> & _ & From).
  assert (G : forall o, (o = Eof \/ o = Reset) -> In o h -> In (DNet (ZServer a (LConn m o))) (rest_steps l)).
  { intros o Oo Hin. specialize (From o Hin). assert (In (ZServer a (LConn m o)) zl) as Hi by (destruct Oo as [-> | ->]; exact From). destruct (Fr _ Hi) as [G|G]; [|destruct Oo as [-> | ->]; destruct G].
    unfold net_steps in G. apply in_concat in G as (y & Hy & G). apply in_map_iff in Hy as (o' & <- & Ho'). destruct o' as [z| | | | | | | |]; try (exfalso; exact G). destruct G as [->|[]]. destruct (H _ Ho') as [K|K]; [exact K|]. destruct Oo as [-> | ->]; destruct K. }
  destruct (once_open U reg tr h) as (items & rest & ns & C & _ & F); [intros K; exact (N1 (G _ (or_introl eq_refl) K))|intros K; exact (N2 (G _ (or_intror eq_refl) K))|].
  exists items, rest, ns. rewrite L_AioServer6.in_run. split; [exact C|exact F].
Qed.
Lemma begins_cut D i : begins D i -> ~ fatal i -> exists rest, cuts D [i] rest.
Proof. intros (a & rest & -> & O) N. exists rest. apply Cuts_cons; [exact O|exact N|constructor]. Qed.
Lemma end_replies U t n regs l k e D sent : let x := w_run U t n regs l in none_lost l k -> In e (o_conns k) -> end_got (b_dep x) e = Some D -> end_sent U (b_dep x) e = Some sent -> exists fs, prefix sent (concat fs) /\
  forall f, In f fs -> exists u items rest i cmd st c, cuts D items rest /\ nth_error items u = Some i /\ response f (item_id i) cmd st c /\ forall th, e = PThr th -> u = 0.
Proof.
  intros x NL He Hg Hs. destruct e as [a m|th]; cbn [end_got end_sent] in *.
  - destruct (z_conn (d_net (b_dep x)) a m) as [y|] eqn:Hx; [|discriminate]. cbn [option_map] in *. injection Hg as <-. injection Hs as <-.
    destruct (aio_replies U t n regs l a m y Hx (NL a m He)) as (items & rest & ns & C & F). exists (map snd (v_out y)). split; [exists []; rewrite app_nil_r; reflexivity|].
    intros f Hf. assert (K : exists u, replies items u f) by (clear - F Hf; induction F as [|u b us bs R F IH]; [destruct Hf|]; destruct Hf as [<-|Hf]; [exists u; exact R|exact (IH Hf)]).
    destruct K as (u & i & cmd & st & c & Nu & R). exists u, items, rest, i, cmd, st, c. split; [exact C|]. split; [exact Nu|]. split; [exact R|]. intros th [=].
  - destruct (nth_error (d_thrs (b_dep x)) th) as [y|] eqn:Hx; [|discriminate]. cbn [option_map] in *. injection Hg as <-. injection Hs as <-.
    pose proof (sock_effects (th_fuel y) U (th_reg y) (th_tr y) (th_fresh y) (th_call y) (th_err y) (th_net y)) as (Se & _). fold (th_out U y) in Se.
    destruct Se as [Se|(bs & (p & more & Se & Eb & _) & Rp)]; rewrite Se; [exists []; split; [exists []; reflexivity|intros f []]|]. exists [bs]. split; [exists more; cbn; rewrite !app_nil_r; exact Eb|].
    intros f [<-|[]].
    assert (K : exists i, begins (S_SockServer.received (th_net y)) i /\ ~ fatal i /\ exists cmd st c, response bs (item_id i) cmd st c).
    { destruct Rp as [(id & B & R & _)|[(q & B & _ & R & _)|(q & sv & m & ctx & v & B & _ & _ & _ & _ & _ & R)]]; [exists (IHeartbeat id)|exists (IRequest q)|exists (IRequest q)]; (split; [exact B|]; split; [intros []|]; eexists _, _, _; exact R). }
    destruct K as (i & B & Nf & cmd & st & c & R). rewrite <- arrived_received in B. destruct (begins_cut _ _ B Nf) as (rest & C). exists 0, [i], rest, i, cmd, st, c. split; [exact C|]. split; [reflexivity|]. split; [exact R|]. reflexivity.
Qed.

(** ** Whose request it is *)
Lemma same_task U t n regs l p k i j ti tj : NoDup (w_ids p l) -> nth_error (b_clients (w_run U t n regs l)) p = Some k ->
  nth_error (M_AioClient.s_tasks (o_state t k)) i = Some ti -> nth_error (M_AioClient.s_tasks (o_state t k)) j = Some tj -> rid_of (M_AioClient.t_req ti) = rid_of (M_AioClient.t_req tj) -> i = j.
Proof.
  intros N Hp Hi Hj E. pose proof (wi_from _ _ _ _ _ (winv_run U t n regs l) p k Hp) as Fr. rewrite <- lab_ids in N. pose proof (fr_ids _ _ Fr N) as Nd.
  assert (G : forall v tku, nth_error (M_AioClient.s_tasks (o_state t k)) v = Some tku -> nth_error (map (fun x => rid_of (fst x)) (specs (o_state t k))) v = Some (rid_of (M_AioClient.t_req tku))).
  { intros v tku Hu. unfold L_System1.specs. rewrite map_map, nth_error_map, Hu. reflexivity. }
  pose proof (G _ _ Hi) as G1. pose proof (G _ _ Hj) as G2. rewrite NoDup_nth_error in Nd. apply Nd; [apply nth_error_Some; congruence|]. rewrite G1, G2. f_equal. exact E.
Qed.
Lemma unit_id l s w x : unit_written l s w x -> exists tk, nth_error (M_AioClient.s_tasks s) (fst w) = Some tk /\ rid_of (M_AioClient.t_req tk) = item_id x.
Proof.
  intros (_ & tk & Htk & Un). exists tk. split; [exact Htk|].
  destruct Un as [(d & rid & q & _ & Er & -> & Q & _)|(rid & _ & Er & ->)]; cbn [fst] in Er; [apply request_id in Er as (Er & _); cbn [item_id]; rewrite Q; exact Er|apply beat_id in Er as (Er & _); exact Er].
Qed.
Lemma owritten_on t k c u j c' bs : nth_error (owritten t k c) u = Some (j, (c', bs)) -> c' = c.
Proof. intros H. apply nth_error_In in H. apply filter_In in H as (_ & H). unfold on in H. cbn in H. apply Nat.eqb_eq in H. exact H. Qed.
Lemma reply_unit U t n regs l p k c lk frame q i tk : NoDup (w_ids p l) -> nth_error (b_clients (w_run U t n regs l)) p = Some k -> none_lost l k ->
  nth_error (M_AioClient.s_links (o_state t k)) c = Some lk -> In frame (M_AioClient.k_frames lk) -> from_stream BoltResponse frame = Ok q ->
  nth_error (M_AioClient.s_tasks (o_state t k)) i = Some tk -> rid_of (M_AioClient.t_req tk) = M_AioClient.rid_of q ->
  exists u bs, nth_error (owritten t k c) u = Some (i, (c, bs)) /\ forall th, nth_error (o_conns k) c = Some (PThr th) -> u = 0.
Proof.
  intros N Hp NL Hk Hf Hs Hi Er. set (x := w_run U t n regs l) in *. pose proof (winv_run U t n regs l) as W. fold x in W.
  assert (Hb : nth_error (L_System1.ins (o_state t k)) c = Some (M_AioClient.k_in lk)) by (unfold L_System1.ins; rewrite nth_error_map, Hk; reflexivity).
  destruct (nth_error (o_conns k) c) as [e|] eqn:He; [|exfalso; apply nth_error_None in He; rewrite (wi_len _ _ _ _ _ W p k Hp) in He; apply nth_error_None in He; congruence].
  destruct (wi_conn _ _ _ _ _ W p k c e Hp He) as [(D & sent & b & Hg & Pg & Hse & Hb' & Pb) _ _]. assert (b = M_AioClient.k_in lk) by congruence. subst b.
  destruct (end_replies U t n regs l k e D sent NL (nth_error_In _ _ He) Hg Hse) as (fs & Efs & Rf).
  assert (Hin : In frame fs) by (apply (frame_sent t k c lk frame sent fs Hk Hf Pb Efs); intros f Hf'; destruct (Rf f Hf') as (u & items & rest & y & cmd & st & ct & _ & _ & R & _); exists (item_id y), cmd, st, ct; exact R).
  destruct (Rf frame Hin) as (u & items & rest & y & cmd & st & ct & C & Nu & R & Z0).
  destruct (L_Settle.response_pkg _ _ _ _ _ _ R Hs) as (Q & _).
  destruct (ounit_is_write t _ k c D items rest u y (wi_from _ _ _ _ _ W p k Hp) Pg C Nu) as ((j, (c', bs)) & Hw & Un).
  pose proof (owritten_on _ _ _ _ _ _ _ Hw). subst c'. destruct (unit_id _ _ _ _ Un) as (tkj & Hj & Ej). cbn [fst] in Hj.
  assert (j = i) by (apply (same_task U t n regs l p k j i tkj tk N Hp Hj Hi); rewrite Ej, Er; unfold M_AioClient.rid_of; rewrite Q; reflexivity). subst j.
  exists u, bs. split; [exact Hw|]. intros th [= ->]. apply (Z0 th). reflexivity.
Qed.

(** ** A request is written once *)
Lemma no_fails k i : left_to_itself k i -> L_AioClient6.fails i (o_hist k) = 0.
Proof.
  intros H. unfold L_AioClient6.fails. assert (E : filter (fun o => match o with M_AioClient.DrainFail j => Nat.eqb j i | _ => false end) (o_hist k) = []); [|rewrite E; reflexivity].
  unfold left_to_itself in H. induction (o_hist k) as [|o h IH]; [reflexivity|]. cbn [filter]. rewrite IH by (intros o' Ho'; apply H; right; exact Ho').
  destruct o; try reflexivity. destruct (Nat.eqb_spec i0 i) as [->|]; [|reflexivity]. destruct (H _ (or_introl eq_refl)) as (_ & _ & N). contradiction N; reflexivity.
Qed.
Lemma sent_once t k i tk : left_to_itself k i -> nth_error (M_AioClient.s_tasks (o_state t k)) i = Some tk ->
  List.length (L_AioClient6.sends i (M_AioClient.init t) (o_hist k)) + L_AioClient6.fresh_of (M_AioClient.t_pc tk) <= 1.
Proof. intros L Hi. pose proof (L_AioClient6.o_fails _ _ _ _ (L_AioClient6.w_tasks _ _ (L_AioClient6.wr_run t (o_hist k)) i tk Hi)) as O. rewrite (no_fails k i L) in O. exact O. Qed.
Lemma two_positions {A} (f : A -> bool) l p q x y : nth_error l p = Some x -> nth_error l q = Some y -> f x = true -> f y = true -> List.length (filter f l) <= 1 -> p = q.
Proof.
  intros Hp Hq Fx Fy L. pose proof (L_System1.positions_in f l p x Hp Fx) as P. pose proof (L_System1.positions_in f l q y Hq Fy) as Q. rewrite <- L_System1.positions_length in L.
  destruct (L_System1.positions f l) as [|a [|b r]]; [destruct P| |cbn in L; lia]. destruct P as [<-|[]]. destruct Q as [<-|[]]. reflexivity.
Qed.
Lemma one_place t k i tk c u bs c' u' bs' : left_to_itself k i -> nth_error (M_AioClient.s_tasks (o_state t k)) i = Some tk ->
  nth_error (owritten t k c) u = Some (i, (c, bs)) -> nth_error (owritten t k c') u' = Some (i, (c', bs')) -> c = c' /\ u = u' /\ bs = bs'.
Proof.
  intros L Hi H H'. pose proof (sent_once t k i tk L Hi) as O. apply L_System1.filter_nth in H as (p & Hp & _ & Lp). apply L_System1.filter_nth in H' as (q & Hq & _ & Lq).
  assert (p = q).
  { apply (two_positions (fun x => Nat.eqb (fst x) i) _ p q _ _ Hp Hq); cbn; try apply Nat.eqb_refl. rewrite <- L_System1.wlog_sends, map_length in O. lia. }
  subst q. rewrite Hp in Hq. injection Hq as -> ->. repeat split. congruence.
Qed.
(** the request of coroutine i, found among those written *)
Lemma written_owritten t k c : written_on (o_state t k) c = map (fun w => snd (snd w)) (owritten t k c).
Proof.
  unfold written_on, owritten, o_state. rewrite L_System1.run_written. generalize (L_System1.wlog (M_AioClient.init t) (o_hist k)). intros w.
  induction w as [|x w IH]; [reflexivity|]. cbn [map filter]. unfold on at 1. destruct (Nat.eqb (fst (snd x)) c); [cbn [map]; rewrite IH; reflexivity|exact IH].
Qed.
Lemma asked_written U t n regs l p k i tk c u : NoDup (w_ids p l) -> nth_error (b_clients (w_run U t n regs l)) p = Some k ->
  nth_error (M_AioClient.s_tasks (o_state t k)) i = Some tk -> asked_as (o_state t k) tk c u ->
  exists bs, nth_error (owritten t k c) u = Some (i, (c, bs)) /\ to_stream (M_AioClient.t_req tk) = Ok bs.
Proof.
  intros N Hp Hi (bs & T & Hu). exists bs. split; [|exact T]. rewrite written_owritten, nth_error_map in Hu. destruct (nth_error (owritten t k c) u) as [(j, (c', bs'))|] eqn:Hw; [|discriminate]. cbn in Hu. injection Hu as ->.
  pose proof (owritten_on _ _ _ _ _ _ _ Hw). subst c'. f_equal. f_equal.
  pose proof (wi_from _ _ _ _ _ (winv_run U t n regs l) p k Hp) as Fr. pose proof Hw as Hin. apply nth_error_In in Hin. apply filter_In in Hin as (Hin & _).
  destruct (owrites_are_units t _ k Fr _ Hin) as (x & Un). pose proof Un as (O & _). destruct (unit_id _ _ _ _ Un) as (tkj & Hj & Ej). cbn [fst snd] in *.
  apply (same_task U t n regs l p k j i tkj tk N Hp Hj Hi). rewrite Ej.
  assert (Hx : In (M_AioClient.t_req tk, M_AioClient.t_addr tk) (specs (o_state t k))) by (unfold L_System1.specs; apply in_map_iff; exists tk; split; [reflexivity|eapply nth_error_In; exact Hi]).
  destruct (fr_from _ _ Fr _ Hx) as [(d' & rid' & _ & Er)|(rid' & _ & Er)]; cbn [fst snd] in *.
  - destruct (call_unit d' rid' _ bs Er T) as (q & O' & Q & _). destruct (one_fun bs bs [] [] _ _ O O' eq_refl) as (_ & _ & ->). cbn [item_id]. apply request_id in Er as (Er & _). congruence.
  - pose proof (beat_unit _ _ _ Er T) as O'. destruct (one_fun bs bs [] [] _ _ O O' eq_refl) as (_ & _ & ->). cbn [item_id]. apply beat_id in Er as (Er & _). symmetry. exact Er.
Qed.

(** ** A request that is not the first on its connection to a threaded listener *)
Lemma early_got t h i rid : S_WhyAio.too_early t h i rid -> exists q, S_WhyAio.got (M_AioClient.run t h) q /\ M_AioClient.rid_of q = rid.
Proof.
  intros (l1 & c & l2 & tk0 & k0 & k1 & frame & q & El & _ & _ & _ & _ & Hk1 & Ef & F & R). exists q. split; [|exact R].
  rewrite El. change (M_AioClient.Read c :: l2) with ([M_AioClient.Read c] ++ l2). rewrite app_assoc. apply L_WhyAio.got_more. exists c, k1, frame. split; [exact Hk1|]. split; [rewrite Ef; apply in_or_app; right; left; reflexivity|exact F].
Qed.
Lemma ends_replied U t n regs l p k i tk r : NoDup (w_ids p l) -> nth_error (b_clients (w_run U t n regs l)) p = Some k -> left_to_itself k i ->
  nth_error (M_AioClient.s_tasks (o_state t k)) i = Some tk -> p_ptype (M_AioClient.t_req tk) <> PTYPE_ONEWAY -> (exists c u bs, nth_error (owritten t k c) u = Some (i, (c, bs)) /\ to_stream (M_AioClient.t_req tk) = Ok bs) -> M_AioClient.t_pc tk = M_AioClient.Done r ->
  (exists q, r = M_AioClient.RetPkg q /\ S_WhyAio.got (o_state t k) q /\ M_AioClient.rid_of q = rid_of (M_AioClient.t_req tk)) \/
  (r = M_AioClient.RetErr KeyError /\ exists q, S_WhyAio.got (o_state t k) q /\ M_AioClient.rid_of q = rid_of (M_AioClient.t_req tk) /\ (~ S_WhyAio.says_ok q \/ S_WhyAio.too_early t (o_hist k) i (rid_of (M_AioClient.t_req tk)))).
Proof.
  intros N Hp L Hi Po (c & u & bs & Hw & T) Hd. pose proof (L_WhyAio.outcome_run t (o_hist k) i tk r (L_WhyWorld.world_distinct U t n regs l p k N Hp) Hi Hd) as O. destruct r as [|q|e]; cbn in O.
  - exfalso. destruct O as [O|[O|[O|(e & O)]]]; [exact (Po O)|destruct (L _ O) as (_ & K & _); congruence|destruct (L _ O) as (_ & _ & K); congruence|congruence].
  - left. exists q. split; [reflexivity|]. destruct O as (G & R & _). split; [exact G|exact R].
  - right. destruct O as [O|[(-> & O)|(-> & O)]].
    + exfalso. apply L_System1.filter_nth in Hw as (pp & Hpp & _). destruct (L_System1.wlog_task _ _ _ _ _ _ Hpp) as (tk2 & Htk2 & Sd & _). assert (Hi2 : nth_error (M_AioClient.s_tasks (M_AioClient.run t (o_hist k))) i = Some tk) by exact Hi. assert (tk2 = tk) by congruence. subst tk2.
      destruct (L_AioClient6.o_sent _ _ _ _ (L_AioClient6.w_tasks _ _ (L_AioClient6.wr_run t (o_hist k)) i tk Htk2) c bs Sd) as (_ & ad & Ead & _). congruence.
    + exfalso. destruct (L _ O) as (K & _). congruence.
    + split; [reflexivity|]. destruct O as [(q & G & R & Ns)|O]; [exists q; auto|]. destruct (early_got _ _ _ _ O) as (q & G & R). exists q. auto.
Qed.
Lemma later_waits U t n regs l p k i tk d rid c u th r : NoDup (w_ids p l) -> nth_error (b_clients (w_run U t n regs l)) p = Some k -> none_lost l k -> y_ptype d <> 2%Z ->
  made_for (o_state t k) i tk d rid -> left_to_itself k i -> asked_as (o_state t k) tk c (S u) -> nth_error (o_conns k) c = Some (PThr th) ->
  ~ gives (o_state t k) rid r.
Proof.
  intros N Hp NL Po (Hi & Er) L As Hth (i' & tk' & o & Hi' & Hr' & Hd & _).
  destruct (request_id _ _ _ Er) as (Rr & _). assert (Rr' : rid_of (M_AioClient.t_req tk') = rid) by (unfold M_AioClient.rid_of; rewrite Hr'; reflexivity).
  assert (i' = i) by (apply (same_task U t n regs l p k i' i tk' tk N Hp Hi' Hi); congruence). subst i'. assert (tk' = tk) by congruence. subst tk'.
  destruct (asked_written U t n regs l p k i tk c (S u) N Hp Hi As) as (bs & Hw & T). destruct (L_Settle.call_unit_more d rid _ bs Er T) as (_ & _ & _ & _ & _ & _ & _ & _ & _ & Pt).
  assert (G : exists q, S_WhyAio.got (o_state t k) q /\ M_AioClient.rid_of q = rid_of (M_AioClient.t_req tk)).
  { destruct (ends_replied U t n regs l p k i tk o N Hp L Hi) as [(q & _ & G & R)|(_ & q & G & R & _)]; eauto. rewrite Pt. exact Po. }
  destruct G as (q & (c' & lk & frame & Hk & Hf & Hs) & R). destruct (reply_unit U t n regs l p k c' lk frame q i tk N Hp NL Hk Hf Hs Hi (eq_sym R)) as (u' & bs' & Hw' & Z0).
  destruct (one_place t k i tk _ _ _ _ _ _ L Hi Hw Hw') as (<- & Eu & _). rewrite (Z0 th Hth) in Eu. discriminate.
Qed.

(** ** A reply takes the event of its request *)
Lemma hist_step U t o x p k' : nth_error (b_clients (w_step U t o x)) p = Some k' ->
  exists k, nth_error (b_clients x) p = Some k /\ incl (o_conns k) (o_conns k') /\ (o_hist k' = o_hist k \/ exists co, o_hist k' = o_hist k ++ [co]).
Proof.
  assert (Z : nth_error (b_clients x) p = Some k' -> exists k, nth_error (b_clients x) p = Some k /\ incl (o_conns k) (o_conns k') /\ (o_hist k' = o_hist k \/ exists co, o_hist k' = o_hist k ++ [co])).
  { intros H. exists k'. split; [exact H|]. split; [apply incl_refl|left; reflexivity]. }
  assert (A : forall q co, nth_error (b_clients (on_oclient q (o_add co) x)) p = Some k' -> exists k, nth_error (b_clients x) p = Some k /\ incl (o_conns k) (o_conns k') /\ (o_hist k' = o_hist k \/ exists co, o_hist k' = o_hist k ++ [co])).
  { intros q co H. cbn [on_oclient b_clients] in H. apply nth_upd_inv in H as [(E & k0 & H0 & ->)|(_ & H)]; [|exact (Z H)]. exists k0. split; [congruence|]. split; [apply incl_refl|right; exists co; reflexivity]. }
  destruct o as [q d rid a|q i acc|q o|o|q c n|q c n]; cbn [w_step].
  - destruct (y_request d rid) as [r|] eqn:Er; [|exact Z]. intros H. exact (A q _ H).
  - destruct (nth_error (b_clients x) q) as [k|] eqn:Hq; [|exact Z]. cbv zeta. destruct (nth_error (M_AioClient.s_links _) _) as [lk|]; [|exact Z]. destruct (accepts _ _ _) as [(o, e)|]; [|exact Z]. cbn [on_oclient on_rest b_clients].
    intros H. apply nth_upd_inv in H as [(E & k0 & H0 & ->)|(_ & H)]; [|exact (Z H)]. exists k. split; [congruence|]. split; [cbn; apply incl_appl, incl_refl|right; exists (M_AioClient.DialOk i); reflexivity].
  - destruct o; try exact Z; intros H; exact (A q _ H).
  - intros H. apply Z. repeat match type of H with context [match ?y with _ => _ end] => destruct y end; exact H.
  - destruct (nth_error (b_clients x) q) as [k|]; [|exact Z]. destruct (nth_error (o_conns k) c) as [e|]; [|exact Z]. destruct (end_got _ _); exact Z.
  - destruct (nth_error (b_clients x) q) as [k|]; [|exact Z]. destruct (nth_error (o_conns k) c) as [e|]; [|exact Z]. destruct (nth_error (M_AioClient.s_links _) c) as [lk|]; [|exact Z]. destruct (end_sent _ _ _); [|exact Z].
    intros H. exact (A q _ H).
Qed.
Lemma rest_more l o d : In d (rest_steps l) -> In d (rest_steps (l ++ [o])).
Proof. unfold rest_steps. rewrite map_app, concat_app. intros H. apply in_or_app. left. exact H. Qed.
Lemma nodup_left {A} (a b : list A) : NoDup (a ++ b) -> NoDup a.
Proof. induction a as [|x a IH]; intros N; [constructor|]. inversion N as [|? ? N1 N2]; subst. constructor; [intros H; apply N1; apply in_or_app; left; exact H|exact (IH N2)]. Qed.
Lemma world_taken U t n regs p rid l : NoDup (w_ids p l) -> forall k, nth_error (b_clients (w_run U t n regs l)) p = Some k -> none_lost l k ->
  (forall j tj, nth_error (M_AioClient.s_tasks (o_state t k)) j = Some tj -> rid_of (M_AioClient.t_req tj) = rid -> left_to_itself k j) -> L_AioKept.taken (o_state t k) rid.
Proof.
  induction l as [|o l IH] using rev_ind; intros N k' Hp NL LI.
  - unfold w_run, b_init in Hp. cbn [fold_left b_clients] in Hp. apply nth_error_In in Hp. apply repeat_spec in Hp. subst k'. intros q (c & lk & fr & H & _). destruct c; discriminate.
  - rewrite wrun_snoc in Hp. rewrite L_WhyWorld.wids_snoc in N. pose proof (nodup_left _ _ N) as N0. destruct (hist_step U t o _ p k' Hp) as (k & Hk & Ic & Hh).
    assert (NL0 : none_lost l k) by (intros a m Hin; destruct (NL a m (Ic _ Hin)) as (A & B); split; intros K; [apply A|apply B]; apply rest_more; exact K).
    assert (Hs : o_hist k' = o_hist k \/ exists co, o_state t k' = M_AioClient.run_step co (o_state t k) /\ o_hist k' = o_hist k ++ [co]).
    { destruct Hh as [E|(co & E)]; [left; exact E|right]. exists co. split; [|exact E]. unfold o_state. rewrite E. apply L_Settle1.run_snoc. }
    assert (LI0 : forall j tj, nth_error (M_AioClient.s_tasks (o_state t k)) j = Some tj -> rid_of (M_AioClient.t_req tj) = rid -> left_to_itself k j).
    { intros j tj Hj Rj. destruct Hs as [E|(co & E & Eh)].
      - assert (Es : o_state t k' = o_state t k) by (unfold o_state; rewrite E; reflexivity). rewrite <- Es in Hj. intros s Hin. apply (LI j tj Hj Rj). rewrite E. exact Hin.
      - destruct (L_AioClient3.task_kept co (o_state t k) j tj (L_AioClient.run_links_ok t (o_hist k)) Hj) as (tj' & Hj' & Rq). rewrite <- E in Hj'. intros s Hin. apply (LI j tj' Hj'); [rewrite Rq; exact Rj|]. rewrite Eh. apply in_or_app. left. exact Hin. }
    specialize (IH N0 k Hk NL0 LI0). destruct Hs as [E|(co & E & _)]; [unfold o_state in *; rewrite E; exact IH|]. rewrite E. apply L_AioKept.taken_step; [apply L_AioClient.inv_run| |exact IH].
    intros j tj q Hj Hst Rj (c & lk & fr & Hlk & Hfr & Hq) Rq. destruct (reply_unit U t n regs l p k c lk fr q j tj N0 Hk NL0 Hlk Hfr Hq Hj ltac:(congruence)) as (u & bs & Hw & _).
    pose proof (sent_once t k j tj (LI0 j tj Hj Rj) Hj) as O. rewrite Hst in O. apply L_System1.filter_nth in Hw as (pp & Hpp & _). destruct (L_System1.wlog_task _ _ _ _ _ _ Hpp) as (tk2 & _ & Sd & _).
    destruct (L_AioClient6.sends j (M_AioClient.init t) (o_hist k)); [destruct Sd|]. cbn in O. lia.
Qed.

(** ** The first request on a connection to a threaded listener *)
Lemma skip_all {A} (g y : list A) : prefix g y -> skipn (List.length g) y = [] -> g = y.
Proof. intros (r & ->) E. rewrite skipn_app, skipn_all, Nat.sub_diag in E. cbn in E. subst r. rewrite app_nil_r. reflexivity. Qed.
Lemma first_answered U t n regs l p k i tk d rid c th y v : NoDup (w_ids p l) -> let x := w_run U t n regs l in w_settled U t x -> nth_error (b_clients x) p = Some k -> none_lost l k -> y_ptype d <> 2%Z ->
  made_for (o_state t k) i tk d rid -> left_to_itself k i -> asked_as (o_state t k) tk c 0 -> kept t k c -> nth_error (o_conns k) c = Some (PThr th) -> nth_error (d_thrs (b_dep x)) th = Some y -> (forall e, ~ In (DOver th e) (rest_steps l)) ->
  y_interface d <> [] -> y_method d <> [] -> S_Settle.clear_trace U d -> S_Answered.answers_with y d v ->
  gives (o_state t k) rid (Ok (PBytes v)) \/ (gives (o_state t k) rid (Raise KeyError) /\ S_WhyAio.too_early t (o_hist k) i rid).
Proof.
  intros N x St Hp NL Po (Hi & Er) L As (lk & Hlk & X1 & X2 & Eo) Hc Hy No Ni Nm Cl (F & Ee & Of & Ca & Lv). pose proof (winv_run U t n regs l) as W. fold x in W.
  destruct (request_id _ _ _ Er) as (Rr & Pr). destruct (asked_written U t n regs l p k i tk c 0 N Hp Hi As) as (bs & Hw & T). destruct (L_Settle.call_unit_more d rid _ bs Er T) as (q & h & O & Qi & Qb & _ & Qh & (N1 & _ & N3) & Bh & Pt).
  (* the request has arrived *)
  destruct (wi_conn _ _ _ _ _ W p k c _ Hp Hc) as [(D & sent & b & Hg & Pg & Hse & Hb & Pb) _ _].
  assert (b = M_AioClient.k_in lk) by (unfold L_System1.ins in Hb; rewrite nth_error_map, Hlk in Hb; cbn in Hb; congruence). subst b.
  assert (ED : D = y_sent (o_state t k) c).
  { destruct (up_done_iff U t regs l x p c W) as (Up & _). destruct (Up (St (WUp p c 1) Logic.I) k _ D Hp Hc Hg) as [(th' & y' & e & E & Hy' & En)|E]; [|exact (skip_all _ _ Pg E)]. exfalso.
    destruct (wdep U t n regs l) as (dl & Ed & Hd). fold x in Ed. rewrite Ed in Hy'. destruct (L_DepRest2.still_open U t 0 regs dl th' y' e Hy' En) as (e' & He'). injection E as <-. destruct (Hd _ He') as [K|[]]. exact (No _ K). }
  assert (Bq : begins D (IRequest q)).
  { rewrite ED, osent_written. destruct (owritten t k c) as [|w ws] eqn:Ew; [discriminate|]. cbn in Hw. injection Hw as ->. cbn [map concat snd]. exists bs, (concat (map (fun w => snd (snd w)) ws)). auto. }
  (* it is answered *)
  cbn [end_got end_sent] in Hg, Hse. rewrite Hy in Hg, Hse. cbn [option_map] in Hg, Hse. injection Hg as Hg. injection Hse as Hse.
  destruct (L_Settle2.clear_any U h (th_tr y) (th_fresh y) (Cl h Bh)) as (tr' & sp & Ex).
  destruct (sock_result (th_fuel y) U (th_reg y) (th_tr y) (th_fresh y) (th_call y) (th_net y) q (y_interface d) (y_method d) tr' sp v F) as (fr & Rs & Hd); try assumption.
  { rewrite <- arrived_received, Hg. exact Bq. }
  { rewrite Qh. split; [exact Ni|left; exact N1]. }
  { rewrite Qh. split; [exact Nm|exact N3]. }
  { rewrite Qh. exact Ex. }
  { rewrite Qb. apply Ca. }
  assert (Es : sent = fr) by (rewrite <- Hse; unfold th_out; rewrite Ee, Hd; cbn; apply app_nil_r).
  (* the answer has arrived and was read *)
  destruct (down_done_iff U t x p c) as (Dn & _). pose proof (Dn (St (WDown p c 1) Logic.I) k _ sent lk Hp Hc Hlk) as Ein. cbn [end_sent] in Ein. rewrite Hy in Ein. cbn [option_map] in Ein. rewrite Hse in Ein. specialize (Ein eq_refl). apply (skip_all _ _ Pb) in Ein. subst sent.
  assert (Qt : forall o, w_routine (WClient p o) -> M_AioClient.run_step o (o_state t k) = o_state t k) by (intros o R; destruct (oclient_quiet U t x p o R) as (G & _); exact (G (St _ R) k Hp)).
  assert (Fo : L_AioClient.frame_ok fr) by (apply L_AioClient4.frame_ok_iff; destruct Rs as (f & Lay & _); eauto).
  destruct (L_AioKept.kept_frames t (o_hist k) c lk [fr] [] Hlk X1 X2 Eo (Qt (M_AioClient.Read c) Logic.I)) as (more & Ef); [rewrite app_nil_r; cbn; rewrite app_nil_r; congruence|constructor; [exact Fo|constructor]|].
  assert (more = []).
  { pose proof (L_AioClient.run_links_ok t (o_hist k) c lk Hlk) as LO. destruct (L_AioClient.lo_prefix _ LO) as (rest & P). rewrite Ef, Ein, Es in P. cbn [concat app] in P. rewrite <- app_assoc in P. rewrite <- (app_nil_r fr) in P at 1. apply app_inv_head in P. symmetry in P. apply app_eq_nil in P as (P & _).
    pose proof (L_AioClient.lo_frames _ LO) as Ff. rewrite Ef in Ff. apply Forall_app in Ff as (_ & Ff). destruct more as [|a m]; [reflexivity|]. inversion Ff as [|? ? (A & _) _]; subst. cbn [concat] in P. apply app_eq_nil in P as (-> & _). cbv in A. congruence. }
  subst more. rewrite app_nil_r in Ef.
  destruct (L_Settle.response_reads _ _ _ _ _ Rs) as (pk & Hpk). destruct (L_Settle.response_pkg _ _ _ _ _ _ Rs Hpk) as (P1 & P2 & P3 & P4).
  assert (Sn : L_AioClient.seen (o_state t k) pk) by (exists c, lk, fr; split; [exact Hlk|]; split; [rewrite Ef; left; reflexivity|exact Hpk]).
  (* so its event was taken *)
  assert (Tk : dget rid (M_AioClient.s_req (o_state t k)) = None).
  { refine (world_taken U t n regs p rid l N k Hp NL _ pk Sn _); [|unfold M_AioClient.rid_of; rewrite P1; cbn; exact Qi].
    intros j tj Hj Rj. assert (j = i) by (apply (same_task U t n regs l p k j i tj tk N Hp Hj Hi); congruence). subst j. exact L. }
  assert (Fz : L_AioClient6.fresh_of (M_AioClient.t_pc tk) = 0).
  { pose proof (sent_once t k i tk L Hi) as Le. apply L_System1.filter_nth in Hw as (pp & Hpp & _). destruct (L_System1.wlog_task _ _ _ _ _ _ Hpp) as (tk2 & _ & Sd & _). destruct (L_AioClient6.sends i (M_AioClient.init t) (o_hist k)); [destruct Sd|]. cbn in Le. lia. }
  destruct (L_AioKept.past_idle t (o_hist k) i tk Hi Fz (Qt (M_AioClient.DrainOk i) Logic.I) (Qt (M_AioClient.Wake i) Logic.I)) as [(r & Hd')|(ev & Hd' & Hev)].
  2: { exfalso. destruct (L_AioClient2.inv_all_run t (o_hist k) (L_WhyWorld.world_distinct U t n regs l p k N Hp)) as (_ & _ & [_ Lw]). pose proof (Lw i tk ev Hi Hd' Hev) as E. rewrite Rr in E. unfold o_state in Tk. congruence. }
  (* and the coroutine has ended: what it got is this answer *)
  assert (Same : forall g, S_WhyAio.got (o_state t k) g -> M_AioClient.rid_of g = rid_of (M_AioClient.t_req tk) -> g = pk).
  { intros g (c' & lk' & frame & Hk' & Hf' & Hs') R. destruct (reply_unit U t n regs l p k c' lk' frame g i tk N Hp NL Hk' Hf' Hs' Hi (eq_sym R)) as (u' & bs' & Hw' & _). destruct (one_place t k i tk _ _ _ _ _ _ L Hi Hw Hw') as (<- & _ & _).
    assert (lk' = lk) by congruence. subst lk'. rewrite Ef in Hf'. destruct Hf' as [<-|[]]. congruence. }
  destruct (ends_replied U t n regs l p k i tk r N Hp L Hi) as [(g & -> & G & R)|(-> & g & G & R & Why)]; [rewrite Pt; exact Po|eauto|exact Hd'| |].
  - left. rewrite (Same g G R) in *. exists i, tk, (M_AioClient.RetPkg pk). split; [exact Hi|]. split; [exact Pr|]. split; [exact Hd'|]. cbn. rewrite P4. reflexivity.
  - right. rewrite (Same g G R) in *. split; [exists i, tk, (M_AioClient.RetErr KeyError); auto|]. destruct Why as [Why|Why]; [|rewrite <- Rr; exact Why]. exfalso. apply Why. split; [exact P2|exact P3].
Qed.

(** ** For the examples *)
Lemma kept_intro t k c : option_map (fun lk => (M_AioClient.k_exn lk, M_AioClient.k_cancel lk)) (nth_error (M_AioClient.s_links (o_state t k)) c) = Some (false, false) ->
  forallb (fun o => match o with M_AioClient.Eof c' => negb (Nat.eqb c' c) | _ => true end) (o_hist k) = true -> kept t k c.
Proof.
  intros E F. destruct (nth_error (M_AioClient.s_links (o_state t k)) c) as [lk|] eqn:El; [|discriminate]. cbn in E. injection E as E1 E2. exists lk. split; [exact El|]. split; [exact E1|]. split; [exact E2|].
  intros h1 h2 lk1 H. exfalso. rewrite forallb_forall in F. assert (In (M_AioClient.Eof c) (o_hist k)) as I by (rewrite H; apply in_or_app; right; left; reflexivity). specialize (F _ I). cbn in F. rewrite Nat.eqb_refl in F. discriminate.
Qed.
Lemma asked_as_intro s tk c u : match to_stream (M_AioClient.t_req tk), nth_error (written_on s c) u with Ok a, Some b => bytes_eqb a b | _, _ => false end = true -> asked_as s tk c u.
Proof. unfold asked_as. destruct (to_stream _) as [a|]; [|discriminate]. destruct (nth_error _ u) as [b|]; [|discriminate]. intros E. apply bytes_eqb_eq in E. subst b. eauto. Qed.

(** ** A thread that has sent nothing *)
Lemma silent_waits U t n regs l p k i tk d rid c th y r : NoDup (w_ids p l) -> let x := w_run U t n regs l in nth_error (b_clients x) p = Some k -> none_lost l k -> y_ptype d <> 2%Z ->
  made_for (o_state t k) i tk d rid -> left_to_itself k i -> forall u, asked_as (o_state t k) tk c u -> nth_error (o_conns k) c = Some (PThr th) -> nth_error (d_thrs (b_dep x)) th = Some y -> o_sent (th_out U y) = [] -> ~ gives (o_state t k) rid r.
Proof.
  intros N x Hp NL Po (Hi & Er) L u As Hth Hy Hn (i' & tk' & o & Hi' & Hr' & Hd & _). pose proof (winv_run U t n regs l) as W. fold x in W.
  destruct (request_id _ _ _ Er) as (Rr & _). assert (Rr' : rid_of (M_AioClient.t_req tk') = rid) by (unfold M_AioClient.rid_of; rewrite Hr'; reflexivity).
  assert (i' = i) by (apply (same_task U t n regs l p k i' i tk' tk N Hp Hi' Hi); congruence). subst i'. assert (tk' = tk) by congruence. subst tk'.
  destruct (asked_written U t n regs l p k i tk c u N Hp Hi As) as (bs & Hw & T). destruct (L_Settle.call_unit_more d rid _ bs Er T) as (_ & _ & _ & _ & _ & _ & _ & _ & _ & Pt).
  assert (G : exists q, S_WhyAio.got (o_state t k) q /\ M_AioClient.rid_of q = rid_of (M_AioClient.t_req tk)).
  { destruct (ends_replied U t n regs l p k i tk o N Hp L Hi) as [(q & _ & G & R)|(_ & q & G & R & _)]; eauto. rewrite Pt. exact Po. }
  destruct G as (q & (c' & lk & frame & Hk & Hf & Hs) & R). destruct (reply_unit U t n regs l p k c' lk frame q i tk N Hp NL Hk Hf Hs Hi (eq_sym R)) as (u' & bs' & Hw' & _).
  destruct (one_place t k i tk _ _ _ _ _ _ L Hi Hw Hw') as (<- & _ & _).
  destruct (wi_conn _ _ _ _ _ W p k c _ Hp Hth) as [(D & sent & b & Hg & Pg & Hse & Hb & Pb) _ _].
  assert (b = M_AioClient.k_in lk) by (unfold L_System1.ins in Hb; rewrite nth_error_map, Hk in Hb; cbn in Hb; congruence). subst b.
  cbn [end_sent] in Hse. rewrite Hy in Hse. cbn [option_map] in Hse. rewrite Hn in Hse. injection Hse as <-. destruct Pb as (post & Pb). symmetry in Pb. apply app_eq_nil in Pb as (Pb & _).
  pose proof (L_AioClient.run_links_ok t (o_hist k) c lk Hk) as LO. destruct (L_AioClient.lo_prefix _ LO) as (rest & P). rewrite Pb in P. symmetry in P. apply app_eq_nil in P as (P & _).
  pose proof (L_AioClient.lo_frames _ LO) as Ff. destruct (M_AioClient.k_frames lk) as [|z zs]; [destruct Hf|]. inversion Ff as [|? ? (A & _) _]; subst. cbn [concat] in P. apply app_eq_nil in P as (-> & _). cbv in A. congruence.
Qed.

(** a thread that does not serve its first request sends nothing *)
Lemma refused_waits U t n regs l p k i tk d rid c th y : NoDup (w_ids p l) -> let x := w_run U t n regs l in w_settled U t x -> nth_error (b_clients x) p = Some k -> none_lost l k -> y_ptype d <> 2%Z ->
  made_for (o_state t k) i tk d rid -> left_to_itself k i -> asked_as (o_state t k) tk c 0 -> nth_error (o_conns k) c = Some (PThr th) -> nth_error (d_thrs (b_dep x)) th = Some y -> (forall e, ~ In (DOver th e) (rest_steps l)) ->
  y_interface d <> [] -> y_method d <> [] -> S_Settle.clear_trace U d -> refuses y d -> forall r, ~ gives (o_state t k) rid r.
Proof.
  intros N x St Hp NL Po M L As Hc Hy No Ni Nm Cl (F & Rf) r. refine (silent_waits U t n regs l p k i tk d rid c th y r N Hp NL Po M L 0 As Hc Hy _). destruct M as (Hi & Er). pose proof (winv_run U t n regs l) as W. fold x in W.
  destruct (asked_written U t n regs l p k i tk c 0 N Hp Hi As) as (bs & Hw & T). destruct (L_Settle.call_unit_more d rid _ bs Er T) as (q & h & O & Qi & Qb & _ & Qh & (N1 & _ & N3) & Bh & Pt).
  destruct (wi_conn _ _ _ _ _ W p k c _ Hp Hc) as [(D & sent & b & Hg & Pg & Hse & Hb & Pb) _ _].
  assert (ED : D = y_sent (o_state t k) c).
  { destruct (up_done_iff U t regs l x p c W) as (Up & _). destruct (Up (St (WUp p c 1) Logic.I) k _ D Hp Hc Hg) as [(th' & y' & e & E & Hy' & En)|E]; [|exact (skip_all _ _ Pg E)]. exfalso.
    destruct (wdep U t n regs l) as (dl & Ed & Hd). fold x in Ed. rewrite Ed in Hy'. destruct (L_DepRest2.still_open U t 0 regs dl th' y' e Hy' En) as (e' & He'). injection E as <-. destruct (Hd _ He') as [K|[]]. exact (No _ K). }
  assert (Bq : begins D (IRequest q)).
  { rewrite ED, osent_written. destruct (owritten t k c) as [|w ws] eqn:Ew; [discriminate|]. cbn in Hw. injection Hw as ->. cbn [map concat snd]. exists bs, (concat (map (fun w => snd (snd w)) ws)). auto. }
  cbn [end_got] in Hg. rewrite Hy in Hg. cbn [option_map] in Hg. injection Hg as Hg. rewrite <- Hg, arrived_received in Bq.
  destruct (L_Settle2.clear_any U h (th_tr y) (th_fresh y) (Cl h Bh)) as (tr' & sp & Ex).
  destruct (sock_failures (th_fuel y) U (th_reg y) (th_tr y) (th_fresh y) (th_call y) (th_err y) (th_net y) q F Bq (y_interface d) (y_method d) tr' sp) as (A & B); try (rewrite Qh).
  - split; [exact Ni|left; exact N1].
  - split; [exact Nm|exact N3].
  - exact Ex.
  - unfold th_out. destruct Rf as [Rf|(Of & e & Ca)]; [rewrite (A Rf); reflexivity|]. rewrite (B e Of); [reflexivity|]. rewrite Qb. apply Ca.
Qed.

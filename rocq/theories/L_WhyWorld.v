(** Lemmas behind C129: the calls of asyncio clients together with the listeners. *)
From Coq Require Import Lia ZifyBool.
From Verif Require Import PyBase L_PyBase PyDict PyInt M_SofaHeader M_Package L_Package L_Codec M_RpcId M_Trace S_Wire M_AioServer S_Server
  L_AioServer2 M_System S_System L_System M_Listener S_Listener L_Listener M_Net S_Net L_Net M_Deploy S_Deploy L_Deploy M_World S_World L_World S_WhyWorld.
From Verif Require M_AioClient L_AioClient L_AioClient2 L_AioClient4 L_System1 L_Front S_WhyAio L_WhyAio.
Open Scope nat_scope.

(** ** The request ids in the history of a client *)
Lemma hist_one U t o x p k' : nth_error (b_clients (w_step U t o x)) p = Some k' ->
  exists k m, nth_error (b_clients x) p = Some k /\ o_hist k' = o_hist k ++ m /\ L_Front.sublist (L_Front.hist_ids m) (w_ids p [o]).
Proof.
  assert (Z : nth_error (b_clients x) p = Some k' -> exists k m, nth_error (b_clients x) p = Some k /\ o_hist k' = o_hist k ++ m /\ L_Front.sublist (L_Front.hist_ids m) (w_ids p [o])).
  { intros H. exists k', []. split; [exact H|]. split; [rewrite app_nil_r; reflexivity|apply L_Front.sub_nil]. }
  assert (A : forall q co, nth_error (b_clients (on_oclient q (o_add co) x)) p = Some k' -> (q = p -> L_Front.sublist (L_Front.hist_ids [co]) (w_ids p [o])) ->
    exists k m, nth_error (b_clients x) p = Some k /\ o_hist k' = o_hist k ++ m /\ L_Front.sublist (L_Front.hist_ids m) (w_ids p [o])).
  { intros q co H S. cbn [on_oclient b_clients] in H. apply nth_upd_inv in H as [(E & k0 & H0 & ->)|(_ & H)]; [|exact (Z H)]. exists k0, [co]. split; [congruence|]. split; [reflexivity|exact (S E)]. }
  destruct o as [q d rid a|q i acc|q o|o|q c n|q c n]; cbn [w_step].
  - destruct (y_request d rid) as [r|] eqn:Er; [|exact Z]. intros H. apply (A q _ H). intros ->. unfold w_ids. cbn. rewrite Nat.eqb_refl. cbn. rewrite (proj1 (request_id _ _ _ Er)). apply L_Front.sub_refl.
  - destruct (nth_error (b_clients x) q) as [k|] eqn:Hq; [|exact Z]. cbv zeta. destruct (nth_error (M_AioClient.s_links _) _) as [lk|]; [|exact Z]. destruct (accepts _ _ _) as [(o, e)|]; [|exact Z]. cbn [on_oclient on_rest b_clients].
    intros H. apply nth_upd_inv in H as [(E & k0 & H0 & ->)|(_ & H)]; [|exact (Z H)]. exists k, [M_AioClient.DialOk i]. split; [congruence|]. split; [reflexivity|]. apply L_Front.sub_nil.
  - destruct o; try exact Z; intros H; apply (A q _ H); intros ->; unfold w_ids; cbn; rewrite ?Nat.eqb_refl; cbn; apply L_Front.sub_refl.
  - assert (R : forall do, nth_error (b_clients (on_rest U t do x)) p = Some k' -> nth_error (b_clients x) p = Some k') by (intros do H; exact H).
    intros H. apply Z. repeat match type of H with context [match ?y with _ => _ end] => destruct y end; exact H.
  - destruct (nth_error (b_clients x) q) as [k|]; [|exact Z]. destruct (nth_error (o_conns k) c) as [e|]; [|exact Z]. destruct (end_got _ _); exact Z.
  - destruct (nth_error (b_clients x) q) as [k|]; [|exact Z]. destruct (nth_error (o_conns k) c) as [e|]; [|exact Z]. destruct (nth_error (M_AioClient.s_links _) c) as [lk|]; [|exact Z]. destruct (end_sent _ _ _); [|exact Z].
    intros H. apply (A q _ H). intros ->. apply L_Front.sub_nil.
Qed.
Lemma wids_snoc p l o : w_ids p (l ++ [o]) = w_ids p l ++ w_ids p [o].
Proof. unfold w_ids. rewrite map_app, concat_app. reflexivity. Qed.
Lemma hist_world U t n regs l : forall p k, nth_error (b_clients (w_run U t n regs l)) p = Some k -> L_Front.sublist (L_Front.hist_ids (o_hist k)) (w_ids p l).
Proof.
  induction l as [|o l IH] using rev_ind; intros p k H.
  - cbn in H. apply nth_error_In, repeat_spec in H. subst k. constructor.
  - unfold w_run in H. rewrite fold_left_app in H. cbn [fold_left] in H. fold (w_run U t n regs l) in H. destruct (hist_one _ _ _ _ _ _ H) as (k0 & m & H0 & -> & S). rewrite L_Front.hist_app, wids_snoc. apply L_Front.sub_app; [exact (IH p k0 H0)|exact S].
Qed.
Lemma world_distinct U t n regs l p k : NoDup (w_ids p l) -> nth_error (b_clients (w_run U t n regs l)) p = Some k -> L_AioClient2.distinct_ids (M_AioClient.init t) (o_hist k).
Proof. intros N H. apply L_Front.ids_distinct. exact (L_Front.sub_nodup _ _ (hist_world U t n regs l p k H) N). Qed.

(** ** A reply that a client has read was written by a listener *)
Lemma got_written U t n regs l p k q : let x := w_run U t n regs l in nth_error (b_clients x) p = Some k -> S_WhyAio.got (o_state t k) q ->
  replied_to U (b_dep x) k (M_AioClient.rid_of q) (p_cmdcode q) (p_respstatus q).
Proof.
  intros x Hp (c & lk & frame & Hk & Hf & Hs). pose proof (winv_run U t n regs l) as W. fold x in W. pose proof (wi_dok _ _ _ _ _ W) as Dk.
  assert (Hb : nth_error (L_System1.ins (o_state t k)) c = Some (M_AioClient.k_in lk)) by (unfold L_System1.ins; rewrite nth_error_map, Hk; reflexivity).
  destruct (nth_error (o_conns k) c) as [e|] eqn:He; [|exfalso; apply nth_error_None in He; rewrite (wi_len _ _ _ _ _ W p k Hp) in He; apply nth_error_None in He; congruence].
  destruct (wi_conn _ _ _ _ _ W p k c e Hp He) as [(D & sent & b & Hg & Pg & Hse & Hb' & Pb) _ _]. assert (b = M_AioClient.k_in lk) by congruence. subst b.
  destruct (end_sent_frames U t regs _ e D sent Dk Hg Hse) as (fs & Efs & Rf & _). pose proof (frame_sent t k c lk frame sent fs Hk Hf Pb Efs Rf) as Hin.
  destruct (Rf frame Hin) as (id & cmd & st & ct & R). pose proof R as (f & Lay & _ & _ & F1 & F2 & F3 & F4 & _).
  change BoltResponse with (resp_class (cls_name BoltResponse)) in Hs. apply from_stream_resp_iff in Hs as (f' & kvs & hb & Lay' & _ & _ & _ & _ & ->).
  assert (f' = f) by (apply resp_layout_iff in Lay as (_ & _ & ->); apply resp_layout_iff in Lay' as (_ & _ & ->); reflexivity). subst f'. unfold M_AioClient.rid_of. cbn. rewrite F1, F2, F3.
  exists e, frame, ct. split; [exact (nth_error_In _ _ He)|]. split; [|exact R].
  pose proof (L_AioClient.run_links_ok t (o_hist k) c lk Hk) as LO. destruct (L_AioClient.lo_prefix _ LO) as (rest & P). destruct Pb as (post & ->). apply in_split in Hf as (fa & fb & Ef). rewrite Ef, concat_app in P. cbn [concat] in P.
  exists (concat fa), (concat fb ++ rest ++ post). rewrite Hse, P. f_equal. rewrite <- !app_assoc. reflexivity.
Qed.
Lemma world_cause U t n regs l p k i tk r e : NoDup (w_ids p l) -> let x := w_run U t n regs l in nth_error (b_clients x) p = Some k ->
  nth_error (M_AioClient.s_tasks (o_state t k)) i = Some tk -> M_AioClient.t_pc tk = M_AioClient.Done r -> M_AioClient.caller_sees r = Raise e -> cause U t (b_dep x) k i tk e.
Proof.
  intros N x Hp Hi Hd Hc. pose proof (L_WhyAio.outcome_run t (o_hist k) i tk r (world_distinct U t n regs l p k N Hp) Hi Hd) as O. destruct r as [|q|e']; cbn in Hc; [injection Hc as <-|discriminate|injection Hc as ->]; cbn in O; unfold cause; cbv zeta.
  - right. right. left. split; [reflexivity|exact O].
  - destruct O as [O|[O|(E & O)]]; [left; exact O|right; left; exact O|right; right; right]. split; [exact E|].
    destruct O as [(q & G & R & Ns)|O].
    + exists (p_cmdcode q), (p_respstatus q). split; [rewrite <- R; exact (got_written U t n regs l p k q Hp G)|]. unfold S_WhyAio.says_ok in Ns. destruct (Z.eq_dec (p_cmdcode q) CMDCODE_RESPONSE) as [E1|]; [|left; assumption]. destruct (Z.eq_dec (p_respstatus q) ST_SUCCESS) as [E2|]; [|right; left; assumption]. exfalso. apply Ns. auto.
    + pose proof O as (l1 & c & l2 & tk0 & k0 & k1 & frame & q & El & _ & _ & _ & _ & Hk1 & Ef & F & R).
      assert (G : S_WhyAio.got (o_state t k) q).
      { unfold o_state. rewrite El. change (M_AioClient.Read c :: l2) with ([M_AioClient.Read c] ++ l2). rewrite app_assoc. apply L_WhyAio.got_more. exists c, k1, frame. split; [exact Hk1|]. split; [rewrite Ef; apply in_or_app; right; left; reflexivity|exact F]. }
      exists (p_cmdcode q), (p_respstatus q). split; [rewrite <- R; exact (got_written U t n regs l p k q Hp G)|]. right. right. exact O.
Qed.

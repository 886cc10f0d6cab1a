(** Lemmas behind C117. *)
From Coq Require Import Lia ZifyBool.
From Verif Require Import PyBase L_PyBase PyDict PyInt M_SofaHeader M_Package L_Package L_Codec M_RpcId M_Trace S_Wire M_SyncClient L_SyncClient M_AioServer S_Server L_AioServer2 L_AioServer3 L_AioServer4 L_AioServer5 L_AioServer6 L_AioServer7 L_AioServer8 L_AioServer9
  M_SockServer S_SockServer L_SockServer M_System S_System L_System M_SyncSystem S_SyncSystem L_SyncSystem M_Listener S_Listener L_Listener M_Net S_Net L_Net M_Deploy S_Deploy L_Deploy S_Answered.
From Verif Require M_AioClient S_Settle L_Settle L_Settle2.
Open Scope nat_scope.

(** ** What a round of the send loop does to the calls and the connections *)
Lemma leave_shape i c conn s : exists pc, d_calls (leave i c conn s) = upd i (c_goto pc) (d_calls s) /\ d_wires (leave i c conn s) = d_wires s /\
  (c_oneway c = false -> forall w, conn = Some w -> exists y, pc = SRecv w y).
Proof.
  unfold leave. destruct conn as [w|]; [|exists (SEnd (Raise NameError)); split; [reflexivity|split; [reflexivity|discriminate]]].
  destruct (c_oneway c); eexists; (split; [reflexivity|]); (split; [reflexivity|]); [discriminate|]. intros _ w' [= <-]. eexists. reflexivity.
Qed.
Lemma again_shape i c r conn s : exists pc, d_calls (again i c r conn s) = upd i (c_goto pc) (d_calls s) /\ d_wires (again i c r conn s) = d_wires s.
Proof.
  unfold again. destruct (Nat.ltb (S r) 3); [eexists; split; reflexivity|]. destruct (leave_shape i c conn s) as (pc & A & B & _). eauto.
Qed.
Lemma round_shape U t n regs i mk dr acc send c r conn s : dok U t n regs s -> nth_error (d_calls s) i = Some c -> exists pc add,
  d_calls (round U i mk dr acc send c r conn s) = upd i (c_goto pc) (d_calls s) /\ d_wires (round U i mk dr acc send c r conn s) = d_wires s ++ add /\
  (add = [] \/ exists x, add = [x] /\ w_call x = i /\ (w_out x = [] \/ (c_oneway c = false -> exists y, pc = SRecv (List.length (d_wires s)) y))).
Proof.
  intros D Hi. unfold round. destruct (fetch mk dr (c_addr c) (d_mgrs s)) as (m, got) eqn:Ef. destruct (fetch_names _ _ _ _ _ _ Ef) as (-> & Hid).
  assert (Dm : dok U t n regs (with_mgrs (S (d_mgrs s)) s)) by (apply dok_mgrs; [exact D|lia]).
  assert (Lv : forall conn s', exists pc, d_calls (leave i c conn s') = upd i (c_goto pc) (d_calls s') /\ d_wires (leave i c conn s') = d_wires s') by (intros cn s'; destruct (leave_shape i c cn s') as (pc & A & B & _); eauto).
  assert (Ag := again_shape i c r).
  destruct got as [id|e].
  2: { assert (Lv' := Lv conn (with_mgrs (S (d_mgrs s)) s)). assert (Ag' := Ag conn (with_mgrs (S (d_mgrs s)) s)). cbn [with_mgrs d_calls d_wires] in Lv', Ag'.
       assert (K : exists pc, let s' := match e with SocketValueError => again i c r conn (with_mgrs (S (d_mgrs s)) s) | _ => leave i c conn (with_mgrs (S (d_mgrs s)) s) end in d_calls s' = upd i (c_goto pc) (d_calls s) /\ d_wires s' = d_wires s) by (destruct e; assumption).
       destruct K as (pc & A & B). exists pc, []. rewrite app_nil_r. auto. }
  destruct (connect U id i (c_addr c) acc (with_mgrs (S (d_mgrs s)) s)) as (s', w) eqn:Ec. specialize (Hid id eq_refl).
  destruct (connect_ok U t n regs _ id i (c_addr c) c acc s' w Dm) as (D' & Hc' & -> & x & Hw & Hx1 & Hx2 & Hx3); [| |exact Hi|reflexivity|exact Ec|].
  { intros w' y Hy. rewrite Hid. exact (wk_id _ _ _ (do_wires _ _ _ _ _ D w' y Hy)). }
  { cbn. lia. }
  cbn [with_mgrs d_calls d_wires] in *. set (w := List.length (d_wires s)) in *.
  assert (K : forall e, exists pc add, let s2 := match e with SocketValueError => again i c r (Some w) s' | _ => leave i c (Some w) s' end in d_calls s2 = upd i (c_goto pc) (d_calls s) /\ d_wires s2 = d_wires s ++ add /\
    (add = [] \/ exists x, add = [x] /\ w_call x = i /\ (w_out x = [] \/ (c_oneway c = false -> exists y, pc = SRecv w y)))).
  { intros e. assert (K : exists pc, let s2 := match e with SocketValueError => again i c r (Some w) s' | _ => leave i c (Some w) s' end in d_calls s2 = upd i (c_goto pc) (d_calls s') /\ d_wires s2 = d_wires s') by (destruct e; auto).
    destruct K as (pc & A & B). exists pc, [x]. cbv zeta in *. rewrite A, B, Hc'. split; [reflexivity|]. split; [exact Hw|]. right. exists x. auto. }
  destruct (let! p := c_request c in to_stream p) as [bs|e]; [|exact (K e)]. destruct send as [k|e]; [|exact (K e)].
  destruct (leave_shape i c (Some w) (with_wire w (w_write (py_take k bs)) s')) as (pc & A & B & C). exists pc, [w_write (py_take k bs) x]. rewrite A, B. cbn [with_wire d_calls d_wires]. rewrite Hc', Hw. split; [reflexivity|]. split.
  - unfold w. clear. induction (d_wires s) as [|y l IH]; [reflexivity|]. cbn. rewrite IH. reflexivity.
  - right. eexists. split; [reflexivity|]. split; [exact Hx1|]. right. intros O. exact (C O w eq_refl).
Qed.

(** ** How a call ends that nothing disturbs *)
Definition at_end (s : dep) (i : nat) (c : scall) : Prop :=
  match c_pc c with
  | SSend _ _ => True
  | SRecv w _ => forall w' x', nth_error (d_wires s) w' = Some x' -> w_call x' = i -> w_out x' <> [] -> w' = w
  | SEnd r => exists w, (forall w' x', nth_error (d_wires s) w' = Some x' -> w_call x' = i -> w_out x' <> [] -> w' = w) /\
                ((forall w' x', nth_error (d_wires s) w' = Some x' -> w_call x' = i -> w_out x' = []) \/
                 exists x, nth_error (d_wires s) w = Some x /\ w_call x = i /\ complete (w_in x) /\ r = let! _ := c_back c in judge (c_rid c) (py_take (resp_total (w_in x)) (w_in x)))
  end.
Definition ends_ok (l : list dstep) (s : dep) : Prop := forall i c, nth_error (d_calls s) i = Some c -> c_oneway c = false -> undisturbed l i -> at_end s i c.
Lemma complete_more a b : complete a -> complete (a ++ b) /\ py_take (resp_total (a ++ b)) (a ++ b) = py_take (resp_total a) a.
Proof.
  intros (A & B). pose proof (resp_total_take (len a) (a ++ b) A) as T. rewrite py_take_app in T. rewrite <- T. split.
  - split; rewrite ?len_app; pose proof (len_nonneg b); [lia|rewrite <- T; lia].
  - rewrite !py_take_firstn. rewrite firstn_app. replace (Z.to_nat (resp_total a) - List.length a) with 0 by (unfold len in B; lia). cbn. apply app_nil_r.
Qed.

(** the connections of call j are the same, but for what has come back on them *)
Definition keeps (j : nat) (s s' : dep) : Prop :=
  (forall w x', nth_error (d_wires s') w = Some x' -> w_call x' = j -> w_out x' <> [] -> exists x, nth_error (d_wires s) w = Some x /\ w_call x = j /\ w_out x = w_out x') /\
  (forall w x, nth_error (d_wires s) w = Some x -> w_call x = j -> exists x', nth_error (d_wires s') w = Some x' /\ w_call x' = j /\ prefix_of (w_in x) (w_in x')).
Lemma keeps_same j s s' : d_wires s' = d_wires s -> keeps j s s'.
Proof. intros E. unfold keeps. rewrite E. split; [eauto|]. intros w x Hx Hc. exists x. split; [exact Hx|]. split; [exact Hc|]. exists []. symmetry. apply app_nil_r. Qed.
Lemma at_end_keeps j s s' c : at_end s j c -> keeps j s s' -> at_end s' j c.
Proof.
  intros A (K1 & K2). unfold at_end in *. destruct (c_pc c) as [r conn|w y|r]; [exact I| |].
  - intros w' x' Hx Hc Ho. destruct (K1 w' x' Hx Hc Ho) as (x & B1 & B2 & B3). apply (A w' x B1 B2). congruence.
  - destruct A as (w & A1 & A2). exists w. split.
    + intros w' x' Hx Hc Ho. destruct (K1 w' x' Hx Hc Ho) as (x & B1 & B2 & B3). apply (A1 w' x B1 B2). congruence.
    + destruct A2 as [A2|(x & B1 & B2 & B3 & B4)].
      * left. intros w' x' Hx Hc. destruct (w_out x') eqn:Eo; [reflexivity|]. destruct (K1 w' x' Hx Hc) as (x & C1 & C2 & C3); [congruence|]. rewrite (A2 w' x C1 C2) in C3. congruence.
      * right. destruct (K2 w x B1 B2) as (x' & C1 & C2 & (z & C3)). exists x'. rewrite C3. destruct (complete_more (w_in x) z B3) as (M1 & M2). rewrite M2. auto.
Qed.
Lemma undisturbed_less l o i : undisturbed (l ++ [o]) i -> undisturbed l i.
Proof. intros H ev Hin. apply H. apply in_or_app. left. exact Hin. Qed.
Lemma silent_wires U t n regs s i c : dok U t n regs s -> nth_error (d_calls s) i = Some c -> sending c = true -> forall w x, nth_error (d_wires s) w = Some x -> w_call x = i -> w_out x = [].
Proof.
  intros D Hi Hs w x Hx Hc. destruct (wk_call _ _ _ (do_wires _ _ _ _ _ D w x Hx)) as (c0 & A & [B|(_ & B)] & _); [exact B|]. rewrite Hc in A. congruence.
Qed.
Lemma ends_step U t n regs l o s : dok U t n regs s -> ends_ok l s -> ends_ok (l ++ [o]) (d_step U t o s).
Proof.
  intros D E.
  assert (Same : forall s', d_calls s' = d_calls s -> (forall j, keeps j s s') -> ends_ok (l ++ [o]) s').
  { intros s' Hc Hk j c Hj Ho Hu. rewrite Hc in Hj. apply (at_end_keeps j s); [|apply Hk]. exact (E j c Hj Ho (undisturbed_less _ _ _ Hu)). }
  assert (Same' : forall s', d_calls s' = d_calls s -> d_wires s' = d_wires s -> ends_ok (l ++ [o]) s') by (intros s' H1 H2; apply Same; [exact H1|intros j; apply keeps_same; exact H2]).
  destruct o as [o|d addr oneway rid back|i mk dr acc send|i ev|w k|w k|th e|addr fuel reg tr fresh call e|th b]; cbn [d_step].
  - destruct o as [p d rid a|p i tr|p o|a lo|p c m|p c m]; try (apply Same'; reflexivity). destruct lo as [tr|name sv|m o|]; try (apply Same'; reflexivity). destruct o as [|b| | | | | | | | | |]; try (apply Same'; reflexivity). destruct (sync_conn s a m); apply Same'; reflexivity.
  - set (c0 := {| c_what := d; c_addr := addr; c_oneway := oneway; c_rid := rid; c_back := back; c_pc := SSend 0 None |}). set (c' := if _ : bool then _ else _). intros j c Hj Ho Hu. cbn [d_calls] in Hj. apply snoc_inv in Hj as [(Hj & _)|(-> & ->)].
    + apply (at_end_keeps j s); [exact (E j c Hj Ho (undisturbed_less _ _ _ Hu))|apply keeps_same; reflexivity].
    + assert (None_ : forall w x, nth_error (d_wires s) w = Some x -> w_call x = List.length (d_calls s) -> False).
      { intros w x Hx Hc. destruct (wk_call _ _ _ (do_wires _ _ _ _ _ D w x Hx)) as (c1 & A & _). rewrite Hc in A. assert (nth_error (d_calls s) (List.length (d_calls s)) = None) by (apply nth_error_None; lia). congruence. }
      assert (Q : match c_pc c' with SRecv _ _ => False | _ => True end) by (unfold c'; destruct (oneway || is_number (y_timeout d)); [destruct (c_request c0)|]; exact I).
      unfold at_end. cbn [d_wires]. destruct (c_pc c') as [r conn|w y|r]; [exact I|destruct Q|]. exists 0. split; [intros w x Hx Hc; destruct (None_ w x Hx Hc)|left; intros w x Hx Hc; destruct (None_ w x Hx Hc)].
  - destruct (nth_error (d_calls s) i) as [c|] eqn:Hi; [|apply Same'; reflexivity]. destruct (c_pc c) as [r conn| |] eqn:Epc; try (apply Same'; reflexivity).
    destruct (round_shape U t n regs i mk dr acc send c r conn s D Hi) as (pc & add & Hc & Hw & Ha). remember (round U i mk dr acc send c r conn s) as s' eqn:Es. clear Es.
    assert (Hs : sending c = true) by (unfold sending; rewrite Epc; reflexivity). pose proof (silent_wires U t n regs s i c D Hi Hs) as Sil.
    assert (Old : forall w x, nth_error (d_wires s) w = Some x -> nth_error (d_wires s') w = Some x) by (intros w x H; rewrite Hw, nth_error_app1; [exact H|apply nth_error_Some; congruence]).
    assert (New : forall w x, nth_error (d_wires s') w = Some x -> nth_error (d_wires s) w = Some x \/ (w_call x = i /\ (w_out x = [] \/ (c_oneway c = false -> exists y, pc = SRecv w y)))).
    { intros w x H. rewrite Hw in H. destruct Ha as [->|(z & -> & A & B)]; [rewrite app_nil_r in H; auto|]. apply snoc_inv in H as [(H & _)|(-> & ->)]; auto. }
    intros j c1 Hj Ho Hu. rewrite Hc in Hj. apply nth_upd_inv in Hj as [(<- & c2 & H2 & ->)|(Ne & Hj)].
    + assert (c2 = c) by congruence. subst c2. unfold at_end. cbn [c_goto c_pc c_oneway] in *.
      assert (W : forall w x, nth_error (d_wires s') w = Some x -> w_call x = i -> w_out x <> [] -> exists y, pc = SRecv w y).
      { intros w x Hx Hcx N. destruct (New w x Hx) as [H|(_ & [H|H])]; [rewrite (Sil w x H Hcx) in N; congruence|congruence|exact (H Ho)]. }
      destruct pc as [r' conn'|w y|r']; [exact I| |].
      * intros w' x' Hx Hcx N. destruct (W w' x' Hx Hcx N) as (y' & [= <- _]). reflexivity.
      * exists 0. split; [intros w' x' Hx Hcx N; destruct (W w' x' Hx Hcx N) as (y' & [=])|left]. intros w' x' Hx Hcx. destruct (w_out x') eqn:Eo; [reflexivity|]. destruct (W w' x' Hx Hcx) as (y' & [=]). congruence.
    + apply (at_end_keeps j s); [exact (E j c1 Hj Ho (undisturbed_less _ _ _ Hu))|]. split.
      * intros w x Hx Hcx N. destruct (New w x Hx) as [H|(H & _)]; [eauto|congruence].
      * intros w x Hx Hcx. exists x. split; [exact (Old w x Hx)|]. split; [exact Hcx|]. exists []. symmetry. apply app_nil_r.
  - destruct (nth_error (d_calls s) i) as [c|] eqn:Hi; [|apply Same'; reflexivity]. destruct (c_pc c) as [|w y|] eqn:Epc; try (apply Same'; reflexivity).
    assert (Hd : d_wires (recv i c w y ev s) = d_wires s /\ exists pc, d_calls (recv i c w y ev s) = upd i (c_goto pc) (d_calls s)) by (unfold recv; destruct ev as [k| |e]; [destruct (receive k y) as [y'|e]; [destruct (len (y_buf y') <? y_total y')%Z|]| |]; split; try reflexivity; eexists; reflexivity).
    intros j c1 Hj Ho Hu. destruct (Nat.eq_dec i j) as [<-|Ne].
    + destruct (Hu ev) as (k & ->); [apply in_or_app; right; left; reflexivity|]. pose proof (do_calls _ _ _ _ _ D i c Hi) as K. unfold cok in K. rewrite Epc in K. destruct K as (x & Hx & Hcx & G & L).
      assert (Oc : c_oneway c = false). { destruct Hd as (_ & pc & Hd). rewrite Hd, (nth_upd_same _ _ _ _ Hi) in Hj. injection Hj as <-. exact Ho. }
      pose proof (E i c Hi Oc (undisturbed_less _ _ _ Hu)) as A. unfold at_end in A. rewrite Epc in A. unfold recv in *. destruct (receive_spec _ _ k G L) as (y' & Er & G' & _). rewrite Er in *. destruct (Z.ltb_spec (len (y_buf y')) (y_total y')) as [L'|L'].
      * cbn [with_call d_calls] in Hj. rewrite (nth_upd_same _ _ _ _ Hi) in Hj. injection Hj as <-. exact A.
      * cbn [with_mgrs with_call d_calls] in Hj. rewrite (nth_upd_same _ _ _ _ Hi) in Hj. injection Hj as <-. unfold at_end. cbn [c_goto c_pc c_back c_rid with_mgrs with_call d_wires]. exists w. split; [exact A|right]. exists x.
        destruct (received_spec _ _ G' L') as (Cm & _). rewrite (finish_judge _ _ _ G' L'). auto.
    + destruct Hd as (Hd & pc & Hd2). rewrite Hd2, nth_upd_other in Hj by exact Ne. apply (at_end_keeps j s); [exact (E j c1 Hj Ho (undisturbed_less _ _ _ Hu))|apply keeps_same; exact Hd].
  - destruct (nth_error (d_wires s) w) as [x|]; [|apply Same'; reflexivity]. destruct (w_peer x) as [e|]; [|apply Same'; reflexivity]. destruct (end_got s e) as [got|]; [|apply Same'; reflexivity]. cbv zeta. destruct e; apply Same'; reflexivity.
  - destruct (nth_error (d_wires s) w) as [x|] eqn:Hw; [|apply Same'; reflexivity]. destruct (w_peer x) as [e|]; [|apply Same'; reflexivity]. destruct (end_sent U s e) as [sent|]; [|apply Same'; reflexivity]. cbv zeta. set (b := firstn k _).
    intros j c1 Hj Ho Hu. cbn [with_call with_wire d_calls] in Hj.
    assert (Kp : keeps j s (with_call (w_call x) (more w b) (with_wire w (w_feed b) s))).
    { split; cbn [with_call with_wire d_wires].
      - intros w' x' Hx Hcx _. apply nth_upd_inv in Hx as [(<- & z & Hz & ->)|(_ & Hx)]; eauto.
      - intros w' x' Hx Hcx. destruct (Nat.eq_dec w w') as [<-|Ne]; [rewrite (nth_upd_same _ _ _ _ Hx)|rewrite nth_upd_other by exact Ne]; eexists; (split; [eauto|]); (split; [exact Hcx|]); [eexists; reflexivity|exists []; symmetry; apply app_nil_r]. }
    apply nth_upd_inv in Hj as [(<- & c2 & H2 & ->)|(Ne & Hj)].
    + assert (O2 : c_oneway c2 = false) by (unfold more in Ho; destruct (c_pc c2) as [|w' y|]; [exact Ho| |exact Ho]; destruct (Nat.eqb w' w); exact Ho).
      pose proof (at_end_keeps _ _ _ _ (E _ c2 H2 O2 (undisturbed_less _ _ _ Hu)) Kp) as A. unfold at_end, more in *. destruct (c_pc c2) as [r conn|w' y|r] eqn:Epc; rewrite ?Epc; [exact I| |exact A]. destruct (Nat.eqb w' w); cbn [c_goto c_pc]; rewrite ?Epc; exact A.
    + apply (at_end_keeps j s); [exact (E j c1 Hj Ho (undisturbed_less _ _ _ Hu))|exact Kp].
  - apply Same'; reflexivity.
  - destruct (addr <? 0)%Z; apply Same'; reflexivity.
  - destruct (sync_thr s th); apply Same'; reflexivity.
Qed.
Lemma ends_run U t n regs l : ends_ok l (d_run U t n regs l).
Proof. induction l as [|o l IH] using rev_ind; [intros [|i] c H; discriminate|]. rewrite drun_snoc. apply (ends_step U t n regs); [apply dok_run|exact IH]. Qed.

(** ** The reply reaches the call *)
Lemma judge_response id frame cmd st v : response frame id cmd st v -> judge id frame = if (st =? 0)%Z then Ok (PBytes v) else Raise ServerError.
Proof.
  intros (f & A & B & _ & _ & C & D & E & F & G). destruct (judge_cases id frame f A) as (J & _). rewrite (J [] B); [|rewrite D; exact F|rewrite G; constructor]. rewrite C, D, E, Z.eqb_refl. reflexivity.
Qed.
Lemma wrote_all c bs : (let! p := c_request c in to_stream p) = Ok bs -> exists q h, one bs (IRequest q) /\ q_id q = c_rid c /\ q_body q = y_content (c_what c) /\ q_type q = (if c_oneway c then 2 else 1)%Z /\ q_header q = h /\ names_of (c_what c) h /\
  build_header (y_baggage (c_what c)) (y_interface (c_what c)) (y_method (c_what c)) (y_app (c_what c)) (y_uid (c_what c)) (y_extra (c_what c)) = Ok h.
Proof.
  intros E. apply bind_Ok in E as (p & E & T). unfold c_request in E. set (d := c_what c) in *. cbv zeta in E.
  set (pt := if c_oneway c then PTYPE_ONEWAY else PTYPE_REQUEST) in *. set (tm := py_or (if c_oneway c then PNone else y_timeout d) (PInt (-1))) in *.
  set (d' := {| y_baggage := y_baggage d; y_interface := y_interface d; y_method := y_method d; y_app := y_app d; y_uid := y_uid d; y_extra := y_extra d; y_content := y_content d; y_ptype := pt; y_timeout := tm |}).
  destruct (L_Settle.call_unit_more d' (c_rid c) p bs E T) as (q & h & O & A & B & C & F & G & H & _). exists q, h. split; [exact O|]. split; [exact A|]. split; [exact B|]. split; [|auto]. rewrite C. cbn [d' y_ptype]. unfold pt. destruct (c_oneway c); reflexivity.
Qed.
Lemma reply_ends U t n regs l i w e sent frame tail f : let s := d_run U t n regs l in asked s i w e -> undisturbed l i -> delivered U s i w ->
  end_sent U s e = Some sent -> sent = frame ++ tail -> response_layout frame f ->
  exists c, nth_error (d_calls s) i = Some c /\ c_pc c = SEnd (let! _ := c_back c in judge (c_rid c) frame).
Proof.
  intros s (c & x & bs & Hc & Ho & Hw & Hx & Hp & Eb & Hout) Un (c1 & x1 & e1 & Hc1 & Hw1 & Hp1 & Hg & Hs & Hr) Es -> L.
  assert (c1 = c) by congruence. assert (x1 = x) by congruence. subst c1 x1. assert (e1 = e) by congruence. subst e1. assert (Hin : w_in x = frame ++ tail) by congruence.
  pose proof (dok_run U t n regs l) as D. fold s in D. pose proof (ends_run U t n regs l i c Hc Ho Un) as A. fold s in A.
  assert (Nout : w_out x <> []). { rewrite Hout. destruct (wrote_all c bs Eb) as (q & h & O & _). intros ->. apply L_AioServer.one_unit in O. vm_compute in O. discriminate O. }
  destruct (layout_complete frame f tail L) as (Cm & Ct & C1 & C2). rewrite <- Hin in Cm, Ct, C1, C2. exists c. split; [exact Hc|].
  unfold at_end in A. pose proof (do_calls _ _ _ _ _ D i c Hc) as K. unfold cok in K. destruct (c_pc c) as [r conn|w' y|r] eqn:Epc.
  - destruct Nout. apply (silent_wires U t n regs s i c D Hc) with (w := w); [unfold sending; rewrite Epc; reflexivity|exact Hw|exact Hx].
  - exfalso. assert (w = w') by exact (A w x Hw Hx Nout). subst w'. destruct K as (x1 & Hx1 & _ & G & Lt). assert (x1 = x) by congruence. subst x1.
    destruct (rg_split _ _ G) as (_ & B2 & B3). rewrite (Hr y eq_refl) in B2. assert (len (y_buf y) = len (w_in x)).
    { apply (f_equal len) in B2. rewrite len_py_drop in B2 by (pose proof (len_nonneg (y_buf y)); lia). unfold len in *. cbn in B2. lia. }
    destruct Cm as (M1 & M2). destruct (y_header y) as [h|] eqn:Eh; [destruct (rg_some _ _ G h Eh); lia|destruct (rg_none _ _ G Eh); lia].
  - destruct A as (w0 & A1 & A2). assert (w = w0) by exact (A1 w x Hw Hx Nout). subst w0. destruct A2 as [A2|(x1 & B1 & _ & _ & ->)]; [destruct Nout; exact (A2 w x Hw Hx)|]. assert (x1 = x) by congruence. subst x1. rewrite C1. reflexivity.
Qed.

(** ** C117: threaded listeners *)
Lemma threaded_answered U t n regs l i w k x c v : let s := d_run U t n regs l in asked s i w (PThr k) -> undisturbed l i -> delivered U s i w -> nth_error (d_thrs s) k = Some x -> nth_error (d_calls s) i = Some c ->
  y_interface (c_what c) <> [] -> y_method (c_what c) <> [] -> S_Settle.clear_trace U (c_what c) -> answers_with x (c_what c) v ->
  c_pc c = SEnd (let! _ := c_back c in Ok (PBytes v)).
Proof.
  intros s As Un De Hk Hc Ni Nm Cl (F & Er & Of & Ca & Lv). pose proof As as (c0 & x0 & bs & Hc0 & Ho & Hw & Hx & Hp & Eb & Hout). assert (c0 = c) by congruence. subst c0.
  pose proof De as (c1 & x1 & e1 & _ & Hw1 & Hp1 & Hg & Hs & _). assert (x1 = x0) by congruence. subst x1. assert (e1 = PThr k) by congruence. subst e1. cbn [end_got] in Hg. rewrite Hk in Hg. cbn [option_map] in Hg. injection Hg as Hg.
  destruct (wrote_all c bs Eb) as (q & h & O & Qi & Qb & _ & Qh & (N1 & _ & N3) & Bh). destruct (L_Settle2.clear_any U h (th_tr x) (th_fresh x) (Cl h Bh)) as (tr' & sp & Ex).
  destruct (sock_result (th_fuel x) U (th_reg x) (th_tr x) (th_fresh x) (th_call x) (th_net x) q (y_interface (c_what c)) (y_method (c_what c)) tr' sp v F) as (fr & Rs & Hd); try assumption.
  - rewrite <- arrived_received, Hg, Hout. exists bs, []. rewrite app_nil_r. auto.
  - rewrite Qh. split; [exact Ni|left; exact N1].
  - rewrite Qh. split; [exact Nm|exact N3].
  - rewrite Qh. exact Ex.
  - rewrite Qb. apply Ca.
  - assert (Ht : end_sent U s (PThr k) = Some (fr ++ [])). { cbn [end_sent]. rewrite Hk. cbn [option_map]. unfold th_out. rewrite Er, Hd. cbn. rewrite app_nil_r. reflexivity. }
    pose proof Rs as (f & Lay & _). destruct (reply_ends U t n regs l i w (PThr k) _ fr [] f As Un De Ht eq_refl Lay) as (c2 & Hc2 & E). fold s in Hc2. assert (c2 = c) by congruence. subst c2. rewrite E, <- Qi, (judge_response _ _ _ _ _ Rs). reflexivity.
Qed.

(** ** C117: asyncio listeners *)
Lemma asyncio_reply U t n regs l i w a m x u frame out : let s := d_run U t n regs l in asked s i w (PAio a m) -> undisturbed l i -> delivered U s i w -> z_conn (d_net s) a m = Some x -> v_out x = (u, frame) :: out ->
  exists c, nth_error (d_calls s) i = Some c /\
    ((exists cmd v, response frame (c_rid c) cmd 0 v /\ c_pc c = SEnd (let! _ := c_back c in Ok (PBytes v))) \/
     (exists id cmd st v, response frame id cmd st v /\ st <> 0%Z /\ c_pc c = SEnd (let! _ := c_back c in Raise ServerError))).
Proof.
  intros s As Un De Hz Ho. pose proof As as (c0 & x0 & bs & Hc0 & Hone & Hw & Hx & Hp & Eb & Hout). pose proof De as (c1 & x1 & e1 & _ & Hw1 & Hp1 & Hg & Hs & _). assert (x1 = x0) by congruence. subst x1. assert (e1 = PAio a m) by congruence. subst e1.
  destruct (wrote_all c0 bs Eb) as (q & h & O & Qi & _). cbn [end_got] in Hg. rewrite Hz in Hg. cbn [option_map] in Hg. injection Hg as Hg.
  assert (Ht : end_sent U s (PAio a m) = Some (frame ++ concat (map snd out))) by (cbn [end_sent]; rewrite Hz; cbn [option_map]; unfold y_replied; rewrite Ho; reflexivity).
  destruct (do_net _ _ _ _ _ (dok_run U t n regs l)) as (zl & Hzl). fold s in Hzl. pose proof Hz as Hz'. rewrite Hzl in Hz'. destruct (zconn_run _ _ _ _ _ _ _ _ Hz') as (reg & tr & h' & Ex). rewrite Ex in Ho.
  assert (Hin : In (u, frame) (v_out (srun U reg tr h'))) by (rewrite Ho; left; reflexivity). destruct (outs_response U reg tr h' u frame Hin) as (id & cmd & st & ct & Rs). pose proof Rs as (f & Lay & Lc & _ & _ & Fi & Fs & Fc & Ls & Fh).
  destruct (reply_ends U t n regs l i w (PAio a m) _ frame _ f As Un De Ht eq_refl Lay) as (c2 & Hc2 & E). fold s in Hc2. assert (c2 = c0) by congruence. subst c2. exists c0. split; [exact Hc0|]. rewrite E.
  destruct (judge_cases (c_rid c0) frame f Lay) as (J & _). rewrite (J [] Lc); [|rewrite Fs; exact Ls|rewrite Fh; constructor]. rewrite Fi, Fs, Fc. destruct (Z.eqb_spec st 0) as [->|Ns].
  2: { right. exists id, cmd, st, ct. split; [exact Rs|]. split; [exact Ns|]. destruct (id =? c_rid c0)%Z; reflexivity. }
  left. exists cmd, ct. destruct (run_cuts U reg tr h') as (rest & C). pose proof (good_run U reg tr h') as (_ & r & fin & Ok'). pose proof Hin as Hin'. rewrite (oo_split _ _ _ Ok') in Hin'.
  assert (Ei : id = c_rid c0); [|rewrite Ei in Rs |- *; rewrite Z.eqb_refl; auto]. apply in_app_iff in Hin' as [Hin'|Hin'].
  - destruct (oo_answers _ _ _ Ok' u frame Hin') as (y & Ny & An). rewrite <- (in_run U reg tr h'), <- Ex, Hg, Hout in C.
    assert (y = IRequest q). { destruct (cuts_part _ _ _ _ _ O (fun F => F) (ex_intro _ [] (eq_sym (app_nil_r bs))) C) as [E1|(E1 & _)]; rewrite <- Ex, E1 in Ny; [destruct u; discriminate|]. destruct u as [|[|u]]; try discriminate. injection Ny as <-. reflexivity. }
    subst y. cbn in An. destruct An as (st & ct' & (g & Lg & _ & _ & _ & X & _) & _). rewrite <- (layout_fun _ _ _ Lay Lg) in X. congruence.
  - exfalso. destruct (oo_fin _ _ _ Ok') as [->|(_ & id' & st & bs' & -> & _ & R' & L)]; [destruct Hin'|]. destruct Hin' as [E1|[]]. injection E1 as _ ->.
    destruct R' as (g & Lg & _ & _ & _ & _ & X & _). rewrite <- (layout_fun _ _ _ Lay Lg) in X. destruct L as [(L & _)|(L & _)]; lia.
Qed.

(** ** The answer can always be delivered *)
Definition same_what (c c' : scall) : Prop := c_what c' = c_what c /\ c_oneway c' = c_oneway c /\ c_rid c' = c_rid c /\ c_back c' = c_back c.
Lemma arrived_all net b : (forall a, In a net -> exists b, a = Arrive b) -> arrived (net ++ [Arrive b]) = arrived net ++ b.
Proof. induction net as [|a net IH]; intros H; [cbn; apply app_nil_r|]. destruct (H a (or_introl eq_refl)) as (b' & ->). cbn. rewrite IH by (intros; apply H; right; assumption). apply app_assoc. Qed.
Lemma step_recv U t n regs s i c w y x : dok U t n regs s -> nth_error (d_calls s) i = Some c -> c_pc c = SRecv w y -> nth_error (d_wires s) w = Some x -> complete (w_in x) ->
  let s' := d_step U t (DRecv i (Avail (List.length (w_in x)))) s in
  d_wires s' = d_wires s /\ d_thrs s' = d_thrs s /\ exists c', nth_error (d_calls s') i = Some c' /\ same_what c c' /\
    ((exists r, c_pc c' = SEnd r) \/ (y_header y = None /\ exists y', c_pc c' = SRecv w y' /\ y_header y' <> None)).
Proof.
  intros D Hi Epc Hx (C1 & C2). pose proof (do_calls _ _ _ _ _ D i c Hi) as K. unfold cok in K. rewrite Epc in K. destruct K as (x1 & Hx1 & _ & G & L). assert (x1 = x) by congruence. subst x1.
  cbn [d_step]. rewrite Hi, Epc. unfold recv. destruct (receive_spec _ _ (List.length (w_in x)) G L) as (y' & -> & G' & Ll). pose proof (len_nonneg (y_buf y)) as Nb. destruct (rg_split _ _ G) as (_ & _ & Le). unfold len in Ll at 4. fold (len (w_in x)) in Ll.
  assert (Len : len (y_buf y') = Z.min (y_total y) (len (w_in x))) by (unfold len in *; lia).
  destruct (Z.ltb_spec (len (y_buf y')) (y_total y')) as [L'|L'].
  - cbn [with_call d_wires d_thrs d_calls]. split; [reflexivity|]. split; [reflexivity|]. rewrite (nth_upd_same _ _ _ _ Hi). eexists. split; [reflexivity|]. split; [repeat split|]. right. pose proof (resp_total_ge (w_in x)).
    destruct (y_header y) as [h|] eqn:Eh.
    + exfalso. destruct (rg_some _ _ G h Eh) as (_ & T & _). destruct (y_header y') as [h'|] eqn:Eh'; [destruct (rg_some _ _ G' h' Eh') as (_ & T' & _); lia|destruct (rg_none _ _ G' Eh'); lia].
    + split; [reflexivity|]. exists y'. split; [reflexivity|]. destruct (rg_none _ _ G Eh) as (T & _). intros Eh'. destruct (rg_none _ _ G' Eh'). lia.
  - cbn [with_mgrs with_call d_wires d_thrs d_calls]. split; [reflexivity|]. split; [reflexivity|]. rewrite (nth_upd_same _ _ _ _ Hi). eexists. split; [reflexivity|]. split; [repeat split|]. left. eexists. reflexivity.
Qed.
Lemma prefix_whole {A} (a b : list A) n : prefix_of a b -> List.length b <= n -> a ++ firstn n (skipn (List.length a) b) = b.
Proof. intros (c & ->) L. rewrite skipn_app, skipn_all, Nat.sub_diag. cbn. rewrite firstn_all2; [reflexivity|]. rewrite app_length in L. lia. Qed.
Lemma undisturbed_more l l' i : undisturbed l i -> undisturbed l' i -> undisturbed (l ++ l') i.
Proof. intros A B ev H. apply in_app_or in H as [H|H]; auto. Qed.
Lemma can_answer U t n regs l i w k x c v : let s := d_run U t n regs l in asked s i w (PThr k) -> undisturbed l i -> nth_error (d_thrs s) k = Some x -> (forall a, In a (th_net x) -> exists b, a = Arrive b) -> nth_error (d_calls s) i = Some c ->
  y_interface (c_what c) <> [] -> y_method (c_what c) <> [] -> S_Settle.clear_trace U (c_what c) -> answers_with x (c_what c) v ->
  exists n1 n2 n3, let s' := d_run U t n regs (l ++ [DUp w n1; DDown w n2; DRecv i (Avail n3); DRecv i (Avail n3)]) in
    exists c', nth_error (d_calls s') i = Some c' /\ c_what c' = c_what c /\ c_pc c' = SEnd (let! _ := c_back c in Ok (PBytes v)).
Proof.
  intros s As Un Hk Hn Hc Ni Nm Cl Aw. pose proof As as (c0 & x0 & bs & Hc0 & Ho & Hw & Hx & Hp & Eb & Hout). assert (c0 = c) by congruence. subst c0.
  pose proof (dok_run U t n regs l) as D. fold s in D. set (b1 := firstn (List.length (w_out x0)) (skipn (List.length (arrived (th_net x))) (w_out x0))). set (x1 := th_arrive (Arrive b1) x).
  set (s1 := d_step U t (DUp w (List.length (w_out x0))) s). assert (E1 : s1 = with_thr k (Arrive b1) s) by (unfold s1; cbn [d_step]; rewrite Hw, Hp; cbn [end_got]; rewrite Hk; reflexivity).
  assert (Hk1 : nth_error (d_thrs s1) k = Some x1) by (rewrite E1; cbn [with_thr d_thrs]; rewrite (nth_upd_same _ _ _ _ Hk); reflexivity).
  assert (Ar : arrived (th_net x1) = w_out x0).
  { unfold x1. cbn [th_arrive th_net]. rewrite (arrived_all _ _ Hn). apply prefix_whole; [|lia]. pose proof (wk_peer _ _ _ (do_wires _ _ _ _ _ D w x0 Hw)) as P. rewrite Hp in P. destruct P as (got & sent & G & P & _). cbn [end_got] in G. rewrite Hk in G. injection G as <-. exact P. }
  pose proof (dok_run U t n regs (l ++ [DUp w (List.length (w_out x0))])) as D1. rewrite drun_snoc in D1. fold s in D1. fold s1 in D1.
  set (sent := concat (o_sent (th_out U x1))). set (b2 := firstn (List.length sent) (skipn (List.length (w_in x0)) sent)). set (x2 := w_feed b2 x0).
  set (s2 := d_step U t (DDown w (List.length sent)) s1).
  assert (E2 : s2 = with_call i (more w b2) (with_wire w (w_feed b2) s1)) by (unfold s2; cbn [d_step]; rewrite E1 at 1; cbn [with_thr d_wires]; rewrite Hw, Hp; cbn [end_sent]; rewrite Hk1; cbn [option_map]; rewrite Hx; reflexivity).
  assert (Hw2 : nth_error (d_wires s2) w = Some x2) by (rewrite E2, E1; cbn [with_call with_wire with_thr d_wires]; rewrite (nth_upd_same _ _ _ _ Hw); reflexivity).
  assert (Hc2 : nth_error (d_calls s2) i = Some (more w b2 c)) by (rewrite E2, E1; cbn [with_call with_wire with_thr d_calls]; rewrite (nth_upd_same _ _ _ _ Hc); reflexivity).
  assert (Hk2 : nth_error (d_thrs s2) k = Some x1) by (rewrite E2; exact Hk1).
  assert (In2 : w_in x2 = sent).
  { unfold x2. cbn [w_feed w_in]. apply prefix_whole; [|lia]. assert (Hw1 : nth_error (d_wires s1) w = Some x0) by (rewrite E1; exact Hw). pose proof (wk_peer _ _ _ (do_wires _ _ _ _ _ D1 w x0 Hw1)) as P. rewrite Hp in P. destruct P as (got & sent' & _ & _ & Z & P). cbn [end_sent] in Z. rewrite Hk1 in Z. injection Z as <-. exact P. }
  assert (Mo : same_what c (more w b2 c)) by (unfold more; destruct (c_pc c) as [|w' y|]; [repeat split| |repeat split]; destruct (Nat.eqb w' w); repeat split).
  set (l2 := l ++ [DUp w (List.length (w_out x0)); DDown w (List.length sent)]).
  assert (R2 : d_run U t n regs l2 = s2) by (unfold l2; change [DUp w (List.length (w_out x0)); DDown w (List.length sent)] with ([DUp w (List.length (w_out x0))] ++ [DDown w (List.length sent)]); rewrite app_assoc, !drun_snoc; reflexivity).
  pose proof (dok_run U t n regs l2) as D2. rewrite R2 in D2.
  assert (Un2 : undisturbed l2 i) by (apply undisturbed_more; [exact Un|intros ev [H|[H|[]]]; discriminate]).
  assert (Rq : forall c', same_what c c' -> c_request c' = c_request c) by (intros c' (A1 & A2 & A3 & _); unfold c_request; rewrite A1, A2, A3; reflexivity).
  (* whatever follows, if the connection and the thread stay and the call has ended *)
  assert (Fin_ : forall l3 c3, undisturbed l3 i -> let s3 := d_run U t n regs (l2 ++ l3) in d_wires s3 = d_wires s2 -> d_thrs s3 = d_thrs s2 -> nth_error (d_calls s3) i = Some c3 -> same_what c c3 -> (exists r, c_pc c3 = SEnd r) ->
    c_pc c3 = SEnd (let! _ := c_back c in Ok (PBytes v))).
  { intros l3 c3 U3 s3 W3 T3 C3 Sw (r & Er). pose proof Sw as (A1 & A2 & A3 & A4). rewrite <- A4. apply (threaded_answered U t n regs (l2 ++ l3) i w k x1 c3 v); fold s3; rewrite ?A1; auto.
    - exists c3, x2, bs. rewrite W3, (Rq _ Sw), A2. split; [exact C3|]. split; [exact Ho|]. split; [exact Hw2|]. split; [exact Hx|]. split; [exact Hp|]. split; [exact Eb|exact Hout].
    - apply undisturbed_more; assumption.
    - exists c3, x2, (PThr k). rewrite W3. split; [exact C3|]. split; [exact Hw2|]. split; [exact Hp|]. cbn [end_got end_sent]. rewrite T3, Hk2. cbn [option_map]. rewrite Ar, In2. split; [reflexivity|]. split; [reflexivity|]. intros y Ey. congruence.
    - rewrite T3. exact Hk2. }
  assert (Cm : complete (w_in x2)).
  { rewrite In2. unfold sent. destruct Aw as (F & Er & Of & Ca & Lv). destruct (wrote_all c bs Eb) as (q & h & O & Qi & Qb & _ & Qh & (N1 & _ & N3) & Bh). destruct (L_Settle2.clear_any U h (th_tr x) (th_fresh x) (Cl h Bh)) as (tr' & sp & Ex).
    destruct (sock_result (th_fuel x) U (th_reg x) (th_tr x) (th_fresh x) (th_call x) (th_net x1) q (y_interface (c_what c)) (y_method (c_what c)) tr' sp v F) as (fr & (f & Lay & _) & Hd); try assumption.
    - rewrite <- arrived_received, Ar, Hout. exists bs, []. rewrite app_nil_r. auto.
    - rewrite Qh. split; [exact Ni|left; exact N1].
    - rewrite Qh. split; [exact Nm|exact N3].
    - rewrite Qh. exact Ex.
    - rewrite Qb. apply Ca.
    - unfold th_out. change (th_err x1) with (th_err x). change (th_fuel x1) with (th_fuel x). change (th_reg x1) with (th_reg x). change (th_tr x1) with (th_tr x). change (th_fresh x1) with (th_fresh x). change (th_call x1) with (th_call x).
      rewrite Er, Hd. cbn [o_sent concat]. exact (proj1 (layout_complete fr f [] Lay)). }
  exists (List.length (w_out x0)), (List.length sent), (List.length (w_in x2)). cbv zeta. set (o := DRecv i (Avail (List.length (w_in x2)))). change (l ++ [DUp w (List.length (w_out x0)); DDown w (List.length sent); o; o]) with (l ++ ([DUp w (List.length (w_out x0)); DDown w (List.length sent)] ++ [o; o])). rewrite app_assoc. fold l2.
  assert (Uo : undisturbed [o; o] i) by (intros ev [H|[H|[]]]; injection H as <-; eauto).
  assert (E4 : d_run U t n regs (l2 ++ [o; o]) = d_step U t o (d_step U t o s2)) by (change [o; o] with ([o] ++ [o]); rewrite app_assoc, !drun_snoc, R2; reflexivity).
  assert (Done : forall s' c', nth_error (d_calls s') i = Some c' -> (exists r, c_pc c' = SEnd r) -> d_step U t o s' = s') by (intros s' c' H (r & Er); unfold o; cbn [d_step]; rewrite H, Er; reflexivity).
  assert (Last : forall c3, nth_error (d_calls (d_run U t n regs (l2 ++ [o; o]))) i = Some c3 -> d_wires (d_run U t n regs (l2 ++ [o; o])) = d_wires s2 -> d_thrs (d_run U t n regs (l2 ++ [o; o])) = d_thrs s2 -> same_what c c3 -> (exists r, c_pc c3 = SEnd r) ->
    exists c', nth_error (d_calls (d_run U t n regs (l2 ++ [o; o]))) i = Some c' /\ c_what c' = c_what c /\ c_pc c' = SEnd (let! _ := c_back c in Ok (PBytes v))).
  { intros c3 H W T Sw En. exists c3. split; [exact H|]. split; [apply Sw|]. exact (Fin_ [o; o] c3 Uo W T H Sw En). }
  destruct (c_pc (more w b2 c)) as [r conn|w' y|r] eqn:Epc.
  - exfalso. assert (Z : w_out x2 = []) by (apply (silent_wires U t n regs s2 i _ D2 Hc2) with (w := w); [unfold sending; rewrite Epc; reflexivity|exact Hw2|exact Hx]). change (w_out x2) with (w_out x0) in Z. rewrite Hout in Z.
    destruct (wrote_all c bs Eb) as (q & h & O & _). rewrite Z in O. apply L_AioServer.one_unit in O. vm_compute in O. discriminate O.
  - assert (w' = w).
    { pose proof (ends_run U t n regs l2 i (more w b2 c)) as A. rewrite R2 in A. specialize (A Hc2). destruct Mo as (_ & M2 & _). rewrite M2 in A. specialize (A Ho Un2). unfold at_end in A. rewrite Epc in A. symmetry. apply (A w x2 Hw2 Hx). change (w_out x2) with (w_out x0). rewrite Hout.
      destruct (wrote_all c bs Eb) as (q & h & O & _). intros ->. apply L_AioServer.one_unit in O. vm_compute in O. discriminate O. }
    subst w'. pose proof (step_recv U t n regs s2 i _ w y x2 D2 Hc2 Epc Hw2 Cm) as (W3 & T3 & c3 & C3 & Sw3 & P3). fold o in W3, T3, C3. set (s3 := d_step U t o s2) in *.
    assert (Sw : same_what c c3) by (destruct Mo as (a1 & a2 & a3 & a4), Sw3 as (q1 & q2 & q3 & q4); split; [|split; [|split]]; congruence).
    destruct P3 as [En|(_ & y' & Ey & Hy)].
    + apply (Last c3); try exact Sw; try exact En; rewrite E4, (Done s3 c3 C3 En); auto.
    + assert (D3 : dok U t n regs s3) by (apply dok_step; exact D2). assert (Hw3 : nth_error (d_wires s3) w = Some x2) by (rewrite W3; exact Hw2).
      pose proof (step_recv U t n regs s3 i _ w y' x2 D3 C3 Ey Hw3 Cm) as (W4 & T4 & c4 & C4 & Sw4 & P4). fold o in W4, T4, C4. destruct P4 as [En|(Z & _)]; [|destruct (Hy Z)].
      apply (Last c4); [rewrite E4; exact C4|rewrite E4; congruence|rewrite E4; congruence| |exact En]. destruct Sw as (a1 & a2 & a3 & a4), Sw4 as (q1 & q2 & q3 & q4); split; [|split; [|split]]; congruence.
  - assert (En : exists r, c_pc (more w b2 c) = SEnd r) by eauto. apply (Last (more w b2 c)); try exact Mo; try exact En; rewrite E4, !(Done s2 _ Hc2 En); auto.
Qed.

(** ** How a call begins *)
Lemma fetch_works mk dr key n : mk n 0 = true -> mk n 1 = true -> dr n 0 = false -> fetch mk dr key n = (S n, Ok (n, 0)).
Proof. intros A B C. unfold fetch. cbv. rewrite A, B, C. reflexivity. Qed.
Lemma call_accepted U t s d addr rid back : numeric (y_timeout d) -> (exists p, c_request (new_call d addr rid back) = Ok p) ->
  let s' := d_step U t (DCall d addr false rid back) s in d_calls s' = d_calls s ++ [new_call d addr rid back] /\ d_wires s' = d_wires s /\ d_thrs s' = d_thrs s.
Proof.
  intros N (p & E). cbn [d_step d_calls d_wires d_thrs]. split; [|auto]. assert (is_number (y_timeout d) = true) as -> by (destruct N as [(z & ->)|[(b & ->)|(z & z' & ->)]]; reflexivity). cbn [orb]. change {| c_what := d; c_addr := addr; c_oneway := false; c_rid := rid; c_back := back; c_pc := SSend 0 None |} with (new_call d addr rid back). rewrite E. reflexivity.
Qed.
Lemma call_refused U t s d addr rid back : ~ numeric (y_timeout d) -> exists c, d_calls (d_step U t (DCall d addr false rid back) s) = d_calls s ++ [c] /\ c_pc c = SEnd (Raise AssertionError).
Proof.
  intros N. cbn [d_step d_calls]. assert (is_number (y_timeout d) = false) as -> by (destruct (y_timeout d); try reflexivity; destruct N; unfold numeric; eauto). cbn [orb]. eexists. split; reflexivity.
Qed.
(** a call that has not begun to send does so only in its own step *)
Lemma waits_to_send U t n regs o s i c r conn : dok U t n regs s -> nth_error (d_calls s) i = Some c -> c_pc c = SSend r conn -> (forall mk dr acc send, o <> DRound i mk dr acc send) -> nth_error (d_calls (d_step U t o s)) i = Some c.
Proof.
  intros D Hi Ep N. destruct o as [o|d addr oneway rid back|j mk dr acc send|j ev|w k|w k|th e|addr fuel reg tr fresh call e|th b]; cbn [d_step].
  - destruct o as [p d rid a|p j tr|p o|a lo|p q m|p q m]; try exact Hi. destruct lo as [tr|name sv|m o|]; try exact Hi. destruct o as [|b| | | | | | | | | |]; try exact Hi. destruct (sync_conn s a m); exact Hi.
  - apply snoc_old. exact Hi.
  - assert (Ne : j <> i) by (intros ->; exact (N mk dr acc send eq_refl)). destruct (nth_error (d_calls s) j) as [c1|] eqn:Hj; [|exact Hi]. destruct (c_pc c1) as [r1 conn1| |]; try exact Hi.
    destruct (round_shape U t n regs j mk dr acc send c1 r1 conn1 s D Hj) as (pc & add & E & _). rewrite E, nth_upd_other by exact Ne. exact Hi.
  - destruct (nth_error (d_calls s) j) as [c1|] eqn:Hj; [|exact Hi]. destruct (c_pc c1) as [|w y|] eqn:E1; try exact Hi. assert (Ne : j <> i) by (intros ->; congruence).
    unfold recv. destruct ev as [k| |e]; [destruct (receive k y) as [y'|e]; [destruct (len (y_buf y') <? y_total y')%Z|]| |]; cbn [with_mgrs with_call d_calls]; rewrite nth_upd_other by exact Ne; exact Hi.
  - destruct (nth_error (d_wires s) w) as [x|]; [|exact Hi]. destruct (w_peer x) as [e|]; [|exact Hi]. destruct (end_got s e); [|exact Hi]. cbv zeta. destruct e; exact Hi.
  - destruct (nth_error (d_wires s) w) as [x|]; [|exact Hi]. destruct (w_peer x) as [e|]; [|exact Hi]. destruct (end_sent U s e); [|exact Hi]. cbv zeta. cbn [with_call with_wire d_calls]. destruct (Nat.eq_dec (w_call x) i) as [E|Ne]; [|rewrite nth_upd_other by exact Ne; exact Hi].
    rewrite E, (nth_upd_same _ _ _ _ Hi). unfold more. rewrite Ep. reflexivity.
  - exact Hi.
  - destruct (addr <? 0)%Z; exact Hi.
  - destruct (sync_thr s th); exact Hi.
Qed.
Lemma waits_run U t n regs l1 : forall l i c r conn, nth_error (d_calls (d_run U t n regs l)) i = Some c -> c_pc c = SSend r conn -> (forall mk dr acc send, ~ In (DRound i mk dr acc send) l1) -> nth_error (d_calls (d_run U t n regs (l ++ l1))) i = Some c.
Proof.
  induction l1 as [|o l1 IH]; intros l i c r conn Hi Ep N; [rewrite app_nil_r; exact Hi|]. change (o :: l1) with ([o] ++ l1). rewrite app_assoc. apply (IH _ i c r conn); [|exact Ep|intros mk dr acc send H; exact (N mk dr acc send (or_intror H))].
  rewrite drun_snoc. apply (waits_to_send U t n regs _ _ i c r conn (dok_run U t n regs l) Hi Ep). intros mk dr acc send ->. exact (N mk dr acc send (or_introl eq_refl)).
Qed.
Lemma sent_to_thread U t n regs s i c r conn mk dr fuel reg tr fresh call e k bs : dok U t n regs s -> nth_error (d_calls s) i = Some c -> c_pc c = SSend r conn -> c_oneway c = false -> (c_addr c < 0)%Z -> (forall a, mk a 0 = true /\ mk a 1 = true /\ dr a 0 = false) ->
  (let! p := c_request c in to_stream p) = Ok bs -> (len bs <= k)%Z ->
  let s' := d_step U t (DRound i mk dr (AThr fuel reg tr fresh call e) (Ok k)) s in
  asked s' i (List.length (d_wires s)) (PThr (List.length (d_thrs s))) /\ nth_error (d_thrs s') (List.length (d_thrs s)) = Some (new_thr (c_addr c) fuel reg tr fresh call e) /\
  exists c', nth_error (d_calls s') i = Some c' /\ same_what c c'.
Proof.
  intros D Hi Ep Ho Ha Hm Eb Hk. cbn [d_step]. rewrite Hi, Ep. unfold round. destruct (Hm (d_mgrs s)) as (A & B & C). rewrite (fetch_works _ _ _ _ A B C). unfold connect.
  rewrite find_fresh; [|cbn [with_mgrs d_wires]; intros w x Hx; cbn [fst]; exact (wk_id _ _ _ (do_wires _ _ _ _ _ D w x Hx))]. destruct (Z.ltb_spec (c_addr c) 0); [|lia]. rewrite Eb. unfold leave. rewrite Ho.
  assert (Et : py_take k bs = bs) by (rewrite py_take_firstn; apply firstn_all2; unfold len in Hk; lia). rewrite Et. cbn [with_call with_wire add_wire add_thr with_mgrs d_calls d_wires d_thrs].
  rewrite (nth_upd_same _ _ _ _ Hi). split; [|split; [apply snoc_new|eexists; split; [reflexivity|repeat split]]].
  eexists _, _, bs. cbn [with_call with_wire add_wire add_thr with_mgrs d_calls d_wires d_thrs]. rewrite (nth_upd_same _ _ _ _ Hi). split; [reflexivity|]. split; [exact Ho|].
  rewrite (nth_upd_same _ _ _ (new_wire (d_mgrs s, 0) i (Some (PThr (List.length (d_thrs s))))) (snoc_new _ _)). split; [reflexivity|]. split; [reflexivity|]. split; [reflexivity|]. split; [exact Eb|reflexivity].
Qed.
Lemma call_works U t n regs l l1 d addr rid back bs mk dr fuel reg tr fresh call k v : let i := List.length (d_calls (d_run U t n regs l)) in
  numeric (y_timeout d) -> (let! p := c_request (new_call d addr rid back) in to_stream p) = Ok bs -> y_interface d <> [] -> y_method d <> [] -> S_Settle.clear_trace U d ->
  (forall mk dr acc send, ~ In (DRound i mk dr acc send) l1) -> undisturbed (l ++ l1) i ->
  (addr < 0)%Z -> (forall a, mk a 0 = true /\ mk a 1 = true /\ dr a 0 = false) -> (len bs <= k)%Z -> answers_with (new_thr addr fuel reg tr fresh call None) d v ->
  exists w n1 n2 n3, let s' := d_run U t n regs (l ++ DCall d addr false rid back :: l1 ++ [DRound i mk dr (AThr fuel reg tr fresh call None) (Ok k); DUp w n1; DDown w n2; DRecv i (Avail n3); DRecv i (Avail n3)]) in
    exists c, nth_error (d_calls s') i = Some c /\ c_what c = d /\ c_pc c = SEnd (let! _ := back in Ok (PBytes v)).
Proof.
  intros i Nu Eb Ni Nm Cl N1 N2 Ha Hm Hk Aw.
  assert (Rq : exists p, c_request (new_call d addr rid back) = Ok p) by (apply bind_Ok in Eb as (p & E & _); eauto).
  set (lc := l ++ [DCall d addr false rid back]). assert (Hc : nth_error (d_calls (d_run U t n regs lc)) i = Some (new_call d addr rid back)).
  { unfold lc. rewrite drun_snoc. destruct (call_accepted U t (d_run U t n regs l) d addr rid back Nu Rq) as (E & _). rewrite E. apply snoc_new. }
  pose proof (waits_run U t n regs l1 lc i _ 0 None Hc eq_refl N1) as Hc1. set (la := lc ++ l1) in *. set (s := d_run U t n regs la) in *.
  destruct (sent_to_thread U t n regs s i _ 0 None mk dr fuel reg tr fresh call None k bs (dok_run U t n regs la) Hc1 eq_refl eq_refl Ha Hm Eb Hk) as (As & Ht & c' & Hc' & Sw).
  set (o := DRound i mk dr (AThr fuel reg tr fresh call None) (Ok k)) in *. set (w := List.length (d_wires s)) in *. unfold s in As, Ht, Hc'. rewrite <- drun_snoc in As, Ht, Hc'. fold s in As, Ht.
  assert (Un : undisturbed (la ++ [o]) i).
  { intros ev H. unfold la, lc in H. rewrite !in_app_iff in H. destruct H as [[[H|[H|[]]]|H]|[H|[]]]; try discriminate H; apply N2, in_app_iff; auto. }
  cbn [new_call c_addr c_what] in Ht, Sw. destruct Sw as (Ew & _ & _ & Eback). cbn [new_call c_what c_back] in Ew, Eback.
  assert (Cx : exists n1 n2 n3, let s' := d_run U t n regs ((la ++ [o]) ++ [DUp w n1; DDown w n2; DRecv i (Avail n3); DRecv i (Avail n3)]) in exists c, nth_error (d_calls s') i = Some c /\ c_what c = c_what c' /\ c_pc c = SEnd (let! _ := c_back c' in Ok (PBytes v))).
  { apply (can_answer U t n regs (la ++ [o]) i w _ _ c' v As Un Ht); [intros a []|exact Hc'|rewrite Ew; exact Ni|rewrite Ew; exact Nm|rewrite Ew; exact Cl|rewrite Ew; exact Aw]. }
  destruct Cx as (n1 & n2 & n3 & c & H1 & H2 & H3). exists w, n1, n2, n3, c. rewrite Ew in H2. rewrite Eback in H3.
  replace (l ++ DCall d addr false rid back :: l1 ++ [o; DUp w n1; DDown w n2; DRecv i (Avail n3); DRecv i (Avail n3)]) with ((la ++ [o]) ++ [DUp w n1; DDown w n2; DRecv i (Avail n3); DRecv i (Avail n3)]); [auto|]. unfold la, lc. rewrite <- !app_assoc. reflexivity.
Qed.

(** ** For the examples *)
Lemma asked_intro s i w e : match nth_error (d_calls s) i, nth_error (d_wires s) w with Some c, Some x => (c_oneway c, w_call x, w_peer x, (let! p := c_request c in to_stream p)) = (false, i, Some e, Ok (w_out x)) | _, _ => False end -> asked s i w e.
Proof. destruct (nth_error (d_calls s) i) as [c|] eqn:A; [|intros []]. destruct (nth_error (d_wires s) w) as [x|] eqn:B; [|intros []]. intros H. injection H as H1 H2 H3 H4. exists c, x, (w_out x). repeat split; assumption. Qed.
Lemma delivered_intro U s i w : match nth_error (d_calls s) i, nth_error (d_wires s) w with
  | Some c, Some x => match w_peer x with Some e => (end_got s e, end_sent U s e, match c_pc c with SRecv _ y => y_rest y | _ => [] end) = (Some (w_out x), Some (w_in x), []) | None => False end | _, _ => False end -> delivered U s i w.
Proof. destruct (nth_error (d_calls s) i) as [c|] eqn:A; [|intros []]. destruct (nth_error (d_wires s) w) as [x|] eqn:B; [|intros []]. destruct (w_peer x) as [e|] eqn:P; [|intros []]. intros H. injection H as H2 H3 H4. exists c, x, e. repeat split; try assumption. intros y E. rewrite E in H4. exact H4. Qed.

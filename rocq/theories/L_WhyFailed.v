(** Lemmas behind C128. *)
From Coq Require Import Lia ZifyBool.
From Verif Require Import PyBase L_PyBase PyDict PyInt M_SofaHeader M_Package L_Package L_Codec M_RpcId M_Trace S_Wire M_SyncClient L_SyncClient M_AioServer S_Server L_AioServer2 L_AioServer3 L_AioServer4 L_AioServer5 L_AioServer6 L_AioServer7 L_AioServer8 L_AioServer9
  M_SockServer S_SockServer L_SockServer M_System S_System L_System M_SyncSystem S_SyncSystem L_SyncSystem M_Listener S_Listener L_Listener M_Net S_Net L_Net M_Deploy S_Deploy L_Deploy S_Answered L_Answered S_WhyFailed.
From Verif Require M_AioClient.
Open Scope nat_scope.

(** ** What comes back begins with a reply *)
Lemma first_of D outs : complete D -> (forall o, In o outs -> exists id cmd st c, response o id cmd st c) -> prefix_of D (concat outs) ->
  exists o r, outs = o :: r /\ py_take (resp_total D) D = o /\ prefix_of o D.
Proof.
  intros C R (x & E). destruct outs as [|o r]; [cbn in E; symmetry in E; apply app_eq_nil in E as (-> & _); destruct C as (C & _); unfold len in C; cbn in C; lia|].
  exists o, r. split; [reflexivity|]. destruct (R o (or_introl eq_refl)) as (id & cmd & st & c & g & Lg & _). cbn [concat] in E.
  destruct (complete_more D x C) as (_ & M). destruct (layout_complete o g (concat r) Lg) as (_ & _ & T & _). rewrite <- E, T in M. split; [symmetry; exact M|].
  exists (py_drop (resp_total D) D). rewrite M. symmetry. apply py_take_drop.
Qed.
(** the server has received a part of one request, the client a whole reply *)
Lemma far_reply U rid d x D : (far_got x = [] \/ exists bs q, one bs (IRequest q) /\ q_id q = rid /\ names_of d (q_header q) /\ prefix_of (far_got x) bs) -> complete D -> prefix_of D (far_sent U x) ->
  exists frame id cmd st c, py_take (resp_total D) D = frame /\ prefix_of frame D /\ response frame id cmd st c /\ (st = 0%Z -> id = rid) /\
    match x with Threaded _ _ _ _ _ _ _ => st <> 0%Z -> y_interface d = [] \/ y_method d = [] | Asyncio _ _ _ => True end.
Proof.
  intros Re C P. destruct x as [fuel reg tr fresh call w net|reg tr l]; cbn [far_got far_sent] in *.
  - destruct (proj1 (sock_effects fuel U reg tr fresh call w net)) as [E|(bs & (part & more & E & Eb & _) & Rf)]; rewrite E in P.
    { exfalso. cbn in P. apply prefix_nil in P. subst D. destruct C as (C & _). unfold len in C. cbn in C. lia. }
    assert (Rb : exists id cmd st c, response bs id cmd st c) by (destruct Rf as [(id & _ & X & _)|[(q & _ & _ & X & _)|(q & sv & m & ct & u & _ & _ & _ & _ & _ & _ & X)]]; eauto).
    destruct (first_of D [bs] C) as (o & r & Eo & T & Po); [intros o [<-|[]]; exact Rb|rewrite Eb; destruct P as (y & P); exists (y ++ more); cbn in P |- *; rewrite app_nil_r in P |- *; rewrite P, !app_assoc; reflexivity|].
    injection Eo as <- _. exists bs.
    assert (Hr : forall j, begins (S_SockServer.received net) j -> exists q, j = IRequest q /\ q_id q = rid /\ names_of d (q_header q)).
    { intros j Bj. destruct Re as [Z|(rb & q & O & B & N & Pq)]; [exfalso; destruct Bj as (a & r' & Ea & O); rewrite Z in Ea; exact (one_some _ _ _ O (eq_sym Ea))|].
      destruct (begins_part _ _ _ _ O Pq Bj) as (-> & _). eauto. }
    destruct Rf as [(id & Be & X & _)|[(q & Be & Nn & X & _)|(q & sv & m & ct & u & Be & Ns & Nm & _ & Ec & Ev & X)]]; destruct (Hr _ Be) as (q' & Eq & B & N); try discriminate; injection Eq as <-.
    + exists (q_id q), 2%Z, 8%Z, []. split; [exact T|]. split; [exact Po|]. split; [exact X|]. split; [lia|]. intros _. destruct N as (N1 & _ & N3).
      destruct (y_interface d) as [|a1 r1] eqn:Ei; [left; reflexivity|]. destruct (y_method d) as [|a2 r2] eqn:Em; [right; reflexivity|]. exfalso. destruct Nn as [Nn|Nn]; apply Nn; [exists (a1 :: r1); split; [discriminate|left; exact N1]|exists (a2 :: r2); split; [discriminate|exact N3]].
    + exists (q_id q), 2%Z, 0%Z, u. split; [exact T|]. split; [exact Po|]. split; [exact X|]. split; [intros _; exact B|]. intros H. destruct (H eq_refl).
  - destruct (first_of D (map snd (v_out (srun U reg tr l))) C) as (o & r & Eo & T & Po); [|exact P|].
    { intros o Ho. apply in_map_iff in Ho as ((n, o') & <- & Ho). exact (outs_response U reg tr l n o' Ho). }
    assert (Ho : In o (map snd (v_out (srun U reg tr l)))) by (rewrite Eo; left; reflexivity).
    apply in_map_iff in Ho as ((n, o') & Eo' & Ho). cbn [snd] in Eo'. subst o'. exists o.
    destruct (run_cuts U reg tr l) as (rest & Cu). pose proof (good_run U reg tr l) as G. pose proof G as (_ & rg & fin & O). rewrite (oo_split _ _ _ O) in Ho.
    apply in_app_iff in Ho as [Ho|Ho].
    + destruct (oo_answers _ _ _ O n o Ho) as (y & Ny & An).
      destruct Re as [Z|(rb & q & Oq & B & Cn & Pq)]; [exfalso; rewrite Z in Cu; inversion Cu as [b Eb El|a j r' Oj F' Z'|a j b' l' r' Oj F' C' Z']; [rewrite <- El in Ny; destruct n; discriminate| |]; exact (one_some _ _ _ Oj Z')|].
      assert (y = IRequest q). { destruct (cuts_part _ _ _ _ _ Oq (fun F => F) Pq Cu) as [E|(E & _)]; rewrite E in Ny; [destruct n; discriminate|]. destruct n as [|[|n]]; try discriminate. injection Ny as <-. reflexivity. }
      subst y. cbn in An. destruct An as (st & ct & Rs & _). exists (q_id q), 2%Z, st, ct. split; [exact T|]. split; [exact Po|]. split; [exact Rs|]. split; [intros _; exact B|exact I].
    + destruct (oo_fin _ _ _ O) as [->|(_ & id' & st & bs' & -> & _ & R' & L)]; [destruct Ho|]. destruct Ho as [E|[]]. injection E as _ ->.
      exists id', 2%Z, st, []. split; [exact T|]. split; [exact Po|]. split; [exact R'|]. split; [|exact I]. intros ->. destruct L as [(L & _)|(L & _)]; lia.
Qed.

(** ** Why a call ended *)
Definition judged (s : dep) (i : nat) (c : scall) (e : exn) : Prop := c_oneway c = false /\ exists w x, nth_error (d_wires s) w = Some x /\ w_call x = i /\ complete (w_in x) /\
  Raise e = (let! _ := c_back c in judge (c_rid c) (py_take (resp_total (w_in x)) (w_in x))).
Definition why (l : list dstep) (s : dep) (i : nat) (c : scall) : Prop :=
  match c_pc c with
  | SSend _ conn => conn = None -> no_connection s i
  | SRecv _ _ => c_oneway c = false
  | SEnd (Ok _) => True
  | SEnd (Raise e) => (e = TimeoutError /\ In (DRecv i Silent) l) \/ In (DRecv i (Broken e)) l \/ (refused c e /\ no_connection s i) \/ (c_back c = Raise e /\ c_oneway c = true) \/ judged s i c e
  end.
Definition whys (l : list dstep) (s : dep) : Prop := forall i c, nth_error (d_calls s) i = Some c -> why l s i c.
(** the connections of call j are the same, but for what has come back on them *)
Definition holds (j : nat) (s s' : dep) : Prop :=
  (forall w x', nth_error (d_wires s') w = Some x' -> w_call x' = j -> exists x, nth_error (d_wires s) w = Some x /\ w_call x = j) /\
  (forall w x, nth_error (d_wires s) w = Some x -> w_call x = j -> exists x', nth_error (d_wires s') w = Some x' /\ w_call x' = j /\ prefix_of (w_in x) (w_in x')).
Lemma holds_same j s s' : d_wires s' = d_wires s -> holds j s s'.
Proof. intros E. unfold holds. rewrite E. split; [eauto|]. intros w x Hx Hc. exists x. split; [exact Hx|]. split; [exact Hc|]. exists []. symmetry. apply app_nil_r. Qed.
Lemma none_holds j s s' : holds j s s' -> no_connection s j -> no_connection s' j.
Proof. intros (H & _) N w x Hx Hc. destruct (H w x Hx Hc) as (y & Hy & Hj). exact (N w y Hy Hj). Qed.
Lemma why_holds l o j s s' c : why l s j c -> holds j s s' -> why (l ++ [o]) s' j c.
Proof.
  intros W H. unfold why in *. destruct (c_pc c) as [r conn|w y|[v|e]]; [intros E; exact (none_holds j s s' H (W E))|exact W|exact I|].
  destruct W as [(-> & W)|[W|[(W & N)|[W|(Ho & w & x & Hx & Hc & Cm & E)]]]].
  - left. split; [reflexivity|apply in_or_app; auto].
  - right. left. apply in_or_app; auto.
  - right. right. left. split; [exact W|exact (none_holds j s s' H N)].
  - right. right. right. left. exact W.
  - right. right. right. right. split; [exact Ho|]. destruct (proj2 H w x Hx Hc) as (x' & Hx' & Hc' & (z & Ez)). exists w, x'. rewrite Ez. destruct (complete_more (w_in x) z Cm) as (M1 & M2). rewrite M2. auto.
Qed.
Definition follows (i : nat) (c : scall) (conn : option nat) (pc : spc) : Prop :=
  match conn with
  | None => pc = SEnd (Raise NameError) \/ exists r, pc = SSend r None
  | Some w => (c_oneway c = false /\ exists y, pc = SRecv w y) \/ (c_oneway c = true /\ pc = SEnd (let! _ := c_back c in Ok PNone)) \/ exists r, pc = SSend r (Some w)
  end.
Lemma leave_follows i c conn s : exists pc, d_calls (leave i c conn s) = upd i (c_goto pc) (d_calls s) /\ d_wires (leave i c conn s) = d_wires s /\ follows i c conn pc.
Proof.
  unfold leave. destruct conn as [w|]; [|eexists; split; [reflexivity|split; [reflexivity|left; reflexivity]]].
  destruct (c_oneway c) eqn:E; eexists; (split; [reflexivity|]); (split; [reflexivity|]); cbn; rewrite ?E; [right; left; auto|left; eauto].
Qed.
Lemma again_follows i c r conn s : exists pc, d_calls (again i c r conn s) = upd i (c_goto pc) (d_calls s) /\ d_wires (again i c r conn s) = d_wires s /\ follows i c conn pc.
Proof.
  unfold again. destruct (Nat.ltb (S r) 3); [|apply leave_follows]. eexists; split; [reflexivity|]. split; [reflexivity|]. destruct conn; cbn; eauto.
Qed.
Lemma round_follows U t n regs i mk dr acc send c r conn s : dok U t n regs s -> nth_error (d_calls s) i = Some c -> exists pc add conn',
  d_calls (round U i mk dr acc send c r conn s) = upd i (c_goto pc) (d_calls s) /\ d_wires (round U i mk dr acc send c r conn s) = d_wires s ++ add /\ follows i c conn' pc /\
  ((add = [] /\ conn' = conn) \/ exists x w, add = [x] /\ w_call x = i /\ conn' = Some w).
Proof.
  intros D Hi. unfold round. destruct (fetch mk dr (c_addr c) (d_mgrs s)) as (m, got) eqn:Ef. destruct (fetch_names _ _ _ _ _ _ Ef) as (-> & Hid).
  assert (Dm : dok U t n regs (with_mgrs (S (d_mgrs s)) s)) by (apply dok_mgrs; [exact D|lia]).
  assert (K : forall cn s' e, exists pc, let s2 := match e with SocketValueError => again i c r cn s' | _ => leave i c cn s' end in d_calls s2 = upd i (c_goto pc) (d_calls s') /\ d_wires s2 = d_wires s' /\ follows i c cn pc).
  { intros cn s' e. assert (A := again_follows i c r cn s'). assert (L := leave_follows i c cn s'). destruct e; assumption. }
  destruct got as [id|e].
  2: { destruct (K conn (with_mgrs (S (d_mgrs s)) s) e) as (pc & A & B & F). cbv zeta in A, B. exists pc, [], conn. rewrite app_nil_r. cbn [with_mgrs d_calls d_wires] in A, B. auto 6. }
  destruct (connect U id i (c_addr c) acc (with_mgrs (S (d_mgrs s)) s)) as (s', w) eqn:Ec. specialize (Hid id eq_refl).
  destruct (connect_ok U t n regs _ id i (c_addr c) c acc s' w Dm) as (D' & Hc' & -> & x & Hw & Hx1 & Hx2 & Hx3); [| |exact Hi|reflexivity|exact Ec|].
  { intros w' y Hy. rewrite Hid. exact (wk_id _ _ _ (do_wires _ _ _ _ _ D w' y Hy)). }
  { cbn. lia. }
  cbn [with_mgrs d_calls d_wires] in *. set (w := List.length (d_wires s)) in *.
  assert (K' : forall e, exists pc add conn', let s2 := match e with SocketValueError => again i c r (Some w) s' | _ => leave i c (Some w) s' end in d_calls s2 = upd i (c_goto pc) (d_calls s) /\ d_wires s2 = d_wires s ++ add /\ follows i c conn' pc /\
    ((add = [] /\ conn' = conn) \/ exists x w, add = [x] /\ w_call x = i /\ conn' = Some w)).
  { intros e. destruct (K (Some w) s' e) as (pc & A & B & F). exists pc, [x], (Some w). cbv zeta in *. rewrite A, B, Hc'. split; [reflexivity|]. split; [exact Hw|]. split; [exact F|]. right. exists x, w. auto. }
  destruct (let! p := c_request c in to_stream p) as [bs|e]; [|exact (K' e)]. destruct send as [k|e]; [|exact (K' e)].
  destruct (leave_follows i c (Some w) (with_wire w (w_write (py_take k bs)) s')) as (pc & A & B & F). exists pc, [w_write (py_take k bs) x], (Some w). rewrite A, B. cbn [with_wire d_calls d_wires]. rewrite Hc', Hw. split; [reflexivity|]. split.
  - unfold w. clear. induction (d_wires s) as [|y l IH]; [reflexivity|]. cbn. rewrite IH. reflexivity.
  - split; [exact F|]. right. eexists. exists w. split; [reflexivity|]. split; [exact Hx1|reflexivity].
Qed.
Lemma numeric_is o : is_number o = false -> ~ numeric o.
Proof. intros H [(z & ->)|[(b & ->)|(a & b & ->)]]; discriminate. Qed.
Lemma whys_step U t n regs l o s : dok U t n regs s -> whys l s -> whys (l ++ [o]) (d_step U t o s).
Proof.
  intros D W.
  assert (Same : forall s', d_calls s' = d_calls s -> (forall j, holds j s s') -> whys (l ++ [o]) s').
  { intros s' Hc Hk j c Hj. rewrite Hc in Hj. apply (why_holds l o j s); [exact (W j c Hj)|apply Hk]. }
  assert (Same' : forall s', d_calls s' = d_calls s -> d_wires s' = d_wires s -> whys (l ++ [o]) s') by (intros s' H1 H2; apply Same; [exact H1|intros j; apply holds_same; exact H2]).
  destruct o as [o|d addr oneway rid back|i mk dr acc send|i ev|w k|w k|th e|addr fuel reg tr fresh call e|th b]; cbn [d_step].
  - destruct o as [p d rid a|p i tr|p o|a lo|p c m|p c m]; try (apply Same'; reflexivity). destruct lo as [tr|name sv|m o|]; try (apply Same'; reflexivity). destruct o as [|b| | | | | | | | | |]; try (apply Same'; reflexivity). destruct (sync_conn s a m); apply Same'; reflexivity.
  - set (c0 := {| c_what := d; c_addr := addr; c_oneway := oneway; c_rid := rid; c_back := back; c_pc := SSend 0 None |}). intros j c Hj. cbn [d_calls] in Hj. apply snoc_inv in Hj as [(Hj & _)|(-> & ->)].
    + apply (why_holds l _ j s); [exact (W j c Hj)|apply holds_same; reflexivity].
    + assert (N : no_connection s (List.length (d_calls s))).
      { intros w x Hx Hc. destruct (wk_call _ _ _ (do_wires _ _ _ _ _ D w x Hx)) as (c1 & A & _). rewrite Hc in A. assert (nth_error (d_calls s) (List.length (d_calls s)) = None) by (apply nth_error_None; lia). congruence. }
      destruct (oneway || is_number (y_timeout d)) eqn:En; [destruct (c_request c0) as [p|e] eqn:Er|].
      * intros _. exact N.
      * cbn [why c_goto c_pc]. unfold why. cbn [c_goto c_pc]. right. right. left. split; [|exact N]. right. left. rewrite request_goto. exact Er.
      * unfold why. cbn [c_goto c_pc]. right. right. left. split; [|exact N]. left. apply orb_false_iff in En as (E1 & E2). split; [exact E1|]. split; [exact (numeric_is _ E2)|reflexivity].
  - destruct (nth_error (d_calls s) i) as [c|] eqn:Hi; [|apply Same'; reflexivity]. destruct (c_pc c) as [r conn| |] eqn:Epc; try (apply Same'; reflexivity).
    destruct (round_follows U t n regs i mk dr acc send c r conn s D Hi) as (pc & add & conn' & Hc & Hw & F & Ha). remember (round U i mk dr acc send c r conn s) as s' eqn:Es. clear Es.
    intros j c1 Hj. rewrite Hc in Hj. apply nth_upd_inv in Hj as [(<- & c2 & H2 & ->)|(Ne & Hj)].
    + assert (c2 = c) by congruence. subst c2. assert (Nn : conn' = None -> no_connection s' i).
      { intros ->. destruct Ha as [(-> & <-)|(x & w & _ & _ & [=])]. pose proof (W i c Hi) as Wi. unfold why in Wi. rewrite Epc in Wi. specialize (Wi eq_refl). intros w x. rewrite Hw, app_nil_r. apply Wi. }
      unfold why. cbn [c_goto c_pc c_oneway c_back]. unfold follows in F. destruct conn' as [w|].
      * destruct F as [(F1 & y & ->)|[(F1 & ->)|(r' & ->)]]; [exact F1| |discriminate]. destruct (c_back c) as [[]|e] eqn:Eb; cbn [bind]; [exact I|]. right. right. right. left. auto.
      * destruct F as [->|(r' & ->)]; [|intros _; exact (Nn eq_refl)]. right. right. left. split; [right; right; reflexivity|exact (Nn eq_refl)].
    + apply (why_holds l _ j s); [exact (W j c1 Hj)|]. split.
      * intros w x Hx Hcx. rewrite Hw in Hx. destruct Ha as [(-> & _)|(z & w' & -> & A & _)]; [rewrite app_nil_r in Hx; eauto|]. apply snoc_inv in Hx as [(Hx & _)|(-> & ->)]; [eauto|congruence].
      * intros w x Hx Hcx. exists x. split; [rewrite Hw, nth_error_app1; [exact Hx|apply nth_error_Some; congruence]|]. split; [exact Hcx|]. exists []. symmetry. apply app_nil_r.
  - destruct (nth_error (d_calls s) i) as [c|] eqn:Hi; [|apply Same'; reflexivity]. destruct (c_pc c) as [|w y|] eqn:Epc; try (apply Same'; reflexivity).
    assert (Hd : d_wires (recv i c w y ev s) = d_wires s /\ exists pc, d_calls (recv i c w y ev s) = upd i (c_goto pc) (d_calls s)) by (unfold recv; destruct ev as [k| |e]; [destruct (receive k y) as [y'|e]; [destruct (len (y_buf y') <? y_total y')%Z|]| |]; split; try reflexivity; eexists; reflexivity).
    intros j c1 Hj. destruct (Nat.eq_dec i j) as [<-|Ne].
    + pose proof (W i c Hi) as Wi. unfold why in Wi. rewrite Epc in Wi. pose proof (do_calls _ _ _ _ _ D i c Hi) as K. unfold cok in K. rewrite Epc in K. destruct K as (x & Hx & Hcx & G & L).
      unfold recv in *. destruct ev as [k| |e].
      * destruct (receive_spec _ _ k G L) as (y' & Er & G' & _). rewrite Er in *. destruct (Z.ltb_spec (len (y_buf y')) (y_total y')) as [L'|L'].
        -- cbn [with_call d_calls] in Hj. rewrite (nth_upd_same _ _ _ _ Hi) in Hj. injection Hj as <-. exact Wi.
        -- cbn [with_mgrs with_call d_calls] in Hj. rewrite (nth_upd_same _ _ _ _ Hi) in Hj. injection Hj as <-. unfold why. cbn [c_goto c_pc c_back]. rewrite (finish_judge _ _ _ G' L').
           destruct (let! _ := c_back c in judge (c_rid c) (py_take (resp_total (w_in x)) (w_in x))) as [v|e] eqn:Ej; [exact I|]. right. right. right. right. split; [exact Wi|]. exists w, x. split; [exact Hx|]. split; [exact Hcx|].
           split; [exact (proj1 (received_spec _ _ G' L'))|symmetry; exact Ej].
      * cbn [with_call d_calls] in Hj. rewrite (nth_upd_same _ _ _ _ Hi) in Hj. injection Hj as <-. unfold why. cbn [c_goto c_pc]. left. split; [reflexivity|]. apply in_or_app. right. left. reflexivity.
      * cbn [with_call d_calls] in Hj. rewrite (nth_upd_same _ _ _ _ Hi) in Hj. injection Hj as <-. unfold why. cbn [c_goto c_pc]. right. left. apply in_or_app. right. left. reflexivity.
    + destruct Hd as (Hd & pc & Hd2). rewrite Hd2, nth_upd_other in Hj by exact Ne. apply (why_holds l _ j s); [exact (W j c1 Hj)|apply holds_same; exact Hd].
  - destruct (nth_error (d_wires s) w) as [x|]; [|apply Same'; reflexivity]. destruct (w_peer x) as [e|]; [|apply Same'; reflexivity]. destruct (end_got s e) as [got|]; [|apply Same'; reflexivity]. cbv zeta. destruct e; apply Same'; reflexivity.
  - destruct (nth_error (d_wires s) w) as [x|] eqn:Hw; [|apply Same'; reflexivity]. destruct (w_peer x) as [e|]; [|apply Same'; reflexivity]. destruct (end_sent U s e) as [sent|]; [|apply Same'; reflexivity]. cbv zeta. set (b := firstn k _).
    intros j c1 Hj. cbn [with_call with_wire d_calls] in Hj.
    assert (Kp : holds j s (with_call (w_call x) (more w b) (with_wire w (w_feed b) s))).
    { split; cbn [with_call with_wire d_wires].
      - intros w' x' Hx Hcx. apply nth_upd_inv in Hx as [(<- & z & Hz & ->)|(_ & Hx)]; eauto.
      - intros w' x' Hx Hcx. destruct (Nat.eq_dec w w') as [<-|Ne]; [rewrite (nth_upd_same _ _ _ _ Hx)|rewrite nth_upd_other by exact Ne]; eexists; (split; [eauto|]); (split; [exact Hcx|]); [eexists; reflexivity|exists []; symmetry; apply app_nil_r]. }
    apply nth_upd_inv in Hj as [(<- & c2 & H2 & ->)|(Ne & Hj)].
    + pose proof (why_holds l (DDown w k) _ _ _ _ (W _ c2 H2) Kp) as A. unfold why, more in *. destruct (c_pc c2) as [r conn|w' y|[v|e']] eqn:Epc; rewrite ?Epc; [exact A| |exact I|exact A]. destruct (Nat.eqb w' w); cbn [c_goto c_pc c_oneway]; rewrite ?Epc; exact A.
    + apply (why_holds l _ j s); [exact (W j c1 Hj)|exact Kp].
  - apply Same'; reflexivity.
  - destruct (addr <? 0)%Z; apply Same'; reflexivity.
  - destruct (sync_thr s th); apply Same'; reflexivity.
Qed.
Lemma whys_run U t n regs l : whys l (d_run U t n regs l).
Proof. induction l as [|o l IH] using rev_ind; [intros [|i] c H; discriminate|]. rewrite drun_snoc. apply (whys_step U t n regs); [apply dok_run|exact IH]. Qed.

(** ** C128 *)
Lemma far_kind U t n regs s e got sent : dok U t n regs s -> end_got s e = Some got -> end_sent U s e = Some sent ->
  exists x, far_got x = got /\ far_sent U x = sent /\ match e, x with PThr _, Threaded _ _ _ _ _ _ _ | PAio _ _, Asyncio _ _ _ => True | _, _ => False end.
Proof.
  intros D Hg Hs. destruct e as [a m|k]; cbn [end_got end_sent] in *.
  - destruct (z_conn (d_net s) a m) as [y|] eqn:Ey; [|discriminate]. destruct (do_net _ _ _ _ _ D) as (zl & Hz). rewrite Hz in Ey. destruct (zconn_run _ _ _ _ _ _ _ _ Ey) as (reg & tr & h & ->).
    cbn [option_map] in *. injection Hg as <-. injection Hs as <-. exists (Asyncio reg tr h). split; [symmetry; apply in_run|]. split; [reflexivity|exact I].
  - destruct (nth_error (d_thrs s) k) as [y|]; [|discriminate]. cbn [option_map] in *. injection Hg as <-. injection Hs as <-.
    exists (Threaded (th_fuel y) (th_reg y) (th_tr y) (th_fresh y) (th_call y) (th_err y) (th_net y)). split; [symmetry; apply arrived_received|]. split; [reflexivity|exact I].
Qed.
(** a wire on which a whole reply has come back *)
Lemma wire_reply U t n regs s w x c : dok U t n regs s -> nth_error (d_wires s) w = Some x -> nth_error (d_calls s) (w_call x) = Some c -> complete (w_in x) ->
  exists e frame id cmd st v, connection_of s (w_call x) w e /\ wrote_first U s e frame /\ py_take (resp_total (w_in x)) (w_in x) = frame /\ response frame id cmd st v /\ (st = 0%Z -> id = c_rid c) /\
    (forall k, e = PThr k -> st <> 0%Z -> y_interface (c_what c) = [] \/ y_method (c_what c) = []).
Proof.
  intros D Hx Hc Cm. pose proof (do_wires _ _ _ _ _ D w x Hx) as [_ (c0 & B1 & B2 & _) P _]. assert (c0 = c) by congruence. subst c0. destruct (w_peer x) as [e|] eqn:Hp.
  2: { exfalso. rewrite P in Cm. destruct Cm as (Cm & _). unfold len in Cm. cbn in Cm. lia. }
  destruct P as (got & sent & Hg & Pg & Hs & Ps). destruct (far_kind U t n regs s e got sent D Hg Hs) as (y & <- & <- & Ky).
  destruct (far_reply U (c_rid c) (c_what c) y (w_in x)) as (frame & id & cmd & st & v & T & Pf & Rs & Id & Nm); [|exact Cm|exact Ps|].
  { destruct B2 as [B2|((bs & k & Eb & B2) & _)]; [left; rewrite B2 in Pg; exact (prefix_nil _ Pg)|right]. destruct (wrote_all c bs Eb) as (q & h & O & Qi & _ & _ & Qh & N & _). exists bs, q.
    split; [exact O|]. split; [exact Qi|]. split; [rewrite Qh; exact N|]. rewrite B2 in Pg. exact (prefix_trans _ _ _ Pg (take_prefix k bs)). }
  exists e, frame, id, cmd, st, v. split; [exists x; auto|]. split; [destruct (prefix_trans _ _ _ Pf Ps) as (tail & E); exists tail; rewrite Hs, E; reflexivity|]. split; [exact T|]. split; [exact Rs|]. split; [exact Id|].
  intros k -> Ns. destruct y; [exact (Nm Ns)|destruct Ky].
Qed.
Lemma judge_error rid frame id cmd st v e : response frame id cmd st v -> (st = 0%Z -> id = rid) -> judge rid frame = Raise e -> e = ServerError /\ st <> 0%Z.
Proof.
  intros (f & A & B & _ & _ & C & D & E & F & G) Id J. destruct (judge_cases rid frame f A) as (K & _). rewrite (K [] B) in J; [|rewrite D; exact F|rewrite G; constructor]. rewrite C, D in J.
  destruct (Z.eqb_spec st 0) as [Z|Z]; [rewrite (Id Z), Z.eqb_refl in J; discriminate J|]. split; [|exact Z]. destruct (id =? rid)%Z; cbn in J; congruence.
Qed.
Lemma why_failed U t n regs l i c e : let s := d_run U t n regs l in nth_error (d_calls s) i = Some c -> c_pc c = SEnd (Raise e) -> reason U l s i c e.
Proof.
  intros s Hi Hpc. pose proof (whys_run U t n regs l i c Hi) as W. fold s in W. unfold why in W. rewrite Hpc in W. unfold reason. destruct W as [W|[W|[W|[(W & Ho)|(Ho & w & x & Hx & <- & Cm & E)]]]]; [left; exact W|right; left; exact W|right; right; left; exact W|right; right; right; left; auto|].
  destruct (wire_reply U t n regs s w x c (dok_run U t n regs l) Hx Hi Cm) as (p & frame & id & cmd & st & v & Cn & Wf & T & Rs & Id & _). rewrite T in E. right. right. right.
  destruct (c_back c) as [[]|e'] eqn:Eb; cbn [bind] in E; [right|left].
  - destruct (judge_error _ _ _ _ _ _ e Rs Id (eq_sym E)) as (-> & Ns). split; [reflexivity|]. split; [exact Ho|]. exists w, p, frame, id, cmd, st, v. auto.
  - injection E as ->. split; [reflexivity|]. right. exists w, p, frame, id, cmd, st, v. auto.
Qed.
(** a call that never had a connection has caused nothing *)
Lemma nothing_done s i : no_connection s i -> forall w e, ~ connection_of s i w e.
Proof. intros N w e (x & Hx & Hc & _). exact (N w x Hx Hc). Qed.
(** a threaded listener reports an error only for missing names *)
Lemma thread_error U t n regs l i c w k frame tail id cmd st v : let s := d_run U t n regs l in nth_error (d_calls s) i = Some c -> connection_of s i w (PThr k) -> end_sent U s (PThr k) = Some (frame ++ tail) -> response frame id cmd st v -> st <> 0%Z ->
  y_interface (c_what c) = [] \/ y_method (c_what c) = [].
Proof.
  intros s Hi (x & Hx & Hc & Hp) Hs Rs Ns. pose proof (dok_run U t n regs l) as D. fold s in D. pose proof (do_wires _ _ _ _ _ D w x Hx) as [_ (c0 & B1 & B2 & _) P _]. rewrite Hc in B1. assert (c0 = c) by congruence. subst c0. rewrite Hp in P.
  destruct P as (got & sent & Hg & Pg & Hs' & _). destruct (far_kind U t n regs s (PThr k) got sent D Hg Hs') as (y & <- & <- & Ky). rewrite Hs in Hs'. injection Hs' as Hs'. pose proof Rs as (f & Lay & _). destruct (layout_complete frame f tail Lay) as (Cm & _ & T & _).
  destruct (far_reply U (c_rid c) (c_what c) y (frame ++ tail)) as (frame' & id' & cmd' & st' & v' & T' & _ & Rs' & _ & Nm); [|exact Cm|rewrite Hs'; exists []; symmetry; apply app_nil_r|].
  { destruct B2 as [B2|((bs & m & Eb & B2) & _)]; [left; rewrite B2 in Pg; exact (prefix_nil _ Pg)|right]. destruct (wrote_all c bs Eb) as (q & h & O & Qi & _ & _ & Qh & N & _). exists bs, q.
    split; [exact O|]. split; [exact Qi|]. split; [rewrite Qh; exact N|]. rewrite B2 in Pg. exact (prefix_trans _ _ _ Pg (take_prefix m bs)). }
  rewrite T in T'. subst frame'. destruct y; [|destruct Ky]. apply Nm. destruct Rs as (f1 & L1 & _ & _ & _ & _ & S1 & _), Rs' as (f2 & L2 & _ & _ & _ & _ & S2 & _). rewrite (layout_fun _ _ _ L1 L2) in S1. congruence.
Qed.
(** so that an undisturbed call to one fails only before it is sent *)
Lemma thread_call_fails U t n regs l i c e : let s := d_run U t n regs l in nth_error (d_calls s) i = Some c -> c_pc c = SEnd (Raise e) -> (c_addr c < 0)%Z -> y_interface (c_what c) <> [] -> y_method (c_what c) <> [] -> undisturbed l i -> c_back c = Ok tt ->
  refused c e /\ no_connection s i.
Proof.
  intros s Hi Hpc Ad N1 N2 Un Bk. destruct (why_failed U t n regs l i c e Hi Hpc) as [(_ & W)|[W|[W|[(W & _)|(_ & _ & w & p & frame & id & cmd & st & v & Cn & (tail & Wf) & Rs & Ns)]]]].
  - destruct (Un _ W) as (k & [=]).
  - destruct (Un _ W) as (k & [=]).
  - exact W.
  - congruence.
  - exfalso. destruct p as [a m|k].
    + destruct Cn as (x & Hx & Hc & Hp). destruct (wk_call _ _ _ (do_wires _ _ _ _ _ (dok_run U t n regs l) w x Hx)) as (c0 & B1 & _ & B3). rewrite Hc in B1. assert (c0 = c) by (fold s in B1; congruence). subst c0. specialize (B3 _ Hp). cbn in B3. lia.
    + destruct (thread_error U t n regs l i c w k frame tail id cmd st v Hi Cn Wf Rs Ns) as [H|H]; contradiction.
Qed.

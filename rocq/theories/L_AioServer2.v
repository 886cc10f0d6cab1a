(** Lemmas about the asyncio server: what a run of the connection handler does. *)
From Coq Require Import ZifyBool Strings.String.
From Verif Require Import PyBase L_PyBase PyDict L_PyDict Struct M_SofaHeader L_SofaHeader M_Package L_Package L_Codec M_RpcId M_Trace S_Wire M_AioServer S_Server L_AioServer.
Open Scope Z_scope.

Lemma nth_upd_same {A} (f : A -> A) l : forall i x, nth_error l i = Some x -> nth_error (upd i f l) i = Some (f x).
Proof. induction l as [|y l IH]; intros [|i] x; cbn; try discriminate; [congruence|apply IH]. Qed.
Lemma nth_upd_other {A} (f : A -> A) l : forall i j, i <> j -> nth_error (upd i f l) j = nth_error l j.
Proof. induction l as [|y l IH]; intros [|i] [|j] H; cbn; try reflexivity; [congruence|apply IH; congruence]. Qed.
Lemma nth_upd_inv {A} (f : A -> A) l i j y : nth_error (upd i f l) j = Some y -> (i = j /\ exists x, nth_error l j = Some x /\ y = f x) \/ (i <> j /\ nth_error l j = Some y).
Proof.
  intros H. destruct (Nat.eq_dec i j) as [<-|N]; [left|right; rewrite nth_upd_other in H by exact N; auto]. split; [reflexivity|].
  destruct (nth_error l i) as [x|] eqn:E; [exists x; rewrite (nth_upd_same f _ _ _ E) in H; split; congruence|].
  exfalso. revert i E H. induction l as [|z l IH]; intros [|i]; cbn; try discriminate; eauto.
Qed.
Lemma map_upd {A B} (g : A -> B) (f : A -> A) l : (forall x, g (f x) = g x) -> forall i, map g (upd i f l) = map g l.
Proof. intros H. induction l as [|y l IH]; intros [|i]; cbn; [reflexivity..|now rewrite H|now rewrite IH]. Qed.
Lemma length_upd {A} (f : A -> A) l : forall i, List.length (upd i f l) = List.length l.
Proof. induction l as [|y l IH]; intros [|i]; cbn; auto. Qed.

(** ** The reader *)
Definition reading (r : rpc) : Prop := match r with RFixed | RClass _ | RHead _ _ | RBody _ _ _ => True | _ => False end.
Definition going (r : rpc) : Prop := match r with RFixed | RClass _ | RHead _ _ | RBody _ _ _ | RFail1 _ | RFail2 => True | _ => False end.
(** the id in the header of the frame being read *)
Definition mid (r : rpc) : option Z := match r with RClass h => Some (int_of f_request_id h) | RHead h _ => Some (int_of f_request_id h) | RBody h _ _ => Some (int_of f_request_id h) | _ => None end.
(** the bytes of the unfinished unit and those not read *)
Definition ahead (r : rpc) (buf rest : bytes) : Prop :=
  match r with
  | RFixed | RFail1 _ | RFail2 => rest = buf
  | RClass h => exists fx, len fx = 22 /\ h = req_dict fx /\ rest = fx ++ buf
  | RHead h c => exists fx, len fx = 22 /\ h = req_dict fx /\ uval (field 14 2 fx) = len c /\ rest = fx ++ c ++ buf
  | RBody h c sofa => exists fx hb, len fx = 22 /\ h = req_dict fx /\ uval (field 14 2 fx) = len c /\ uval (field 16 2 fx) = len hb /\ from_bytes hb = Ok sofa /\ rest = fx ++ c ++ hb ++ buf
  | _ => True
  end.
Definition nonfatal (i : item) : Prop := ~ fatal i.
Definition item_status_ok (i : item) : Prop := match i with IBad _ st => legal_status st | _ => True end.
Record stream_ok (s : sst) : Prop := {
  so_cuts : exists rest, cuts (v_in s) (v_items s) rest /\ ahead (v_rd s) (v_buf s) rest;
  so_live : going (v_rd s) -> Forall nonfatal (v_items s);
  so_heads : if match v_rd s with RFixed | RFail1 _ | RFail2 => true | _ => false end then v_heads s = map item_id (v_items s)
             else match mid (v_rd s) with
                  | Some id => v_heads s = map item_id (v_items s) ++ [id]
                  | None => exists x, v_heads s = map item_id (v_items s) ++ x
                  end;
  so_ids : Forall id_ok (v_heads s);
  so_status : Forall item_status_ok (v_items s)
}.
Lemma so_ids_items s : stream_ok s -> Forall (fun i => id_ok (item_id i)) (v_items s).
Proof.
  intros [A B C D E]. apply Forall_forall. intros i H. eapply Forall_forall in D; [exact D|].
  assert (X : exists x, v_heads s = map item_id (v_items s) ++ x).
  { destruct (v_rd s); cbn in C; eauto; exists []; now rewrite app_nil_r. }
  destruct X as (x & ->). apply in_app_iff. left. apply in_map. exact H.
Qed.

(** what follows when a unit has been found *)
Inductive after (s : sst) : item -> sst -> Prop :=
| A_request q : after s (IRequest q) (set_rd (spawn (Some q) TStart s) RFixed)
| A_beat id bs : beat_bytes id = Ok bs -> after s (IHeartbeat id) (set_rd (spawn None (TDrain1 bs) s) RFixed)
| A_bad id st bs : fail_bytes id st = Ok bs -> after s (IBad id st) (set_rd s (RFail1 bs))
| A_fatal id : after s (IFatal id) (set_rd s (RLast1 ST_UNKNOWN)).
(** the effects of a run of the connection handler *)
Inductive rstep (s : sst) : sst -> Prop :=
| R_wait : rstep s s
| R_lost st : reading (v_rd s) -> (v_exn s = true /\ st = ST_UNKNOWN) \/ (v_exn s = false /\ v_eof s = true /\ st = ST_CONNECTION_CLOSED) -> rstep s (set_rd s (RLast1 st))
| R_head n h : v_rd s = RFixed -> rstep s (set_rd (set_heads (take n s) (v_heads s ++ [int_of f_request_id h])) (RClass h))
| R_part n pc : mid (v_rd s) <> None -> mid pc = mid (v_rd s) -> rstep s (set_rd (take n s) pc)
| R_unit n i s' : v_heads s = map item_id (v_items s) ++ [item_id i] -> reading (v_rd s) -> after (set_items (take n s) (v_items s ++ [i])) i s' -> rstep s s'.

Lemma int_req fx : int_of f_request_id (req_dict fx) = sval (field 5 4 fx) /\ int_of f_class_len (req_dict fx) = uval (field 14 2 fx) /\
  int_of f_header_len (req_dict fx) = uval (field 16 2 fx) /\ int_of f_content_len (req_dict fx) = uval (field 18 4 fx) /\
  int_of f_cmdcode (req_dict fx) = sval (field 2 2 fx) /\ int_of f_ptype (req_dict fx) = sval (field 1 1 fx) /\ int_of f_timeout (req_dict fx) = sval (field 10 4 fx).
Proof. repeat split; reflexivity. Qed.

Lemma starved_rstep s : reading (v_rd s) -> rstep s (starved s).
Proof.
  intros R. unfold starved. destruct (v_exn s) eqn:E1; [apply R_lost; auto|]. destruct (v_eof s) eqn:E2; [apply R_lost; auto|]. apply R_wait.
Qed.
Lemma id_fixed fx : len fx = 22 -> id_ok (sval (field 5 4 fx)).
Proof. intros L. apply sval_range4. apply (len_field 5 4). lia. Qed.

Lemma starved_ok s : stream_ok s -> reading (v_rd s) -> stream_ok (starved s).
Proof.
  intros I R. assert (H : forall st, stream_ok (set_rd s (RLast1 st))).
  { intros st. destruct I as [(rest & A & _) B C D E]. constructor; cbn [set_rd v_in v_items v_rd v_heads v_buf]; try assumption; [exists rest; cbn [ahead]; auto|cbn; tauto|].
    cbn. destruct (v_rd s) as [|h|h c|h c sofa| | | | | |]; cbn in C, R; try contradiction; try (eexists; exact C). exists []. now rewrite app_nil_r. }
  unfold starved. destruct (v_exn s); [apply H|]. destruct (v_eof s); [apply H|]. exact I.
Qed.

(** the unit just found, in the state reached by reading its last bytes *)
Lemma found_unit s fx c h rest n i buf : stream_ok s -> cuts (v_in s) (v_items s) (fx ++ c ++ h ++ rest) -> reading (v_rd s) -> len fx = 22 ->
  uval (field 14 2 fx) = len c -> uval (field 16 2 fx) = len h -> classify fx c h rest = Some (i, n) -> buf = py_drop n (fx ++ c ++ h ++ rest) ->
  cuts (v_in s) (v_items s ++ [i]) buf /\ item_id i = sval (field 5 4 fx).
Proof.
  intros I C R L Hc Hh K ->. assert (U : unit_of (fx ++ c ++ h ++ rest) = Some (i, n)) by (rewrite unit_split; assumption).
  destruct (unit_one _ _ _ U) as [Ln O]. split.
  - apply (cuts_snoc _ _ (py_take n (fx ++ c ++ h ++ rest))); [rewrite py_take_drop; exact C| |exact O]. apply (so_live _ I). destruct (v_rd s); cbn in *; tauto.
  - unfold classify in K. destruct (from_bytes h) as [sofa|e].
    + destruct (_ <? _); [discriminate|]. apply Some_pair_inj in K as [<- _]. unfold kind. destruct (_ =? 0); [reflexivity|]. destruct (_ =? 2); [reflexivity|]. destruct (negb _); reflexivity.
    + destruct e; apply Some_pair_inj in K as [<- _]; reflexivity.
Qed.

(** the state after a unit *)
Lemma after_ok s i n s' : stream_ok s -> reading (v_rd s) -> v_heads s = map item_id (v_items s) ++ [item_id i] -> item_status_ok i ->
  cuts (v_in s) (v_items s ++ [i]) (py_drop n (v_buf s)) -> after (set_items (take n s) (v_items s ++ [i])) i s' -> stream_ok s'.
Proof.
  intros I R H St C A. assert (L : Forall nonfatal (v_items s)) by (apply (so_live _ I); destruct (v_rd s); cbn in *; tauto).
  pose proof (so_ids _ I) as D. pose proof (so_status _ I) as E.
  inversion A; subst; constructor; cbn [set_rd spawn set_tasks set_items take set_stream v_in v_items v_rd v_heads v_buf]; try assumption;
    try (eexists; split; [exact C|cbn [ahead]; solve [reflexivity|exact Logic.I]]);
    try (intros _; apply Forall_app; split; [exact L|]; constructor; [unfold nonfatal; cbn; solve [tauto]|constructor]);
    try (rewrite map_app; exact H);
    try (apply Forall_app; split; [exact E|]; constructor; [exact St|constructor]).
  - intros [].
  - cbn. exists []. rewrite app_nil_r, map_app. exact H.
Qed.

Lemma ready_true n s : ready n s = true -> v_exn s = false /\ n <= len (v_buf s).
Proof. unfold ready. destruct (v_exn s); cbn; [discriminate|]. intros H. split; [reflexivity|lia]. Qed.

Lemma drop3 (fx c h rest : bytes) : py_drop (len fx + len c + len h) (fx ++ c ++ h ++ rest) = rest.
Proof. rewrite (app_assoc c), app_assoc. apply py_drop_app'. rewrite !len_app. lia. Qed.

Lemma sread_ok s : stream_ok s -> rstep s (sread s) /\ stream_ok (sread s).
Proof.
  intros I. unfold sread. destruct (so_cuts _ I) as (rest & Cu & Ah). pose proof (so_heads _ I) as Hd.
  destruct (v_rd s) as [|h|h c|h c sofa|bs| |st| | |] eqn:Er; try (split; [apply R_wait|exact I]).
  - (* fixed part *)
    change (bolt_header_size BoltRequest) with 22. cbv zeta.
    destruct (ready 22 s) eqn:Rd; [|split; [apply starved_rstep; rewrite Er; exact Logic.I|apply starved_ok; [exact I|rewrite Er; exact Logic.I]]].
    apply ready_true in Rd as [Ex Ln]. cbn [ahead] in Ah. subst rest.
    assert (Lf : len (py_take 22 (v_buf s)) = 22) by (apply len_py_take; lia).
    change BoltRequest with (req_class (cls_name BoltRequest)). rewrite bolt_header_req by lia.
    split; [apply R_head; exact Er|].
    constructor; cbn [set_rd set_heads take set_stream v_in v_items v_rd v_heads v_buf].
    + exists (v_buf s). split; [exact Cu|]. exists (py_take 22 (v_buf s)). rewrite py_take_drop. auto.
    + intros _. apply (so_live _ I). rewrite Er. exact Logic.I.
    + cbn. cbn in Hd. rewrite Hd. reflexivity.
    + apply Forall_app. split; [apply (so_ids _ I)|]. constructor; [|constructor]. exact (id_fixed _ Lf).
    + apply (so_status _ I).
  - (* class name *)
    destruct Ah as (fx & Lf & -> & ->). destruct (int_req fx) as (I1 & I2 & _). cbv zeta. rewrite I2. pose proof (uval_nonneg (field 14 2 fx)) as Nn.
    destruct (ready _ s) eqn:Rd; [|split; [apply starved_rstep; rewrite Er; exact Logic.I|apply starved_ok; [exact I|rewrite Er; exact Logic.I]]].
    apply ready_true in Rd as [Ex Ln].
    split; [apply R_part; rewrite Er; [discriminate|reflexivity]|].
    constructor; cbn [set_rd set_heads take set_stream v_in v_items v_rd v_heads v_buf]; try apply I.
    + exists (fx ++ v_buf s). split; [exact Cu|]. exists fx. rewrite py_take_drop. rewrite len_py_take by lia. auto.
    + intros _. apply (so_live _ I). rewrite Er. exact Logic.I.
    + cbn in *. exact Hd.
  - (* header part *)
    destruct Ah as (fx & Lf & -> & Lc & ->). destruct (int_req fx) as (I1 & I2 & I3 & _). cbv zeta. rewrite I1, I3. pose proof (uval_nonneg (field 16 2 fx)) as Nn.
    destruct (ready _ s) eqn:Rd; [|split; [apply starved_rstep; rewrite Er; exact Logic.I|apply starved_ok; [exact I|rewrite Er; exact Logic.I]]].
    apply ready_true in Rd as [Ex Ln].
    set (hb := py_take (uval (field 16 2 fx)) (v_buf s)) in *.
    assert (Lh : uval (field 16 2 fx) = len hb) by (unfold hb; rewrite len_py_take; lia).
    assert (Eb : v_buf s = hb ++ py_drop (uval (field 16 2 fx)) (v_buf s)) by (unfold hb; now rewrite py_take_drop).
    assert (Cu' : cuts (v_in s) (v_items s) (fx ++ c ++ hb ++ py_drop (uval (field 16 2 fx)) (v_buf s))) by (rewrite <- Eb; exact Cu).
    assert (Rg : reading (v_rd s)) by (rewrite Er; exact Logic.I).
    assert (Dr : py_drop (uval (field 16 2 fx)) (v_buf s) = py_drop (22 + len c + len hb) (fx ++ c ++ hb ++ py_drop (uval (field 16 2 fx)) (v_buf s))) by (rewrite <- Lf; symmetry; apply drop3).
    destruct (from_bytes hb) as [sofa|e] eqn:Ef.
    + split; [apply R_part; rewrite Er; [discriminate|reflexivity]|].
      constructor; cbn [set_rd set_heads take set_stream v_in v_items v_rd v_heads v_buf]; try apply I.
      * exists (fx ++ c ++ v_buf s). split; [exact Cu|]. exists fx, hb. rewrite <- Eb. auto 8.
      * intros _. apply (so_live _ I). rewrite Er. exact Logic.I.
      * cbn in *. exact Hd.
    + assert (D : e = UnicodeDecodeError \/ e <> UnicodeDecodeError) by (destruct (from_bytes_errors _ _ Ef) as [->| ->]; [right; discriminate|left; reflexivity]). destruct D as [->|D].
      * assert (K : classify fx c hb (py_drop (uval (field 16 2 fx)) (v_buf s)) = Some (IFatal (sval (field 5 4 fx)), 22 + len c + len hb)) by (unfold classify; rewrite Ef; reflexivity).
        destruct (found_unit s fx c hb _ _ _ _ I Cu' Rg Lf Lc Lh K Dr) as [Cn Id].
        assert (A : after (set_items (take (uval (field 16 2 fx)) s) (v_items s ++ [IFatal (sval (field 5 4 fx))])) (IFatal (sval (field 5 4 fx)))
          (set_rd (set_items (take (uval (field 16 2 fx)) s) (v_items s ++ [IFatal (sval (field 5 4 fx))])) (RLast1 ST_UNKNOWN))) by constructor.
        split; [apply (R_unit s _ (IFatal (sval (field 5 4 fx))) _ Hd Rg A)|]. exact (after_ok s (IFatal (sval (field 5 4 fx))) _ _ I Rg Hd Logic.I Cn A).
      * assert (K : classify fx c hb (py_drop (uval (field 16 2 fx)) (v_buf s)) = Some (IBad (sval (field 5 4 fx)) 9, 22 + len c + len hb)) by (unfold classify; rewrite Ef; destruct e; congruence).
        destruct (found_unit s fx c hb _ _ _ _ I Cu' Rg Lf Lc Lh K Dr) as [Cn Id].
        assert (Ls : legal_status 9) by (left; lia).
        destruct (fail_bytes_Ok (sval (field 5 4 fx)) 9 (id_fixed _ Lf) Ls) as (bs & Ebs & _).
        assert (A : after (set_items (take (uval (field 16 2 fx)) s) (v_items s ++ [IBad (sval (field 5 4 fx)) 9])) (IBad (sval (field 5 4 fx)) 9)
          (rfail (sval (field 5 4 fx)) ST_CODEC_EXCEPTION (set_items (take (uval (field 16 2 fx)) s) (v_items s ++ [IBad (sval (field 5 4 fx)) 9])))).
        { unfold rfail. change ST_CODEC_EXCEPTION with 9. rewrite Ebs. constructor. exact Ebs. }
        assert (G : rstep s (rfail (sval (field 5 4 fx)) ST_CODEC_EXCEPTION (set_items (take (uval (field 16 2 fx)) s) (v_items s ++ [IBad (sval (field 5 4 fx)) 9]))) /\
                    stream_ok (rfail (sval (field 5 4 fx)) ST_CODEC_EXCEPTION (set_items (take (uval (field 16 2 fx)) s) (v_items s ++ [IBad (sval (field 5 4 fx)) 9])))).
        { split; [apply (R_unit s _ (IBad (sval (field 5 4 fx)) 9) _ Hd Rg A)|]. exact (after_ok s (IBad (sval (field 5 4 fx)) 9) _ _ I Rg Hd Ls Cn A). }
        destruct e; try exact G. congruence.
  - (* content *)
    destruct Ah as (fx & hb & Lf & -> & Lc & Lh & Ef & ->). destruct (int_req fx) as (I1 & I2 & I3 & I4 & I5 & I6 & I7). cbv zeta. rewrite I4. pose proof (uval_nonneg (field 18 4 fx)) as Nn.
    destruct (ready _ s) eqn:Rd; [|split; [apply starved_rstep; rewrite Er; exact Logic.I|apply starved_ok; [exact I|rewrite Er; exact Logic.I]]].
    apply ready_true in Rd as [Ex Ln].
    set (body := py_take (uval (field 18 4 fx)) (v_buf s)) in *.
    assert (Rg : reading (v_rd s)) by (rewrite Er; exact Logic.I).
    assert (Dr : py_drop (uval (field 18 4 fx)) (v_buf s) = py_drop (22 + len c + len hb + uval (field 18 4 fx)) (fx ++ c ++ hb ++ v_buf s)).
    { rewrite <- Lf, <- py_drop_drop by (pose proof (len_nonneg fx); pose proof (len_nonneg c); pose proof (len_nonneg hb); lia). now rewrite drop3. }
    assert (K : classify fx c hb (v_buf s) = Some (kind fx c sofa body, 22 + len c + len hb + uval (field 18 4 fx))).
    { unfold classify. rewrite Ef. destruct (Z.ltb_spec (len (v_buf s)) (uval (field 18 4 fx))); [lia|reflexivity]. }
    destruct (found_unit s fx c hb _ _ _ _ I Cu Rg Lf Lc Lh K Dr) as [Cn Id].
    assert (Hd' : v_heads s = map item_id (v_items s) ++ [item_id (kind fx c sofa body)]) by (rewrite Id; exact Hd).
    assert (S8 : legal_status 8) by (left; lia).
    assert (St : item_status_ok (kind fx c sofa body)).
    { unfold kind. destruct (_ =? 0); [exact Logic.I|]. destruct (_ =? 2); [exact S8|]. destruct (negb _); [exact S8|exact Logic.I]. }
    assert (A : after (set_items (take (uval (field 18 4 fx)) s) (v_items s ++ [kind fx c sofa body])) (kind fx c sofa body) (found (req_dict fx) c sofa body (take (uval (field 18 4 fx)) s))).
    { unfold found, kind. cbv zeta. rewrite I1, I5, I6, I7. change CMDCODE_HEARTBEAT with 0. change CMDCODE_RESPONSE with 2.
      destruct (sval (field 2 2 fx) =? 0).
      { destruct (beat_bytes_Ok (sval (field 5 4 fx)) (id_fixed _ Lf)) as (bs & Eb & _). rewrite Eb. constructor. exact Eb. }
      destruct (fail_bytes_Ok (sval (field 5 4 fx)) 8 (id_fixed _ Lf) S8) as (bs & Eb & _).
      unfold rfail. change ST_CLIENT_SEND_ERROR with 8. rewrite Eb.
      destruct (sval (field 2 2 fx) =? 2); [constructor; exact Eb|].
      change SofaRequest_name with request_class. destruct (negb _); constructor. exact Eb. }
    split; [apply (R_unit s _ _ _ Hd' Rg A)|]. exact (after_ok s _ _ _ I Rg Hd' St Cn A).
Qed.

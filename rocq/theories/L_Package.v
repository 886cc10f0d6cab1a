(** Package codec against S_Wire. *)
From Coq Require Import ZifyBool.
From Verif Require Import PyBase L_PyBase PyDict L_PyDict Utf8 L_Utf8 Struct L_Struct M_SofaHeader L_SofaHeader M_Package S_Wire.
Ltac Zify.zify_post_hook ::= Z.div_mod_to_equations.

Definition req_class (n : bytes) := with_class_name BoltRequest n.
Definition resp_class (n : bytes) := with_class_name BoltResponse n.

(** ** encoding *)

Definition common_bytes (p : pkg) (rid : Z) : bytes :=
  be_bytes 1 (p_proto p) ++ be_bytes 1 (p_ptype p) ++ be_bytes 2 (p_cmdcode p) ++ be_bytes 1 (p_ver2 p) ++
  be_bytes 4 rid ++ be_bytes 1 (p_codec p).
Definition tail_bytes (p : pkg) (content : bytes) : bytes :=
  be_bytes 2 (p_class_len p) ++ be_bytes 2 (p_header_len p) ++ be_bytes 4 (len content) ++
  cls_name (p_cls p) ++ p_header_bytes p ++ content.

(** enumerated fields of a constructed package *)
Definition legal_pkg (p : pkg) : Prop :=
  p_proto p = 1 /\ In (p_ptype p) [0; 1; 2] /\ In (p_cmdcode p) [0; 1; 2] /\ p_ver2 p = 1 /\
  In (p_codec p) [1; 2; 11] /\ legal_status (p_respstatus p) /\ to_bytes (p_header p) = Ok (p_header_bytes p).

Lemma pack1_s (b : bytes) : pack1 (F_s (len b)) (PBytes b) = Some b.
Proof. cbn [pack1]. destruct (len b <=? len b) eqn:E; [|lia]. rewrite py_take_all by lia. reflexivity. Qed.

Ltac legal_ranges :=
  repeat match goal with
  | H : In _ (_ :: _) |- _ => cbn [In] in H
  end; unfold legal_status in *; lia.

Lemma req_to_stream_iff p bs : cls_fmt (p_cls p) = cls_fmt BoltRequest -> legal_pkg p ->
  (request_to_stream p = Ok bs <->
   exists rid tmo content, int_value (p_request_id p) = Some rid /\ int_value (p_timeout p) = Some tmo /\
     p_content p = PBytes content /\ -2147483648 <= rid <= 2147483647 /\ -2147483648 <= tmo <= 2147483647 /\
     p_class_len p <= 65535 /\ p_header_len p <= 65535 /\ len content <= 4294967295 /\
     bs = common_bytes p rid ++ be_bytes 4 tmo ++ tail_bytes p content).
Proof.
  intros Hf (L1 & L2 & L3 & L4 & L5 & L6 & L7). unfold request_to_stream, validate.
  destruct (is_int (p_request_id p)) eqn:Ei.
  2:{ cbn. split; [discriminate|]. intros (rid & ? & ? & Hr & _). destruct (p_request_id p); discriminate. }
  destruct (is_bytes (p_content p)) eqn:Eb.
  2:{ cbn. split; [discriminate|]. intros (rid & ? & ? & _ & _ & Hc & _). rewrite Hc in Eb. discriminate. }
  destruct (p_content p) as [| | | | |content|] eqn:Ec; try discriminate.
  destruct (int_value (p_request_id p)) as [rid|] eqn:Er; [|destruct (p_request_id p); discriminate].
  cbn [negb bind]. rewrite Hf. unfold BoltRequest, cls_fmt. cbn [app].
  unfold p_content_len. rewrite Ec.
  cbn [pack]. fold (p_class_len p). unfold p_class_len at 2, p_header_len at 2. rewrite !pack1_s.
  cbn [pack1].
  pose proof (len_nonneg (cls_name (p_cls p))) as Hn1. fold (p_class_len p) in Hn1.
  pose proof (len_nonneg (p_header_bytes p)) as Hn2. fold (p_header_len p) in Hn2.
  pose proof (len_nonneg content) as Hn3.
  rewrite (pack_int_ok _ _ _ (PInt (p_proto p)) (p_proto p)) by (try reflexivity; legal_ranges).
  rewrite (pack_int_ok _ _ _ (PInt (p_ptype p)) (p_ptype p)) by (try reflexivity; legal_ranges).
  rewrite (pack_int_ok _ _ _ (PInt (p_cmdcode p)) (p_cmdcode p)) by (try reflexivity; legal_ranges).
  rewrite (pack_int_ok _ _ _ (PInt (p_ver2 p)) (p_ver2 p)) by (try reflexivity; legal_ranges).
  rewrite (pack_int_ok _ _ _ (PInt (p_codec p)) (p_codec p)) by (try reflexivity; legal_ranges).
  split.
  - destruct (pack_int _ _ _ (p_request_id p)) as [b1|] eqn:E1; [|discriminate].
    destruct (pack_int _ _ _ (p_timeout p)) as [b2|] eqn:E2; [|discriminate].
    destruct (pack_int _ _ _ (PInt (p_class_len p))) as [b3|] eqn:E3; [|discriminate].
    destruct (pack_int _ _ _ (PInt (p_header_len p))) as [b4|] eqn:E4; [|discriminate].
    destruct (pack_int _ _ _ (PInt (len content))) as [b5|] eqn:E5; [|discriminate].
    apply pack_int_Some in E1 as (rid' & Hrid & Hr1 & ->). rewrite Er in Hrid. apply Some_inj in Hrid. subst rid'.
    apply pack_int_Some in E2 as (tmo & Ht & Hr2 & ->).
    apply pack_int_Some in E3 as (z3 & Hz3 & Hr3 & ->). apply Some_inj in Hz3. subst z3.
    apply pack_int_Some in E4 as (z4 & Hz4 & Hr4 & ->). apply Some_inj in Hz4. subst z4.
    apply pack_int_Some in E5 as (z5 & Hz5 & Hr5 & ->). apply Some_inj in Hz5. subst z5.
    intros H. apply Ok_inj in H. subst bs. exists rid, tmo, content. repeat (split; [first [reflexivity|assumption|lia]|]).
    unfold common_bytes, tail_bytes. rewrite <- !app_assoc, app_nil_r. reflexivity.
  - intros (rid' & tmo & content' & Hr & Ht & Hc & R1 & R2 & R3 & R4 & R5 & ->).
    apply Some_inj in Hr. subst rid'. injection Hc as <-.
    rewrite (pack_int_ok _ _ _ (p_request_id p) rid) by (try assumption; lia).
    rewrite (pack_int_ok _ _ _ (p_timeout p) tmo) by (try assumption; lia).
    rewrite (pack_int_ok _ _ _ (PInt (p_class_len p)) (p_class_len p)) by (try reflexivity; lia).
    rewrite (pack_int_ok _ _ _ (PInt (p_header_len p)) (p_header_len p)) by (try reflexivity; lia).
    rewrite (pack_int_ok _ _ _ (PInt (len content)) (len content)) by (try reflexivity; lia).
    f_equal. unfold common_bytes, tail_bytes. rewrite <- !app_assoc, app_nil_r. reflexivity.
Qed.

Lemma resp_to_stream_iff p bs : cls_fmt (p_cls p) = cls_fmt BoltResponse -> legal_pkg p ->
  (response_to_stream p = Ok bs <->
   exists rid content, int_value (p_request_id p) = Some rid /\
     p_content p = PBytes content /\ -2147483648 <= rid <= 2147483647 /\
     p_class_len p <= 65535 /\ p_header_len p <= 65535 /\ len content <= 4294967295 /\
     bs = common_bytes p rid ++ be_bytes 2 (p_respstatus p) ++ tail_bytes p content).
Proof.
  intros Hf (L1 & L2 & L3 & L4 & L5 & L6 & L7). unfold response_to_stream, validate.
  destruct (is_int (p_request_id p)) eqn:Ei.
  2:{ cbn. split; [discriminate|]. intros (rid & ? & Hr & _). destruct (p_request_id p); discriminate. }
  destruct (is_bytes (p_content p)) eqn:Eb.
  2:{ cbn. split; [discriminate|]. intros (rid & ? & _ & Hc & _). rewrite Hc in Eb. discriminate. }
  destruct (p_content p) as [| | | | |content|] eqn:Ec; try discriminate.
  destruct (int_value (p_request_id p)) as [rid|] eqn:Er; [|destruct (p_request_id p); discriminate].
  cbn [negb bind]. rewrite Hf. unfold BoltResponse, cls_fmt. cbn [app].
  unfold p_content_len. rewrite Ec.
  cbn [pack]. fold (p_class_len p). unfold p_class_len at 2, p_header_len at 2. rewrite !pack1_s.
  cbn [pack1].
  pose proof (len_nonneg (cls_name (p_cls p))) as Hn1. fold (p_class_len p) in Hn1.
  pose proof (len_nonneg (p_header_bytes p)) as Hn2. fold (p_header_len p) in Hn2.
  pose proof (len_nonneg content) as Hn3.
  rewrite (pack_int_ok _ _ _ (PInt (p_proto p)) (p_proto p)) by (try reflexivity; legal_ranges).
  rewrite (pack_int_ok _ _ _ (PInt (p_ptype p)) (p_ptype p)) by (try reflexivity; legal_ranges).
  rewrite (pack_int_ok _ _ _ (PInt (p_cmdcode p)) (p_cmdcode p)) by (try reflexivity; legal_ranges).
  rewrite (pack_int_ok _ _ _ (PInt (p_ver2 p)) (p_ver2 p)) by (try reflexivity; legal_ranges).
  rewrite (pack_int_ok _ _ _ (PInt (p_codec p)) (p_codec p)) by (try reflexivity; legal_ranges).
  rewrite (pack_int_ok _ _ _ (PInt (p_respstatus p)) (p_respstatus p)) by (try reflexivity; legal_ranges).
  split.
  - destruct (pack_int _ _ _ (p_request_id p)) as [b1|] eqn:E1; [|discriminate].
    destruct (pack_int _ _ _ (PInt (p_class_len p))) as [b3|] eqn:E3; [|discriminate].
    destruct (pack_int _ _ _ (PInt (p_header_len p))) as [b4|] eqn:E4; [|discriminate].
    destruct (pack_int _ _ _ (PInt (len content))) as [b5|] eqn:E5; [|discriminate].
    apply pack_int_Some in E1 as (rid' & Hrid & Hr1 & ->). rewrite Er in Hrid. apply Some_inj in Hrid. subst rid'.
    apply pack_int_Some in E3 as (z3 & Hz3 & Hr3 & ->). apply Some_inj in Hz3. subst z3.
    apply pack_int_Some in E4 as (z4 & Hz4 & Hr4 & ->). apply Some_inj in Hz4. subst z4.
    apply pack_int_Some in E5 as (z5 & Hz5 & Hr5 & ->). apply Some_inj in Hz5. subst z5.
    intros H. apply Ok_inj in H. subst bs. exists rid, content. repeat (split; [first [reflexivity|assumption|lia]|]).
    unfold common_bytes, tail_bytes. rewrite <- !app_assoc, app_nil_r. reflexivity.
  - intros (rid' & content' & Hr & Hc & R1 & R3 & R4 & R5 & ->).
    apply Some_inj in Hr. subst rid'. injection Hc as <-.
    rewrite (pack_int_ok _ _ _ (p_request_id p) rid) by (try assumption; lia).
    rewrite (pack_int_ok _ _ _ (PInt (p_class_len p)) (p_class_len p)) by (try reflexivity; lia).
    rewrite (pack_int_ok _ _ _ (PInt (p_header_len p)) (p_header_len p)) by (try reflexivity; lia).
    rewrite (pack_int_ok _ _ _ (PInt (len content)) (len content)) by (try reflexivity; lia).
    f_equal. unfold common_bytes, tail_bytes. rewrite <- !app_assoc, app_nil_r. reflexivity.
Qed.

(** errors of to_stream *)
Lemma to_stream_errors p e : to_stream p = Raise e ->
  (e = ParamTypeError /\ (is_int (p_request_id p) = false \/ is_bytes (p_content p) = false)) \/
  (e = EncodeError /\ is_int (p_request_id p) = true /\ is_bytes (p_content p) = true).
Proof.
  unfold to_stream, request_to_stream, response_to_stream, validate.
  destruct (is_int (p_request_id p)), (is_bytes (p_content p)), (cls_kind (p_cls p)); cbn [negb bind];
    try (intros H; injection H; auto).
  all: match goal with |- match ?x with Some _ => _ | None => _ end = _ -> _ => destruct x; [discriminate|] end;
    intros H; injection H; auto.
Qed.

(** ** layout of the encoded bytes *)

Lemma be_bytes_list k z : be_bytes k z = map (fun i => byte_of_Z (z / 256 ^ Z.of_nat i)) (rev (seq 0 k)).
Proof.
  induction k as [|k IH]; [reflexivity|]. rewrite seq_S, rev_app_distr. cbn [rev app map be_bytes Nat.add]. rewrite IH. reflexivity.
Qed.

Lemma sval_be_bytes k z : (1 <= k)%nat -> - (256 ^ Z.of_nat k / 2) <= z < 256 ^ Z.of_nat k / 2 -> sval (be_bytes k z) = z.
Proof. intros Hk Hz. rewrite sval_be_sint by (rewrite len_be_bytes; lia). apply be_sint_be_bytes; assumption. Qed.

Lemma uval_be_bytes k z : 0 <= z < 256 ^ Z.of_nat k -> uval (be_bytes k z) = z.
Proof. intros Hz. rewrite uval_be_uint, be_uint_be_bytes. apply Z.mod_small. exact Hz. Qed.

Lemma field_split a b c off n : off = length a -> n = length b -> field off n (a ++ b ++ c) = b.
Proof.
  intros -> ->. unfold field. rewrite skipn_app, skipn_all, Nat.sub_diag. cbn [app skipn].
  rewrite firstn_app, firstn_all, Nat.sub_diag. cbn [firstn]. apply app_nil_r.
Qed.

Lemma length_be_bytes k z : length (be_bytes k z) = k.
Proof. pose proof (len_be_bytes k z). unfold len in H. lia. Qed.

(** [field off n (x1 ++ ... ++ xn) ] picks the item at the given offset *)
Lemma field_skip a c off n : (length a <= off)%nat -> field off n (a ++ c) = field (off - length a) n c.
Proof. intros H. unfold field. rewrite skipn_app. rewrite skipn_all2 by exact H. reflexivity. Qed.

Lemma field_here b c n : n = length b -> field 0 n (b ++ c) = b.
Proof. intros ->. unfold field. cbn [skipn]. rewrite firstn_app, firstn_all, Nat.sub_diag. cbn [firstn]. apply app_nil_r. Qed.

Ltac pick := repeat (rewrite field_skip by (rewrite length_be_bytes; lia); rewrite length_be_bytes; cbn [Nat.sub]);
  rewrite field_here by (rewrite length_be_bytes; reflexivity).

Lemma skipn_app_len {A} (a b : list A) n : n = length a -> skipn n (a ++ b) = b.
Proof. intros ->. rewrite skipn_app, skipn_all, Nat.sub_diag. reflexivity. Qed.

Lemma req_bytes_layout p rid tmo content : legal_pkg p ->
  -2147483648 <= rid <= 2147483647 -> -2147483648 <= tmo <= 2147483647 ->
  p_class_len p <= 65535 -> p_header_len p <= 65535 -> len content <= 4294967295 ->
  request_layout (common_bytes p rid ++ be_bytes 4 tmo ++ tail_bytes p content)
    {| fr_proto := p_proto p; fr_type := p_ptype p; fr_cmdcode := p_cmdcode p; fr_ver2 := p_ver2 p;
       fr_request_id := rid; fr_codec := p_codec p; fr_tos := tmo;
       fr_class := cls_name (p_cls p); fr_header := p_header_bytes p; fr_content := content |}.
Proof.
  intros (L1 & L2 & L3 & L4 & L5 & L6 & L7) R1 R2 R3 R4 R5.
  pose proof (len_nonneg (cls_name (p_cls p))) as Hn1. fold (p_class_len p) in Hn1.
  pose proof (len_nonneg (p_header_bytes p)) as Hn2. fold (p_header_len p) in Hn2.
  pose proof (len_nonneg content) as Hn3.
  unfold request_layout, common_layout, common_bytes, tail_bytes.
  cbn [fr_proto fr_type fr_cmdcode fr_ver2 fr_request_id fr_codec fr_tos fr_class fr_header fr_content].
  fold (p_class_len p) (p_header_len p). rewrite <- !app_assoc.
  split.
  { rewrite !len_app, !len_be_bytes. unfold p_class_len, p_header_len in *. lia. }
  split; [repeat split|]; [..|repeat split].
  all: try (pick; first [apply sval_be_bytes|apply uval_be_bytes]; [try lia|..]; cbn [Z.of_nat Pos.of_succ_nat Pos.succ Z.pow Z.pow_pos Pos.iter Z.mul Pos.mul Pos.add Z.div Z.div_eucl Z.pos_div_eucl]; try legal_ranges).
  all: try (pick; apply uval_be_bytes; lia).
Qed.

Lemma resp_bytes_layout p rid content : legal_pkg p ->
  -2147483648 <= rid <= 2147483647 ->
  p_class_len p <= 65535 -> p_header_len p <= 65535 -> len content <= 4294967295 ->
  response_layout (common_bytes p rid ++ be_bytes 2 (p_respstatus p) ++ tail_bytes p content)
    {| fr_proto := p_proto p; fr_type := p_ptype p; fr_cmdcode := p_cmdcode p; fr_ver2 := p_ver2 p;
       fr_request_id := rid; fr_codec := p_codec p; fr_tos := p_respstatus p;
       fr_class := cls_name (p_cls p); fr_header := p_header_bytes p; fr_content := content |}.
Proof.
  intros (L1 & L2 & L3 & L4 & L5 & L6 & L7) R1 R3 R4 R5.
  pose proof (len_nonneg (cls_name (p_cls p))) as Hn1. fold (p_class_len p) in Hn1.
  pose proof (len_nonneg (p_header_bytes p)) as Hn2. fold (p_header_len p) in Hn2.
  pose proof (len_nonneg content) as Hn3.
  unfold response_layout, common_layout, common_bytes, tail_bytes.
  cbn [fr_proto fr_type fr_cmdcode fr_ver2 fr_request_id fr_codec fr_tos fr_class fr_header fr_content].
  fold (p_class_len p) (p_header_len p). rewrite <- !app_assoc.
  split.
  { rewrite !len_app, !len_be_bytes. unfold p_class_len, p_header_len in *. lia. }
  split; [repeat split|]; [..|repeat split].
  all: try (pick; first [apply sval_be_bytes|apply uval_be_bytes]; [try lia|..]; cbn [Z.of_nat Pos.of_succ_nat Pos.succ Z.pow Z.pow_pos Pos.iter Z.mul Pos.mul Pos.add Z.div Z.div_eucl Z.pos_div_eucl]; try legal_ranges).
  all: try (pick; apply uval_be_bytes; lia).
Qed.

(** ** construction *)

Lemma enum_PInt l z : enum_call l (PInt z) = if existsb (Z.eqb z) l then Ok z else Raise ValueError.
Proof. reflexivity. Qed.

Lemma enum_call_Ok l v z : enum_call l v = Ok z -> int_value v = Some z /\ In z l.
Proof.
  unfold enum_call. destruct (int_value v) as [z'|]; [|discriminate]. destruct (existsb _ _) eqn:E; [|discriminate].
  intros [= <-]. split; [reflexivity|]. apply existsb_exists in E as (x & Hx & He). apply Z.eqb_eq in He. congruence.
Qed.

Lemma enum_call_In l v z : int_value v = Some z -> In z l -> enum_call l v = Ok z.
Proof.
  intros Hv Hin. unfold enum_call. rewrite Hv. assert (E : existsb (Z.eqb z) l = true).
  { apply existsb_exists. exists z. split; [exact Hin|apply Z.eqb_refl]. } rewrite E. reflexivity.
Qed.

Lemma status_iff z : In z RESPSTATUS <-> legal_status z.
Proof.
  unfold RESPSTATUS, legal_status. cbn [In].
  unfold ST_SUCCESS, ST_ERROR, ST_SERVER_EXCEPTION, ST_UNKNOWN, ST_SERVER_THREADPOOL_BUSY, ST_ERROR_COMM, ST_NO_PROCESSOR, ST_TIMEOUT, ST_CLIENT_SEND_ERROR, ST_CODEC_EXCEPTION, ST_CONNECTION_CLOSED, ST_SERVER_SERIAL_EXCEPTION, ST_SERVER_DESERIAL_EXCEPTION. lia.
Qed.

(** what the constructor stores *)
Lemma mk_package_Ok c h ct a1 a2 a3 a4 a5 a6 a7 a8 p :
  mk_package c h ct a1 a2 a3 a4 a5 a6 a7 a8 = Ok p <->
  p_cls p = c /\ p_header p = h /\ p_content p = ct /\ p_request_id p = a5 /\ p_timeout p = py_or a7 (PInt 0) /\
  int_value a1 = Some (p_proto p) /\ int_value a2 = Some (p_ptype p) /\ int_value a3 = Some (p_cmdcode p) /\
  int_value a4 = Some (p_ver2 p) /\ int_value a6 = Some (p_codec p) /\ int_value a8 = Some (p_respstatus p) /\
  legal_pkg p.
Proof.
  unfold mk_package, legal_pkg. split.
  - intros H. apply bind_Ok in H as (hb & Hhb & H).
    apply bind_Ok in H as (pr & H1 & H). apply bind_Ok in H as (pt & H2 & H). apply bind_Ok in H as (cc & H3 & H).
    apply bind_Ok in H as (v2 & H4 & H). apply bind_Ok in H as (cd & H5 & H). apply bind_Ok in H as (rs & H6 & H).
    apply Ok_inj in H. subst p. cbn [p_cls p_header p_content p_request_id p_timeout p_proto p_ptype p_cmdcode p_ver2 p_codec p_respstatus p_header_bytes].
    apply enum_call_Ok in H1 as [? H1]. apply enum_call_Ok in H2 as [? H2]. apply enum_call_Ok in H3 as [? H3].
    apply enum_call_Ok in H4 as [? H4]. apply enum_call_Ok in H5 as [? H5]. apply enum_call_Ok in H6 as [? H6].
    apply status_iff in H6. unfold PROTO, PTYPE, CMDCODE, VER2, CODEC, PROTO_BOLT, VER2_REMOTING, CODEC_HESSIAN, CODEC_JAVA, CODEC_PROTOBUF in *.
    cbn [In] in H1, H4, H5. repeat (split; [first [reflexivity|assumption]|]). cbn [In].
    repeat (split; [first [reflexivity|assumption|lia]|]). assumption.
  - intros (H1 & H2 & H3 & H4 & H5 & H6 & H7 & H8 & H9 & H10 & H11 & L1 & L2 & L3 & L4 & L5 & L6 & L7).
    rewrite <- H2, L7. cbn [bind].
    rewrite (enum_call_In PROTO a1 _ H6) by (rewrite L1; cbn; auto). cbn [bind].
    rewrite (enum_call_In PTYPE a2 _ H7) by exact L2. cbn [bind].
    rewrite (enum_call_In CMDCODE a3 _ H8) by exact L3. cbn [bind].
    rewrite (enum_call_In VER2 a4 _ H9) by (rewrite L4; cbn; auto). cbn [bind].
    rewrite (enum_call_In CODEC a6 _ H10).
    2:{ unfold CODEC, CODEC_HESSIAN, CODEC_JAVA, CODEC_PROTOBUF. cbn [In] in *. lia. } cbn [bind].
    rewrite (enum_call_In RESPSTATUS a8 _ H11) by (apply status_iff; exact L6). cbn [bind].
    rewrite <- H1, <- H3, <- H4, <- H5. destruct p; reflexivity.
Qed.

(** ** decoding *)

Lemma explode22 (bs : bytes) : 22 <= len bs -> exists a0 a1 a2 a3 a4 a5 a6 a7 a8 a9 b0 b1 b2 b3 b4 b5 b6 b7 b8 b9 c0 c1 r,
  bs = [a0; a1; a2; a3; a4; a5; a6; a7; a8; a9; b0; b1; b2; b3; b4; b5; b6; b7; b8; b9; c0; c1] ++ r.
Proof.
  intros H. unfold len in H. do 22 (destruct bs as [|? bs]; [cbn [length] in H; lia|]).
  do 23 eexists. reflexivity.
Qed.

Lemma explode20 (bs : bytes) : 20 <= len bs -> exists a0 a1 a2 a3 a4 a5 a6 a7 a8 a9 b0 b1 b2 b3 b4 b5 b6 b7 b8 b9 r,
  bs = [a0; a1; a2; a3; a4; a5; a6; a7; a8; a9; b0; b1; b2; b3; b4; b5; b6; b7; b8; b9] ++ r.
Proof.
  intros H. unfold len in H. do 20 (destruct bs as [|? bs]; [cbn [length] in H; lia|]).
  do 21 eexists. reflexivity.
Qed.

Definition req_dict (bs : bytes) : bolt_headers :=
  [(f_proto, PInt (sval (field 0 1 bs))); (f_ptype, PInt (sval (field 1 1 bs))); (f_cmdcode, PInt (sval (field 2 2 bs)));
   (f_ver2, PInt (sval (field 4 1 bs))); (f_request_id, PInt (sval (field 5 4 bs))); (f_codec, PInt (sval (field 9 1 bs)));
   (f_timeout, PInt (sval (field 10 4 bs))); (f_class_len, PInt (uval (field 14 2 bs)));
   (f_header_len, PInt (uval (field 16 2 bs))); (f_content_len, PInt (uval (field 18 4 bs)))].
Definition resp_dict (bs : bytes) : bolt_headers :=
  [(f_proto, PInt (sval (field 0 1 bs))); (f_ptype, PInt (sval (field 1 1 bs))); (f_cmdcode, PInt (sval (field 2 2 bs)));
   (f_ver2, PInt (sval (field 4 1 bs))); (f_request_id, PInt (sval (field 5 4 bs))); (f_codec, PInt (sval (field 9 1 bs)));
   (f_respstatus, PInt (sval (field 10 2 bs))); (f_class_len, PInt (uval (field 12 2 bs)));
   (f_header_len, PInt (uval (field 14 2 bs))); (f_content_len, PInt (uval (field 16 4 bs)))].

Lemma bolt_header_req n bs : 22 <= len bs -> bolt_header_from_stream (req_class n) bs = Ok (req_dict bs).
Proof.
  intros H. apply explode22 in H as (a0 & a1 & a2 & a3 & a4 & a5 & a6 & a7 & a8 & a9 & b0 & b1 & b2 & b3 & b4 & b5 & b6 & b7 & b8 & b9 & c0 & c1 & r & ->).
  unfold bolt_header_from_stream. rewrite (py_take_app' _ _ r) by reflexivity.
  unfold req_dict, field. cbn [app skipn firstn]. rewrite !sval_be_sint, !uval_be_uint by (unfold len; cbn [length]; lia).
  cbv -[be_sint be_uint]. reflexivity.
Qed.

Lemma bolt_header_resp n bs : 20 <= len bs -> bolt_header_from_stream (resp_class n) bs = Ok (resp_dict bs).
Proof.
  intros H. apply explode20 in H as (a0 & a1 & a2 & a3 & a4 & a5 & a6 & a7 & a8 & a9 & b0 & b1 & b2 & b3 & b4 & b5 & b6 & b7 & b8 & b9 & r & ->).
  unfold bolt_header_from_stream. rewrite (py_take_app' _ _ r) by reflexivity.
  unfold resp_dict, field. cbn [app skipn firstn]. rewrite !sval_be_sint, !uval_be_uint by (unfold len; cbn [length]; lia).
  cbv -[be_sint be_uint]. reflexivity.
Qed.

Lemma bolt_header_short c bs : len bs < bolt_header_size c -> bolt_header_from_stream c bs = Raise DecodeError.
Proof.
  intros H. unfold bolt_header_from_stream, unpack. rewrite py_take_all by lia. fold (bolt_header_size c).
  destruct (len bs =? bolt_header_size c) eqn:E; [lia|reflexivity].
Qed.

Lemma unpack_body cl hl ctl (b : bytes) : 0 <= cl -> 0 <= hl -> 0 <= ctl ->
  unpack [F_s cl; F_s hl; F_s ctl] b =
  if len b =? cl + hl + ctl then Some [PBytes (py_take cl b); PBytes (py_take hl (py_drop cl b)); PBytes (py_drop (cl + hl) b)] else None.
Proof.
  intros H1 H2 H3. unfold unpack. cbn [calcsize fold_right fsize].
  replace (cl + (hl + (ctl + 0))) with (cl + hl + ctl) by lia. destruct (_ =? _) eqn:E; [|reflexivity].
  cbn [unpack_items unpack1 fsize]. do 4 f_equal. rewrite py_drop_drop by lia. rewrite py_take_all; [reflexivity|].
  rewrite len_py_drop by lia. lia.
Qed.

Lemma uval_nonneg b : 0 <= uval b.
Proof. rewrite uval_be_uint. apply be_uint_range. Qed.

(** the frame read off the bytes *)
Definition req_frame (bs : bytes) : frame :=
  let cl := uval (field 14 2 bs) in let hl := uval (field 16 2 bs) in
  let body := py_drop 22 bs in
  {| fr_proto := sval (field 0 1 bs); fr_type := sval (field 1 1 bs); fr_cmdcode := sval (field 2 2 bs);
     fr_ver2 := sval (field 4 1 bs); fr_request_id := sval (field 5 4 bs); fr_codec := sval (field 9 1 bs);
     fr_tos := sval (field 10 4 bs);
     fr_class := py_take cl body; fr_header := py_take hl (py_drop cl body); fr_content := py_drop (cl + hl) body |}.
Definition resp_frame (bs : bytes) : frame :=
  let cl := uval (field 12 2 bs) in let hl := uval (field 14 2 bs) in
  let body := py_drop 20 bs in
  {| fr_proto := sval (field 0 1 bs); fr_type := sval (field 1 1 bs); fr_cmdcode := sval (field 2 2 bs);
     fr_ver2 := sval (field 4 1 bs); fr_request_id := sval (field 5 4 bs); fr_codec := sval (field 9 1 bs);
     fr_tos := sval (field 10 2 bs);
     fr_class := py_take cl body; fr_header := py_take hl (py_drop cl body); fr_content := py_drop (cl + hl) body |}.

Definition req_total (bs : bytes) : Z := 22 + uval (field 14 2 bs) + uval (field 16 2 bs) + uval (field 18 4 bs).
Definition resp_total (bs : bytes) : Z := 20 + uval (field 12 2 bs) + uval (field 14 2 bs) + uval (field 16 4 bs).

Lemma split3 (body : bytes) cl hl ctl : 0 <= cl -> 0 <= hl -> 0 <= ctl -> len body = cl + hl + ctl ->
  body = py_take cl body ++ py_take hl (py_drop cl body) ++ py_drop (cl + hl) body /\
  len (py_take cl body) = cl /\ len (py_take hl (py_drop cl body)) = hl /\ len (py_drop (cl + hl) body) = ctl.
Proof.
  intros H1 H2 H3 H. split.
  - rewrite <- py_drop_drop by lia. rewrite !py_take_drop. reflexivity.
  - rewrite !len_py_take by (try rewrite len_py_drop; lia). rewrite len_py_drop by lia. lia.
Qed.

Lemma split3_inv (a b c : bytes) : py_take (len a) (a ++ b ++ c) = a /\
  py_take (len b) (py_drop (len a) (a ++ b ++ c)) = b /\ py_drop (len a + len b) (a ++ b ++ c) = c.
Proof.
  rewrite py_take_app, py_drop_app, py_take_app. rewrite app_assoc, <- len_app, py_drop_app. auto.
Qed.

Lemma req_layout_iff bs f : request_layout bs f <-> 22 <= len bs /\ len bs = req_total bs /\ f = req_frame bs.
Proof.
  unfold request_layout, common_layout, req_total, req_frame. cbv zeta.
  rewrite py_drop_skipn. change (Z.to_nat 22) with 22%nat. split.
  - intros (H0 & (F1 & F2 & F3 & F4 & F5 & F6) & F7 & F8 & F9 & F10 & F11).
    split; [exact H0|]. rewrite F8, F9, F10, F11.
    destruct (split3_inv (fr_class f) (fr_header f) (fr_content f)) as (S1 & S2 & S3). rewrite S1, S2, S3. split.
    + apply (f_equal len) in F11. rewrite !len_app in F11. unfold len in *. rewrite skipn_length in F11. lia.
    + destruct f. cbn in *. subst. reflexivity.
  - intros (H0 & H1 & ->). cbn [fr_proto fr_type fr_cmdcode fr_ver2 fr_request_id fr_codec fr_tos fr_class fr_header fr_content].
    pose proof (uval_nonneg (field 14 2 bs)). pose proof (uval_nonneg (field 16 2 bs)). pose proof (uval_nonneg (field 18 4 bs)).
    destruct (split3 (skipn 22 bs) (uval (field 14 2 bs)) (uval (field 16 2 bs)) (uval (field 18 4 bs))) as (S0 & S1 & S2 & S3); try lia.
    { unfold len in *. rewrite skipn_length. lia. }
    rewrite S1, S2, S3. repeat split; auto.
Qed.

Lemma resp_layout_iff bs f : response_layout bs f <-> 20 <= len bs /\ len bs = resp_total bs /\ f = resp_frame bs.
Proof.
  unfold response_layout, common_layout, resp_total, resp_frame. cbv zeta.
  rewrite py_drop_skipn. change (Z.to_nat 20) with 20%nat. split.
  - intros (H0 & (F1 & F2 & F3 & F4 & F5 & F6) & F7 & F8 & F9 & F10 & F11).
    split; [exact H0|]. rewrite F8, F9, F10, F11.
    destruct (split3_inv (fr_class f) (fr_header f) (fr_content f)) as (S1 & S2 & S3). rewrite S1, S2, S3. split.
    + apply (f_equal len) in F11. rewrite !len_app in F11. unfold len in *. rewrite skipn_length in F11. lia.
    + destruct f. cbn in *. subst. reflexivity.
  - intros (H0 & H1 & ->). cbn [fr_proto fr_type fr_cmdcode fr_ver2 fr_request_id fr_codec fr_tos fr_class fr_header fr_content].
    pose proof (uval_nonneg (field 12 2 bs)). pose proof (uval_nonneg (field 14 2 bs)). pose proof (uval_nonneg (field 16 4 bs)).
    destruct (split3 (skipn 20 bs) (uval (field 12 2 bs)) (uval (field 14 2 bs)) (uval (field 16 4 bs))) as (S0 & S1 & S2 & S3); try lia.
    { unfold len in *. rewrite skipn_length. lia. }
    rewrite S1, S2, S3. repeat split; auto.
Qed.

(** the package a frame denotes *)
Definition pkg_of_req (n : bytes) (f : frame) (h : sofa_header) (hb : bytes) : pkg :=
  {| p_cls := req_class n; p_header := h; p_header_bytes := hb; p_content := PBytes (fr_content f);
     p_proto := fr_proto f; p_ptype := fr_type f; p_cmdcode := fr_cmdcode f; p_ver2 := fr_ver2 f;
     p_request_id := PInt (fr_request_id f); p_codec := fr_codec f; p_timeout := PInt (fr_tos f); p_respstatus := 0 |}.
Definition pkg_of_resp (n : bytes) (f : frame) (h : sofa_header) (hb : bytes) : pkg :=
  {| p_cls := resp_class n; p_header := h; p_header_bytes := hb; p_content := PBytes (fr_content f);
     p_proto := fr_proto f; p_ptype := fr_type f; p_cmdcode := fr_cmdcode f; p_ver2 := fr_ver2 f;
     p_request_id := PInt (fr_request_id f); p_codec := fr_codec f; p_timeout := PInt 0; p_respstatus := fr_tos f |}.

Lemma py_or_int z : py_or (PInt z) (PInt 0) = PInt z.
Proof. unfold py_or. cbn. destruct (z =? 0) eqn:E; cbn; [f_equal; lia|reflexivity]. Qed.

Lemma from_stream_req_iff n bs p : from_stream (req_class n) bs = Ok p <->
  exists f kvs hb, request_layout bs f /\ legal_common f /\ header_pairs (fr_header f) kvs /\
    to_bytes (dict_of kvs) = Ok hb /\ p = pkg_of_req n f (dict_of kvs) hb.
Proof.
  unfold from_stream. change (bolt_header_size (req_class n)) with 22.
  destruct (Z.ltb_spec (len bs) 22) as [Hs|Hs].
  { rewrite bolt_header_short by (change (bolt_header_size (req_class n)) with 22; exact Hs). cbn [bind]. split; [discriminate|].
    intros (f & _ & _ & (H & _) & _). lia. }
  rewrite bolt_header_req by exact Hs. cbn [bind]. unfold bolt_content_from_stream, bolt_content_from_stream_try.
  cbn [bh_int dget req_dict bind].
  change (bh_int f_class_len (req_dict bs)) with (Ok (uval (field 14 2 bs))).
  change (bh_int f_header_len (req_dict bs)) with (Ok (uval (field 16 2 bs))).
  change (bh_int f_content_len (req_dict bs)) with (Ok (uval (field 18 4 bs))). cbn [bind].
  rewrite unpack_body by apply uval_nonneg.
  change (kwarg f_proto (PInt PROTO_BOLT) (req_dict bs)) with (PInt (fr_proto (req_frame bs))).
  change (kwarg f_ptype PNone (req_dict bs)) with (PInt (fr_type (req_frame bs))).
  change (kwarg f_cmdcode PNone (req_dict bs)) with (PInt (fr_cmdcode (req_frame bs))).
  change (kwarg f_ver2 (PInt VER2_REMOTING) (req_dict bs)) with (PInt (fr_ver2 (req_frame bs))).
  change (kwarg f_request_id PNone (req_dict bs)) with (PInt (fr_request_id (req_frame bs))).
  change (kwarg f_codec (PInt CODEC_PROTOBUF) (req_dict bs)) with (PInt (fr_codec (req_frame bs))).
  change (kwarg f_timeout PNone (req_dict bs)) with (PInt (fr_tos (req_frame bs))).
  change (kwarg f_respstatus (PInt 0) (req_dict bs)) with (PInt 0).
  change (py_take (uval (field 16 2 bs)) (py_drop (uval (field 14 2 bs)) (py_drop 22 bs))) with (fr_header (req_frame bs)).
  change (py_drop (uval (field 14 2 bs) + uval (field 16 2 bs)) (py_drop 22 bs)) with (fr_content (req_frame bs)).
  assert (Hlen : (len (py_drop 22 bs) =? uval (field 14 2 bs) + uval (field 16 2 bs) + uval (field 18 4 bs)) = (len bs =? req_total bs)).
  { rewrite len_py_drop by lia. unfold req_total. lia. }
  rewrite Hlen. split.
  - destruct (len bs =? req_total bs) eqn:El; [|discriminate].
    destruct (from_bytes (fr_header (req_frame bs))) as [h|e] eqn:Eh; cbn [bind]; [|discriminate].
    apply from_bytes_iff in Eh as (kvs & Hk & ->).
    match goal with |- match ?m with Ok _ => _ | Raise _ => _ end = _ -> _ => destruct m as [p'|] eqn:Em; [|discriminate] end.
    intros H. apply Ok_inj in H. subst p'.
    apply mk_package_Ok in Em as (M1 & M2 & M3 & M4 & M5 & M6 & M7 & M8 & M9 & M10 & M11 & L1 & L2 & L3 & L4 & L5 & L6 & L7).
    rewrite py_or_int in M5. cbn [int_value] in *.
    apply Some_inj in M6, M7, M8, M9, M10, M11.
    exists (req_frame bs), kvs, (p_header_bytes p).
    split; [apply req_layout_iff; split; [lia|split; [lia|reflexivity]]|].
    split; [unfold legal_common; rewrite M6, M7, M8, M9, M10; auto|].
    split; [exact Hk|]. split; [rewrite <- M2; exact L7|].
    destruct p; unfold pkg_of_req; cbn in *; subst; reflexivity.
  - intros (f & kvs & hb & Hl & (G1 & G2 & G3 & G4 & G5) & Hk & Hb & ->).
    apply req_layout_iff in Hl as (_ & Hl & ->). rewrite Hl, Z.eqb_refl.
    assert (Eh : from_bytes (fr_header (req_frame bs)) = Ok (dict_of kvs)) by (apply from_bytes_iff; eauto).
    rewrite Eh. cbn [bind].
    match goal with |- match ?m with Ok _ => _ | Raise _ => _ end = Ok ?p => assert (Em : m = Ok p) end.
    { apply mk_package_Ok. unfold legal_pkg, pkg_of_req.
      cbn [p_cls p_header p_content p_request_id p_timeout p_proto p_ptype p_cmdcode p_ver2 p_codec p_respstatus p_header_bytes int_value].
      rewrite py_or_int. repeat (split; [reflexivity|]).
      repeat (split; [assumption|]). split; [unfold legal_status; lia|assumption]. }
    rewrite Em. reflexivity.
Qed.

Lemma from_stream_resp_iff n bs p : from_stream (resp_class n) bs = Ok p <->
  exists f kvs hb, response_layout bs f /\ legal_common f /\ legal_status (fr_tos f) /\ header_pairs (fr_header f) kvs /\
    to_bytes (dict_of kvs) = Ok hb /\ p = pkg_of_resp n f (dict_of kvs) hb.
Proof.
  unfold from_stream. change (bolt_header_size (resp_class n)) with 20.
  destruct (Z.ltb_spec (len bs) 20) as [Hs|Hs].
  { rewrite bolt_header_short by (change (bolt_header_size (resp_class n)) with 20; exact Hs). cbn [bind]. split; [discriminate|].
    intros (f & _ & _ & (H & _) & _). lia. }
  rewrite bolt_header_resp by exact Hs. cbn [bind]. unfold bolt_content_from_stream, bolt_content_from_stream_try.
  change (bh_int f_class_len (resp_dict bs)) with (Ok (uval (field 12 2 bs))).
  change (bh_int f_header_len (resp_dict bs)) with (Ok (uval (field 14 2 bs))).
  change (bh_int f_content_len (resp_dict bs)) with (Ok (uval (field 16 4 bs))). cbn [bind].
  rewrite unpack_body by apply uval_nonneg.
  change (kwarg f_proto (PInt PROTO_BOLT) (resp_dict bs)) with (PInt (fr_proto (resp_frame bs))).
  change (kwarg f_ptype PNone (resp_dict bs)) with (PInt (fr_type (resp_frame bs))).
  change (kwarg f_cmdcode PNone (resp_dict bs)) with (PInt (fr_cmdcode (resp_frame bs))).
  change (kwarg f_ver2 (PInt VER2_REMOTING) (resp_dict bs)) with (PInt (fr_ver2 (resp_frame bs))).
  change (kwarg f_request_id PNone (resp_dict bs)) with (PInt (fr_request_id (resp_frame bs))).
  change (kwarg f_codec (PInt CODEC_PROTOBUF) (resp_dict bs)) with (PInt (fr_codec (resp_frame bs))).
  change (kwarg f_timeout PNone (resp_dict bs)) with PNone.
  change (kwarg f_respstatus (PInt 0) (resp_dict bs)) with (PInt (fr_tos (resp_frame bs))).
  change (py_take (uval (field 14 2 bs)) (py_drop (uval (field 12 2 bs)) (py_drop 20 bs))) with (fr_header (resp_frame bs)).
  change (py_drop (uval (field 12 2 bs) + uval (field 14 2 bs)) (py_drop 20 bs)) with (fr_content (resp_frame bs)).
  assert (Hlen : (len (py_drop 20 bs) =? uval (field 12 2 bs) + uval (field 14 2 bs) + uval (field 16 4 bs)) = (len bs =? resp_total bs)).
  { rewrite len_py_drop by lia. unfold resp_total. lia. }
  rewrite Hlen. split.
  - destruct (len bs =? resp_total bs) eqn:El; [|discriminate].
    destruct (from_bytes (fr_header (resp_frame bs))) as [h|e] eqn:Eh; cbn [bind]; [|discriminate].
    apply from_bytes_iff in Eh as (kvs & Hk & ->).
    match goal with |- match ?m with Ok _ => _ | Raise _ => _ end = _ -> _ => destruct m as [p'|] eqn:Em; [|discriminate] end.
    intros H. apply Ok_inj in H. subst p'.
    apply mk_package_Ok in Em as (M1 & M2 & M3 & M4 & M5 & M6 & M7 & M8 & M9 & M10 & M11 & L1 & L2 & L3 & L4 & L5 & L6 & L7).
    cbn [int_value] in *. unfold py_or in M5. cbn [truthy] in M5.
    apply Some_inj in M6, M7, M8, M9, M10, M11.
    exists (resp_frame bs), kvs, (p_header_bytes p).
    split; [apply resp_layout_iff; split; [lia|split; [lia|reflexivity]]|].
    split; [unfold legal_common; rewrite M6, M7, M8, M9, M10; auto|]. split; [rewrite M11; exact L6|].
    split; [exact Hk|]. split; [rewrite <- M2; exact L7|].
    destruct p; unfold pkg_of_resp; cbn in *; subst; reflexivity.
  - intros (f & kvs & hb & Hl & (G1 & G2 & G3 & G4 & G5) & G6 & Hk & Hb & ->).
    apply resp_layout_iff in Hl as (_ & Hl & ->). rewrite Hl, Z.eqb_refl.
    assert (Eh : from_bytes (fr_header (resp_frame bs)) = Ok (dict_of kvs)) by (apply from_bytes_iff; eauto).
    rewrite Eh. cbn [bind].
    match goal with |- match ?m with Ok _ => _ | Raise _ => _ end = Ok ?p => assert (Em : m = Ok p) end.
    { apply mk_package_Ok. unfold legal_pkg, pkg_of_resp.
      cbn [p_cls p_header p_content p_request_id p_timeout p_proto p_ptype p_cmdcode p_ver2 p_codec p_respstatus p_header_bytes int_value].
      repeat (split; [reflexivity|]). auto 10. }
    rewrite Em. reflexivity.
Qed.

Lemma from_stream_errors c bs e : from_stream c bs = Raise e -> e = DecodeError.
Proof.
  unfold from_stream, bolt_header_from_stream. destruct (unpack _ _); cbn [bind].
  - unfold bolt_content_from_stream. destruct (bolt_content_from_stream_try _ _ _); [discriminate|]. congruence.
  - congruence.
Qed.

(** a header that parses always has serialized bytes (so [to_bytes] above is no restriction) *)
Lemma parsed_to_bytes b kvs : header_pairs b kvs -> exists hb, to_bytes (dict_of kvs) = Ok hb /\ len hb <= len b.
Proof. intros H. apply reencode. apply from_bytes_iff. eauto. Qed.

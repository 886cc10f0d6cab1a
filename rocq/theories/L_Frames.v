(** Lemmas for C81: the frames made by the factory methods. *)
From Coq Require Import Strings.String.
From Verif Require Import PyBase PyDict PyInt M_SofaHeader M_Package L_Package L_Codec S_Wire P_Codec.
Open Scope Z_scope.

Lemma request_frame header content ptype timeout rid p bs :
  new_request header content ptype timeout rid = Ok p -> to_stream p = Ok bs ->
  exists hb b t, request_layout bs {| fr_proto := 1; fr_type := ptype; fr_cmdcode := 1; fr_ver2 := 1; fr_request_id := rid; fr_codec := 11; fr_tos := t;
      fr_class := bytes_lit "com.alipay.sofa.rpc.core.request.SofaRequest"; fr_header := hb; fr_content := b |} /\
    header_pairs hb header /\ content = PBytes b /\ (if truthy timeout then int_value timeout = Some t else t = -1).
Proof.
  intros N T. destruct (C03_request_layout _ _ _ _ _ _ _ _ _ _ _ _ _ (or_introl eq_refl) N T) as (f & L & E1 & E2 & E3 & E4 & E5 & E6 & E7 & E8 & E9 & E10).
  destruct f as [f1 f2 f3 f4 f5 f6 f7 f8 f9 f10]. cbn in *. injection E1 as <-. injection E2 as <-. injection E3 as <-. injection E4 as <-. injection E5 as <-. injection E6 as <-. subst f8.
  exists f9, f10, f7. split; [exact L|]. split; [exact E9|]. split; [exact E10|]. unfold py_or in E7. destruct (truthy timeout) eqn:Tt.
  - rewrite Tt in E7. exact E7.
  - cbn in E7. injection E7 as <-. reflexivity.
Qed.

Lemma heartbeat_frame rid p bs : heartbeat_new_request rid = Ok p -> to_stream p = Ok bs ->
  request_layout bs {| fr_proto := 1; fr_type := 1; fr_cmdcode := 0; fr_ver2 := 1; fr_request_id := rid; fr_codec := 11; fr_tos := 0; fr_class := []; fr_header := []; fr_content := [] |}.
Proof.
  intros N T. destruct (C03_request_layout _ _ _ _ _ _ _ _ _ _ _ _ _ (or_intror (or_introl eq_refl)) N T) as (f & L & E1 & E2 & E3 & E4 & E5 & E6 & E7 & E8 & E9 & E10).
  destruct f as [f1 f2 f3 f4 f5 f6 f7 f8 f9 f10]. cbn in *. injection E1 as <-. injection E2 as <-. injection E3 as <-. injection E4 as <-. injection E5 as <-. injection E6 as <-. injection E7 as <-. subst f8.
  injection E10 as <-. replace (@nil Byte.byte) with f9 at 2; [exact L|]. unfold header_pairs in E9. cbn in E9. inversion E9. reflexivity.
Qed.

Lemma response_frame_gen c content rid cmd status p bs : In c [BoltResponse; HeartbeatResponse; FailResponse] ->
  mk_package c empty_header content (PInt PROTO_BOLT) (PInt PTYPE_RESPONSE) (PInt cmd) (PInt VER2_REMOTING) (PInt rid) (PInt CODEC_PROTOBUF) PNone (PInt status) = Ok p -> to_stream p = Ok bs ->
  exists b, response_layout bs {| fr_proto := 1; fr_type := 0; fr_cmdcode := cmd; fr_ver2 := 1; fr_request_id := rid; fr_codec := 11; fr_tos := status; fr_class := cls_name c; fr_header := []; fr_content := b |} /\ content = PBytes b.
Proof.
  intros C N T. destruct (C03_response_layout _ _ _ _ _ _ _ _ _ _ _ _ _ C N T) as (f & L & E1 & E2 & E3 & E4 & E5 & E6 & E7 & E8 & E9 & E10).
  destruct f as [f1 f2 f3 f4 f5 f6 f7 f8 f9 f10]. cbn in *. injection E1 as <-. injection E2 as <-. injection E3 as <-. injection E4 as <-. injection E5 as <-. injection E6 as <-. injection E7 as <-. subst f8.
  exists f10. split; [|exact E10]. replace (@nil Byte.byte) with f9; [exact L|]. unfold header_pairs in E9. cbn in E9. inversion E9. reflexivity.
Qed.
Lemma response_frame content rid p bs : response_to content rid = Ok p -> to_stream p = Ok bs ->
  exists b, response_layout bs {| fr_proto := 1; fr_type := 0; fr_cmdcode := 2; fr_ver2 := 1; fr_request_id := rid; fr_codec := 11; fr_tos := 0;
      fr_class := bytes_lit "com.alipay.sofa.rpc.core.response.SofaResponse"; fr_header := []; fr_content := b |} /\ content = PBytes b.
Proof. intros N T. exact (response_frame_gen BoltResponse _ _ _ _ _ _ (or_introl eq_refl) N T). Qed.
Lemma fail_frame rid status p bs : fail_response_to rid status = Ok p -> to_stream p = Ok bs ->
  response_layout bs {| fr_proto := 1; fr_type := 0; fr_cmdcode := 2; fr_ver2 := 1; fr_request_id := rid; fr_codec := 11; fr_tos := status;
      fr_class := bytes_lit "com.alipay.sofa.rpc.core.response.SofaResponse"; fr_header := []; fr_content := [] |}.
Proof. intros N T. destruct (response_frame_gen FailResponse _ _ _ _ _ _ (or_intror (or_intror (or_introl eq_refl))) N T) as (b & L & E). injection E as <-. exact L. Qed.
Lemma heartbeat_answer_frame rid p bs : heartbeat_response_to rid = Ok p -> to_stream p = Ok bs ->
  response_layout bs {| fr_proto := 1; fr_type := 0; fr_cmdcode := 0; fr_ver2 := 1; fr_request_id := rid; fr_codec := 11; fr_tos := 0; fr_class := []; fr_header := []; fr_content := [] |}.
Proof. intros N T. destruct (response_frame_gen HeartbeatResponse _ _ _ _ _ _ (or_intror (or_introl eq_refl)) N T) as (b & L & E). injection E as <-. exact L. Qed.

Lemma rep_empty rid : -2147483648 <= rid <= 2147483647 -> representable empty_header (PBytes []) (PInt rid).
Proof. intros R. split; [exists rid; split; [reflexivity|lia]|]. split; exists []; (split; [reflexivity|cbn; lia]). Qed.
Lemma small_frames_encode rid : -2147483648 <= rid <= 2147483647 ->
  (exists p bs, heartbeat_new_request rid = Ok p /\ to_stream p = Ok bs) /\
  (exists p bs, heartbeat_response_to rid = Ok p /\ to_stream p = Ok bs) /\
  (forall status, legal_status status -> exists p bs, fail_response_to rid status = Ok p /\ to_stream p = Ok bs) /\
  (forall b, len b < 2 ^ 32 -> exists p bs, response_to (PBytes b) rid = Ok p /\ to_stream p = Ok bs).
Proof.
  intros R. pose proof (rep_empty rid R) as Q. assert (Z0 : int32 (PInt 0)) by (exists 0; split; [reflexivity|lia]). split; [|split; [|split]].
  - destruct (heartbeat_new_request rid) as [p|] eqn:N; [|cbv in N; discriminate]. exists p.
    destruct (proj2 (C04_request_encodable_iff _ _ _ _ _ _ _ _ _ _ _ _ (or_intror (or_introl eq_refl)) N) (conj Q Z0)) as [bs E]. eauto.
  - destruct (heartbeat_response_to rid) as [p|] eqn:N; [|cbv in N; discriminate]. exists p.
    destruct (proj2 (C04_response_encodable_iff _ _ _ _ _ _ _ _ _ _ _ _ (or_intror (or_introl eq_refl)) N) Q) as [bs E]. eauto.
  - intros status S. destruct (fail_response_to rid status) as [p|] eqn:N.
    + exists p. destruct (proj2 (C04_response_encodable_iff _ _ _ _ _ _ _ _ _ _ _ _ (or_intror (or_intror (or_introl eq_refl))) N) Q) as [bs E]. eauto.
    + exfalso. assert (I : status = 0 \/ status = 1 \/ status = 2 \/ status = 3 \/ status = 4 \/ status = 5 \/ status = 6 \/ status = 7 \/ status = 8 \/ status = 9 \/ status = 16 \/ status = 17 \/ status = 18) by (unfold legal_status in S; lia).
      repeat (destruct I as [-> |I]; [cbv in N; discriminate|]). subst status. cbv in N. discriminate.
  - intros b B. destruct (response_to (PBytes b) rid) as [p|] eqn:N; [|cbv in N; discriminate]. exists p.
    destruct (proj2 (C04_response_encodable_iff _ _ _ _ _ _ _ _ _ _ _ _ (or_introl eq_refl) N)) as [bs E]; [|eauto].
    destruct Q as (Q1 & _ & Q3). split; [exact Q1|]. split; [|exact Q3]. exists b. split; [reflexivity|exact B].
Qed.

(** Property theorems C01-C11: the Bolt codec. *)
From Coq Require Import Strings.String ZifyBool.
From Verif Require Import PyBase L_PyBase PyDict L_PyDict Utf8 L_Utf8 Struct M_SofaHeader L_SofaHeader M_Package L_Package L_Codec S_Wire.
Open Scope Z_scope.

(** ** C01 *)
Theorem C01_request_roundtrip :
  forall c c' header content proto ptype cmdcode ver2 request_id codec timeout respstatus p bs,
    In c [BoltRequest; HeartbeatRequest] -> In c' [BoltRequest; HeartbeatRequest] ->
    wf_dict header ->
    mk_package c header content proto ptype cmdcode ver2 request_id codec timeout respstatus = Ok p ->
    to_stream p = Ok bs ->
    exists p', from_stream c' bs = Ok p' /\
      p_cls p' = c' /\ p_header p' = header /\ p_content p' = content /\
      int_value proto = Some (p_proto p') /\ int_value ptype = Some (p_ptype p') /\
      int_value cmdcode = Some (p_cmdcode p') /\ int_value ver2 = Some (p_ver2 p') /\
      int_value codec = Some (p_codec p') /\
      int_value (p_request_id p') = int_value request_id /\
      int_value (p_timeout p') = int_value (if truthy timeout then timeout else PInt 0).
Proof.
  intros c c' header content proto ptype cmdcode ver2 request_id codec timeout respstatus p bs Hc Hc' Hw Hm Hs.
  apply mk_package_Ok in Hm as (M1 & M2 & M3 & M4 & M5 & M6 & M7 & M8 & M9 & M10 & M11 & Hleg).
  assert (Hn : exists n, c = req_class n) by (destruct Hc as [<-|[<-|[]]]; eexists; reflexivity).
  assert (Hn' : exists n, c' = req_class n) by (destruct Hc' as [<-|[<-|[]]]; eexists; reflexivity).
  destruct Hn as [n ->], Hn' as [n' ->].
  destruct (req_roundtrip p n n' bs M1 Hleg ltac:(rewrite M2; exact Hw) Hs) as (rid & tmo & ct & H1 & H2 & H3 & H4).
  eexists. split; [exact H4|]. unfold pkg_of_req, frame_of. cbn.
  rewrite <- M3, <- M4, H3. repeat (split; [first [reflexivity|assumption]|]).
  split; [symmetry; exact H1|]. unfold py_or in M5. rewrite <- M5. symmetry. exact H2.
Qed.
Print Assumptions C01_request_roundtrip.

(** ** C02 *)
Theorem C02_response_roundtrip :
  forall c c' header content proto ptype cmdcode ver2 request_id codec timeout respstatus p bs,
    In c [BoltResponse; HeartbeatResponse; FailResponse] -> In c' [BoltResponse; HeartbeatResponse; FailResponse] ->
    wf_dict header ->
    mk_package c header content proto ptype cmdcode ver2 request_id codec timeout respstatus = Ok p ->
    to_stream p = Ok bs ->
    exists p', from_stream c' bs = Ok p' /\
      p_cls p' = c' /\ p_header p' = header /\ p_content p' = content /\
      int_value proto = Some (p_proto p') /\ int_value ptype = Some (p_ptype p') /\
      int_value cmdcode = Some (p_cmdcode p') /\ int_value ver2 = Some (p_ver2 p') /\
      int_value codec = Some (p_codec p') /\
      int_value (p_request_id p') = int_value request_id /\
      int_value respstatus = Some (p_respstatus p').
Proof.
  intros c c' header content proto ptype cmdcode ver2 request_id codec timeout respstatus p bs Hc Hc' Hw Hm Hs.
  apply mk_package_Ok in Hm as (M1 & M2 & M3 & M4 & M5 & M6 & M7 & M8 & M9 & M10 & M11 & Hleg).
  assert (Hn : exists n, c = resp_class n) by (destruct Hc as [<-|[<-|[<-|[]]]]; eexists; reflexivity).
  assert (Hn' : exists n, c' = resp_class n) by (destruct Hc' as [<-|[<-|[<-|[]]]]; eexists; reflexivity).
  destruct Hn as [n ->], Hn' as [n' ->].
  destruct (resp_roundtrip p n n' bs M1 Hleg ltac:(rewrite M2; exact Hw) Hs) as (rid & ct & H1 & H3 & H4).
  eexists. split; [exact H4|]. unfold pkg_of_resp, frame_of. cbn.
  rewrite <- M3, <- M4, H3. repeat (split; [first [reflexivity|assumption]|]).
  split; [symmetry; exact H1|]. exact M11.
Qed.
Print Assumptions C02_response_roundtrip.

(** A concrete request and response: Unicode header (two-, three- and four-byte characters, an
    empty value), binary content, negative timeout. *)
Definition ex_header : sofa_header :=
  [(str "service", str "com.alipay.Demo:1.0"); ([0xE9; 0x4E2D; 0x1F600], []); (str "uid", [0x7F; 0x80])].
Definition ex_content : pyobj := PBytes [Byte.x00; Byte.xff; Byte.x80].
Definition ex_request := mk_package BoltRequest ex_header ex_content
  (PInt 1) (PInt 1) (PInt 1) (PInt 1) (PInt 2147483647) (PInt 11) (PInt (-1)) (PInt 0).
Definition ex_response := mk_package BoltResponse ex_header ex_content
  (PInt 1) (PInt 0) (PInt 2) (PInt 1) (PInt 7) (PInt 11) PNone (PInt 18).

Example C01_C02_hypotheses_met :
  NoDup (map fst ex_header) /\
  (exists p bs, ex_request = Ok p /\ to_stream p = Ok bs /\ len bs = 134) /\
  (exists p bs, ex_response = Ok p /\ to_stream p = Ok bs /\ len bs = 134).
Proof.
  split; [|split].
  - assert (H : nodupb_str (map fst ex_header) = true) by (vm_compute; reflexivity). exact (nodupb_str_ok _ H).
  - destruct ex_request as [p|] eqn:E; [|vm_compute in E; discriminate]. exists p.
    vm_compute in E. injection E as <-. eexists. vm_compute. repeat split.
  - destruct ex_response as [p|] eqn:E; [|vm_compute in E; discriminate]. exists p.
    vm_compute in E. injection E as <-. eexists. vm_compute. repeat split.
Qed.

(** ** C03: byte layout ([request_layout] / [response_layout] are the diagram, in S_Wire.v) *)
Theorem C03_request_layout :
  forall c header content proto ptype cmdcode ver2 request_id codec timeout respstatus p bs,
    In c [BoltRequest; HeartbeatRequest] ->
    mk_package c header content proto ptype cmdcode ver2 request_id codec timeout respstatus = Ok p ->
    to_stream p = Ok bs ->
    exists f, request_layout bs f /\
      int_value proto = Some (fr_proto f) /\ int_value ptype = Some (fr_type f) /\
      int_value cmdcode = Some (fr_cmdcode f) /\ int_value ver2 = Some (fr_ver2 f) /\
      int_value request_id = Some (fr_request_id f) /\ int_value codec = Some (fr_codec f) /\
      int_value (if truthy timeout then timeout else PInt 0) = Some (fr_tos f) /\
      fr_class f = cls_name c /\ header_pairs (fr_header f) header /\ content = PBytes (fr_content f).
Proof.
  intros c header content proto ptype cmdcode ver2 request_id codec timeout respstatus p bs Hc Hm Hs.
  apply mk_package_Ok in Hm as (M1 & M2 & M3 & M4 & M5 & M6 & M7 & M8 & M9 & M10 & M11 & Hleg).
  assert (Hn : exists n, c = req_class n) by (destruct Hc as [<-|[<-|[]]]; eexists; reflexivity). destruct Hn as [n ->].
  destruct (req_layout_of p n bs M1 Hleg Hs) as (rid & tmo & ct & H1 & H2 & H3 & H4).
  exists (frame_of p rid tmo ct). split; [exact H4|]. cbn [frame_of fr_proto fr_type fr_cmdcode fr_ver2 fr_request_id fr_codec fr_tos fr_class fr_header fr_content].
  rewrite <- M4, <- M3. unfold py_or in M5. rewrite <- M5, <- M2, M1.
  repeat (split; [first [reflexivity|assumption]|]). split; [|exact H3].
  apply to_bytes_strings. apply Hleg.
Qed.
Print Assumptions C03_request_layout.

Theorem C03_response_layout :
  forall c header content proto ptype cmdcode ver2 request_id codec timeout respstatus p bs,
    In c [BoltResponse; HeartbeatResponse; FailResponse] ->
    mk_package c header content proto ptype cmdcode ver2 request_id codec timeout respstatus = Ok p ->
    to_stream p = Ok bs ->
    exists f, response_layout bs f /\
      int_value proto = Some (fr_proto f) /\ int_value ptype = Some (fr_type f) /\
      int_value cmdcode = Some (fr_cmdcode f) /\ int_value ver2 = Some (fr_ver2 f) /\
      int_value request_id = Some (fr_request_id f) /\ int_value codec = Some (fr_codec f) /\
      int_value respstatus = Some (fr_tos f) /\
      fr_class f = cls_name c /\ header_pairs (fr_header f) header /\ content = PBytes (fr_content f).
Proof.
  intros c header content proto ptype cmdcode ver2 request_id codec timeout respstatus p bs Hc Hm Hs.
  apply mk_package_Ok in Hm as (M1 & M2 & M3 & M4 & M5 & M6 & M7 & M8 & M9 & M10 & M11 & Hleg).
  assert (Hn : exists n, c = resp_class n) by (destruct Hc as [<-|[<-|[<-|[]]]]; eexists; reflexivity). destruct Hn as [n ->].
  destruct (resp_layout_of p n bs M1 Hleg Hs) as (rid & ct & H1 & H3 & H4).
  exists (frame_of p rid (p_respstatus p) ct). split; [exact H4|]. cbn [frame_of fr_proto fr_type fr_cmdcode fr_ver2 fr_request_id fr_codec fr_tos fr_class fr_header fr_content].
  rewrite <- M4, <- M3, <- M2, M1.
  repeat (split; [first [reflexivity|assumption]|]). split; [|exact H3].
  apply to_bytes_strings. apply Hleg.
Qed.
Print Assumptions C03_response_layout.

(** hypotheses met by [C01_C02_hypotheses_met]; the bytes of a small heartbeat, written out *)
Example C03_heartbeat_bytes :
  (let! p := heartbeat_new_request 258 in to_stream p) =
  Ok [Byte.x01; Byte.x01; Byte.x00; Byte.x00; Byte.x01; Byte.x00; Byte.x00; Byte.x01; Byte.x02; Byte.x0b;
      Byte.x00; Byte.x00; Byte.x00; Byte.x00; Byte.x00; Byte.x00; Byte.x00; Byte.x00; Byte.x00; Byte.x00; Byte.x00; Byte.x00].
Proof. vm_compute. reflexivity. Qed.

(** ** C04 *)
Definition int32 (v : pyobj) : Prop := exists z, int_value v = Some z /\ -2147483648 <= z <= 2147483647.
Definition representable (header : sofa_header) (content request_id : pyobj) : Prop :=
  int32 request_id /\ (exists b, content = PBytes b /\ len b < 2 ^ 32) /\
  (exists hb, to_bytes header = Ok hb /\ len hb <= 65535).

Theorem C04_request_encodable_iff :
  forall c header content proto ptype cmdcode ver2 request_id codec timeout respstatus p,
    In c [BoltRequest; HeartbeatRequest] ->
    mk_package c header content proto ptype cmdcode ver2 request_id codec timeout respstatus = Ok p ->
    ((exists bs, to_stream p = Ok bs) <->
     representable header content request_id /\ int32 (if truthy timeout then timeout else PInt 0)).
Proof.
  intros c header content proto ptype cmdcode ver2 request_id codec timeout respstatus p Hc Hm.
  apply mk_package_Ok in Hm as (M1 & M2 & M3 & M4 & M5 & M6 & M7 & M8 & M9 & M10 & M11 & Hleg).
  assert (Hn : exists n, c = req_class n /\ len n <= 65535).
  { destruct Hc as [<-|[<-|[]]]; eexists; (split; [reflexivity|vm_compute; discriminate]). }
  destruct Hn as (n & -> & Hn). unfold py_or in M5. unfold representable, int32. rewrite <- M5, <- M2, <- M3, <- M4.
  assert (Hh : to_bytes (p_header p) = Ok (p_header_bytes p)) by apply Hleg.
  change (2 ^ 32) with 4294967296. split.
  - intros [bs Hs]. apply (to_stream_req_iff p n bs M1 Hleg) in Hs as (rid & tmo & ct & H1 & H2 & H3 & R1 & R2 & R3 & R4 & R5 & _).
    split; [split; [eauto|split]|eauto].
    + exists ct. split; [exact H3|lia].
    + exists (p_header_bytes p). split; [exact Hh|exact R4].
  - intros [((rid & H1 & R1) & (ct & H3 & R5) & (hb & Hhb & R4)) (tmo & H2 & R2)].
    assert (hb = p_header_bytes p) by congruence. subst hb.
    eexists. apply (to_stream_req_iff p n _ M1 Hleg). exists rid, tmo, ct.
    assert (p_class_len p <= 65535) by (unfold p_class_len; rewrite M1; exact Hn).
    unfold p_header_len. repeat (split; [first [assumption|lia]|]). reflexivity.
Qed.
Print Assumptions C04_request_encodable_iff.

Theorem C04_response_encodable_iff :
  forall c header content proto ptype cmdcode ver2 request_id codec timeout respstatus p,
    In c [BoltResponse; HeartbeatResponse; FailResponse] ->
    mk_package c header content proto ptype cmdcode ver2 request_id codec timeout respstatus = Ok p ->
    ((exists bs, to_stream p = Ok bs) <-> representable header content request_id).
Proof.
  intros c header content proto ptype cmdcode ver2 request_id codec timeout respstatus p Hc Hm.
  apply mk_package_Ok in Hm as (M1 & M2 & M3 & M4 & M5 & M6 & M7 & M8 & M9 & M10 & M11 & Hleg).
  assert (Hn : exists n, c = resp_class n /\ len n <= 65535).
  { destruct Hc as [<-|[<-|[<-|[]]]]; eexists; (split; [reflexivity|vm_compute; discriminate]). }
  destruct Hn as (n & -> & Hn). unfold representable, int32. rewrite <- M2, <- M3, <- M4.
  assert (Hh : to_bytes (p_header p) = Ok (p_header_bytes p)) by apply Hleg.
  change (2 ^ 32) with 4294967296. split.
  - intros [bs Hs]. apply (to_stream_resp_iff p n bs M1 Hleg) in Hs as (rid & ct & H1 & H3 & R1 & R3 & R4 & R5 & _).
    split; [eauto|split].
    + exists ct. split; [exact H3|lia].
    + exists (p_header_bytes p). split; [exact Hh|exact R4].
  - intros ((rid & H1 & R1) & (ct & H3 & R5) & (hb & Hhb & R4)).
    assert (hb = p_header_bytes p) by congruence. subst hb.
    eexists. apply (to_stream_resp_iff p n _ M1 Hleg). exists rid, ct.
    assert (p_class_len p <= 65535) by (unfold p_class_len; rewrite M1; exact Hn).
    unfold p_header_len. repeat (split; [first [assumption|lia]|]). reflexivity.
Qed.
Print Assumptions C04_response_encodable_iff.

(** which error is raised when encoding fails *)
Theorem C04_encode_errors :
  forall c header content proto ptype cmdcode ver2 request_id codec timeout respstatus p e,
    mk_package c header content proto ptype cmdcode ver2 request_id codec timeout respstatus = Ok p ->
    to_stream p = Raise e ->
    ((is_int request_id = false \/ is_bytes content = false) -> e = ParamTypeError) /\
    ((is_int request_id = true /\ is_bytes content = true) -> e = EncodeError).
Proof.
  intros c header content proto ptype cmdcode ver2 request_id codec timeout respstatus p e Hm He.
  apply mk_package_Ok in Hm as (M1 & M2 & M3 & M4 & _). apply to_stream_errors in He. rewrite M3, M4 in He.
  destruct He as [(-> & [H|H])|(-> & H1 & H2)]; rewrite ?H, ?H1, ?H2; split; intros Hx; intuition (try discriminate; try congruence).
Qed.
Print Assumptions C04_encode_errors.

(** a header of 65536 serialized bytes is constructed but not encoded; a float timeout, a str
    content and a None id likewise *)
Definition c04_pkg header content rid timeout := mk_package BoltRequest header content
  (PInt 1) (PInt 1) (PInt 1) (PInt 1) rid (PInt 11) timeout (PInt 0).
Definition c04_enc header content rid timeout : res Z :=
  let! p := c04_pkg header content rid timeout in let! b := to_stream p in Ok (len b).
Definition c04_big (n : Z) : sofa_header := [(repeat 97 (Z.to_nat n), str "v")].
Example C04_boundaries :
  c04_enc (c04_big 65526) (PBytes []) (PInt 0) (PInt 0) = Ok 65601 /\
  c04_enc (c04_big 65527) (PBytes []) (PInt 0) (PInt 0) = Raise EncodeError /\
  c04_enc [] (PBytes []) (PInt 2147483647) PNone = Ok 66 /\
  c04_enc [] (PBytes []) (PInt 2147483648) PNone = Raise EncodeError /\
  c04_enc [] (PBytes []) (PInt (-2147483648)) PNone = Ok 66 /\
  c04_enc [] (PBytes []) (PInt 0) (PInt 2147483648) = Raise EncodeError /\
  c04_enc [] (PBytes []) (PInt 0) (PFloat 5 2) = Raise EncodeError /\
  c04_enc [] (PStr (str "x")) (PInt 0) PNone = Raise ParamTypeError /\
  c04_enc [] (PBytes []) PNone PNone = Raise ParamTypeError.
Proof. vm_compute. repeat split. Qed.

(** ** C05 *)
Theorem C05_request_decodes_iff : forall c bs, In c [BoltRequest; HeartbeatRequest] ->
  ((exists p, from_stream c bs = Ok p) <->
   exists f kvs, request_layout bs f /\ legal_common f /\ header_pairs (fr_header f) kvs).
Proof.
  intros c bs Hc. assert (Hn : exists n, c = req_class n) by (destruct Hc as [<-|[<-|[]]]; eexists; reflexivity).
  destruct Hn as [n ->]. split.
  - intros [p Hp]. apply from_stream_req_iff in Hp as (f & kvs & hb & H1 & H2 & H3 & _). eauto.
  - intros (f & kvs & H1 & H2 & H3). destruct (parsed_to_bytes _ _ H3) as (hb & Hb & _).
    eexists. apply from_stream_req_iff. exists f, kvs, hb. eauto 7.
Qed.
Print Assumptions C05_request_decodes_iff.

Theorem C05_request_meaning : forall c bs p f kvs, In c [BoltRequest; HeartbeatRequest] ->
  from_stream c bs = Ok p -> request_layout bs f -> header_pairs (fr_header f) kvs ->
  p_cls p = c /\ p_proto p = fr_proto f /\ p_ptype p = fr_type f /\ p_cmdcode p = fr_cmdcode f /\
  p_ver2 p = fr_ver2 f /\ p_request_id p = PInt (fr_request_id f) /\ p_codec p = fr_codec f /\
  p_timeout p = PInt (fr_tos f) /\ p_content p = PBytes (fr_content f) /\ map_of kvs (p_header p).
Proof.
  intros c bs p f kvs Hc Hp Hl Hk. assert (Hn : exists n, c = req_class n) by (destruct Hc as [<-|[<-|[]]]; eexists; reflexivity).
  destruct Hn as [n ->]. apply from_stream_req_iff in Hp as (f' & kvs' & hb & H1 & H2 & H3 & H4 & ->).
  assert (f' = f) by (apply req_layout_iff in Hl as (_ & _ & ->); apply req_layout_iff in H1 as (_ & _ & ->); reflexivity). subst f'.
  assert (kvs' = kvs) by (apply flatten_pairs_inj; eapply header_strings_fun; eassumption). subst kvs'.
  cbn. repeat (split; [reflexivity|]). apply dict_of_map_of.
Qed.
Print Assumptions C05_request_meaning.

Theorem C05_response_decodes_iff : forall c bs, In c [BoltResponse; HeartbeatResponse; FailResponse] ->
  ((exists p, from_stream c bs = Ok p) <->
   exists f kvs, response_layout bs f /\ legal_common f /\ legal_status (fr_tos f) /\ header_pairs (fr_header f) kvs).
Proof.
  intros c bs Hc. assert (Hn : exists n, c = resp_class n) by (destruct Hc as [<-|[<-|[<-|[]]]]; eexists; reflexivity).
  destruct Hn as [n ->]. split.
  - intros [p Hp]. apply from_stream_resp_iff in Hp as (f & kvs & hb & H1 & H2 & H3 & H4 & _). eauto 7.
  - intros (f & kvs & H1 & H2 & H3 & H4). destruct (parsed_to_bytes _ _ H4) as (hb & Hb & _).
    eexists. apply from_stream_resp_iff. exists f, kvs, hb. eauto 8.
Qed.
Print Assumptions C05_response_decodes_iff.

Theorem C05_response_meaning : forall c bs p f kvs, In c [BoltResponse; HeartbeatResponse; FailResponse] ->
  from_stream c bs = Ok p -> response_layout bs f -> header_pairs (fr_header f) kvs ->
  p_cls p = c /\ p_proto p = fr_proto f /\ p_ptype p = fr_type f /\ p_cmdcode p = fr_cmdcode f /\
  p_ver2 p = fr_ver2 f /\ p_request_id p = PInt (fr_request_id f) /\ p_codec p = fr_codec f /\
  p_respstatus p = fr_tos f /\ p_content p = PBytes (fr_content f) /\ map_of kvs (p_header p).
Proof.
  intros c bs p f kvs Hc Hp Hl Hk. assert (Hn : exists n, c = resp_class n) by (destruct Hc as [<-|[<-|[<-|[]]]]; eexists; reflexivity).
  destruct Hn as [n ->]. apply from_stream_resp_iff in Hp as (f' & kvs' & hb & H1 & H2 & H3 & H4 & H5 & ->).
  assert (f' = f) by (apply resp_layout_iff in Hl as (_ & _ & ->); apply resp_layout_iff in H1 as (_ & _ & ->); reflexivity). subst f'.
  assert (kvs' = kvs) by (apply flatten_pairs_inj; eapply header_strings_fun; eassumption). subst kvs'.
  cbn. repeat (split; [reflexivity|]). apply dict_of_map_of.
Qed.
Print Assumptions C05_response_meaning.

Theorem C05_only_DecodeError : forall c bs e, from_stream c bs = Raise e -> e = DecodeError.
Proof. exact from_stream_errors. Qed.
Print Assumptions C05_only_DecodeError.

(** an accepted frame with a repeated key and a null value, a foreign class name and id 16909060;
    the same frame with codec 3 is refused *)
Definition ex_frame (codec : byte) : bytes :=
  [Byte.x01; Byte.x01; Byte.x00; Byte.x01; Byte.x01; Byte.x01; Byte.x02; Byte.x03; Byte.x04; codec;
   Byte.xff; Byte.xff; Byte.xff; Byte.xff; Byte.x00; Byte.x01; Byte.x00; Byte.x13; Byte.x00; Byte.x00; Byte.x00; Byte.x01] ++
  bytes_lit "C" ++ [Byte.x00; Byte.x00; Byte.x00; Byte.x01] ++ bytes_lit "k" ++ [Byte.x00; Byte.x00; Byte.x00; Byte.x01] ++ bytes_lit "v" ++
  [Byte.x00; Byte.x00; Byte.x00; Byte.x01] ++ bytes_lit "k" ++ [Byte.xff; Byte.xff; Byte.xff; Byte.xff] ++ bytes_lit "Z".
Example C05_accepted_and_refused :
  (let! p := from_stream BoltRequest (ex_frame Byte.x0b) in Ok (p_header p, p_request_id p, p_timeout p, p_content p)) =
    Ok ([(str "k", [])], PInt 16909060, PInt (-1), PBytes (bytes_lit "Z")) /\
  from_stream BoltRequest (ex_frame Byte.x03) = Raise DecodeError /\
  from_stream BoltRequest (ex_frame Byte.x0b ++ [Byte.x00]) = Raise DecodeError.
Proof. vm_compute. repeat split. Qed.

(** ** C06 *)
Theorem C06_no_proper_prefix_or_extension : forall c a x p q, api_class c ->
  from_stream c a = Ok p -> from_stream c (a ++ x) = Ok q -> x = [].
Proof.
  intros c a x p q Hc Hp Hq.
  assert (H : a = a ++ x).
  { apply (decodes_prefix_free c a (a ++ x) x []); [exact Hc|exists p; exact Hp|exists q; exact Hq|rewrite app_nil_r; reflexivity]. }
  apply (app_inv_head a). rewrite app_nil_r. symmetry. exact H.
Qed.
Print Assumptions C06_no_proper_prefix_or_extension.

Theorem C06_streams_split_uniquely : forall c fs gs, api_class c ->
  Forall (fun a => exists p, from_stream c a = Ok p) fs -> Forall (fun a => exists p, from_stream c a = Ok p) gs ->
  concat fs = concat gs -> fs = gs.
Proof. intros c fs gs Hc Hf Hg H. exact (concat_frames_inj c fs Hc gs Hf Hg H). Qed.
Print Assumptions C06_streams_split_uniquely.

Example C06_hypotheses_met : Forall (fun a => exists p, from_stream BoltRequest a = Ok p)
  [ex_frame Byte.x0b; ex_frame Byte.x01; ex_frame Byte.x0b].
Proof. repeat constructor; eexists; vm_compute; reflexivity. Qed.

(** ** C07 *)
Theorem C07_header_roundtrip : forall h b, NoDup (map fst h) -> to_bytes h = Ok b ->
  from_bytes b = Ok h /\ header_len h = Ok (len b).
Proof.
  intros h b Hw Hb. split; [exact (from_to_bytes h b Hw Hb)|]. unfold header_len. rewrite Hb. reflexivity.
Qed.
Print Assumptions C07_header_roundtrip.

(** serialization succeeds for every map of surrogate-free strings below 2 GiB *)
Theorem C07_header_serializable_iff : forall h,
  (exists b, to_bytes h = Ok b) <->
  forall k v, In (k, v) h -> (exists kb, utf8_text k kb /\ len kb < 2 ^ 31) /\ (exists vb, utf8_text v vb /\ len vb < 2 ^ 31).
Proof.
  intros h. change (2 ^ 31) with 2147483648.
  assert (He : forall s, enc_ok s <-> exists b, utf8_text s b /\ len b < 2147483648).
  { intros s. unfold enc_ok. split; intros (b & Hb & Hl); exists b; (split; [apply utf8_text_encode; exact Hb|lia]). }
  split.
  - intros [b Hb] k v Hin. rewrite <- !He. apply (to_bytes_enc_ok h b Hb). exact Hin.
  - intros H. destruct (to_bytes_total h) as (b & Hb & _); [|eauto]. intros k v Hin. rewrite !He. apply H. exact Hin.
Qed.
Print Assumptions C07_header_serializable_iff.

Example C07_hypotheses_met : exists b, to_bytes ex_header = Ok b /\ len b = 65.
Proof. eexists. vm_compute. split; reflexivity. Qed.

(** ** C08 *)
Theorem C08_terminates : forall b ret, bytes_to_str_loop (length b) b ret <> None.
Proof. intros b ret. destruct (loop_fuel (length b) b ret (Nat.le_refl _)) as [r Hr]. rewrite Hr. discriminate. Qed.
Print Assumptions C08_terminates.

Theorem C08_outcomes : forall b,
  (exists h, from_bytes b = Ok h) \/ from_bytes b = Raise DecodeError \/ from_bytes b = Raise UnicodeDecodeError.
Proof.
  intros b. destruct (from_bytes b) as [h|e] eqn:E; [left; eauto|]. right.
  destruct (from_bytes_errors b e E) as [->| ->]; auto.
Qed.
Print Assumptions C08_outcomes.

Theorem C08_accepts_iff : forall b,
  ((exists h, from_bytes b = Ok h) <-> exists kvs, header_pairs b kvs) /\
  (forall h kvs, from_bytes b = Ok h -> header_pairs b kvs -> map_of kvs h).
Proof.
  intros b. split.
  - split; [intros [h H]; apply from_bytes_iff in H as (kvs & H & _); eauto|].
    intros [kvs H]. exists (dict_of kvs). apply from_bytes_iff. eauto.
  - intros h kvs H Hk. apply from_bytes_iff in H as (kvs' & H & ->).
    assert (kvs' = kvs) by (apply flatten_pairs_inj; eapply header_strings_fun; eassumption). subst. apply dict_of_map_of.
Qed.
Print Assumptions C08_accepts_iff.

(** null strings, in any position, are empty strings and leave their neighbours alone *)
Theorem C08_null_is_empty : forall b1 ss1 l b2 ss2, header_strings b1 ss1 -> header_strings b2 ss2 ->
  l = [Byte.xff; Byte.xff; Byte.xff; Byte.xff] ->
  bytes_to_str (b1 ++ l ++ b2) = Ok (ss1 ++ [] :: ss2).
Proof.
  intros b1 ss1 l b2 ss2 H1 H2 ->. apply bytes_to_str_iff. apply header_strings_app; [exact H1|].
  apply HS_null; [reflexivity|reflexivity|exact H2].
Qed.
Print Assumptions C08_null_is_empty.

Theorem C08_bad_entry_is_DecodeError : forall b1 ss1 r, header_strings b1 ss1 ->
  (0 < len r < 4 \/ (exists l rest, r = l ++ rest /\ len l = 4 /\ (sval l < -1 \/ sval l > len rest))) ->
  from_bytes (b1 ++ r) = Raise DecodeError.
Proof. exact bad_entry. Qed.
Print Assumptions C08_bad_entry_is_DecodeError.

Theorem C08_odd_is_DecodeError : forall b ss, header_strings b ss -> Nat.Odd (length ss) ->
  from_bytes b = Raise DecodeError.
Proof. exact odd_strings. Qed.
Print Assumptions C08_odd_is_DecodeError.

Example C08_hypotheses_met :
  (exists ss, header_strings (bytes_lit "" ++ [Byte.x00; Byte.x00; Byte.x00; Byte.x02; Byte.xc3; Byte.xa9]) ss /\ ss = [[0xE9]]) /\
  from_bytes [Byte.x00; Byte.x00; Byte.x00; Byte.x01; Byte.x61; Byte.xff; Byte.xff; Byte.xff; Byte.xfe] = Raise DecodeError /\
  from_bytes [Byte.x00; Byte.x00; Byte.x00; Byte.x01; Byte.xff] = Raise UnicodeDecodeError.
Proof.
  split; [|vm_compute; split; reflexivity]. exists [[0xE9]]. split; [|reflexivity].
  apply bytes_to_str_iff. vm_compute. reflexivity.
Qed.

(** ** C09 *)
Theorem C09_decoded_can_be_forwarded : forall c bs p, api_class c -> from_stream c bs = Ok p ->
  exists bs', to_stream p = Ok bs' /\ from_stream c bs' = Ok p.
Proof.
  intros c bs p Hc Hp. destruct (api_class_cases c Hc) as (n & Hn & [->| ->]).
  - exact (forward_req n bs p Hn Hp).
  - exact (forward_resp n bs p Hn Hp).
Qed.
Print Assumptions C09_decoded_can_be_forwarded.

Example C09_forwarded_differs : exists p bs', from_stream BoltRequest (ex_frame Byte.x0b) = Ok p /\
  to_stream p = Ok bs' /\ bs' <> ex_frame Byte.x0b.
Proof.
  destruct (from_stream BoltRequest (ex_frame Byte.x0b)) as [p|] eqn:E; [|vm_compute in E; discriminate].
  vm_compute in E. injection E as <-. eexists. eexists. split; [reflexivity|]. split; [vm_compute; reflexivity|vm_compute; discriminate].
Qed.

(** ** C10 *)
Theorem C10_strings_are_strict_utf8 : forall s b,
  (utf8_encode s = Some b <-> utf8_text s b) /\ (utf8_decode b = Some s <-> utf8_text s b).
Proof. intros s b. split; symmetry; [apply utf8_text_encode|apply utf8_text_decode]. Qed.
Print Assumptions C10_strings_are_strict_utf8.

Theorem C10_encodable_iff_no_surrogates : forall s, (exists b, utf8_text s b) <-> Forall scalar s.
Proof.
  intros s. rewrite Forall_forall. split.
  - intros [b Hb] c Hin. apply utf8_text_encode in Hb. apply scalar_iff.
    apply (proj2 (utf8_encode_Some s)); [eauto|exact Hin].
  - intros H. assert (He : exists b, utf8_encode s = Some b).
    { apply utf8_encode_Some. intros c Hin. apply scalar_iff. apply H. exact Hin. }
    destruct He as [b Hb]. exists b. apply utf8_text_encode. exact Hb.
Qed.
Print Assumptions C10_encodable_iff_no_surrogates.

(** a header entry is written as the length and the UTF-8 form of the string *)
Theorem C10_wire_string : forall s r, str_to_bytes_with_len s = Ok r <->
  exists l b, r = l ++ b /\ utf8_text s b /\ len l = 4 /\ sval l = len b.
Proof. exact str_to_bytes_Ok. Qed.
Print Assumptions C10_wire_string.

Example C10_cases :
  utf8_encode [0x24; 0xE9; 0x20AC; 0x10348] = Some [Byte.x24; Byte.xc3; Byte.xa9; Byte.xe2; Byte.x82; Byte.xac; Byte.xf0; Byte.x90; Byte.x8d; Byte.x88] /\
  utf8_decode [Byte.xc0; Byte.x80] = None /\ utf8_decode [Byte.xed; Byte.xa0; Byte.x80] = None /\
  utf8_decode [Byte.xf4; Byte.x90; Byte.x80; Byte.x80] = None /\ utf8_encode [0xD800] = None.
Proof. vm_compute. repeat split. Qed.

(** ** C11 *)
Theorem C11_item_assignment_has_no_effect : forall kvs h,
  fold_left (fun h kv => hop_apply (HSetItem (fst kv) (snd kv)) h) kvs h = h.
Proof. exact setitem_header. Qed.
Print Assumptions C11_item_assignment_has_no_effect.

(** whatever is done to the header object later, the package writes the bytes of the header as it
    was when the package was built; so they still have the layout of C03 *)
Theorem C11_wire_bytes_fixed_at_construction :
  forall c header content proto ptype cmdcode ver2 request_id codec timeout respstatus p ops,
    mk_package c header content proto ptype cmdcode ver2 request_id codec timeout respstatus = Ok p ->
    to_stream (fold_left (fun p o => hop_pkg o p) ops p) = to_stream p.
Proof. intros. apply hop_to_stream. Qed.
Print Assumptions C11_wire_bytes_fixed_at_construction.

Example C11_mutation_changes_the_object : forall p, ex_request = Ok p ->
  p_header (hop_pkg HClear p) = [] /\ p_header p <> [] /\ p_header (hop_pkg (HUpdate [(str "a", str "b")]) p) <> p_header p.
Proof. intros p H. vm_compute in H. injection H as <-. vm_compute. repeat split; discriminate. Qed.

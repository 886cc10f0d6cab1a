(** Property theorem C81: the frames made for requests, responses, failures and heartbeats. The codes are those of the
    tables in anthunder/protocol/__init__.py; [request_layout] and [response_layout] are in S_Wire. *)
From Coq Require Import Strings.String.
From Verif Require Import PyBase PyDict PyInt M_SofaHeader M_Package S_Wire P_Codec L_Frames.
Open Scope Z_scope.

(** ** C81. A request: protocol 1, the type asked for, command 1, version 1, codec 11 (protobuf), the timeout given or
    -1 if none is, and the header and content given. *)
Theorem C81_request_frame : forall header content ptype timeout rid p bs,
  new_request header content ptype timeout rid = Ok p -> to_stream p = Ok bs ->
  exists hb b t, request_layout bs {| fr_proto := 1; fr_type := ptype; fr_cmdcode := 1; fr_ver2 := 1; fr_request_id := rid; fr_codec := 11; fr_tos := t;
      fr_class := bytes_lit "com.alipay.sofa.rpc.core.request.SofaRequest"; fr_header := hb; fr_content := b |} /\
    header_pairs hb header /\ content = PBytes b /\ (if truthy timeout then int_value timeout = Some t else t = -1).
Proof. exact request_frame. Qed.
Print Assumptions C81_request_frame.

(** a heartbeat: type 1, command 0, nothing after the fixed part *)
Theorem C81_heartbeat_frame : forall rid p bs, heartbeat_new_request rid = Ok p -> to_stream p = Ok bs ->
  request_layout bs {| fr_proto := 1; fr_type := 1; fr_cmdcode := 0; fr_ver2 := 1; fr_request_id := rid; fr_codec := 11; fr_tos := 0; fr_class := []; fr_header := []; fr_content := [] |}.
Proof. exact heartbeat_frame. Qed.
Print Assumptions C81_heartbeat_frame.

(** a response: type 0, command 2, status 0 (success) and the content given *)
Theorem C81_response_frame : forall content rid p bs, response_to content rid = Ok p -> to_stream p = Ok bs ->
  exists b, response_layout bs {| fr_proto := 1; fr_type := 0; fr_cmdcode := 2; fr_ver2 := 1; fr_request_id := rid; fr_codec := 11; fr_tos := 0;
      fr_class := bytes_lit "com.alipay.sofa.rpc.core.response.SofaResponse"; fr_header := []; fr_content := b |} /\ content = PBytes b.
Proof. exact response_frame. Qed.
Print Assumptions C81_response_frame.

(** a failure: the same with the status given and no content *)
Theorem C81_failure_frame : forall rid status p bs, fail_response_to rid status = Ok p -> to_stream p = Ok bs ->
  response_layout bs {| fr_proto := 1; fr_type := 0; fr_cmdcode := 2; fr_ver2 := 1; fr_request_id := rid; fr_codec := 11; fr_tos := status;
      fr_class := bytes_lit "com.alipay.sofa.rpc.core.response.SofaResponse"; fr_header := []; fr_content := [] |}.
Proof. exact fail_frame. Qed.
Print Assumptions C81_failure_frame.

(** the answer to a heartbeat: type 0, command 0, status 0 *)
Theorem C81_heartbeat_answer_frame : forall rid p bs, heartbeat_response_to rid = Ok p -> to_stream p = Ok bs ->
  response_layout bs {| fr_proto := 1; fr_type := 0; fr_cmdcode := 0; fr_ver2 := 1; fr_request_id := rid; fr_codec := 11; fr_tos := 0; fr_class := []; fr_header := []; fr_content := [] |}.
Proof. exact heartbeat_answer_frame. Qed.
Print Assumptions C81_heartbeat_answer_frame.

(** all but requests can always be made (requests: C04) *)
Theorem C81_frames_are_made : forall rid, -2147483648 <= rid <= 2147483647 ->
  (exists p bs, heartbeat_new_request rid = Ok p /\ to_stream p = Ok bs) /\
  (exists p bs, heartbeat_response_to rid = Ok p /\ to_stream p = Ok bs) /\
  (forall status, legal_status status -> exists p bs, fail_response_to rid status = Ok p /\ to_stream p = Ok bs) /\
  (forall b, len b < 2 ^ 32 -> exists p bs, response_to (PBytes b) rid = Ok p /\ to_stream p = Ok bs).
Proof. exact small_frames_encode. Qed.
Print Assumptions C81_frames_are_made.

(** a one-way request with a timeout of 50 ms, and a two-way request without one *)
Example C81_case :
  (let! p := new_request [(str "k", str "v")] (PBytes (bytes_lit "hi")) 2 (PInt 50) 7 in let! b := to_stream p in Ok (firstn 22 b, skipn 66 b)) =
  Ok ([Byte.x01; Byte.x02; Byte.x00; Byte.x01; Byte.x01; Byte.x00; Byte.x00; Byte.x00; Byte.x07; Byte.x0b; Byte.x00; Byte.x00; Byte.x00; Byte.x32; Byte.x00; Byte.x2c; Byte.x00; Byte.x0a; Byte.x00; Byte.x00; Byte.x00; Byte.x02],
      [Byte.x00; Byte.x00; Byte.x00; Byte.x01; Byte.x6b; Byte.x00; Byte.x00; Byte.x00; Byte.x01; Byte.x76; Byte.x68; Byte.x69]) /\
  (let! p := new_request [] (PBytes []) 1 PNone 7 in let! b := to_stream p in Ok (firstn 4 (skipn 10 b))) = Ok [Byte.xff; Byte.xff; Byte.xff; Byte.xff] /\
  (let! p := fail_response_to 7 16 in let! b := to_stream p in Ok (firstn 12 b)) =
  Ok [Byte.x01; Byte.x00; Byte.x00; Byte.x02; Byte.x01; Byte.x00; Byte.x00; Byte.x00; Byte.x07; Byte.x0b; Byte.x00; Byte.x10].
Proof. vm_compute. repeat split. Qed.

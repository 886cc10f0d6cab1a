(** Model of anthunder/protocol/{constants,_package_base,_request_pkg,_response_pkg}.py and
    anthunder/command/{heartbeat,fail_response}.py. *)
From Coq Require Import Strings.String.
From Verif Require Import PyBase PyDict Utf8 Struct M_SofaHeader.
Open Scope Z_scope.

(** constants.py:27-66 *)
Definition PROTO_BOLT := 1.
Definition PTYPE_RESPONSE := 0.
Definition PTYPE_REQUEST := 1.
Definition PTYPE_ONEWAY := 2.
Definition CMDCODE_HEARTBEAT := 0.
Definition CMDCODE_REQUEST := 1.
Definition CMDCODE_RESPONSE := 2.
Definition VER2_REMOTING := 1.
Definition CODEC_HESSIAN := 1.
Definition CODEC_PROTOBUF := 11.
Definition CODEC_JAVA := 2.
Definition ST_SUCCESS := 0.
Definition ST_ERROR := 1.
Definition ST_SERVER_EXCEPTION := 2.
Definition ST_UNKNOWN := 3.
Definition ST_SERVER_THREADPOOL_BUSY := 4.
Definition ST_ERROR_COMM := 5.
Definition ST_NO_PROCESSOR := 6.
Definition ST_TIMEOUT := 7.
Definition ST_CLIENT_SEND_ERROR := 8.
Definition ST_CODEC_EXCEPTION := 9.
Definition ST_CONNECTION_CLOSED := 16.
Definition ST_SERVER_SERIAL_EXCEPTION := 17.
Definition ST_SERVER_DESERIAL_EXCEPTION := 18.

Definition PROTO := [PROTO_BOLT].
Definition PTYPE := [PTYPE_RESPONSE; PTYPE_REQUEST; PTYPE_ONEWAY].
Definition CMDCODE := [CMDCODE_HEARTBEAT; CMDCODE_REQUEST; CMDCODE_RESPONSE].
Definition VER2 := [VER2_REMOTING].
Definition CODEC := [CODEC_HESSIAN; CODEC_PROTOBUF; CODEC_JAVA].
Definition RESPSTATUS :=
  [ST_SUCCESS; ST_ERROR; ST_SERVER_EXCEPTION; ST_UNKNOWN; ST_SERVER_THREADPOOL_BUSY; ST_ERROR_COMM;
   ST_NO_PROCESSOR; ST_TIMEOUT; ST_CLIENT_SEND_ERROR; ST_CODEC_EXCEPTION; ST_CONNECTION_CLOSED;
   ST_SERVER_SERIAL_EXCEPTION; ST_SERVER_DESERIAL_EXCEPTION].

(** [E(v)] for an IntEnum E: the member with value v, else ValueError.
    (Simplification: floats equal to a member value are treated as non-members.) *)
Definition enum_call (members : list Z) (v : pyobj) : res Z :=
  match int_value v with
  | Some z => if existsb (Z.eqb z) members then Ok z else Raise ValueError
  | None => Raise ValueError
  end.

(** Keyword names used by [bolt_headers] (_request_pkg.py:34-35, _response_pkg.py:35-36). *)
Inductive fname :=
| f_proto | f_ptype | f_cmdcode | f_ver2 | f_request_id | f_codec | f_timeout | f_respstatus
| f_class_len | f_header_len | f_content_len.
#[global] Instance EqDec_fname : EqDec fname.
Proof. intros x y. decide equality. Defined.

Inductive kind := KReq | KResp.
Record bolt_class := {
  cls_kind : kind;                 (* which [to_stream] the class inherits *)
  cls_fmt : list fmtc;             (* [fmt] *)
  cls_name : bytes;                (* [class_name] *)
  cls_bolt_headers : list fname    (* [bolt_headers] *)
}.

(** _request_pkg.py:31-35 *)
Definition request_class_name : bytes := bytes_lit "com.alipay.sofa.rpc.core.request.SofaRequest".
Definition BoltRequest : bolt_class := {|
  cls_kind := KReq;
  cls_fmt := [F_b; F_b; F_h; F_b; F_l; F_b; F_l; F_H; F_H; F_L];         (* "!bbhblblHHL" *)
  cls_name := request_class_name;
  cls_bolt_headers := [f_proto; f_ptype; f_cmdcode; f_ver2; f_request_id; f_codec; f_timeout;
                       f_class_len; f_header_len; f_content_len] |}.

(** _response_pkg.py:32-36 *)
Definition response_class_name : bytes := bytes_lit "com.alipay.sofa.rpc.core.response.SofaResponse".
Definition BoltResponse : bolt_class := {|
  cls_kind := KResp;
  cls_fmt := [F_b; F_b; F_h; F_b; F_l; F_b; F_h; F_H; F_H; F_L];         (* "!bbhblbhHHL" *)
  cls_name := response_class_name;
  cls_bolt_headers := [f_proto; f_ptype; f_cmdcode; f_ver2; f_request_id; f_codec; f_respstatus;
                       f_class_len; f_header_len; f_content_len] |}.

Definition with_class_name (c : bolt_class) (n : bytes) : bolt_class := {|
  cls_kind := cls_kind c; cls_fmt := cls_fmt c; cls_name := n; cls_bolt_headers := cls_bolt_headers c |}.
(** heartbeat.py:30-31, 38-39; fail_response.py:29 *)
Definition HeartbeatRequest := with_class_name BoltRequest [].
Definition HeartbeatResponse := with_class_name BoltResponse [].
Definition FailResponse := BoltResponse.

(** A BoltPackage object, _package_base.py:58-69. *)
Record pkg := {
  p_cls : bolt_class;
  p_header : sofa_header;
  p_header_bytes : bytes;      (* self._header_bytes, computed once at construction *)
  p_content : pyobj;
  p_proto : Z; p_ptype : Z; p_cmdcode : Z; p_ver2 : Z;
  p_request_id : pyobj;
  p_codec : Z;
  p_timeout : pyobj;
  p_respstatus : Z
}.

(** _package_base.py:36-69 [__init__], all arguments explicit *)
Definition mk_package (c : bolt_class) (header : sofa_header) (content : pyobj)
    (proto ptype cmdcode ver2 request_id codec timeout respstatus : pyobj) : res pkg :=
  let! hb := to_bytes header in
  let! pr := enum_call PROTO proto in
  let! pt := enum_call PTYPE ptype in
  let! cc := enum_call CMDCODE cmdcode in
  let! v2 := enum_call VER2 ver2 in
  let! cd := enum_call CODEC codec in
  let! rs := enum_call RESPSTATUS respstatus in
  Ok {| p_cls := c; p_header := header; p_header_bytes := hb; p_content := content;
        p_proto := pr; p_ptype := pt; p_cmdcode := cc; p_ver2 := v2;
        p_request_id := request_id; p_codec := cd;
        p_timeout := py_or timeout (PInt 0);                            (* line 68: timeout or 0 *)
        p_respstatus := rs |}.

(** _package_base.py:76-91 *)
Definition p_class_len (p : pkg) : Z := len (cls_name (p_cls p)).
Definition p_header_len (p : pkg) : Z := len (p_header_bytes p).
Definition p_content_len (p : pkg) : Z :=
  match p_content p with PBytes b => len b | _ => 0 end.   (* only used after the type check *)
Definition p_body_len (p : pkg) : Z := p_class_len p + p_header_len p + p_content_len p.

(** _package_base.py:93-106 [validate] : the checks that can fail *)
Definition validate (p : pkg) : res unit :=
  if negb (is_int (p_request_id p)) then Raise ParamTypeError
  else if negb (is_bytes (p_content p)) then Raise ParamTypeError
  else Ok tt.

(** _request_pkg.py:37-46 [BoltRequest.to_stream] *)
Definition request_to_stream (p : pkg) : res bytes :=
  let! _ := validate p in
  let bodyfmt := [F_s (p_class_len p); F_s (p_header_len p); F_s (p_content_len p)] in
  match pack (cls_fmt (p_cls p) ++ bodyfmt)
             [PInt (p_proto p); PInt (p_ptype p); PInt (p_cmdcode p); PInt (p_ver2 p);
              p_request_id p; PInt (p_codec p); p_timeout p;
              PInt (p_class_len p); PInt (p_header_len p); PInt (p_content_len p);
              PBytes (cls_name (p_cls p)); PBytes (p_header_bytes p); p_content p] with
  | Some b => Ok b
  | None => Raise EncodeError
  end.

(** _response_pkg.py:38-47 [BoltResponse.to_stream] *)
Definition response_to_stream (p : pkg) : res bytes :=
  let! _ := validate p in
  let bodyfmt := [F_s (p_class_len p); F_s (p_header_len p); F_s (p_content_len p)] in
  match pack (cls_fmt (p_cls p) ++ bodyfmt)
             [PInt (p_proto p); PInt (p_ptype p); PInt (p_cmdcode p); PInt (p_ver2 p);
              p_request_id p; PInt (p_codec p); PInt (p_respstatus p);
              PInt (p_class_len p); PInt (p_header_len p); PInt (p_content_len p);
              PBytes (cls_name (p_cls p)); PBytes (p_header_bytes p); p_content p] with
  | Some b => Ok b
  | None => Raise EncodeError
  end.

(** method resolution: [p.to_stream()] *)
Definition to_stream (p : pkg) : res bytes :=
  match cls_kind (p_cls p) with KReq => request_to_stream p | KResp => response_to_stream p end.

(** _package_base.py:135-137 [bolt_header_size] *)
Definition bolt_header_size (c : bolt_class) : Z := calcsize (cls_fmt c).

(** The dict of fixed fields returned by [bolt_header_from_stream]. *)
Definition bolt_headers := dict fname pyobj.

(** _package_base.py:121-128 *)
Definition bolt_header_from_stream (c : bolt_class) (stream : bytes) : res bolt_headers :=
  match unpack (cls_fmt c) (py_take (bolt_header_size c) stream) with
  | Some values => Ok (dict_of (combine (cls_bolt_headers c) values))
  | None => Raise DecodeError
  end.

(** [bolt_headers['name']] for an integer field *)
Definition bh_int (f : fname) (bh : bolt_headers) : res Z :=
  match dget f bh with
  | Some v => match int_value v with Some z => Ok z | None => Raise TypeError end
  | None => Raise KeyError
  end.

(** keyword argument with default, for [cls(header, content, **bolt_headers)] *)
Definition kwarg (f : fname) (default : pyobj) (bh : bolt_headers) : pyobj :=
  match dget f bh with Some v => v | None => default end.

(** the body of the try block of [bolt_content_from_stream], _package_base.py:114-117 *)
Definition bolt_content_from_stream_try (c : bolt_class) (stream : bytes) (bh : bolt_headers) : res pkg :=
  let! cl := bh_int f_class_len bh in
  let! hl := bh_int f_header_len bh in
  let! ctl := bh_int f_content_len bh in
  match unpack [F_s cl; F_s hl; F_s ctl] stream with
  | Some [PBytes class_name; PBytes header; PBytes content] =>
      let! h := from_bytes header in
      mk_package c h (PBytes content)
        (kwarg f_proto (PInt PROTO_BOLT) bh) (kwarg f_ptype PNone bh) (kwarg f_cmdcode PNone bh)
        (kwarg f_ver2 (PInt VER2_REMOTING) bh) (kwarg f_request_id PNone bh)
        (kwarg f_codec (PInt CODEC_PROTOBUF) bh) (kwarg f_timeout PNone bh)
        (kwarg f_respstatus (PInt 0) bh)
  | _ => Raise StructError
  end.

(** _package_base.py:111-119: every exception becomes DecodeError *)
Definition bolt_content_from_stream (c : bolt_class) (stream : bytes) (bh : bolt_headers) : res pkg :=
  match bolt_content_from_stream_try c stream bh with
  | Ok p => Ok p
  | Raise _ => Raise DecodeError
  end.

(** _package_base.py:130-133 *)
Definition from_stream (c : bolt_class) (stream : bytes) : res pkg :=
  let! bh := bolt_header_from_stream c stream in
  bolt_content_from_stream c (py_drop (bolt_header_size c) stream) bh.

(** _request_pkg.py:48-51 [BoltRequest.new_request]; [rid] is next(RequestId) *)
Definition new_request (header : sofa_header) (content : pyobj) (ptype : Z) (timeout_ms : pyobj) (rid : Z) : res pkg :=
  mk_package BoltRequest header content
    (PInt PROTO_BOLT) (PInt ptype) (PInt CMDCODE_REQUEST) (PInt VER2_REMOTING) (PInt rid)
    (PInt CODEC_PROTOBUF) (py_or timeout_ms (PInt (-1))) (PInt 0).

(** _response_pkg.py:49-51 [BoltResponse.response_to] *)
Definition response_to (content : pyobj) (rid : Z) : res pkg :=
  mk_package BoltResponse empty_header content
    (PInt PROTO_BOLT) (PInt PTYPE_RESPONSE) (PInt CMDCODE_RESPONSE) (PInt VER2_REMOTING) (PInt rid)
    (PInt CODEC_PROTOBUF) PNone (PInt 0).

(** fail_response.py:29-33 [FailResponse.response_to] *)
Definition fail_response_to (rid : Z) (status : Z) : res pkg :=
  mk_package FailResponse empty_header (PBytes [])
    (PInt PROTO_BOLT) (PInt PTYPE_RESPONSE) (PInt CMDCODE_RESPONSE) (PInt VER2_REMOTING) (PInt rid)
    (PInt CODEC_PROTOBUF) PNone (PInt status).

(** heartbeat.py:33-35 [HeartbeatRequest.new_request] *)
Definition heartbeat_new_request (rid : Z) : res pkg :=
  mk_package HeartbeatRequest empty_header (PBytes [])
    (PInt PROTO_BOLT) (PInt PTYPE_REQUEST) (PInt CMDCODE_HEARTBEAT) (PInt VER2_REMOTING) (PInt rid)
    (PInt CODEC_PROTOBUF) PNone (PInt 0).

(** heartbeat.py:41-43 [HeartbeatResponse.response_to] *)
Definition heartbeat_response_to (rid : Z) : res pkg :=
  mk_package HeartbeatResponse empty_header (PBytes [])
    (PInt PROTO_BOLT) (PInt PTYPE_RESPONSE) (PInt CMDCODE_HEARTBEAT) (PInt VER2_REMOTING) (PInt rid)
    (PInt CODEC_PROTOBUF) PNone (PInt 0).

(** Operations on a header object after a package was built from it (dict methods other than
    [__setitem__] do change a SofaHeader; _sofa_header.py:89-95). *)
Inductive hop :=
| HSetItem (k v : pystr)                 (* h[k] = v *)
| HUpdate (l : list (pystr * pystr))     (* h.update(l) *)
| HSetDefault (k v : pystr)
| HPop (k : pystr)                       (* pop / del *)
| HClear.
Definition hop_apply (o : hop) (h : sofa_header) : sofa_header :=
  match o with
  | HSetItem k v => header_setitem k v h
  | HUpdate l => dupdate h l
  | HSetDefault k v => fst (dsetdefault k v h)
  | HPop k => ddel k h
  | HClear => []
  end.
(** the package shares the object, so its [header] attribute changes with it *)
Definition hop_pkg (o : hop) (p : pkg) : pkg :=
  {| p_cls := p_cls p; p_header := hop_apply o (p_header p); p_header_bytes := p_header_bytes p; p_content := p_content p;
     p_proto := p_proto p; p_ptype := p_ptype p; p_cmdcode := p_cmdcode p; p_ver2 := p_ver2 p;
     p_request_id := p_request_id p; p_codec := p_codec p; p_timeout := p_timeout p; p_respstatus := p_respstatus p |}.

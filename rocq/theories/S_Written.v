(** What C86 says about the bytes that clients write. *)
From Coq Require Import Strings.String.
From Verif Require Import PyBase PyDict PyInt M_SofaHeader M_Package S_Wire M_Trace M_System M_Front.
Open Scope Z_scope.

(** the header entries of a call: the names, the trace context, the extra headers of the caller *)
Definition said (d : ycall) (k v : pystr) : Prop :=
  In (k, v) [(str "sofa_head_target_service", y_interface d); (str "sofa_head_method_name", y_method d); (str "sofa_head_target_app", y_app d); (str "service", y_interface d); (str "uid", y_uid d)] \/
  (exists b, In (b, v) (y_baggage d) /\ k = str "rpc_trace_context." ++ b) \/
  (In (k, v) (y_extra d) /\ forall b w, In (b, w) (y_baggage d) -> k <> str "rpc_trace_context." ++ b).
Definition says (d : ycall) (h : list (pystr * pystr)) : Prop := NoDup (map fst h) /\ forall k v, In (k, v) h <-> said d k v.
(** what is given: dicts; the trace context has no item "prefix", which would replace the prefix (C13) *)
Definition plain (d : ycall) : Prop := NoDup (map fst (y_baggage d)) /\ NoDup (map fst (y_extra d)) /\ ~ In (str "prefix") (map fst (y_baggage d)).

(** the frame of a call: type, timeout, id, header and content *)
Definition frame_of (d : ycall) (ptype rid : Z) (timeout : Z -> Prop) (bs : bytes) : Prop := exists hb h t,
  request_layout bs {| fr_proto := 1; fr_type := ptype; fr_cmdcode := 1; fr_ver2 := 1; fr_request_id := rid; fr_codec := 11; fr_tos := t;
    fr_class := bytes_lit "com.alipay.sofa.rpc.core.request.SofaRequest"; fr_header := hb; fr_content := y_content d |} /\
  header_pairs hb h /\ (plain d -> says d h) /\ timeout t.
(** the timeout given, or -1 if none is (or 0) *)
Definition given (timeout : pyobj) (t : Z) : Prop := if truthy timeout then int_value timeout = Some t else t = -1.
Definition beat_frame (rid : Z) (bs : bytes) : Prop :=
  request_layout bs {| fr_proto := 1; fr_type := 1; fr_cmdcode := 0; fr_ver2 := 1; fr_request_id := rid; fr_codec := 11; fr_tos := 0; fr_class := []; fr_header := []; fr_content := [] |}.
(** the timeout that a call of the asyncio client asks for *)
Definition asked (k : api) (d : ycall) (t : Z) : Prop := match k with AOneway => t = -1 | _ => given (y_timeout d) t end.

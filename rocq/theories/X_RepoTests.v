(** The test cases of the repository, evaluated in the model: tests/test_bolt_package.py, test_helpers.py, test_sock_client.py,
    test_mesh_client.py, mytracer_test/ and mysockpool_test/. They check the model against what the authors of the code
    expect of it; no property depends on this file. Left out: what the tests print, object identities, and
    test_aio_listener_client.py, whose calls are run in the Examples of P_System, P_Front and P_AioServer. *)
From Coq Require Import Strings.String.
From Verif Require Import PyBase PyDict Utf8 Struct PyInt M_SofaHeader M_Package M_RequestId M_RpcId M_Trace M_Lru M_ConnPool M_PoolManager M_Mesh.

Definition bz (l : list Z) : bytes := map byte_of_Z l.

(** ** tests/test_bolt_package.py *)
Example test_str_to_bytes_with_len : str_to_bytes_with_len (str "abcdefg") = Ok (bz [0; 0; 0; 7] ++ bytes_lit "abcdefg").
Proof. vm_compute. reflexivity. Qed.

Definition ab : sofa_header := [(str "a", str "1"); (str "b", str "2")].
Example test_repr :
  (let! p := mk_package BoltResponse ab (PBytes (bytes_lit "cdefgab")) (PInt 1) (PInt PTYPE_ONEWAY) (PInt CMDCODE_HEARTBEAT) (PInt 1) (PInt 0) (PInt 11) PNone (PInt 1) in
   let! s := to_stream p in let! q := from_stream BoltResponse s in
   Ok (p_header q, p_content q, p_cmdcode q, p_request_id q)) = Ok (ab, PBytes (bytes_lit "cdefgab"), CMDCODE_HEARTBEAT, PInt 0) /\
  (let! p := mk_package BoltRequest ab (PBytes (bytes_lit "jklmnhi")) (PInt 1) (PInt PTYPE_ONEWAY) (PInt CMDCODE_HEARTBEAT) (PInt 1) (PInt 0) (PInt 11) (PInt (-1)) (PInt 0) in
   let! s := to_stream p in let! q := from_stream BoltRequest s in
   Ok (p_header q, p_content q, p_cmdcode q, p_request_id q)) = Ok (ab, PBytes (bytes_lit "jklmnhi"), CMDCODE_HEARTBEAT, PInt 0).
Proof. split; vm_compute; reflexivity. Qed.

Definition h2 : sofa_header := [(str "keya", str "key1"); (str "keyabcxcs", str "key2")].
Example test_header : (let! b := to_bytes h2 in let! n := header_len h2 in let! h := from_bytes b in Ok (n - len b, h)) = Ok (0, h2).
Proof. vm_compute. reflexivity. Qed.

(** the two frames of test_from_stream, captured from other implementations of the protocol *)
Definition frame1 : bytes := bz
  [1; 0; 0; 2; 1; 0; 0; 0; 132; 11; 0; 0; 0; 46; 0; 0; 0; 0; 0; 3; 99; 111; 109; 46; 97; 108; 105; 112; 97; 121; 46; 115; 
   111; 102; 97; 46; 114; 112; 99; 46; 99; 111; 114; 101; 46; 114; 101; 115; 112; 111; 110; 115; 101; 46; 83; 111; 102; 
   97; 82; 101; 115; 112; 111; 110; 115; 101; 10; 1; 97].
Definition frame2 : bytes := bz
  [1; 1; 0; 1; 1; 0; 0; 0; 109; 11; 0; 0; 0; 100; 0; 44; 2; 230; 0; 0; 0; 3; 99; 111; 109; 46; 97; 108; 105; 112; 97; 121; 
   46; 115; 111; 102; 97; 46; 114; 112; 99; 46; 99; 111; 114; 101; 46; 114; 101; 113; 117; 101; 115; 116; 46; 83; 111; 
   102; 97; 82; 101; 113; 117; 101; 115; 116; 0; 0; 0; 24; 115; 111; 102; 97; 95; 104; 101; 97; 100; 95; 116; 97; 114; 
   103; 101; 116; 95; 115; 101; 114; 118; 105; 99; 101; 0; 0; 0; 59; 99; 111; 109; 46; 97; 108; 105; 112; 97; 121; 46; 
   114; 112; 99; 46; 99; 111; 109; 109; 111; 110; 46; 115; 101; 114; 118; 105; 99; 101; 46; 102; 97; 99; 97; 100; 101; 46; 
   112; 98; 46; 83; 97; 109; 112; 108; 101; 83; 101; 114; 118; 105; 99; 101; 80; 98; 58; 49; 46; 48; 0; 0; 0; 27; 114; 
   112; 99; 95; 116; 114; 97; 99; 101; 95; 99; 111; 110; 116; 101; 120; 116; 46; 115; 111; 102; 97; 82; 112; 99; 73; 100; 
   0; 0; 0; 1; 48; 0; 0; 0; 31; 114; 112; 99; 95; 116; 114; 97; 99; 101; 95; 99; 111; 110; 116; 101; 120; 116; 46; 122; 
   112; 114; 111; 120; 121; 84; 105; 109; 101; 111; 117; 116; 0; 0; 0; 3; 49; 48; 48; 0; 0; 0; 29; 114; 112; 99; 95; 116; 
   114; 97; 99; 101; 95; 99; 111; 110; 116; 101; 120; 116; 46; 115; 111; 102; 97; 84; 114; 97; 99; 101; 73; 100; 0; 0; 0; 
   30; 48; 98; 97; 54; 49; 54; 97; 49; 49; 53; 50; 51; 50; 53; 49; 56; 49; 57; 49; 49; 52; 49; 48; 48; 50; 49; 56; 55; 51; 
   56; 0; 0; 0; 31; 114; 112; 99; 95; 116; 114; 97; 99; 101; 95; 99; 111; 110; 116; 101; 120; 116; 46; 115; 111; 102; 97; 
   67; 97; 108; 108; 101; 114; 73; 100; 99; 0; 0; 0; 3; 100; 101; 118; 0; 0; 0; 30; 114; 112; 99; 95; 116; 114; 97; 99; 
   101; 95; 99; 111; 110; 116; 101; 120; 116; 46; 115; 111; 102; 97; 67; 97; 108; 108; 101; 114; 73; 112; 0; 0; 0; 13; 49; 
   49; 46; 49; 54; 54; 46; 50; 50; 46; 49; 54; 49; 0; 0; 0; 30; 114; 112; 99; 95; 116; 114; 97; 99; 101; 95; 99; 111; 110; 
   116; 101; 120; 116; 46; 115; 111; 102; 97; 80; 101; 110; 65; 116; 116; 114; 115; 0; 0; 0; 0; 0; 0; 0; 27; 114; 112; 99; 
   95; 116; 114; 97; 99; 101; 95; 99; 111; 110; 116; 101; 120; 116; 46; 122; 112; 114; 111; 120; 121; 85; 73; 68; 0; 0; 0; 
   0; 0; 0; 0; 32; 114; 112; 99; 95; 116; 114; 97; 99; 101; 95; 99; 111; 110; 116; 101; 120; 116; 46; 115; 111; 102; 97; 
   67; 97; 108; 108; 101; 114; 90; 111; 110; 101; 0; 0; 0; 5; 71; 90; 48; 48; 66; 0; 0; 0; 20; 115; 111; 102; 97; 95; 104; 
   101; 97; 100; 95; 116; 97; 114; 103; 101; 116; 95; 97; 112; 112; 0; 0; 0; 4; 98; 97; 114; 49; 0; 0; 0; 7; 115; 101; 
   114; 118; 105; 99; 101; 0; 0; 0; 59; 99; 111; 109; 46; 97; 108; 105; 112; 97; 121; 46; 114; 112; 99; 46; 99; 111; 109; 
   109; 111; 110; 46; 115; 101; 114; 118; 105; 99; 101; 46; 102; 97; 99; 97; 100; 101; 46; 112; 98; 46; 83; 97; 109; 112; 
   108; 101; 83; 101; 114; 118; 105; 99; 101; 80; 98; 58; 49; 46; 48; 0; 0; 0; 25; 114; 112; 99; 95; 116; 114; 97; 99; 
   101; 95; 99; 111; 110; 116; 101; 120; 116; 46; 69; 108; 97; 115; 116; 105; 99; 0; 0; 0; 1; 70; 0; 0; 0; 29; 114; 112; 
   99; 95; 116; 114; 97; 99; 101; 95; 99; 111; 110; 116; 101; 120; 116; 46; 115; 121; 115; 80; 101; 110; 65; 116; 116; 
   114; 115; 0; 0; 0; 0; 0; 0; 0; 34; 114; 112; 99; 95; 116; 114; 97; 99; 101; 95; 99; 111; 110; 116; 101; 120; 116; 46; 
   122; 112; 114; 111; 120; 121; 84; 97; 114; 103; 101; 116; 90; 111; 110; 101; 0; 0; 0; 0; 0; 0; 0; 31; 114; 112; 99; 95; 
   116; 114; 97; 99; 101; 95; 99; 111; 110; 116; 101; 120; 116; 46; 115; 111; 102; 97; 67; 97; 108; 108; 101; 114; 65; 
   112; 112; 0; 0; 0; 3; 102; 111; 111; 0; 0; 0; 21; 115; 111; 102; 97; 95; 104; 101; 97; 100; 95; 109; 101; 116; 104; 
   111; 100; 95; 110; 97; 109; 101; 0; 0; 0; 5; 104; 101; 108; 108; 111; 10; 1; 97].
Example test_from_stream_response :
  match from_stream BoltResponse frame1 with
  | Ok p => p_body_len p = len frame1 - bolt_header_size BoltResponse /\ p_content p = PBytes (bz [10; 1] ++ bytes_lit "a") /\
            p_request_id p = PInt 132 /\ p_respstatus p = ST_SUCCESS /\ p_header p = [] /\ to_stream p = Ok frame1
  | Raise _ => False
  end.
Proof. vm_compute. repeat split. Qed.
Example test_from_stream_request :
  match from_stream BoltRequest frame2 with
  | Ok p => p_content p = PBytes (bz [10; 1] ++ bytes_lit "a") /\ p_request_id p = PInt 109 /\ p_timeout p = PInt 100 /\
            dget (str "sofa_head_target_service") (p_header p) = Some (str "com.alipay.rpc.common.service.facade.pb.SampleServicePb:1.0") /\
            dget (str "sofa_head_method_name") (p_header p) = Some (str "hello") /\ dget (str "rpc_trace_context.zproxyTimeout") (p_header p) = Some (str "100") /\
            List.length (p_header p) = 16%nat /\ to_stream p = Ok frame2
  | Raise _ => False
  end.
Proof. vm_compute. repeat split. Qed.

Example test_heartbeat : forall rid,
  match heartbeat_new_request rid, heartbeat_response_to rid with
  | Ok q, Ok r => (p_class_len q, p_header_len q, p_content_len q, p_cmdcode q) = (0, 0, 0, CMDCODE_HEARTBEAT) /\
                  (p_class_len r, p_header_len r, p_content_len r, p_cmdcode r, p_respstatus r) = (0, 0, 0, CMDCODE_HEARTBEAT, ST_SUCCESS) /\ p_request_id q = p_request_id r
  | _, _ => False
  end.
Proof. intros rid. repeat split. Qed.

(** ** tests/test_helpers.py *)
Example test_request_id : forall start, 0 <= start <= 0x7fffffff -> exists rid, cycle_draw (request_ids start) 0 = Some rid /\ 0 <= rid <= 0x7fffffff.
Proof.
  intros start H. exists start. unfold cycle_draw, request_ids, cycle_init, cycle_next. cbn [cycle_after cy_it chain_next]. destruct (Z.ltb_spec start (0x7fffffff + 1)) as [L|L]; [cbn; auto|lia].
Qed.
Example test_immutabledict :
  let d0 := [] in let '(d1, r1) := imm_set (str "a") (Host (str "b")) d0 in let '(d2, r2) := imm_set (str "a") (Host (str "a")) d1 in let '(d3, r3) := imm_set (str "b") (Host (str "a")) d2 in
  (r1, r2, r3) = (Ok tt, Raise KeyError, Ok tt) /\ dget (str "a") d1 = Some (Host (str "b")) /\ dget (str "a") d2 = Some (Host (str "b")) /\ dget (str "b") d3 = Some (Host (str "a")).
Proof. vm_compute. repeat split. Qed.

(** ** tests/test_sock_client.py *)
Example test_client_get_address : get_address [] (str "com.alipay.rpc.no_such_service") = (str "127.0.0.1", 12220).
Proof. vm_compute. reflexivity. Qed.

(** ** tests/test_mesh_client.py: the agent answers with success *)
Definition good (n : nat) : answer := Answer 200 (Some (JObj [(str "success", JBool true)])).
Definition test_app : appinfo := {| ai_appName := JStr (str "pybolt_test_app"); ai_dataCenter := JStr []; ai_zone := JStr []; ai_registryEndPoint := JStr [];
                                    ai_accessKey := JNull; ai_secretKey := JNull; ai_antShareCloud := JBool false |}.
Example test_mesh :
  snd (startup good [] (new_mesh test_app)) = Ok true /\
  fst (fst (startup good [] (new_mesh test_app))) = [(str "configs/application", JObj [(str "appName", JStr (str "pybolt_test_app"))])] /\
  (exists d, snd (mesh_publish good [] 12200 (str "pybolt_test_app") (str "com.alipay.pybolt.test:1.0")) = Ok d) /\
  (exists d, snd (mesh_subscribe good [] (str "com.alipay.test")) = Ok d) /\ (exists d, snd (mesh_unpublish good [] (str "com.alipay.test")) = Ok d) /\ (exists d, snd (mesh_unsubscribe good [] (str "com.alipay.test")) = Ok d).
Proof. split; [reflexivity|]. split; [vm_compute; reflexivity|]. repeat split; eexists; vm_compute; reflexivity. Qed.

(** ** tests/mytracer_test/test_trace_id.py *)
Definition text_of (h : list rpcobj) (r : res nat) : option pystr :=
  match r with Ok i => option_map (fun o => rpcid_str (r_ids o)) (nth_error h i) | Raise _ => None end.
Example test_rpc_id :
  mk_rpcid ascii_tables [] = mk_rpcid ascii_tables [SInt 1] /\
  (let h0 := [{| r_ids := [SInt 1]; r_count := 0; r_parent := None |}] in
   let '(h1, r1) := new_follows_from ascii_tables h0 0 in let '(h2, r2) := new_child_of ascii_tables h1 1 in
   (text_of h0 (Ok 0%nat), text_of h1 r1, text_of h2 r2) = (Some (str "1"), Some (str "2"), Some (str "2.1"))) /\
  mk_rpcid ascii_tables [SInt 1; SInt 1] <> mk_rpcid ascii_tables [SInt 1; SInt 1; SInt 1] /\
  mk_rpcid ascii_tables [SInt 1; SInt 1; SInt 2] <> mk_rpcid ascii_tables [SInt 1; SInt 1; SInt 1].
Proof. split; [reflexivity|]. split; [vm_compute; reflexivity|]. split; vm_compute; discriminate. Qed.

(** ** tests/mytracer_test/test_helpers.py, test_tracer.py *)
Definition span_rpc (st : tstate) (r : res nat) : option (pystr * pystr * pystr) :=
  match r with
  | Ok i => match nth_error (t_spans st) i with
            | Some sp => match baggage_text st (sp_ctx sp) with
                         | Some b => match dget K_rpc b, dget K_trace b with Some x, Some y => Some (sp_name sp, x, y) | _, _ => None end
                         | None => None
                         end
            | None => None
            end
  | Raise _ => None
  end.
Example test_new_span :
  let '(s1, r1) := new_span ascii_tables t_init (str "new_span") [] (str "T") in
  let '(s2, r2) := span_from ascii_tables s1 ChildOf 0 None [] in
  let '(s3, r3) := span_from ascii_tables s2 FollowsFrom 1 (Some (str "follow_span")) [] in
  let '(s4, r4) := span_from ascii_tables s3 FollowsFrom 0 (Some (str "follow_span")) [] in
  (span_rpc s1 r1, span_rpc s2 r2, span_rpc s3 r3, span_rpc s4 r4) =
  (Some (str "new_span", str "1", str "T"), Some (str "new_span", str "1.1", str "T"), Some (str "follow_span", str "1.2", str "T"), Some (str "follow_span", str "2", str "T")).
Proof. vm_compute. reflexivity. Qed.
Example test_extract_inject :
  let carrier := [(str "rpc_trace_context.test", str "value1"); (str "rpc_trace_context.sofaTraceId", str "testTId");
                  (str "rpc_trace_context.sofaRpcId", str "1.1"); (str "pc_trace_context.sofaRpcId", str "testRId")] in
  let '(s1, r1) := extract ascii_tables t_init carrier (str "T") in
  match r1 with
  | Ok c => option_map (fun b => (dget K_rpc b, dget K_trace b)) (baggage_text s1 c) = Some (Some (str "1.1"), Some (str "testTId")) /\
            let '(s2, r2) := start_span ascii_tables s1 (str "test_ops2") (Some (ChildOf, c)) [] [] in
            span_rpc s2 r2 = Some (str "test_ops2", str "1.1.1", str "testTId")
  | Raise _ => False
  end.
Proof. vm_compute. repeat split. Qed.

(** ** tests/mysockpool_test/test_poolman.py *)
Definition defaults (n : nat) : config := {| max_connections := 20; max_free := 5; min_free := 1; initial := n; block := false |}.
Example test_pool_man :
  let look w k := lookup (K:=Z) 2 (defaults 1) (fun _ _ => true) w k in
  let '(w1, p0) := look w_init 8080 in let '(w2, p1) := look w1 8081 in let '(w3, p2) := look w2 8082 in let '(w4, p11) := look w3 8081 in let '(w5, p01) := look w4 8080 in
  map (fun w => List.length (w_lru w)) [w1; w2; w3] = [1%nat; 2%nat; 2%nat] /\ p11 = p1 /\ p01 <> p0 /\
  match p0, p01 with
  | Ok i, Ok j => option_map p_free (nth_error (w_pools w5) i) = Some None /\ option_map p_free (nth_error (w_pools w5) j) = Some (Some [0%nat])
  | _, _ => False
  end.
Proof. vm_compute. repeat split; discriminate. Qed.
Definition qsize (p : pool) : option nat := option_map (@List.length nat) (p_free p).
(** nothing listens on the port, so every connection counts as dropped *)
Example test_pool_conn_scope :
  let mk := fun _ _ : nat => true in let dr := fun _ : nat => true in
  match lookup (K:=Z) 2 (defaults 2) mk w_init 8080 with
  | (w, Ok i) =>
      option_map p_num (nth_error (w_pools w) i) = Some 2 /\
      let '(w', r) := scope 2 (defaults 2) mk dr w 8080 (fun v j c => (v, Ok (option_map qsize (nth_error (w_pools v) i)))) in
      r = Ok (Some (Some 1%nat)) /\ option_map qsize (nth_error (w_pools w') i) = Some (Some 2%nat)
  | _ => False
  end.
Proof. vm_compute. repeat split. Qed.
Definition test_config : config := {| max_connections := 10; max_free := 4; min_free := 2; initial := 3; block := false |}.
Fixpoint gets (n : nat) (p : pool) : pool * list (res nat) :=
  match n with O => (p, []) | S m => let '(p1, r) := get_conn test_config (fun _ => true) (fun _ => false) p in let '(p2, l) := gets m p1 in (p2, r :: l) end.
Example test_pool :
  match build test_config (fun _ => true) with
  | Built p0 =>
      let '(p1, _) := gets 1 p0 in let '(p2, _) := gets 1 p1 in let '(p3, conns) := gets 6 p2 in let '(p4, last) := gets 1 p3 in
      let p5 := fold_left (fun p r => match r with Ok c => put_conn test_config p c | Raise _ => p end) conns p4 in
      map (fun p => (p_num p, qsize p)) [p0; p1; p2] = [(3, Some 3%nat); (3, Some 2%nat); (4, Some 2%nat)] /\ last = [Raise EmptyPoolError] /\ p_num p4 = 10 /\ p_num p5 = 7
  | _ => False
  end.
Proof. vm_compute. repeat split. Qed.

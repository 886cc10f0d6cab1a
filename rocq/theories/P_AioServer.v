(** Property theorems C49-C57: one connection of the asyncio server. [srun U reg tr l] is the state after the
    steps [l]; the list says what arrives from the network and when, which coroutine runs next, what the worker
    threads do and what is registered meanwhile, so "for all l" is "for every peer and every schedule".
    [fed l]: the bytes received. [cuts bytes items rest]: how they divide into frames (S_Server).
    [answers n s]: the frames written in answer to the n-th frame. [waiting s]: the handler has consumed all it
    can and waits for input. [answering s i n r p]: coroutine i answers frame n and stands at p.
    [answered_by … l i n bs]: after l frame n is not answered or answered by bs, and by bs alone as soon as
    coroutine i, which holds bs, gets to write it. [v_closed]: the server has closed its sending side. *)
From Coq Require Import Strings.String ZifyBool.
From Verif Require Import PyBase L_PyBase PyDict L_PyDict PyInt Struct M_SofaHeader L_SofaHeader M_Package M_RpcId M_Trace L_Trace2 S_Wire M_AioServer S_Server L_AioServer L_AioServer2 L_AioServer3 L_AioServer6 L_AioServer8 L_AioServer9.
Open Scope Z_scope.

(** ** The setting of the examples *)
Definition bytes_of (r : res pkg) : bytes := match (let! p := r in to_stream p) with Ok b => b | Raise _ => [] end.
Definition hdr (sv m : string) : sofa_header := [(str "sofa_head_target_service", str sv); (str "sofa_head_method_name", str m)].
Definition req (ptype rid : Z) (h : sofa_header) (body : string) (timeout : Z) : bytes :=
  bytes_of (mk_package BoltRequest h (PBytes (bytes_lit body)) (PInt 1) (PInt ptype) (PInt 1) (PInt 1) (PInt rid) (PInt 11) (PInt timeout) (PInt 0)).
Definition beat (rid : Z) : bytes := bytes_of (mk_package HeartbeatRequest [] (PBytes []) (PInt 1) (PInt 1) (PInt 0) (PInt 1) (PInt rid) (PInt 11) (PInt 100) (PInt 0)).
(** a frame of the given class name and header part, which need not be well-formed *)
Definition raw (rid : Z) (cls header content : bytes) : bytes :=
  be_bytes 1 1 ++ be_bytes 1 1 ++ be_bytes 2 1 ++ be_bytes 1 1 ++ be_bytes 4 rid ++ be_bytes 1 11 ++ be_bytes 4 100 ++
  be_bytes 2 (len cls) ++ be_bytes 2 (len header) ++ be_bytes 4 (len content) ++ cls ++ header ++ content.
Definition svc (r : option exn) : service := {| sv_raises := r; sv_methods := fun m => pystr_eqb m (str "m") |}.
Definition reg0 : registry := [(str "svc", svc None); (str "bad", svc (Some OtherError)); (str "attr", svc (Some AttributeError))].
Definition reads (n : nat) : list sstep := repeat Read (4 * n).
Definition go (l : list sstep) : sst := srun ascii_tables reg0 t_init l.
Definition reply (rid cmd st : Z) (content : bytes) : bytes :=
  match (if cmd =? 0 then beat_bytes rid else if st =? 0 then result_bytes (PBytes content) rid else fail_bytes rid st) with Ok b => b | Raise _ => [] end.
(** one request received and taken; its coroutine runs, the method returns and the answer is written *)
Definition arrived (bs : bytes) : list sstep := Feed bs :: reads 1.
Definition served (r : res pyobj) : list sstep := [JobRun 0; JobEnd 0 r].
Definition written : list sstep := [Result 0; Drain 0 true; Drain 0 true].
Definition q0 (ptype rid : Z) (h : sofa_header) (body : string) (timeout : Z) : request := {| q_type := ptype; q_id := rid; q_header := h; q_body := bytes_lit body; q_timeout := timeout |}.

(** ** C49 *)
Theorem C49_at_most_one_answer_per_frame : forall U reg tr l, ~ In Eof l -> ~ In Reset l ->
  exists items rest ns, cuts (fed l) items rest /\ NoDup ns /\ Forall2 (replies items) ns (map snd (v_out (srun U reg tr l))).
Proof. exact once_open. Qed.
Print Assumptions C49_at_most_one_answer_per_frame.

(** three frames at once, the second a heartbeat, answered in another order *)
Definition busy : list sstep :=
  Feed (req 1 7 (hdr "svc" "m") "hi" 100 ++ beat 8 ++ req 1 9 (hdr "svc" "m") "ho" 100) :: reads 3 ++
  [Dispatch 0 (str "T"); Dispatch 2 (str "V"); JobRun 1; JobRun 0; JobEnd 1 (Ok (PBytes (bytes_lit "HO"))); JobEnd 0 (Ok (PBytes (bytes_lit "HI")));
   Result 2; Drain 2 true; Drain 1 true; Result 0; Drain 0 true].
Example C49_case : map snd (v_out (go busy)) = [reply 9 2 0 (bytes_lit "HO"); reply 8 0 0 []; reply 7 2 0 (bytes_lit "HI")] /\ ~ In Eof busy /\ ~ In Reset busy.
Proof. split; [vm_compute; reflexivity|]. split; intros H; repeat (destruct H as [H|H]; [discriminate H|]); destruct H. Qed.

(** ** C50 *)
(** the answer is written when the coroutine has seen the result and its connection accepts it *)
Theorem C50_result_is_answered_partial : forall U reg tr l1 l2 i n q fresh c,
  let l := l1 ++ Dispatch i fresh :: l2 in
  submitted U (srun U reg tr l1) i n q fresh -> q_type q <> 2 -> v_closed (srun U reg tr l) = false -> ~ In (Expire i) l2 -> ~ In (Drain i false) l2 ->
  ended_with (srun U reg tr l) n (Ok (PBytes c)) -> c <> [] -> len c <= 4294967295 ->
  exists bs, response bs (q_id q) 2 0 c /\ (answers n (srun U reg tr l) = [] \/ answers n (srun U reg tr l) = [bs]) /\
    answers n (srun U reg tr (l ++ [Result i; Drain i true])) = [bs].
Proof. exact success_answer. Qed.
Print Assumptions C50_result_is_answered_partial.

(** every request on the stream gets its coroutine *)
Theorem C50_request_is_taken_partial : forall U reg tr l items rest n q,
  waiting (srun U reg tr l) -> cuts (fed l) items rest -> nth_error items n = Some (IRequest q) -> exists i p, answering (srun U reg tr l) i n (Some q) p.
Proof. exact taken. Qed.
Print Assumptions C50_request_is_taken_partial.

Definition good7 : bytes := req 1 7 (hdr "svc" "m") "hi" 100.
Definition request7 : request := q0 1 7 (hdr "svc" "m") "hi" 100.
Example C50_case : let l1 := arrived good7 in let l2 := served (Ok (PBytes (bytes_lit "HI"))) in
  waiting (go l1) /\ (exists rest, cuts (fed l1) [IRequest request7] rest) /\ submitted ascii_tables (go l1) 0 0 request7 (str "T") /\
  ended_with (go (l1 ++ Dispatch 0 (str "T") :: l2)) 0 (Ok (PBytes (bytes_lit "HI"))) /\ v_closed (go (l1 ++ Dispatch 0 (str "T") :: l2)) = false /\
  answers 0 (go (l1 ++ Dispatch 0 (str "T") :: l2 ++ written)) = [reply 7 2 0 (bytes_lit "HI")].
Proof.
  split; [vm_compute; repeat split|]. split; [destruct (run_cuts ascii_tables reg0 t_init (arrived good7)) as (r & C); exists r; exact C|]. split; [|split].
  - split; [vm_compute; reflexivity|]. split; [do 2 eexists; vm_compute; reflexivity|]. exists (str "svc"), (str "m"). split; [apply service_name_iff; reflexivity|]. split; [apply method_name_iff; reflexivity|]. exists (svc None). repeat split.
  - eexists. split; [vm_compute; left; reflexivity|]. repeat split.
  - vm_compute. repeat split.
Qed.

(** a method that returns no bytes at all is never answered *)
Theorem C50_empty_result_refuted : forall U reg tr l1 l2 i n q fresh,
  let l := l1 ++ Dispatch i fresh :: l2 in
  submitted U (srun U reg tr l1) i n q fresh -> q_type q <> 2 -> v_closed (srun U reg tr l) = false -> ~ In (Expire i) l2 -> ~ In (Drain i false) l2 ->
  ended_with (srun U reg tr l) n (Ok (PBytes [])) -> answers n (srun U reg tr l) = [].
Proof. intros. eapply empty_unanswered; eauto. Qed.
Print Assumptions C50_empty_result_refuted.
Example C50_empty_case : let l := arrived good7 ++ Dispatch 0 (str "T") :: served (Ok (PBytes [])) ++ written in
  ended_with (go l) 0 (Ok (PBytes [])) /\ v_closed (go l) = false /\ answering (go l) 0 0 (Some request7) TDone /\ answers 0 (go l) = [].
Proof. split; [eexists; split; [vm_compute; left; reflexivity|repeat split]|]. vm_compute. repeat split. Qed.

(** nor is a request whose trace headers cannot be read, whatever it asks for *)
Theorem C50_unreadable_trace_refuted : forall U reg tr l1 l2 i n q fresh,
  answering (srun U reg tr l1) i n (Some q) TStart -> ~ traceable U (srun U reg tr l1) q fresh ->
  (exists sv, names_service (q_header q) sv) -> (exists m, names_method (q_header q) m) ->
  v_closed (srun U reg tr (l1 ++ Dispatch i fresh :: l2)) = false -> answers n (srun U reg tr (l1 ++ Dispatch i fresh :: l2)) = [].
Proof. exact untraceable_unanswered. Qed.
Print Assumptions C50_unreadable_trace_refuted.
Example C50_unreadable_case : let h := (str "rpc_trace_context.self", str "x") :: hdr "svc" "m" in let l := arrived (req 1 7 h "hi" 100) in
  answering (go l) 0 0 (Some (q0 1 7 h "hi" 100)) TStart /\ ~ traceable ascii_tables (go l) (q0 1 7 h "hi" 100) (str "T") /\
  names_service h (str "svc") /\ names_method h (str "m") /\ offers (v_reg (go l)) (str "svc") (str "m").
Proof.
  split; [vm_compute; reflexivity|]. split; [intros (tr & c & H); vm_compute in H; discriminate|]. split; [apply service_name_iff; reflexivity|]. split; [apply method_name_iff; reflexivity|]. exists (svc None). repeat split.
Qed.

(** ** C51 *)
(** a one-way request that is passed on to a method is not answered; others get an error status *)
Theorem C51_one_way_answers_partial : forall U reg tr l i n q p, let s := srun U reg tr l in
  v_closed s = false -> answering s i n (Some q) p -> q_type q = 2 ->
  (forall bs, In bs (answers n s) -> exists st, response bs (q_id q) 2 st [] /\ (st = 2 \/ st = 6 \/ st = 8)) /\
  ((exists b, In b (v_jobs s) /\ j_frame b = n) -> answers n s = []).
Proof. exact oneway_answers. Qed.
Print Assumptions C51_one_way_answers_partial.
Example C51_case : let l := arrived (req 2 7 (hdr "svc" "m") "hi" 100) ++ Dispatch 0 (str "T") :: served (Ok (PBytes (bytes_lit "HI"))) ++ written in
  answering (go l) 0 0 (Some (q0 2 7 (hdr "svc" "m") "hi" 100)) TDone /\ v_closed (go l) = false /\ (exists b, In b (v_jobs (go l)) /\ j_frame b = 0%nat) /\ answers 0 (go l) = [].
Proof. split; [vm_compute; reflexivity|]. split; [reflexivity|]. split; [eexists; split; [vm_compute; left; reflexivity|reflexivity]|reflexivity]. Qed.

(** any one-way request for a service that is not registered is answered *)
Theorem C51_one_way_answered_refuted :
  (forall U reg tr l1 l2 i n q fresh sv m, answering (srun U reg tr l1) i n (Some q) TStart -> q_type q = 2 ->
    v_closed (srun U reg tr (l1 ++ Dispatch i fresh :: l2)) = false -> ~ In (Drain i false) l2 ->
    names_service (q_header q) sv -> names_method (q_header q) m -> traceable U (srun U reg tr l1) q fresh -> unknown (v_reg (srun U reg tr l1)) sv m ->
    exists bs, response bs (q_id q) 2 6 [] /\ answered_by U reg tr (l1 ++ Dispatch i fresh :: l2) i n bs) /\
  (let l := arrived (req 2 7 (hdr "nosvc" "m") "hi" 100) ++ [Dispatch 0 (str "T"); Drain 0 true] in
   answering (go l) 0 0 (Some (q0 2 7 (hdr "nosvc" "m") "hi" 100)) TDrain2 /\ answers 0 (go l) = [reply 7 2 6 []]).
Proof.
  split; [|vm_compute; split; reflexivity]. intros U reg tr l1 l2 i n q fresh sv m A _ Cl Nd Ns Nm Tr Un. exact (unknown_answer U reg tr l1 l2 i n q fresh sv m A Cl Nd Ns Nm Tr (or_introl Un)).
Qed.
Print Assumptions C51_one_way_answered_refuted.

(** ** C52 *)
Theorem C52_heartbeat_is_answered : forall U reg tr l items rest n id, let s := srun U reg tr l in
  waiting s -> cuts (fed l) items rest -> nth_error items n = Some (IHeartbeat id) ->
  exists i p bs, answering s i n None p /\ response bs id 0 0 [] /\ (answers n s = [] \/ answers n s = [bs]) /\
    (~ In (Drain i false) l -> answers n (srun U reg tr (l ++ [Drain i true])) = [bs]) /\ (p = TDone -> answers n s = [bs]) /\
    forall b, In b (v_jobs s) -> j_frame b <> n.
Proof. exact heartbeat_answer. Qed.
Print Assumptions C52_heartbeat_is_answered.
Example C52_case : waiting (go busy) /\ (exists rest, cuts (fed busy) (v_items (go busy)) rest) /\ nth_error (v_items (go busy)) 1 = Some (IHeartbeat 8) /\ answers 1 (go busy) = [reply 8 0 0 []].
Proof. split; [vm_compute; repeat split|]. split; [exact (run_cuts ascii_tables reg0 t_init busy)|]. vm_compute. repeat split. Qed.

(** ** C53 *)
Theorem C53_unknown_is_no_processor_partial : forall U reg tr l1 l2 i n q fresh sv m, answering (srun U reg tr l1) i n (Some q) TStart ->
  v_closed (srun U reg tr (l1 ++ Dispatch i fresh :: l2)) = false -> ~ In (Drain i false) l2 ->
  names_service (q_header q) sv -> names_method (q_header q) m -> traceable U (srun U reg tr l1) q fresh -> unknown (v_reg (srun U reg tr l1)) sv m ->
  exists bs, response bs (q_id q) 2 6 [] /\ answered_by U reg tr (l1 ++ Dispatch i fresh :: l2) i n bs.
Proof. intros U reg tr l1 l2 i n q fresh sv m A Cl Nd Ns Nm Tr Un. exact (unknown_answer U reg tr l1 l2 i n q fresh sv m A Cl Nd Ns Nm Tr (or_introl Un)). Qed.
Print Assumptions C53_unknown_is_no_processor_partial.

Theorem C53_construction_is_server_exception_partial : forall U reg tr l1 l2 i n q fresh sv m e, answering (srun U reg tr l1) i n (Some q) TStart ->
  v_closed (srun U reg tr (l1 ++ Dispatch i fresh :: l2)) = false -> ~ In (Drain i false) l2 ->
  names_service (q_header q) sv -> names_method (q_header q) m -> traceable U (srun U reg tr l1) q fresh ->
  broken (v_reg (srun U reg tr l1)) sv e -> e <> AttributeError -> e <> NoProcessorError -> e <> CancelledError ->
  exists bs, response bs (q_id q) 2 2 [] /\ answered_by U reg tr (l1 ++ Dispatch i fresh :: l2) i n bs.
Proof. exact broken_answer. Qed.
Print Assumptions C53_construction_is_server_exception_partial.

Theorem C53_missing_name_is_client_send_error_partial : forall U reg tr l1 l2 i n q fresh, answering (srun U reg tr l1) i n (Some q) TStart ->
  v_closed (srun U reg tr (l1 ++ Dispatch i fresh :: l2)) = false -> ~ In (Drain i false) l2 ->
  (~ exists sv, names_service (q_header q) sv) \/ (~ exists m, names_method (q_header q) m) ->
  exists bs, response bs (q_id q) 2 8 [] /\ answered_by U reg tr (l1 ++ Dispatch i fresh :: l2) i n bs.
Proof. exact unnamed_answer. Qed.
Print Assumptions C53_missing_name_is_client_send_error_partial.

(** status 3 for an exception of the method, except for two that are taken for a timeout *)
Theorem C53_exception_is_unknown_partial : forall U reg tr l1 l2 i n q fresh e,
  let l := l1 ++ Dispatch i fresh :: l2 in
  submitted U (srun U reg tr l1) i n q fresh -> q_type q <> 2 -> v_closed (srun U reg tr l) = false -> ~ In (Expire i) l2 -> ~ In (Drain i false) l2 ->
  ended_with (srun U reg tr l) n (Raise e) ->
  exists bs, response bs (q_id q) 2 (match e with CancelledError | TimeoutError => 7 | _ => 3 end) [] /\ (answers n (srun U reg tr l) = [] \/ answers n (srun U reg tr l) = [bs]) /\
    answers n (srun U reg tr (l ++ [Result i; Drain i true])) = [bs].
Proof. exact exception_answer. Qed.
Print Assumptions C53_exception_is_unknown_partial.

(** the wait expires while coroutine i waits for the method; only requests with a positive timeout *)
Theorem C53_slow_is_timeout_partial : forall U reg tr l1 l2 i n q j, answering (srun U reg tr l1) i n (Some q) (TWait j) -> 0 < q_timeout q ->
  v_closed (srun U reg tr (l1 ++ Expire i :: l2)) = false -> ~ In (Drain i false) l2 ->
  exists bs, response bs (q_id q) 2 7 [] /\ answered_by U reg tr (l1 ++ Expire i :: l2) i n bs.
Proof. exact expired_answer. Qed.
Print Assumptions C53_slow_is_timeout_partial.

(** wrong command code or class name (status 8), malformed header part (status 9) *)
Theorem C53_bad_frame_is_reported_partial : forall U reg tr l items rest n id st, waiting (srun U reg tr l) -> cuts (fed l) items rest -> nth_error items n = Some (IBad id st) ->
  exists bs, answers n (srun U reg tr l) = [bs] /\ response bs id 2 st [].
Proof. exact waiting_bad. Qed.
Print Assumptions C53_bad_frame_is_reported_partial.

Definition asked (sv m : string) : list sstep := arrived (req 1 7 (hdr sv m) "hi" 100) ++ [Dispatch 0 (str "T")].
Definition wrote : list sstep := [DrainR true; DrainR true].
Definition torn : bytes := [Byte.x00; Byte.x00].
Example C53_cases :
  unknown reg0 (str "nosvc") (str "m") /\ unknown reg0 (str "svc") (str "nom") /\ broken reg0 (str "bad") OtherError /\
  answers 0 (go (asked "nosvc" "m" ++ [Drain 0 true])) = [reply 7 2 6 []] /\
  answers 0 (go (asked "svc" "nom" ++ [Drain 0 true])) = [reply 7 2 6 []] /\
  answers 0 (go (asked "bad" "m" ++ [Drain 0 true])) = [reply 7 2 2 []] /\
  answers 0 (go (asked "svc" "" ++ [Drain 0 true])) = [reply 7 2 8 []] /\
  answers 0 (go (asked "svc" "m" ++ served (Raise OtherError) ++ written)) = [reply 7 2 3 []] /\
  answers 0 (go (asked "svc" "m" ++ [JobRun 0; Expire 0; JobEnd 0 (Ok (PBytes (bytes_lit "late"))); Result 0; Drain 0 true])) = [reply 7 2 7 []] /\
  answers 0 (go (arrived (raw 7 (bytes_lit "other") [] []) ++ wrote)) = [reply 7 2 8 []] /\
  answers 0 (go (arrived (raw 7 SofaRequest_name torn []) ++ wrote)) = [reply 7 2 9 []] /\
  waiting (go (arrived (raw 7 SofaRequest_name torn []) ++ wrote)) /\ v_items (go (arrived (raw 7 SofaRequest_name torn []) ++ wrote)) = [IBad 7 9].
Proof.
  split; [left; reflexivity|]. split; [right; exists (svc None); repeat split|]. split; [exists (svc (Some OtherError)); repeat split|]. vm_compute. repeat split.
Qed.

(** a constructor raising AttributeError counts as an unknown service *)
Theorem C53_attribute_error_refuted : forall U reg tr l1 l2 i n q fresh sv m, answering (srun U reg tr l1) i n (Some q) TStart ->
  v_closed (srun U reg tr (l1 ++ Dispatch i fresh :: l2)) = false -> ~ In (Drain i false) l2 ->
  names_service (q_header q) sv -> names_method (q_header q) m -> traceable U (srun U reg tr l1) q fresh -> broken (v_reg (srun U reg tr l1)) sv AttributeError ->
  exists bs, response bs (q_id q) 2 6 [] /\ answered_by U reg tr (l1 ++ Dispatch i fresh :: l2) i n bs.
Proof. intros U reg tr l1 l2 i n q fresh sv m A Cl Nd Ns Nm Tr Un. exact (unknown_answer U reg tr l1 l2 i n q fresh sv m A Cl Nd Ns Nm Tr (or_intror (or_introl Un))). Qed.
Print Assumptions C53_attribute_error_refuted.
Example C53_attribute_case : broken reg0 (str "attr") AttributeError /\ answers 0 (go (asked "attr" "m" ++ [Drain 0 true])) = [reply 7 2 6 []].
Proof. split; [exists (svc (Some AttributeError)); repeat split|]. vm_compute. reflexivity. Qed.

(** a TimeoutError of the method itself is reported as if the method had been too slow *)
Theorem C53_own_timeout_error_refuted : forall U reg tr l1 l2 i n q fresh,
  let l := l1 ++ Dispatch i fresh :: l2 in
  submitted U (srun U reg tr l1) i n q fresh -> q_type q <> 2 -> v_closed (srun U reg tr l) = false -> ~ In (Expire i) l2 -> ~ In (Drain i false) l2 ->
  ended_with (srun U reg tr l) n (Raise TimeoutError) ->
  exists bs, response bs (q_id q) 2 7 [] /\ answers n (srun U reg tr (l ++ [Result i; Drain i true])) = [bs].
Proof. intros U reg tr l1 l2 i n q fresh l Sb Ty Cl Ne Nd En. destruct (exception_answer U reg tr l1 l2 i n q fresh TimeoutError Sb Ty Cl Ne Nd En) as (bs & R & _ & A). exists bs. split; [exact R|exact A]. Qed.
Print Assumptions C53_own_timeout_error_refuted.
Example C53_own_timeout_case : answers 0 (go (asked "svc" "m" ++ served (Raise TimeoutError) ++ written)) = [reply 7 2 7 []].
Proof. vm_compute. reflexivity. Qed.

(** a header part that is not UTF-8 is answered with status 3, and the connection is closed *)
Definition not_text : bytes := be_bytes 4 1 ++ [Byte.xff] ++ be_bytes 4 0.
Theorem C53_not_utf8_refuted :
  let s := go (arrived (raw 7 SofaRequest_name not_text []) ++ wrote) in
  from_bytes not_text = Raise UnicodeDecodeError /\ v_out s = [(0%nat, reply 7 2 3 [])] /\ v_closed s = true /\ v_rd s = REnd.
Proof. vm_compute. repeat split. Qed.
Print Assumptions C53_not_utf8_refuted.

(** ** C54 *)
(** [x]: the frames before, [y]: whatever follows. [one a (IBad id st)] (S_Server): [a] is a frame with a wrong
    command code or class name, or the fixed header, class name and malformed header part of a frame. So the
    bad frame does no harm if it is of the first kind, or of the second without content *)
Theorem C54_bad_frame_is_skipped_partial : forall U reg tr reg' tr' l l' x lx a id st y,
  cuts x lx [] -> Forall (fun i => ~ fatal i) lx -> one a (IBad id st) -> fed l = x ++ a ++ y -> fed l' = x ++ y ->
  waiting (srun U reg tr l) -> waiting (srun U reg' tr' l') -> handed (srun U reg tr l) = handed (srun U reg' tr' l').
Proof. exact bad_handed. Qed.
Print Assumptions C54_bad_frame_is_skipped_partial.

Theorem C54_empty_content_partial : forall U reg tr reg' tr' l l' x lx a f y,
  cuts x lx [] -> Forall (fun i => ~ fatal i) lx -> request_layout a f -> (~ exists kvs, header_pairs (fr_header f) kvs) -> ~ bad_text (fr_header f) -> fr_content f = [] ->
  fed l = x ++ a ++ y -> fed l' = x ++ y -> waiting (srun U reg tr l) -> waiting (srun U reg' tr' l') -> handed (srun U reg tr l) = handed (srun U reg' tr' l').
Proof.
  intros U reg tr reg' tr' l l' x lx a f y Cx Nf La Nh Nb Ct. destruct (codec_content a f La Nh Nb) as (h & -> & O). rewrite Ct, app_nil_r. exact (bad_handed U reg tr reg' tr' l l' x lx h _ _ y Cx Nf O).
Qed.
Print Assumptions C54_empty_content_partial.

(** after a malformed header part the content of the frame is taken for the frames that follow *)
Theorem C54_content_is_taken_for_frames_refuted : forall U reg tr reg' tr' l l' x lx a f y,
  cuts x lx [] -> Forall (fun i => ~ fatal i) lx -> request_layout a f -> (~ exists kvs, header_pairs (fr_header f) kvs) -> ~ bad_text (fr_header f) ->
  fed l = x ++ a ++ y -> fed l' = x ++ fr_content f ++ y -> waiting (srun U reg tr l) -> waiting (srun U reg' tr' l') -> handed (srun U reg tr l) = handed (srun U reg' tr' l').
Proof.
  intros U reg tr reg' tr' l l' x lx a f y Cx Nf La Nh Nb. destruct (codec_content a f La Nh Nb) as (h & E & O). intros E1 E2. subst a. rewrite <- app_assoc in E1. exact (bad_handed U reg tr reg' tr' l l' x lx h _ _ _ Cx Nf O E1 E2).
Qed.
Print Assumptions C54_content_is_taken_for_frames_refuted.

(** a call carried in the content of the bad frame is executed *)
Definition smuggled : bytes := raw 7 SofaRequest_name torn good7.
Definition smuggle : list sstep := Feed smuggled :: reads 1 ++ wrote ++ reads 1.
Theorem C54_smuggled_call_refuted :
  (exists f, request_layout smuggled f /\ (~ exists kvs, header_pairs (fr_header f) kvs) /\ ~ bad_text (fr_header f)) /\
  fed smuggle = smuggled /\ waiting (go smuggle) /\ waiting (go []) /\ handed (go smuggle) = [Some request7] /\ handed (go []) = [] /\
  executions ascii_tables (sinit reg0 t_init) (smuggle ++ [Dispatch 0 (str "T"); JobRun 0]) = [(1%nat, str "svc", str "m", bytes_lit "hi")].
Proof.
  split; [|vm_compute; repeat split].
  exists {| fr_proto := 1; fr_type := 1; fr_cmdcode := 1; fr_ver2 := 1; fr_request_id := 7; fr_codec := 11; fr_tos := 100; fr_class := SofaRequest_name; fr_header := torn; fr_content := good7 |}.
  split; [vm_compute; repeat split; discriminate|]. cbn [fr_header]. apply from_bytes_codec. exists DecodeError. split; [vm_compute; reflexivity|discriminate].
Qed.
Print Assumptions C54_smuggled_call_refuted.

Example C54_case : let bad := raw 7 (bytes_lit "other") [] (bytes_lit "body") in let l := Feed (bad ++ good7) :: reads 1 ++ wrote ++ reads 1 in
  waiting (go l) /\ waiting (go (arrived good7)) /\ fed l = [] ++ bad ++ good7 /\ fed (arrived good7) = [] ++ good7 /\ cuts [] [] [] /\ handed (go l) = [Some request7] /\ v_items (go l) = [IBad 7 8; IRequest request7].
Proof. split; [vm_compute; repeat split|]. split; [vm_compute; repeat split|]. split; [reflexivity|]. split; [reflexivity|]. split; [constructor|]. vm_compute. repeat split. Qed.

(** ** C55 *)
(** whatever the schedules, the registries and the chunks, once all that was received has been taken *)
Theorem C55_chunking_does_not_matter : forall U reg tr reg' tr' l l', let s := srun U reg tr l in let s' := srun U reg' tr' l' in
  fed l = fed l' -> waiting s -> waiting s' ->
  handed s = handed s' /\ forall items rest n id st, cuts (fed l) items rest -> nth_error items n = Some (IBad id st) ->
    exists bs bs', answers n s = [bs] /\ answers n s' = [bs'] /\ response bs id 2 st [] /\ response bs' id 2 st [].
Proof. exact chunked. Qed.
Print Assumptions C55_chunking_does_not_matter.

(** and at every moment of the two runs *)
Theorem C55_chunking_does_not_matter_meanwhile : forall U reg tr reg' tr' l l', fed l = fed l' ->
  (exists m, handed (srun U reg' tr' l') = handed (srun U reg tr l) ++ m) \/ (exists m, handed (srun U reg tr l) = handed (srun U reg' tr' l') ++ m).
Proof. exact chunked_prefix. Qed.
Print Assumptions C55_chunking_does_not_matter_meanwhile.

Definition one_by_one (bs : bytes) : list sstep := flat_map (fun b => [Feed [b]; Read; Read; DrainR true; DrainR true]) bs.
Example C55_case : let bad := raw 7 (bytes_lit "other") [] (bytes_lit "body") in let l := Feed (bad ++ good7) :: reads 1 ++ wrote ++ reads 1 in let l' := one_by_one (bad ++ good7) ++ reads 1 in
  fed l = fed l' /\ waiting (go l) /\ waiting (go l') /\ handed (go l) = [Some request7] /\ handed (go l') = [Some request7] /\
  (exists rest, cuts (fed l) [IBad 7 8; IRequest request7] rest) /\ answers 0 (go l) = [reply 7 2 8 []] /\ answers 0 (go l') = [reply 7 2 8 []].
Proof.
  cbv zeta. split; [vm_compute; reflexivity|]. split; [vm_compute; repeat split|]. split; [vm_compute; repeat split|]. split; [vm_compute; reflexivity|]. split; [vm_compute; reflexivity|].
  split; [|vm_compute; split; reflexivity]. destruct (run_cuts ascii_tables reg0 t_init (Feed (raw 7 (bytes_lit "other") [] (bytes_lit "body") ++ good7) :: reads 1 ++ wrote ++ reads 1)) as (r & C). exists r. vm_compute in C. vm_compute. exact C.
Qed.

(** ** C56 *)
(** the first components of the executions are the numbers of the frames that asked for them *)
Theorem C56_executed_at_most_once : forall U reg tr l, NoDup (map (fun e => fst (fst (fst e))) (executions U (sinit reg tr) l)).
Proof. intros U reg tr l. exact (executions_once U l (sinit reg tr) (good_init reg tr)). Qed.
Print Assumptions C56_executed_at_most_once.

Theorem C56_executed_as_requested : forall U reg tr l n sv m b, In (n, sv, m, b) (executions U (sinit reg tr) l) ->
  exists items rest q, cuts (fed l) items rest /\ nth_error items n = Some (IRequest q) /\ names_service (q_header q) sv /\ names_method (q_header q) m /\ b = q_body q.
Proof. exact executions_named. Qed.
Print Assumptions C56_executed_as_requested.

Theorem C56_success_was_executed : forall U reg tr l n bs id c, let s := srun U reg tr l in v_closed s = false -> In bs (answers n s) -> response bs id 2 0 c ->
  exists sv m b, In (n, sv, m, b) (executions U (sinit reg tr) l) /\ ended_with s n (Ok (PBytes c)).
Proof. exact success_executed. Qed.
Print Assumptions C56_success_was_executed.

Example C56_case : executions ascii_tables (sinit reg0 t_init) busy = [(2%nat, str "svc", str "m", bytes_lit "ho"); (0%nat, str "svc", str "m", bytes_lit "hi")] /\
  v_closed (go busy) = false /\ answers 0 (go busy) = [reply 7 2 0 (bytes_lit "HI")].
Proof. vm_compute. repeat split. Qed.

(** ** C57 *)
(** apart from one last frame, written when the server closes, every frame answers another received frame; the
    last one says CONNECTION_CLOSED, or UNKNOWN after a reset or a header part that is not UTF-8 *)
Theorem C57_one_last_frame_partial : forall U reg tr l, let s := srun U reg tr l in
  exists items rest ns r last, cuts (fed l) items rest /\ map snd (v_out s) = r ++ last /\ NoDup ns /\ Forall2 (replies items) ns r /\
    (last = [] \/ exists bs id st, last = [bs] /\ response bs id 2 st [] /\ In id (v_heads s) /\ v_closed s = true /\
       ((st = 16 /\ In Eof l) \/ (st = 3 /\ (In Reset l \/ exists x, In x items /\ fatal x)))).
Proof. exact once_any. Qed.
Print Assumptions C57_one_last_frame_partial.

Theorem C57_nothing_after_closing_partial : forall U reg tr l l2, v_closed (srun U reg tr l) = true -> v_out (srun U reg tr (l ++ l2)) = v_out (srun U reg tr l).
Proof. intros U reg tr l l2 C. rewrite srun_app. exact (proj1 (closed_out U l2 _ (good_run U reg tr l) C)). Qed.
Print Assumptions C57_nothing_after_closing_partial.

(** a peer that half-closes after complete frames gets, when the server notices, one more frame with the id of
    the last of them, answered or not *)
Theorem C57_last_request_answered_again_refuted : forall U reg tr l items x, let s := srun U reg tr l in
  waiting s -> cuts (fed l) (items ++ [x]) [] -> ~ fatal x ->
  exists n bs, v_out (srun U reg tr (l ++ [Eof; Read; DrainR true])) = v_out s ++ [(n, bs)] /\ response bs (item_id x) 2 16 [].
Proof. exact half_close. Qed.
Print Assumptions C57_last_request_answered_again_refuted.

Definition full : list sstep := arrived good7 ++ Dispatch 0 (str "T") :: served (Ok (PBytes (bytes_lit "HI"))) ++ written.
Example C57_case : waiting (go full) /\ cuts (fed full) ([] ++ [IRequest request7]) [] /\ ~ fatal (IRequest request7) /\ v_items (go full) = [IRequest request7] /\
  v_out (go full) = [(0%nat, reply 7 2 0 (bytes_lit "HI"))] /\ v_out (go (full ++ [Eof; Read; DrainR true])) = [(0%nat, reply 7 2 0 (bytes_lit "HI")); (0%nat, reply 7 2 16 [])].
Proof.
  split; [vm_compute; repeat split|]. split; [|split; [intros []|vm_compute; repeat split]]. change (fed full) with (good7 ++ []). rewrite app_nil_r, <- (app_nil_r good7). cbn [app].
  apply Cuts_cons; [|intros []|constructor]. assert (E : unit_of good7 = Some (IRequest request7, len good7)) by (vm_compute; reflexivity). apply unit_one in E as (_ & O). rewrite py_take_all in O by lia. exact O.
Qed.
(** and the answers still being computed are lost *)
Example C57_lost_case : v_out (go (arrived good7 ++ [Dispatch 0 (str "T"); Eof; Read; DrainR true; DrainR true] ++ served (Ok (PBytes (bytes_lit "HI"))) ++ written)) = [(0%nat, reply 7 2 16 [])].
Proof. vm_compute. reflexivity. Qed.

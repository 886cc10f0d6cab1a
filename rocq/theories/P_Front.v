(** Property theorems C69-C74: the entry points of the asyncio client as their callers see them (M_Front). [w_run U t l]
    is the state after the steps [l]: calls, everything that happens in the client, the network and the servers
    (M_System), futures being settled or cancelled, time running out. The words [invocations], [callbacks],
    [outcomes], [late], [method_returned] and [ids_differ] are in S_Front, [gives] is in S_System. *)
From Coq Require Import Strings.String ZifyBool.
From Verif Require Import PyBase PyDict L_PyDict PyInt Struct M_SofaHeader M_Package L_Package L_Codec M_RpcId M_Trace S_Wire M_SyncClient M_AioServer S_Server M_System S_System L_System M_Front S_Front L_Front P_Codec P_System.
From Verif Require M_AioClient L_AioClient L_AioClient2 L_AioClient4 L_AioClient6 L_AioClient7 P_Aio.
Open Scope Z_scope.

(** ** C69 *)
Theorem C69_callback_at_most_once : forall U t l j, (List.length (callbacks j (w_run U t l)) <= 1)%nat.
Proof. exact one_callback. Qed.
Print Assumptions C69_callback_at_most_once.
(** a callback is called with nothing but what the method returned for that very call; so not at all if the call fails *)
Theorem C69_callback_gets_the_value : forall U t l j v, ids_differ U t l -> In v (callbacks j (w_run U t l)) ->
  exists d rid a, nth_error (invocations l) j = Some (AAsync true, d, rid, a) /\ method_returned U t (w_run U t l) d a v.
Proof. exact callback_value. Qed.
Print Assumptions C69_callback_gets_the_value.
(** and it is called: once the coroutine has ended with a value, settling the future does it *)
Theorem C69_value_reaches_the_callback : forall U t l j d rid a v, ids_differ U t l ->
  nth_error (invocations l) j = Some (AAsync true, d, rid, a) -> outcomes j (w_run U t l) = [] -> ~ In (WCancel j) l ->
  gives (w_client U t (w_run U t l)) rid (Ok v) -> callbacks j (w_run U t (l ++ [WSettle j])) = [v].
Proof. exact callback_settled. Qed.
Print Assumptions C69_value_reaches_the_callback.
(** a future that its owner cancels does not call the callback any more *)
Theorem C69_no_callback_after_cancelling : forall U t l l2 j x, nth_error (invocations l) j = Some x ->
  callbacks j (w_run U t (l ++ WCancel j :: l2)) = callbacks j (w_run U t l).
Proof. exact cancelled_silent. Qed.
Print Assumptions C69_no_callback_after_cancelling.
(** the entry point itself does not raise, whatever happens later, when the request can be made and the timeout is None
    or a number *)
Theorem C69_accepted : forall U t l j k d rid a q, nth_error (invocations l) j = Some (k, d, rid, a) -> k <> ASync -> y_request (entry_call k d) rid = Ok q ->
  (y_timeout d = PNone \/ (exists z, y_timeout d = PInt z) \/ exists n m, y_timeout d = PFloat n m) -> outcomes j (w_run U t l) = [].
Proof. exact accepted_silent. Qed.
Print Assumptions C69_accepted.
(** and it raises, with the request already on its way, when the timeout is neither; the callback is never called then *)
Theorem C69_refused : forall U t l j d rid a q, nth_error (invocations l) j = Some (AAsync true, d, rid, a) -> y_request (entry_call (AAsync true) d) rid = Ok q -> truthy (y_timeout d) = true ->
  (forall b, y_timeout d <> PBool b) -> (forall z, y_timeout d <> PInt z) -> (forall n m, y_timeout d <> PFloat n m) -> outcomes j (w_run U t l) = [Raise TypeError] /\ callbacks j (w_run U t l) = [].
Proof. exact refused_async. Qed.
Print Assumptions C69_refused.

(** call 0 with a callback, call 1 blocking; the steps in between are those of C67_case *)
Definition f69 : list fstep := [WInvoke (AAsync true) d7 7 (Ok 1); WInvoke ASync d8 8 (Ok 1)] ++ map WSys (skipn 2 l67).
Definition run69 (l : list fstep) : front := w_run ascii_tables M_AioClient.NoTimer l.
Example C69_case : ids_differ ascii_tables M_AioClient.NoTimer (f69 ++ [WSettle 0; WSettle 1; WReturn 1]) /\ outcomes 0 (run69 f69) = [] /\
  gives (w_client ascii_tables M_AioClient.NoTimer (run69 f69)) 7 (Ok (PBytes (bytes_lit "hihi"))) /\
  w_log (run69 (f69 ++ [WSettle 0; WSettle 1; WReturn 1; WSettle 0; WCancel 0])) = [ECallback 0 (PBytes (bytes_lit "hihi")); EOver 1 (Ok (PBytes (bytes_lit "yoyo")))] /\
  w_log (run69 (f69 ++ [WCancel 0; WSettle 0])) = [].
Proof.
  split; [vm_compute; repeat constructor; cbn; intuition discriminate|]. split; [vm_compute; reflexivity|]. split; [apply (gives_intro _ _ _ 0); vm_compute; split; reflexivity|]. split; vm_compute; reflexivity.
Qed.

(** ** C70. False of this code: the future's result is asked for, with the timeout, only when it is already there. *)
Theorem C70_callback_after_timeout_refuted : forall U t l j d rid a v, ids_differ U t l ->
  nth_error (invocations l) j = Some (AAsync true, d, rid, a) -> outcomes j (w_run U t l) = [] -> ~ In (WCancel j) l ->
  late j (w_run U t l) -> callbacks j (w_run U t l) = [] -> gives (w_client U t (w_run U t l)) rid (Ok v) ->
  callbacks j (w_run U t (l ++ [WSettle j])) = [v].
Proof. intros U t l j d rid a v N Hj Ho Nc _ _ G. exact (callback_settled U t l j d rid a v N Hj Ho Nc G). Qed.
Print Assumptions C70_callback_after_timeout_refuted.
(** What holds: the caller can have that by cancelling the future itself when the time is over.
    Missing: that the timeout given to invoke_async does it, which is false. *)
Theorem C70_cancelled_when_late_partial : forall U t l l2 j x, nth_error (invocations l) j = Some x -> callbacks j (w_run U t l) = [] ->
  callbacks j (w_run U t (l ++ WLate j :: WCancel j :: l2)) = [].
Proof.
  intros U t l l2 j x Hx E. replace (l ++ WLate j :: WCancel j :: l2) with ((l ++ [WLate j]) ++ WCancel j :: l2) by (rewrite <- app_assoc; reflexivity).
  rewrite (cancelled_silent U t (l ++ [WLate j]) l2 j x); [|unfold invocations; rewrite map_app, concat_app; apply nth_more; exact Hx].
  rewrite w_app. cbn [fold_left w_step]. destruct (nth_error (w_calls (w_run U t l)) j) as [c|]; [|exact E].
  assert (Z : forall f r, callbacks j (set_call j f (ELate j :: r) (w_run U t l)) = callbacks j (w_run U t l) ++ cb_of j r).
  { intros f r. unfold callbacks. cbn [set_call w_log]. rewrite map_app, concat_app. reflexivity. }
  destruct (f_api c); [destruct (f_over c)|..]; rewrite Z, E; reflexivity.
Qed.
Print Assumptions C70_cancelled_when_late_partial.
Example C70_case : let l := f69 ++ [WLate 0] in ids_differ ascii_tables M_AioClient.NoTimer l /\ y_timeout d7 = PInt 50 /\ outcomes 0 (run69 l) = [] /\ late 0 (run69 l) /\ callbacks 0 (run69 l) = [] /\
  gives (w_client ascii_tables M_AioClient.NoTimer (run69 l)) 7 (Ok (PBytes (bytes_lit "hihi"))) /\ w_log (run69 (l ++ [WSettle 0])) = [ELate 0; ECallback 0 (PBytes (bytes_lit "hihi"))].
Proof.
  cbv zeta. split; [vm_compute; repeat constructor; cbn; intuition discriminate|]. split; [reflexivity|]. split; [vm_compute; reflexivity|]. split; [vm_compute; auto|]. split; [vm_compute; reflexivity|].
  split; [apply (gives_intro _ _ _ 0); vm_compute; split; reflexivity|]. vm_compute. reflexivity.
Qed.

(** ** C71 *)
Theorem C71_ends_at_most_once : forall U t l j, (List.length (outcomes j (w_run U t l)) <= 1)%nat.
Proof. exact one_outcome. Qed.
Print Assumptions C71_ends_at_most_once.
Theorem C71_returns_the_value : forall U t l j v d rid a, ids_differ U t l -> nth_error (invocations l) j = Some (ASync, d, rid, a) ->
  In (Ok v) (outcomes j (w_run U t l)) -> method_returned U t (w_run U t l) d a v.
Proof. exact sync_value. Qed.
Print Assumptions C71_returns_the_value.
(** whatever the network and the servers do, it does not block longer than the time given *)
Theorem C71_ends_in_time : forall U t l j d rid a, nth_error (invocations l) j = Some (ASync, d, rid, a) -> late j (w_run U t l) -> exists r, outcomes j (w_run U t l) = [r].
Proof. exact late_is_over. Qed.
Print Assumptions C71_ends_in_time.
Theorem C71_TimeoutError_only_when_late : forall U t l j d rid a p, nth_error (invocations l) j = Some (ASync, d, rid, a) -> y_request (entry_call ASync d) rid = Ok p ->
  a <> Raise TimeoutError -> In (Raise TimeoutError) (outcomes j (w_run U t l)) -> late j (w_run U t l).
Proof. exact timeout_is_late. Qed.
Print Assumptions C71_TimeoutError_only_when_late.
(** if the coroutine ends in time, its outcome, value or exception, is the caller's *)
Theorem C71_outcome_reaches_the_caller : forall U t l j d rid a r, ids_differ U t l -> nth_error (invocations l) j = Some (ASync, d, rid, a) ->
  outcomes j (w_run U t l) = [] -> gives (w_client U t (w_run U t l)) rid r -> outcomes j (w_run U t (l ++ [WSettle j; WReturn j])) = [r].
Proof. exact sync_settled. Qed.
Print Assumptions C71_outcome_reaches_the_caller.
(** a timeout that is not a number is refused, and nothing else ever comes of the call *)
Theorem C71_timeout_must_be_a_number : forall U t l j d rid a, nth_error (invocations l) j = Some (ASync, d, rid, a) ->
  (forall b, y_timeout d <> PBool b) -> (forall z, y_timeout d <> PInt z) -> (forall n m, y_timeout d <> PFloat n m) -> outcomes j (w_run U t l) = [Raise AssertionError].
Proof. exact rejected_sync. Qed.
Print Assumptions C71_timeout_must_be_a_number.
(** in time, too late, and never answered *)
Definition f71 : list fstep := WInvoke ASync d7 7 (Ok 1) :: map WSys (cl [M_AioClient.Run 0; M_AioClient.Acquire 0] ++ [YDial 0 reg78 t_init] ++ cl [M_AioClient.DrainOk 0; M_AioClient.DrainOk 0; M_AioClient.Read 0]).
Example C71_case : outcomes 1 (run69 (f69 ++ [WSettle 1; WReturn 1; WLate 1])) = [Ok (PBytes (bytes_lit "yoyo"))] /\
  outcomes 1 (run69 (f69 ++ [WLate 1; WSettle 1; WReturn 1])) = [Raise TimeoutError] /\ outcomes 1 (run69 (f69 ++ [WSettle 1; WLate 1])) = [Ok (PBytes (bytes_lit "yoyo"))] /\
  outcomes 0 (run69 f71) = [] /\ outcomes 0 (run69 (f71 ++ [WLate 0])) = [Raise TimeoutError].
Proof. vm_compute. repeat split. Qed.
Definition with_timeout (o : pyobj) (d : ycall) : ycall := {| y_baggage := y_baggage d; y_interface := y_interface d; y_method := y_method d; y_app := y_app d; y_uid := y_uid d; y_extra := y_extra d;
  y_content := y_content d; y_ptype := y_ptype d; y_timeout := o |}.
Example C71_refused : outcomes 0 (run69 [WInvoke ASync (with_timeout PNone d7) 7 (Ok 1); WSettle 0; WLate 0; WReturn 0]) = [Raise AssertionError].
Proof. vm_compute. reflexivity. Qed.

(** ** C72. False of this code: the coroutine of a call whose caller gave up goes on waiting, and its entry stays for as
    long as no frame with its id arrives. *)
Theorem C72_timed_out_call_stays_refuted : forall U t l l2 j d rid a i tk ev, ids_differ U t (l ++ l2) ->
  nth_error (invocations l) j = Some (ASync, d, rid, a) -> outcomes j (w_run U t l) = [Raise TimeoutError] ->
  nth_error (M_AioClient.s_tasks (w_client U t (w_run U t l))) i = Some tk -> M_AioClient.t_pc tk = M_AioClient.WaitResp ev -> p_request_id (M_AioClient.t_req tk) = PInt rid ->
  ~ In (WSys (YClient (M_AioClient.Cancel i))) l2 ->
  (forall c k frame f, nth_error (M_AioClient.s_links (w_client U t (w_run U t (l ++ l2)))) c = Some k -> In frame (M_AioClient.k_frames k) -> response_layout frame f -> fr_request_id f <> rid) ->
  dmem rid (M_AioClient.s_req (w_client U t (w_run U t (l ++ l2)))) = true /\ nth_error (M_AioClient.s_tasks (w_client U t (w_run U t (l ++ l2)))) i = Some tk.
Proof. intros U t l l2 j d rid a i tk ev N _ _. exact (leftover U t l l2 i tk ev rid N). Qed.
Print Assumptions C72_timed_out_call_stays_refuted.
(** What holds: whatever callers gave up on, once every coroutine has ended (for instance because late answers did arrive)
    no request entry remains.  Missing: that the coroutine ends when its caller gives up, which is false. *)
Theorem C72_nothing_left_once_answered_partial : forall U t l, ids_differ U t l -> (forall i, ~ In (WSys (YClient (M_AioClient.Cancel i))) l) ->
  (forall i tk, nth_error (M_AioClient.s_tasks (w_client U t (w_run U t l))) i = Some tk -> exists r, M_AioClient.t_pc tk = M_AioClient.Done r) ->
  M_AioClient.s_req (w_client U t (w_run U t l)) = [].
Proof. exact nothing_left. Qed.
Print Assumptions C72_nothing_left_once_answered_partial.
(** the server closes the connection; more time passes; nothing changes *)
Definition f72 : list fstep := f71 ++ [WLate 0] ++ map WSys (sv 0 [Eof; Read] ++ cl [M_AioClient.Eof 0; M_AioClient.Read 0; M_AioClient.Wake 0]) ++ [WSettle 0; WReturn 0].
Example C72_case : ids_differ ascii_tables M_AioClient.NoTimer f72 /\ w_log (run69 f72) = [ELate 0; EOver 0 (Raise TimeoutError)] /\
  let s := w_client ascii_tables M_AioClient.NoTimer (run69 f72) in map M_AioClient.t_pc (M_AioClient.s_tasks s) = [M_AioClient.WaitResp 0] /\ M_AioClient.s_req s = [(7, 0%nat)] /\
  map M_AioClient.k_closed (M_AioClient.s_links s) = [true] /\ map M_AioClient.k_frames (M_AioClient.s_links s) = [[]] /\
  M_AioClient.s_req (w_client ascii_tables M_AioClient.NoTimer (run69 (f69 ++ [WLate 1]))) = [].
Proof. split; [vm_compute; repeat constructor; cbn; intuition discriminate|]. vm_compute. repeat split. Qed.

(** ** C73. False of this code: invoke_sync accepts a fraction as timeout_ms (line 81), but no such call returns a value. *)
Theorem C73_fraction_never_returns_refuted : forall U t l j d rid a n m v, nth_error (invocations l) j = Some (ASync, d, rid, a) ->
  y_timeout d = PFloat n m -> truthy (PFloat n m) = true -> entry_ok ASync d = true /\ ~ In (Ok v) (outcomes j (w_run U t l)).
Proof. intros U t l j d rid a n m v Hj Hf Ht. split; [unfold entry_ok; rewrite Hf; reflexivity|]. exact (float_never U t l j d rid a n m v Hj Hf Ht). Qed.
Print Assumptions C73_fraction_never_returns_refuted.
(** What holds: with a timeout that is an int of 32 bits the request can be encoded.  Missing: the same for fractions. *)
Theorem C73_int_timeouts_are_encodable_partial : forall d rid q h z, y_request (entry_call ASync d) rid = Ok q ->
  build_header (y_baggage d) (y_interface d) (y_method d) (y_app d) (y_uid d) (y_extra d) = Ok h ->
  representable h (PBytes (y_content d)) (PInt rid) -> y_timeout d = PInt z -> -2147483648 <= z <= 2147483647 -> entry_ok ASync d = true /\ exists bs, to_stream q = Ok bs.
Proof.
  intros d rid q h z Hq Hh Hr Ht Hz. split; [unfold entry_ok; rewrite Ht; reflexivity|]. unfold y_request in Hq. cbn [entry_call y_baggage y_interface y_method y_app y_uid y_extra y_content y_ptype y_timeout] in Hq.
  rewrite Hh in Hq. cbn [bind] in Hq. unfold new_request in Hq. apply (proj2 (C04_request_encodable_iff _ _ _ _ _ _ _ _ _ _ _ _ (or_introl eq_refl) Hq)). split; [exact Hr|].
  rewrite Ht. unfold py_or, int32. destruct (truthy (PInt z)) eqn:E; [rewrite E; exists z; auto|]. exists (-1). split; [reflexivity|lia].
Qed.
Print Assumptions C73_int_timeouts_are_encodable_partial.
(** 1.5 milliseconds: accepted, tried three times, ends with AttributeError on None *)
Definition d15 : ycall := {| y_baggage := y_baggage d7; y_interface := y_interface d7; y_method := y_method d7; y_app := y_app d7; y_uid := y_uid d7; y_extra := y_extra d7; y_content := y_content d7; y_ptype := y_ptype d7; y_timeout := PFloat 3 2 |}.
Definition l73 : list fstep := WInvoke ASync d15 9 (Ok 1) :: map WSys (cl [M_AioClient.Run 0] ++
  concat (repeat (cl [M_AioClient.Acquire 0] ++ [YDial 0 reg78 t_init] ++ cl [M_AioClient.DrainOk 0]) 3)) ++ [WSettle 0; WReturn 0].
Example C73_case : truthy (y_timeout d15) = true /\ w_log (run69 l73) = [EOver 0 (Raise AttributeError)] /\
  (let s := w_client ascii_tables M_AioClient.NoTimer (run69 l73) in M_AioClient.s_written s = [] /\ List.length (M_AioClient.s_links s) = 3%nat) /\
  exists q bs, y_request (entry_call ASync d7) 7 = Ok q /\ to_stream q = Ok bs.
Proof.
  split; [reflexivity|]. split; [vm_compute; reflexivity|]. split; [vm_compute; split; reflexivity|].
  exists (P_Aio.get (y_request (entry_call ASync d7) 7)). eexists. split; vm_compute; reflexivity.
Qed.

(** ** C74. False of this code: a request that cannot be encoded counts as a failure of the connection it was meant for
    (lines 191-201). Nothing that arrives on that connection is read any more, ... *)
Theorem C74_connection_is_deaf_refuted : forall t l l2 i tk a n c e k k',
  nth_error (M_AioClient.s_tasks (M_AioClient.run t l)) i = Some tk -> M_AioClient.t_pc tk = M_AioClient.Drain1 n c -> M_AioClient.t_addr tk = Ok a -> to_stream (M_AioClient.t_req tk) = Raise e ->
  nth_error (M_AioClient.s_links (M_AioClient.run t l)) c = Some k -> nth_error (M_AioClient.s_links (M_AioClient.run t (l ++ M_AioClient.DrainOk i :: l2))) c = Some k' ->
  M_AioClient.k_frames k' = M_AioClient.k_frames k.
Proof. exact L_AioClient7.bad_deaf. Qed.
Print Assumptions C74_connection_is_deaf_refuted.
(** ... and the other calls waiting there for an answer hang, whatever the server sends there. *)
Theorem C74_other_calls_hang_refuted : forall t l l2 i tk a n c e k j tj ev rid,
  nth_error (M_AioClient.s_tasks (M_AioClient.run t l)) i = Some tk -> M_AioClient.t_pc tk = M_AioClient.Drain1 n c -> M_AioClient.t_addr tk = Ok a -> to_stream (M_AioClient.t_req tk) = Raise e ->
  nth_error (M_AioClient.s_links (M_AioClient.run t l)) c = Some k ->
  nth_error (M_AioClient.s_tasks (M_AioClient.run t l)) j = Some tj -> M_AioClient.t_pc tj = M_AioClient.WaitResp ev -> p_request_id (M_AioClient.t_req tj) = PInt rid -> ~ In (M_AioClient.Cancel j) l2 ->
  (forall frame f, In frame (M_AioClient.k_frames k) -> response_layout frame f -> fr_request_id f <> rid) ->
  (forall c' k' frame f, c' <> c -> nth_error (M_AioClient.s_links (M_AioClient.run t (l ++ M_AioClient.DrainOk i :: l2))) c' = Some k' -> In frame (M_AioClient.k_frames k') -> response_layout frame f -> fr_request_id f <> rid) ->
  nth_error (M_AioClient.s_tasks (M_AioClient.run t (l ++ M_AioClient.DrainOk i :: l2))) j = Some tj.
Proof. exact L_AioClient7.bad_hangs. Qed.
Print Assumptions C74_other_calls_hang_refuted.
(** What holds: no byte of such a request is written, ... *)
Theorem C74_nothing_is_written_partial : forall t l i tk, nth_error (M_AioClient.s_tasks (M_AioClient.run t l)) i = Some tk -> (forall bs, to_stream (M_AioClient.t_req tk) <> Ok bs) ->
  L_AioClient6.sends i (M_AioClient.init t) l = [].
Proof. exact L_AioClient7.bad_unsent. Qed.
Print Assumptions C74_nothing_is_written_partial.
(** ... it returns no value, and the connections it was not about to be written to are not touched.
    Missing: that the one it was about to be written to is not touched, which is false. *)
Theorem C74_returns_no_value_partial : forall t l i tk p, nth_error (M_AioClient.s_tasks (M_AioClient.run t l)) i = Some tk -> (forall bs, to_stream (M_AioClient.t_req tk) <> Ok bs) ->
  M_AioClient.t_pc tk <> M_AioClient.Done (M_AioClient.RetPkg p).
Proof. exact L_AioClient7.not_returned. Qed.
Print Assumptions C74_returns_no_value_partial.
Theorem C74_other_connections_partial : forall t l i tk a n c e c',
  nth_error (M_AioClient.s_tasks (M_AioClient.run t l)) i = Some tk -> M_AioClient.t_pc tk = M_AioClient.Drain1 n c -> M_AioClient.t_addr tk = Ok a -> to_stream (M_AioClient.t_req tk) = Raise e -> c' <> c ->
  nth_error (M_AioClient.s_links (M_AioClient.run t (l ++ [M_AioClient.DrainOk i]))) c' = nth_error (M_AioClient.s_links (M_AioClient.run t l)) c'.
Proof. intros t l i tk a n c e c' Hi Hp Ha He Nx. unfold M_AioClient.run. rewrite fold_left_app. exact (L_AioClient7.bad_local _ i tk a n c e c' Hi Hp Ha He Nx). Qed.
Print Assumptions C74_other_connections_partial.
(** call 0 waits on connection 0; call 1 has a timeout of 1.5; the answer to call 0 arrives and is not read *)
Definition bad9 : pkg := P_Aio.get (new_request [(str "service", str "s")] (PBytes (bytes_lit "hi")) PTYPE_REQUEST (PFloat 3 2) 9).
Definition l74 : list M_AioClient.step := P_Aio.started P_Aio.req7 ++ [M_AioClient.Call bad9 (Ok 1); M_AioClient.Run 1].
Definition m74 : list M_AioClient.step := P_Aio.fed (P_Aio.answer 7 0 2 (bytes_lit "for7")) ++ [M_AioClient.Wake 0].
Example C74_case : to_stream bad9 = Raise EncodeError /\ P_Aio.pcs (M_AioClient.run M_AioClient.NoTimer l74) = [M_AioClient.WaitResp 0; M_AioClient.Drain1 3 0] /\
  (let s := M_AioClient.run M_AioClient.NoTimer (l74 ++ M_AioClient.DrainOk 1 :: m74) in P_Aio.pcs s = [M_AioClient.WaitResp 0; M_AioClient.WaitLock 2 1] /\
    map M_AioClient.k_frames (M_AioClient.s_links s) = [[]] /\ map (fun k => len (M_AioClient.k_buf k)) (M_AioClient.s_links s) = [len (P_Aio.answer 7 0 2 (bytes_lit "for7"))] /\ M_AioClient.s_req s = [(7, 0%nat); (9, 1%nat)]) /\
  P_Aio.pcs (M_AioClient.run M_AioClient.NoTimer (P_Aio.started P_Aio.req7 ++ m74)) = [M_AioClient.Done (M_AioClient.RetPkg (P_Aio.get (from_stream BoltResponse (P_Aio.answer 7 0 2 (bytes_lit "for7")))))].
Proof. vm_compute. repeat split. Qed.

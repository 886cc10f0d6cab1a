(** Property theorems C86: what the clients write on their connections. The words [frame_of], [beat_frame], [asked] and
    [given] are in S_Written, [invocations] in S_Front, [request_layout] in S_Wire. *)
From Coq Require Import Strings.String ZifyBool.
From Verif Require Import PyBase PyDict PyInt Struct M_SofaHeader M_Package S_Wire M_RpcId M_Trace L_Trace2 M_SyncClient M_AioServer M_System M_Front S_Front S_Written L_Written P_System P_SyncSystem.
From Verif Require M_AioClient.
Open Scope Z_scope.

(** ** C86. The full property, that everything written is the request of one of the calls, as asked for, one-way calls
    as one-way requests, is false of the asyncio client: it never writes a one-way request. *)
Theorem C86_one_way_refuted : forall U t l c bs f, In (c, bs) (M_AioClient.s_written (w_client U t (w_run U t l))) -> request_layout bs f -> fr_type f = 1.
Proof. exact never_one_way. Qed.
Print Assumptions C86_one_way_refuted.
(** All else holds. Missing: type 2 for invoke_oneway. *)
Theorem C86_asyncio_partial : forall U t l c bs, In (c, bs) (M_AioClient.s_written (w_client U t (w_run U t l))) ->
  (exists k d rid a, In (k, d, rid, a) (invocations l) /\ frame_of d 1 rid (asked k d) bs) \/ (exists rid, In (WSys (YClient (M_AioClient.Beat rid))) l /\ beat_frame rid bs).
Proof. exact written. Qed.
Print Assumptions C86_asyncio_partial.
(** The synchronous client writes a part from the start (C36), or all, of one frame for each call. *)
Theorem C86_sync_call : forall d h timeout rid atts back srv evs log r c x, build_header (y_baggage d) (y_interface d) (y_method d) (y_app d) (y_uid d) (y_extra d) = Ok h ->
  invoke_sync h (PBytes (y_content d)) timeout rid atts back srv evs = (log, r) -> In (c, x) log -> exists bs k, x = py_take k bs /\ frame_of d 1 rid (given timeout) bs.
Proof. exact sync_frames. Qed.
Print Assumptions C86_sync_call.
Theorem C86_sync_one_way : forall d h rid atts back log r c x, build_header (y_baggage d) (y_interface d) (y_method d) (y_app d) (y_uid d) (y_extra d) = Ok h ->
  invoke_oneway h (PBytes (y_content d)) rid atts back = (log, r) -> In (c, x) log -> exists bs k, x = py_take k bs /\ frame_of d 2 rid (fun t => t = -1) bs.
Proof. exact oneway_frames. Qed.
Print Assumptions C86_sync_one_way.

(** a one-way call of the asyncio client: the second byte of what it writes is 1; of the synchronous client: 2 *)
Definition f86 : list fstep := WInvoke AOneway d7 7 (Ok 1) :: map WSys (cl [M_AioClient.Run 0; M_AioClient.Acquire 0] ++ [YDial 0 reg78 t_init] ++ cl [M_AioClient.DrainOk 0]).
Example C86_case : map (fun x => (fst x, firstn 2 (snd x))) (M_AioClient.s_written (w_client ascii_tables M_AioClient.NoTimer (w_run ascii_tables M_AioClient.NoTimer f86))) = [(0%nat, [Byte.x01; Byte.x01])] /\
  map (fun x => (fst x, firstn 2 (snd x))) (fst (invoke_oneway h7 (PBytes (bytes_lit "hi")) 7 atts7 (Ok tt))) = [(4%nat, [Byte.x01; Byte.x02])] /\
  map (fun x => (fst x, firstn 4 (skipn 10 (snd x)))) (fst (invoke_sync h7 (PBytes (bytes_lit "hi")) (PInt 50) 7 atts7 (Ok tt) [] [])) = [(4%nat, [Byte.x00; Byte.x00; Byte.x00; Byte.x32])] /\
  plain P_System.d7 /\ build_header (y_baggage P_System.d7) (y_interface P_System.d7) (y_method P_System.d7) (y_app P_System.d7) (y_uid P_System.d7) (y_extra P_System.d7) = Ok h7.
Proof.
  split; [vm_compute; reflexivity|]. split; [vm_compute; reflexivity|]. split; [vm_compute; reflexivity|]. split; [|vm_compute; reflexivity].
  split; [vm_compute; repeat constructor; cbn; intuition discriminate|]. split; [vm_compute; repeat constructor; cbn; intuition discriminate|]. vm_compute. intuition discriminate.
Qed.

(** Property theorems C88, C89: the asyncio listener with all its connections. [lrun U reg l] is the state after the
    steps [l], which say who connects, what arrives when, which coroutine and which worker thread runs next, and when
    methods end. [call_state s c j]: how far the j-th method call asked for on connection c is. [executing s x]: the
    calls in x are all different and their methods are running. [starts_in U o s c j]: step o calls the method. *)
From Coq Require Import Strings.String Lia.
From Verif Require Import PyBase PyDict PyInt Struct M_SofaHeader M_Package M_RpcId M_Trace L_Trace2 S_Wire M_AioServer S_Server L_AioServer M_Listener S_Listener L_Listener P_AioServer.
Open Scope nat_scope.

(** ** C88 *)
Theorem C88_at_most_30 : forall U reg l x, executing (lrun U reg l) x -> List.length x <= 30.
Proof. exact bound. Qed.
Print Assumptions C88_at_most_30.

(** a call asked for earlier, on whatever connection, no longer waits when a later one starts *)
Theorem C88_in_order : forall U reg l1 l2 o cx jx cy jy,
  call_state (lrun U reg l1) cx jx <> None -> call_state (lrun U reg l1) cy jy = None ->
  starts_in U o (lrun U reg (l1 ++ l2)) cy jy -> call_state (lrun U reg (l1 ++ l2)) cx jx <> Some JQueued.
Proof. exact in_order. Qed.
Print Assumptions C88_in_order.

(** let the workers take calls: soon all 30 are busy or no call waits *)
Theorem C88_no_idle_worker : forall U reg l, exists k,
  (exists x, executing (takes U k (lrun U reg l)) x /\ List.length x = 30) \/ forall c j, call_state (takes U k (lrun U reg l)) c j <> Some JQueued.
Proof. exact no_idle_run. Qed.
Print Assumptions C88_no_idle_worker.

(** each connection is served as C49 to C57 say, with the registry all of them share *)
Theorem C88_connection : forall U reg l c k, nth_error (n_conns (lrun U reg l)) c = Some k ->
  exists reg0 tr h, k = srun U reg0 tr h /\ fed h = received U c (linit reg) l /\ v_reg k = n_reg (lrun U reg l).
Proof. exact connection. Qed.
Print Assumptions C88_connection.

(** ** C89 *)
(** while 30 methods run and none ends, a waiting call without a timeout is not started nor answered *)
Theorem C89_stuck_refuted : forall U reg l1 l2 x c k i n q j, let s := lrun U reg l1 in
  executing s x -> List.length x = 30 ->
  nth_error (n_conns s) c = Some k -> answering k i n (Some q) (TWait j) -> (q_timeout q <= 0)%Z -> call_state s c j = Some JQueued -> Forall nothing_ends l2 ->
  (forall l o, l2 = l ++ [o] -> ~ starts_in U o (lrun U reg (l1 ++ l)) c j) /\
  forall k', nth_error (n_conns (lrun U reg (l1 ++ l2))) c = Some k' -> v_closed k' = false -> answering k' i n (Some q) (TWait j) /\ answers n k' = [].
Proof. exact stuck_call. Qed.
Print Assumptions C89_stuck_refuted.

(** 30 requests on connection 0, all given up by the server and answered TIMEOUT, whose methods still run; then one
    request for an offered method on connection 1 *)
Definition on (c : nat) (l : list sstep) : list lstep := map (LConn c) l.
Definition hung : list lstep :=
  LAccept t_init :: on 0 (Feed (concat (map (fun i => req 1 (Z.of_nat i) (hdr "svc" "m") "hi" 100) (seq 0 30))) :: reads 30 ++ map (fun i => Dispatch i (str "T")) (seq 0 30)) ++
  repeat LTake 30 ++ on 0 (map Expire (seq 0 30) ++ map (fun i => Drain i true) (seq 0 30)).
Definition then1 : list lstep := LAccept t_init :: on 1 (Feed (req 1 7 (hdr "svc" "m") "hi" 0) :: reads 1 ++ [Dispatch 0 (str "T")]).
Definition lgo (l : list lstep) : lst := lrun ascii_tables reg0 l.
Example C89_case : let s := lgo (hung ++ then1) in
  executing s (map (pair 0) (seq 0 30)) /\ List.length (map (pair 0) (seq 0 30)) = 30 /\
  (exists k0, nth_error (n_conns s) 0 = Some k0 /\ map snd (v_out k0) = map (fun i => reply (Z.of_nat i) 2 7 []) (seq 0 30)) /\
  exists k, nth_error (n_conns s) 1 = Some k /\ answering k 0 0 (Some (q0 1 7 (hdr "svc" "m") "hi" 0)) (TWait 0) /\ call_state s 1 0 = Some JQueued /\ offers (v_reg k) (str "svc") (str "m").
Proof.
  split; [split; [repeat constructor; cbn [In map]; intros H; repeat (destruct H as [H|H]; [discriminate H|]); destruct H|]|].
  - apply Forall_forall. intros (c, j) H. apply in_map_iff in H as (j0 & E & H). injection E as <- <-. apply in_seq in H. do 30 (destruct j0 as [|j0]; [vm_compute; reflexivity|]). exfalso. lia.
  - split; [reflexivity|]. split; [eexists; split; [vm_compute; reflexivity|vm_compute; reflexivity]|]. eexists. split; [vm_compute; reflexivity|]. split; [vm_compute; reflexivity|]. split; [vm_compute; reflexivity|]. exists (svc None). repeat split.
Qed.

(** as long as running methods end, every waiting call can be started by the workers alone *)
Theorem C89_started_partial : forall U reg l c j, call_state (lrun U reg l) c j = Some JQueued ->
  exists l2, Forall only_workers l2 /\ call_state (lrun U reg (l ++ l2)) c j = Some JRunning.
Proof. exact can_start_run. Qed.
Print Assumptions C89_started_partial.

(** two connections, three calls: the workers start them in the order of the requests, and one method ends *)
Definition three : list lstep :=
  [LAccept t_init; LAccept t_init] ++ on 1 (Feed (req 1 7 (hdr "svc" "m") "hi" 0) :: reads 1 ++ [Dispatch 0 (str "T")]) ++
  on 0 (Feed (req 1 7 (hdr "svc" "m") "hi" 0 ++ req 1 8 (hdr "svc" "m") "ho" 0) :: reads 2 ++ [Dispatch 1 (str "T"); Dispatch 0 (str "T")]).
Example C88_case : let s := lgo three in let s2 := takes ascii_tables 2 s in
  (call_state s 1 0, call_state s 0 0, call_state s 0 1) = (Some JQueued, Some JQueued, Some JQueued) /\
  (call_state s2 1 0, call_state s2 0 0, call_state s2 0 1) = (Some JRunning, Some JRunning, Some JQueued) /\ executing s2 [(1, 0); (0, 0)] /\ starts_in ascii_tables LTake s2 0 1 /\
  received ascii_tables 1 (linit reg0) three = req 1 7 (hdr "svc" "m") "hi" 0 /\ List.length (n_conns s) = 2.
Proof. split; [vm_compute; reflexivity|]. split; [vm_compute; reflexivity|]. split; [split; [constructor; [cbn; intros [H|[]]; discriminate|repeat constructor; intros []]|repeat constructor]|]. split; [split; vm_compute; reflexivity|]. split; vm_compute; reflexivity. Qed.

(** Property theorems C97 and C110: starting and stopping the listeners. [k_run l]: the threaded listener after the steps l
    (calls of run_forever and shutdown, connections, and which thread goes on); [g_run U reg l]: the asyncio listener.
    [runs l], [shutdowns l]: how often run_forever, shutdown are called; [turns r l]: how often thread r goes on. *)
From Coq Require Import Strings.String Lia.
From Verif Require Import PyBase PyDict PyInt Struct M_SofaHeader M_Package M_RpcId M_Trace L_Trace2 S_Wire M_AioServer S_Server M_Listener P_AioServer P_Listener M_Lifecycle S_Lifecycle L_Lifecycle L_Lifecycle2 L_Lifecycle3.
Open Scope nat_scope.

(** ** The threaded listener *)
(** as long as shutdown is not called, run_forever serves every connection, each after at most four of its steps *)
Theorem C97_threaded_serves : forall l1 l2 r, runs (l1 ++ l2) <= 1 -> shutdowns (l1 ++ l2) = 0 ->
  let s := k_run l1 in server_thread s r -> 4 * List.length (k_waiting s) + 5 <= turns r l2 ->
  forall c, In c (k_waiting s) -> In c (k_served (k_from s l2)).
Proof. exact threaded_serves. Qed.
Print Assumptions C97_threaded_serves.

(** once shutdown has returned, run_forever has returned and no connection is served any more *)
Theorem C97_threaded_stops_partial : forall l1 l2, runs l1 <= 1 -> runs l2 = 0 -> let s := k_run l1 in shutdown_returned s ->
  k_served (k_from s l2) = k_served s /\ (exists r, run_returned s r) /\ (forall r, server_thread s r -> run_returned s r).
Proof. exact threaded_stops. Qed.
Print Assumptions C97_threaded_stops_partial.

(** once shutdown has made its request, also before run_forever was called, run_forever returns after five steps, and
    every call of shutdown that waits returns when its thread goes on *)
Theorem C97_threaded_ends_partial : forall l1 l2 r, runs (l1 ++ l2) <= 1 -> let s := k_run l1 in server_thread s r -> shutdown_asked s -> 5 <= turns r l2 ->
  run_returned (k_from s l2) r /\
  forall i, nth_error (k_threads (k_from s l2)) i = Some (KStop HWait) -> nth_error (k_threads (k_step (KGo i) (k_from s l2))) i = Some (KStop HReturned).
Proof. exact threaded_ends. Qed.
Print Assumptions C97_threaded_ends_partial.

(** but shutdown never returns if run_forever is never called *)
Theorem C97_threaded_not_started_refuted : forall l, runs l = 0 -> ~ shutdown_returned (k_run l).
Proof. exact threaded_not_started. Qed.
Print Assumptions C97_threaded_not_started_refuted.

(** and after shutdown has returned a client that connects is not refused: it is connected and never served *)
Theorem C97_threaded_unserved_refuted : forall l1 l2, runs l1 <= 1 -> runs l2 = 0 -> let s := k_run l1 in shutdown_returned s ->
  In (k_next s) (k_waiting (k_from (k_step KConnect s) l2)) /\ k_refused (k_from (k_step KConnect s) l2) = [] /\ k_served (k_from (k_step KConnect s) l2) = k_served s.
Proof. exact threaded_unserved. Qed.
Print Assumptions C97_threaded_unserved_refuted.

(** every client that connects is served or still waits, exactly one of the two, and they are served in the order in which
    they connected; nobody is refused *)
Theorem C97_threaded_every_client : forall l, k_refused (k_run l) = [] /\ k_served (k_run l) ++ k_waiting (k_run l) = seq 0 (kconnects l).
Proof. exact threaded_clients. Qed.
Print Assumptions C97_threaded_every_client.

(** run_forever in thread 0; two clients connect; shutdown in thread 1; another client *)
Definition up : list kstep := [KRun; KGo 0; KConnect; KConnect].
Definition down : list kstep := [KGo 0; KGo 0; KShutdown; KGo 1; KGo 0; KGo 1; KGo 0; KGo 0].
Example C97_threaded_case :
  k_waiting (k_run up) = [0; 1] /\ server_thread (k_run up) 0 /\ k_served (k_from (k_run up) (repeat (KGo 0) 13)) = [0; 1] /\
  (let s := k_run (up ++ repeat (KGo 0) 4 ++ down) in k_served s = [0] /\ k_waiting s = [1] /\ shutdown_asked s /\ run_returned s 0 /\ ~ shutdown_returned s) /\
  (let s := k_run (up ++ repeat (KGo 0) 4 ++ down ++ [KGo 1]) in shutdown_returned s /\ k_next s = 2 /\ k_waiting (k_step KConnect s) = [1; 2]) /\
  runs (up ++ repeat (KGo 0) 4 ++ down ++ [KGo 1]) = 1.
Proof.
  split; [reflexivity|]. split; [eexists; reflexivity|]. split; [reflexivity|]. split.
  - split; [reflexivity|]. split; [reflexivity|]. split; [exists 1; eexists; split; [reflexivity|discriminate]|]. split; [reflexivity|]. intros (i & H). vm_compute in H. destruct i as [|[|[|i]]]; discriminate.
  - split; [|reflexivity]. split; [exists 1; reflexivity|]. split; reflexivity.
Qed.

(** ** C110. False of this code in general: once shutdown was called again after it has returned, the next run_forever
    returns at once and serves nobody. *)
Theorem C110_stopped_twice_refuted : forall l1, runs l1 <= 1 -> let s := k_run l1 in shutdown_returned s -> let i := List.length (k_threads s) in
  let s1 := k_from s [KShutdown; KGo i; KGo i] in let s2 := k_from s1 [KRun; KGo (S i); KGo (S i); KGo (S i); KGo (S i)] in
  nth_error (k_threads s1) i = Some (KStop HReturned) /\ run_returned s2 (S i) /\ k_served s2 = k_served s /\ k_waiting s2 = k_waiting s.
Proof. exact second_shutdown. Qed.
Print Assumptions C110_stopped_twice_refuted.

(** What holds: after one call of shutdown, which has returned, a new call of run_forever serves every client that is
    connected, also those that connected while nobody was serving.
    Missing: the same after more than one call of shutdown, which is false. *)
Theorem C110_starts_again_partial : forall l1 l2, runs l1 <= 1 -> shutdowns l1 <= 1 -> let s := k_run l1 in shutdown_returned s -> runs l2 = 0 -> shutdowns l2 = 0 ->
  4 * List.length (k_waiting s) + 5 <= turns (List.length (k_threads s)) l2 -> forall c, In c (k_waiting s) -> In c (k_served (k_from (k_step KRun s) l2)).
Proof. exact restarts. Qed.
Print Assumptions C110_starts_again_partial.

(** the history of C97_threaded_case, with a client that connects after the shutdown *)
Example C110_case : let l := up ++ repeat (KGo 0) 4 ++ down ++ [KGo 1; KConnect] in let s := k_run l in
  runs l = 1 /\ shutdowns l = 1 /\ shutdown_returned s /\ k_waiting s = [1; 2] /\ List.length (k_threads s) = 2 /\
  k_served (k_from (k_step KRun s) (repeat (KGo 2) 13)) = [0; 1; 2] /\
  k_waiting (k_from s [KShutdown; KGo 2; KGo 2; KRun; KGo 3; KGo 3; KGo 3; KGo 3; KGo 3]) = [1; 2].
Proof. repeat (split; [first [reflexivity|exists 1; reflexivity]|]). reflexivity. Qed.

(** ** The asyncio listener *)
(** once a shutdown that found the server started has returned, no connection is accepted any more and every client
    that connects is refused *)
Theorem C97_asyncio_stops_partial : forall U reg l1 l2, let s := g_run U reg l1 in closed_by_shutdown s ->
  accepted (g_from U s l2) = accepted s /\ g_refused (g_from U s l2) = g_refused s + connects l2.
Proof. exact asyncio_stops. Qed.
Print Assumptions C97_asyncio_stops_partial.

(** but run_forever never returns: its loop runs on whatever is called *)
Theorem C97_asyncio_runs_on_refuted : forall U reg l1 l2,
  g_pc (g_run U reg l1) <> GReturned /\ (g_pc (g_run U reg l1) = GRunning -> g_pc (g_run U reg (l1 ++ l2)) = GRunning).
Proof. exact asyncio_runs_on. Qed.
Print Assumptions C97_asyncio_runs_on_refuted.

(** and so the connections that were accepted are served as before, requests that arrive on them included: they go on
    exactly as in M_Listener, whether shutdown was called or not *)
Theorem C97_asyncio_goes_on_refuted : forall U reg l1, let s := g_run U reg l1 in g_pc s = GRunning -> forall l2, (forall tr, ~ In (LAccept tr) l2) ->
  g_lst (g_from U s (map GList l2)) = fold_left (fun x o => lrun_step U o x) l2 (g_lst s).
Proof. exact asyncio_goes_on. Qed.
Print Assumptions C97_asyncio_goes_on_refuted.

(** and a shutdown that comes before the server is started returns and changes nothing; clients are accepted later *)
Theorem C97_asyncio_lost_refuted : forall U reg l1 tr, let s := g_run U reg l1 in let i := List.length (g_stops s) in g_server s = false ->
  let s1 := g_from U s [GShutdown; GGo i] in
  nth_error (g_stops s1) i = Some (AReturned false) /\ g_pc s1 = g_pc s /\ g_open s1 = g_open s /\ g_lst s1 = g_lst s /\
  (g_pc s = GStarting -> accepted (g_from U s1 [GRun true; GRun true; GConnect; GList (LAccept tr)]) = S (accepted s)).
Proof. exact asyncio_lost. Qed.
Print Assumptions C97_asyncio_lost_refuted.

(** a shutdown that comes when the server is started returns after three steps of its thread, whatever else happens; the
    socket is closed then and nobody waits to be accepted *)
Theorem C97_asyncio_shutdown_returns_partial : forall U reg l1 l2, let s := g_run U reg l1 in let i := List.length (g_stops s) in g_server s = true -> 3 <= goes i l2 ->
  let s2 := g_from U (g_step U GShutdown s) l2 in nth_error (g_stops s2) i = Some (AReturned true) /\ g_open s2 = false /\ g_waiting s2 = 0.
Proof. exact asyncio_shutdown_done. Qed.
Print Assumptions C97_asyncio_shutdown_returns_partial.

(** every client that connects is accepted, waits, or is refused *)
Theorem C97_asyncio_every_client : forall U reg l, let s := g_run U reg l in accepted s + g_waiting s + g_refused s = connects l.
Proof. exact asyncio_clients. Qed.
Print Assumptions C97_asyncio_every_client.

(** until the address is bound every client is refused *)
Theorem C97_asyncio_before_start : forall U reg l, let s := g_run U reg l in g_pc s <> GBound -> g_pc s <> GRunning -> g_refused s = connects l.
Proof. exact asyncio_before. Qed.
Print Assumptions C97_asyncio_before_start.
Example C97_asyncio_before_case : let s := g_run ascii_tables reg0 [GConnect; GRun true; GConnect; GRun false; GConnect] in g_pc s <> GBound /\ g_pc s <> GRunning /\ g_refused s = 3.
Proof. vm_compute. repeat split; discriminate || reflexivity. Qed.

(** what C88 says of the connections of a running listener (M_Listener) holds throughout *)
Theorem C97_asyncio_listener : forall U reg l, exists h, g_lst (g_run U reg l) = lrun U reg h.
Proof. exact asyncio_listener. Qed.
Print Assumptions C97_asyncio_listener.

(** a client is accepted, shutdown returns, another client is refused; then a request of the first client arrives, its
    method is called and it is answered *)
Definition started : list gstep := [GRun true; GRun true; GRun true; GConnect; GList (LAccept t_init)].
Definition stopped : list gstep := started ++ [GShutdown; GGo 0; GConnect; GGo 0; GGo 0; GConnect].
Definition late_request : list lstep := on 0 (Feed (req 1 7 (hdr "svc" "m") "hi" 0) :: reads 1 ++ [Dispatch 0 (str "T")]) ++ [LTake] ++ on 0 [JobEnd 0 (Ok (PBytes (bytes_lit "done"))); Result 0; Drain 0 true].
Example C97_asyncio_case : let s := g_run ascii_tables reg0 stopped in
  closed_by_shutdown s /\ g_pc s = GRunning /\ accepted s = 1 /\ g_refused s = 2 /\ (forall tr, ~ In (LAccept tr) late_request) /\
  g_pc (g_run ascii_tables reg0 [GRun true]) = GStarting /\ g_server (g_run ascii_tables reg0 [GRun true]) = false /\
  exists k, nth_error (n_conns (g_lst (g_from ascii_tables s (map GList late_request)))) 0 = Some k /\ map j_state (v_jobs k) = [JEnded (Ok (PBytes (bytes_lit "done")))] /\ map snd (v_out k) = [reply 7 2 0 (bytes_lit "done")].
Proof.
  split; [exists 0; vm_compute; reflexivity|]. split; [vm_compute; reflexivity|]. split; [vm_compute; reflexivity|]. split; [vm_compute; reflexivity|].
  split; [intros tr H; cbn in H; repeat destruct H as [H|H]; discriminate || destruct H|]. split; [vm_compute; reflexivity|]. split; [vm_compute; reflexivity|].
  eexists. split; [vm_compute; reflexivity|]. split; vm_compute; reflexivity.
Qed.

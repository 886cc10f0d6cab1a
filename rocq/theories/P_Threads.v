(** Property theorems C90-C93: objects that several threads use at once. Each thread makes one call; a run is given by
    the schedule, the list of the threads that move. [map_run d ops l]: SERVICE_MAP, from the content d, thread i doing
    ops[i]. [up_run ans info calls l]: one MeshClient. [rpc_run U h parents l]: thread t makes a child of the rpc id
    parents[t]. [pub_run ans port app reg l]: a thread in publish() while others register interfaces. *)
From Coq Require Import Strings.String.
From Verif Require Import PyBase PyDict PyInt M_RpcId M_Mesh S_Mesh M_AioServer M_Threads S_Threads L_Threads L_Threads2 L_Threads3 L_Threads4.
Open Scope nat_scope.

(** ** C90. Full property: when threads assign a name that is not in the map, one gets it and the others get KeyError,
    and the address does not change. False: *)
Theorem C90_both_refuted : forall d k a b, dget k d = None ->
  dget k (ms_map (map_run d [Assign k a; Assign k b] [0; 1; 0])) = Some a /\
  dget k (ms_map (map_run d [Assign k a; Assign k b] [0; 1; 0; 1])) = Some b /\
  ms_threads (map_run d [Assign k a; Assign k b] [0; 1; 0; 1]) = [MDone (Ok tt); MDone (Ok tt)].
Proof. exact both_assign. Qed.
Print Assumptions C90_both_refuted.

(** Proved: once the name is there and no thread is in the middle of assigning it, it stays, and who assigns it then
    gets KeyError *)
Theorem C90_settled_partial : forall d ops l1 l2 k v,
  ~ In (Remove k) ops -> ~ assigning (map_run d ops l1) k -> dget k (ms_map (map_run d ops l1)) = Some v ->
  dget k (ms_map (map_run d ops (l1 ++ l2))) = Some v /\
  forall j w r, nth_error (ms_threads (map_run d ops l1)) j = Some (MCall (Assign k w)) -> nth_error (ms_threads (map_run d ops (l1 ++ l2))) j = Some (MDone r) -> r = Raise KeyError.
Proof. exact settled. Qed.
Print Assumptions C90_settled_partial.

(** and the only thread that uses a name is not disturbed by what the others do with other names *)
Theorem C90_sole_partial : forall d ops l i k v, nth_error ops i = Some (Assign k v) -> (forall j o, nth_error ops j = Some o -> j <> i -> op_key o <> k) ->
  let s := map_run d ops l in
  match nth_error (ms_threads s) i with
  | Some (MDone r) => match dget k d with None => r = Ok tt /\ dget k (ms_map s) = Some v | Some w => r = Raise KeyError /\ dget k (ms_map s) = Some w end
  | Some _ => dget k (ms_map s) = dget k d
  | None => False
  end.
Proof. exact sole. Qed.
Print Assumptions C90_sole_partial.

(** threads that remove one name which nobody assigns: at most one returns, every other one gets KeyError; as soon as one
    has ended the name is gone, and one has returned exactly when the name was in the map before *)
Theorem C90_removed_once_partial : forall d ops l k, wf_dict d -> (forall v, ~ In (Assign k v) ops) -> let s := map_run d ops l in
  (forall j r, nth_error ops j = Some (Remove k) -> nth_error (ms_threads s) j = Some (MDone r) -> r = Ok tt \/ r = Raise KeyError) /\
  (forall i j, nth_error ops i = Some (Remove k) -> nth_error ops j = Some (Remove k) -> nth_error (ms_threads s) i = Some (MDone (Ok tt)) -> nth_error (ms_threads s) j = Some (MDone (Ok tt)) -> i = j) /\
  ((exists j r, nth_error ops j = Some (Remove k) /\ nth_error (ms_threads s) j = Some (MDone r)) ->
     dget k (ms_map s) = None /\ (dget k d <> None <-> exists i, nth_error ops i = Some (Remove k) /\ nth_error (ms_threads s) i = Some (MDone (Ok tt)))).
Proof. exact one_removes. Qed.
Print Assumptions C90_removed_once_partial.
Example C90_removed_case : let ops := [Remove (str "a"); Remove (str "a"); Assign (str "b") (Host (str "h"))] in let d := [(str "a", Host (str "x"))] in
  wf_dict d /\ (forall v, ~ In (Assign (str "a") v) ops) /\ ms_threads (map_run d ops [1; 2; 0; 2]) = [MDone (Raise KeyError); MDone (Ok tt); MDone (Ok tt)].
Proof.
  split; [repeat constructor; intros H; destruct H|]. split; [|vm_compute; reflexivity]. intros v H. repeat (destruct H as [H|H]; [discriminate H|]). destruct H.
Qed.
Example C90_case : let ops := [Assign (str "a") (Host (str "h")); Assign (str "a") (Host (str "x")); Assign (str "b") (HostPort (str "g") 1); Remove (str "c")] in
  let s1 := map_run [] ops [0; 2; 0] in let s2 := map_run [] ops ([0; 2; 0] ++ [1; 3; 2]) in
  ~ In (Remove (str "a")) ops /\ ~ assigning s1 (str "a") /\ dget (str "a") (ms_map s1) = Some (Host (str "h")) /\
  nth_error (ms_threads s1) 1 = Some (MCall (Assign (str "a") (Host (str "x")))) /\
  ms_threads s2 = [MDone (Ok tt); MDone (Raise KeyError); MDone (Ok tt); MDone (Raise KeyError)] /\ keys (ms_map s2) = [str "a"; str "b"].
Proof.
  split; [intros H; repeat (destruct H as [H|H]; [discriminate H|]); destruct H|]. split; [|vm_compute; repeat split].
  intros (i & v & H). do 4 (destruct i as [|i]; [vm_compute in H; discriminate H|]). destruct i; discriminate H.
Qed.

(** ** C91 *)
Theorem C91_once : forall ans info calls l n doc n' doc', mesh_calls calls -> let s := up_run ans info calls l in
  posted (ss_log s) n (str "configs/application") doc ->
  doc = appinfo_doc info /\ (accepted (ans n) -> posted (ss_log s) n' (str "configs/application") doc' -> n' <= n).
Proof. exact up_once. Qed.
Print Assumptions C91_once.

Theorem C91_result : forall ans info calls l i r, mesh_calls calls -> let s := up_run ans info calls l in nth_error (ss_threads s) i = Some (SDone r) ->
  (r = Ok true /\ exists n doc, posted (ss_log s) n (str "configs/application") doc /\ accepted (ans n)) \/
  exists e n doc, r = Raise e /\ posted (ss_log s) n (str "configs/application") doc /\ post_result (ans n) = Raise e.
Proof. exact up_result. Qed.
Print Assumptions C91_result.

(** no deadlock: from everywhere all the calls can be ended; and no livelock: at most 5 steps for each call *)
Theorem C91_finish : forall ans info calls l, mesh_calls calls -> exists l2, Forall finished (ss_threads (up_run ans info calls (l ++ l2))).
Proof. exact up_finish. Qed.
Print Assumptions C91_finish.

Theorem C91_bounded : forall ans info calls l n, mesh_calls calls -> effective ans info (up_init calls) l n -> n <= 5 * List.length calls.
Proof. exact up_bounded. Qed.
Print Assumptions C91_bounded.

Definition info0 : appinfo := {| ai_appName := JStr (str "app"); ai_dataCenter := JStr []; ai_zone := JStr []; ai_registryEndPoint := JNull;
                                 ai_accessKey := JNull; ai_secretKey := JNull; ai_antShareCloud := JBool false |}.
Definition yes : answer := Answer 200 (Some (JObj [(str "success", JBool true)])).
Definition no : answer := Answer 500 None.
(** the first registration is refused; the second thread registers, the third finds it done; a subscription in between *)
Definition calls0 : list spc := [SCall; SCall; SCall; OCall (str "services/subscribe") (name_doc (str "svc"))].
Definition ans0 (n : nat) : answer := match n with 0 => no | _ => yes end.
Definition sched0 : list nat := [0; 1; 0; 2; 0; 3; 0; 2; 2; 1; 2; 2; 2; 1; 1; 0; 1].
Example C91_case : let s := up_run ans0 info0 calls0 sched0 in
  mesh_calls calls0 /\ map fst (ss_log s) = [str "configs/application"; str "services/subscribe"; str "configs/application"] /\
  (exists r, ss_threads s = [SDone (Raise MeshConnectionError); SDone (Ok true); SDone (Ok true); ODone r]) /\ effective ans0 info0 (up_init calls0) [0; 1; 0] 2.
Proof.
  split; [do 3 (constructor; [left; reflexivity|]); constructor; [right; exists (str "services/subscribe"), (name_doc (str "svc")); split; [reflexivity|discriminate]|constructor]|]. split; [vm_compute; reflexivity|]. split; [eexists; vm_compute; reflexivity|].
  cbn [effective]. right. split; [discriminate|]. exists 1. split; [reflexivity|]. left. split; [reflexivity|]. right. split; [discriminate|]. exists 0. split; reflexivity.
Qed.

(** ** C92. Full property: the children of an rpc id made by several threads have different rpc ids. False: *)
Theorem C92_same_refuted : forall U h i o, nth_error h i = Some o -> let s := rpc_run U h [i; i] [0; 1; 0; 1; 0; 1] in
  exists x y text, x <> y /\ gave s 0 x text /\ gave s 1 y text.
Proof. exact same_number. Qed.
Print Assumptions C92_same_refuted.

(** Proved for threads that do not begin to make a child of an rpc id while another thread is making one of it; what
    they do with other rpc ids may be interleaved in every way *)
Theorem C92_differ_partial : forall U h parents l t t' i x x' a b,
  one_at_a_time U {| rs_objs := h; rs_threads := map CLoad parents |} l -> t <> t' -> nth_error parents t = Some i -> nth_error parents t' = Some i ->
  let s := rpc_run U h parents l in gave s t x a -> gave s t' x' b -> a <> b.
Proof. exact numbers_differ. Qed.
Print Assumptions C92_differ_partial.
Definition heap0 : list rpcobj := [{| r_ids := [SInt 1]; r_count := 0; r_parent := None |}; {| r_ids := [SInt 1; SInt 1]; r_count := 4; r_parent := Some 0 |}].
Example C92_case : let l := [0; 1; 0; 1; 0; 1; 2; 2; 2] in
  one_at_a_time ascii_tables {| rs_objs := heap0; rs_threads := map CLoad [0; 1; 0] |} l /\
  gave (rpc_run ascii_tables heap0 [0; 1; 0] l) 0 2 (str "1.1") /\ gave (rpc_run ascii_tables heap0 [0; 1; 0] l) 1 3 (str "1.1.5") /\ gave (rpc_run ascii_tables heap0 [0; 1; 0] l) 2 4 (str "1.2") /\
  gave (rpc_run ascii_tables heap0 [0; 0] [0; 1; 0; 1; 0; 1]) 0 2 (str "1.1") /\ gave (rpc_run ascii_tables heap0 [0; 0] [0; 1; 0; 1; 0; 1]) 1 3 (str "1.1").
Proof.
  split; [|repeat split; try (eexists; split; vm_compute; reflexivity); vm_compute; reflexivity].
  vm_compute. repeat split; intros i E; try discriminate; injection E as <-; intros t' [D|(c & D)]; do 3 (destruct t' as [|t']; [discriminate D|]); destruct t'; discriminate.
Qed.

(** ** C93. Full property: publish() publishes every interface registered when it was called, whatever is registered
    meanwhile. False: a new interface registered before it has returned makes it raise after at most one more post *)
Theorem C93_spoiled_refuted : forall ans port app reg l1 name sv l2,
  let s := pub_run ans port app reg l1 in let s' := pub_run ans port app reg (l1 ++ PRegister name sv :: l2) in
  (forall r, ps_pc s <> PDone r) -> ~ In name (keys (ps_reg s)) ->
  ps_pc s' <> PDone (Ok tt) /\ List.length (ps_log s') <= S (List.length (ps_log s)).
Proof. exact pub_spoiled. Qed.
Print Assumptions C93_spoiled_refuted.

(** Proved: what is posted names the interfaces in the order of their registration, each once; *)
Theorem C93_prefix_partial : forall ans port app reg l, let s := pub_run ans port app reg l in
  exists n, map published_name (ps_log s) = map Some (firstn n (keys (ps_reg s))) /\ List.length (ps_log s) = n.
Proof. exact pub_prefix. Qed.
Print Assumptions C93_prefix_partial.

(** if publish() returns, all were published and accepted; *)
Theorem C93_returned_partial : forall ans port app reg l, let s := pub_run ans port app reg l in ps_pc s = PDone (Ok tt) ->
  (exists r, map published_name (ps_log s) = map Some (keys reg ++ r)) /\ forall k, k < List.length (ps_log s) -> accepted (ans k).
Proof. exact pub_returned. Qed.
Print Assumptions C93_returned_partial.

(** and it does return if the agent accepts and only interfaces already there are registered again *)
Theorem C93_all_partial : forall ans port app reg l, (forall k, k < List.length reg -> accepted (ans k)) -> (forall name, registers l name -> In name (keys reg)) ->
  let s := pub_run ans port app reg l in
  (forall e, ps_pc s <> PDone (Raise e)) /\ (2 * List.length reg + 1 <= turns l -> ps_pc s = PDone (Ok tt) /\ map published_name (ps_log s) = map Some (keys reg)).
Proof. exact pub_all. Qed.
Print Assumptions C93_all_partial.
Definition svc0 : service := {| sv_raises := None; sv_methods := fun _ => true |}.
Definition regs0 : registry := [(str "a", svc0); (str "b", svc0); (str "c", svc0)].
Definition pub0 (l : list pstep) : pst := pub_run (fun _ => yes) 12200 (str "app") regs0 l.
(** "d" registered after "a" was posted: "b" and "c" are never published; "b" registered again: nothing is lost *)
Example C93_case :
  accepted yes /\ ps_pc (pub0 [PGo; PGo]) = PNext 1 3 /\ ~ In (str "d") (keys (ps_reg (pub0 [PGo; PGo]))) /\
  (let s := pub0 ([PGo; PGo] ++ PRegister (str "d") svc0 :: [PGo; PGo; PGo; PGo; PGo; PGo; PGo]) in
   ps_pc s = PDone (Raise OtherError) /\ map published_name (ps_log s) = [Some (str "a")]) /\
  (let s := pub0 ([PGo; PGo] ++ PRegister (str "b") svc0 :: [PGo; PGo; PGo; PGo; PGo]) in
   ps_pc s = PDone (Ok tt) /\ map published_name (ps_log s) = [Some (str "a"); Some (str "b"); Some (str "c")]).
Proof.
  split; [eexists; split; reflexivity|]. split; [reflexivity|]. split; [intros H; vm_compute in H; repeat (destruct H as [H|H]; [discriminate H|]); destruct H|]. vm_compute. repeat split.
Qed.

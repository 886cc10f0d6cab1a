(** Property theorems C20-C25: service map, routing and mesh client. [ans n] is what the mesh agent
    answers to the n-th POST of the process; all theorems are for every [ans]. *)
From Coq Require Import Strings.String.
From Verif Require Import PyBase PyDict L_PyDict PyInt M_Mesh S_Mesh L_Mesh.

(** ** C20 *)
Theorem C20_assigning_existing_key_raises : forall d k v v', dget k d = Some v -> imm_set k v' d = (d, Raise KeyError).
Proof. intros d k v v' H. unfold imm_set, dmem. rewrite H. reflexivity. Qed.
Print Assumptions C20_assigning_existing_key_raises.

Theorem C20_assigning_new_key : forall d k v, dget k d = None ->
  exists d', imm_set k v d = (d', Ok tt) /\ dget k d' = Some v /\ forall k', k' <> k -> dget k' d' = dget k' d.
Proof.
  intros d k v H. exists (dset k v d). unfold imm_set, dmem. rewrite H. split; [reflexivity|]. split; [apply dget_dset_same|].
  intros k' Hk. apply dget_dset_other. exact Hk.
Qed.
Print Assumptions C20_assigning_new_key.

Theorem C20_set_once : forall pre post k v, dget k (maprun [] pre) = Some v ->
  (forall o, In o post -> o <> Remove k) -> dget k (maprun [] (pre ++ post)) = Some v.
Proof. intros pre post k v H Hn. unfold maprun. rewrite fold_left_app. exact (map_stays post _ k v H Hn). Qed.
Print Assumptions C20_set_once.

Theorem C20_removed_key_is_free : forall pre k, dget k (maprun [] (pre ++ [Remove k])) = None.
Proof.
  intros pre k. unfold maprun. rewrite fold_left_app. cbn [fold_left mapstep]. unfold imm_pop.
  destruct (dget k (fold_left mapstep pre [])) eqn:E; cbn [fst]; [|exact E]. apply dget_ddel_same. exact (map_wf pre [] (NoDup_nil _)).
Qed.
Print Assumptions C20_removed_key_is_free.

Example C20_case : maprun [] [Assign (str "a") (Host (str "h")); Assign (str "a") (Host (str "x")); Assign (str "b") (HostPort (str "g") 1);
                              Remove (str "b"); Remove (str "c"); Assign (str "b") (Host (str "y"))]
  = [(str "a", Host (str "h")); (str "b", Host (str "y"))].
Proof. vm_compute. reflexivity. Qed.

(** ** C21 *)
Theorem C21_routing : forall d i,
  (forall h p, dget i d = Some (HostPort h p) -> get_address d i = (h, p)) /\
  (forall h, dget i d = Some (Host h) -> get_address d i = (h, 12200)) /\
  (dget i d = None -> get_address d i = (str "127.0.0.1", 12220)).
Proof. intros d i. unfold get_address. repeat split; intros; match goal with H : _ = _ |- _ => rewrite H end; reflexivity. Qed.
Print Assumptions C21_routing.

(** an address assigned to an unset interface is where every later call goes, until it is removed *)
Theorem C21_assigned_address_is_used : forall pre post i a, dget i (maprun [] pre) = None ->
  (forall o, In o post -> o <> Remove i) ->
  get_address (maprun [] (pre ++ Assign i a :: post)) i = match a with Host h => (h, 12200) | HostPort h p => (h, p) end.
Proof.
  intros pre post i a H Hn. change (pre ++ Assign i a :: post) with (pre ++ [Assign i a] ++ post). rewrite app_assoc. unfold get_address.
  rewrite (C20_set_once (pre ++ [Assign i a]) post i a); [reflexivity| |exact Hn].
  unfold maprun. rewrite fold_left_app. cbn [fold_left mapstep]. unfold imm_set, dmem. change (fold_left mapstep pre []) with (maprun [] pre). rewrite H. cbn [fst]. apply dget_dset_same.
Qed.
Print Assumptions C21_assigned_address_is_used.

(** ** C22: never an exception; an interface with an accepted unsubscription goes to the mesh, every other
    interface keeps the route it had *)
Theorem C22_subscribe_keeps_routes : forall ans st0 ops, wf_dict (c_map st0) ->
  let '(st, results) := subrun ans st0 ops in
  (forall r, In r results -> r = Ok tt) /\
  forall i, (unsubscribed ans (List.length (c_log st0)) (c_log st) i -> get_address (c_map st) i = (str "127.0.0.1", 12220)) /\
            (~ unsubscribed ans (List.length (c_log st0)) (c_log st) i -> get_address (c_map st) i = get_address (c_map st0) i).
Proof. exact subscribe_routes. Qed.
Print Assumptions C22_subscribe_keeps_routes.

(** one POST per interface name, in order, whatever the outcome of the others; none without a mesh client *)
Theorem C22_posts_made : forall ans st0 ops,
  c_log (fst (subrun ans st0 ops)) = c_log st0 ++
    flat_map (fun o => match o with
                       | Sub (Some _) l => map (fun i => (str "services/subscribe", JObj [(str "serviceName", JStr i)])) l
                       | Unsub (Some _) l => map (fun i => (str "services/unsubscribe", JObj [(str "serviceName", JStr i)])) l
                       | Sub None _ | Unsub None _ => []
                       end) ops.
Proof. intros ans st0 ops. exact (subrun_log ans ops st0). Qed.
Print Assumptions C22_posts_made.

Example C22_case :
  let yes := Answer 200 (Some (JObj [(str "success", JBool true)])) in
  let info := {| ai_appName := JStr (str "app"); ai_dataCenter := JNull; ai_zone := JNull; ai_registryEndPoint := JNull;
                 ai_accessKey := JNull; ai_secretKey := JNull; ai_antShareCloud := JBool false |} in
  let mc := Some {| m_info := info; m_started := true |} in
  let st0 := {| c_map := [(str "A", Host (str "1.2.3.4")); (str "B", HostPort (str "5.6.7.8") 9)]; c_log := [] |} in
  let '(st, _) := subrun (fun n => if Nat.eqb n 1 then Answer 500 None else yes) st0 [Sub mc [str "A"; str "C"]; Unsub mc [str "B"; str "D"]; Sub None [str "E"]] in
  map (get_address (c_map st)) (map str ["A"%string; "B"%string; "C"%string; "D"%string])
  = [(str "1.2.3.4", 12200); (str "127.0.0.1", 12220); (str "127.0.0.1", 12220); (str "127.0.0.1", 12220)] /\ wf_dict (c_map st0).
Proof. split; [vm_compute; reflexivity|]. apply nodupb_str_ok. vm_compute. reflexivity. Qed.

(** ** C23: in any history of calls on one mesh client *)
Theorem C23_registered_once : forall ans a log0 ops,
  let '(log, _) := meshrun ans (log0, new_mesh a) ops in
  (forall n doc, (List.length log0 <= n)%nat -> posted log n (str "configs/application") doc -> doc = appinfo_doc a) /\
  (forall n doc n' doc', (List.length log0 <= n)%nat -> (List.length log0 <= n')%nat ->
     posted log n (str "configs/application") doc -> accepted (ans n) -> posted log n' (str "configs/application") doc' -> (n' <= n)%nat).
Proof. exact once_registered. Qed.
Print Assumptions C23_registered_once.

Theorem C23_startup_outcome : forall ans a log0 ops,
  let '(log, m) := meshrun ans (log0, new_mesh a) ops in
  let '(log', _, r) := startup ans log m in
  (registered ans (List.length log0) log -> log' = log /\ r = Ok true) /\
  (~ registered ans (List.length log0) log ->
     log' = log ++ [(str "configs/application", appinfo_doc a)] /\
     (r = Ok true <-> accepted (ans (List.length log))) /\ (r = Ok true \/ exists e, r = Raise e)) /\
  (r = Ok true <-> registered ans (List.length log0) log').
Proof. exact startup_outcome. Qed.
Print Assumptions C23_startup_outcome.

(** the registration document has exactly the given fields that are not empty or false *)
Theorem C23_document : forall a, exists d, appinfo_doc a = JObj d /\ forall k v,
  In (k, v) d <-> ~ In v [JNull; JBool false; JNum 0; JStr []; JArr []; JObj []] /\
  In (k, v) [(str "appName", ai_appName a); (str "dataCenter", ai_dataCenter a); (str "zone", ai_zone a);
             (str "registryEndPoint", ai_registryEndPoint a); (str "accessKey", ai_accessKey a); (str "secretKey", ai_secretKey a);
             (str "antShareCloud", ai_antShareCloud a)].
Proof. exact document_fields. Qed.
Print Assumptions C23_document.

Example C23_case :
  let info := {| ai_appName := JStr (str "app"); ai_dataCenter := JStr []; ai_zone := JNull; ai_registryEndPoint := JStr (str "r");
                 ai_accessKey := JNull; ai_secretKey := JNull; ai_antShareCloud := JBool true |} in
  let ans := fun n => if Nat.leb n 1 then Answer 200 (Some (JObj [(str "success", JNum 1)])) else Answer 200 (Some (JObj [(str "success", JBool true)])) in
  let doc := JObj [(str "appName", JStr (str "app")); (str "registryEndPoint", JStr (str "r")); (str "antShareCloud", JBool true)] in
  fst (meshrun ans ([], new_mesh info) [MStartup; MSubscribe (str "x"); MStartup; MStartup; MStartup])
  = [(EP_app, doc); (EP_sub, name_doc (str "x")); (EP_app, doc)].
Proof. vm_compute. reflexivity. Qed.

(** ** C24 *)
Theorem C24_success_only_if_accepted : forall ans log,
  (forall f, In f [mesh_subscribe; mesh_unsubscribe; mesh_unpublish] -> forall s,
     (exists r, snd (f ans log s) = Ok r) <-> accepted (ans (List.length log))) /\
  (forall port app s, (exists r, snd (mesh_publish ans log port app s) = Ok r) <-> accepted (ans (List.length log))) /\
  (forall a, (exists r, snd (startup ans log (new_mesh a)) = Ok r) <-> accepted (ans (List.length log))).
Proof.
  intros ans log. split; [|split].
  - intros f Hf s. destruct Hf as [<-|[<-|[<-|[]]]]; apply post_result_accepted.
  - intros port app s. apply post_result_accepted.
  - intros a. rewrite <- post_result_accepted. unfold startup, new_mesh, do_post. cbn [m_started].
    destruct (post_result (ans (List.length log))); cbn [snd]; split; intros [r H]; eauto; discriminate.
Qed.
Print Assumptions C24_success_only_if_accepted.

(** the value returned is the JSON object of the answer, and each call makes exactly one POST *)
Theorem C24_result_and_request : forall ans log s port app,
  (forall r, snd (mesh_subscribe ans log s) = Ok r -> ans (List.length log) = Answer 200 (Some r)) /\
  fst (mesh_subscribe ans log s) = log ++ [(str "services/subscribe", JObj [(str "serviceName", JStr s)])] /\
  fst (mesh_unsubscribe ans log s) = log ++ [(str "services/unsubscribe", JObj [(str "serviceName", JStr s)])] /\
  fst (mesh_unpublish ans log s) = log ++ [(str "services/unpublish", JObj [(str "serviceName", JStr s)])] /\
  exists doc, fst (mesh_publish ans log port app s) = log ++ [(str "services/publish", doc)].
Proof.
  intros ans log s port app. split; [intros r H; apply post_result_ok in H as (d & -> & H & _); exact H|].
  repeat (split; [reflexivity|]). eexists. reflexivity.
Qed.
Print Assumptions C24_result_and_request.

Example C24_cases : map (fun a => match post_result a with Ok _ => true | _ => false end)
  [NoAnswer; Answer 500 (Some (JObj [(str "success", JBool true)])); Answer 200 None; Answer 200 (Some (JArr [])); Answer 200 (Some (JObj []));
   Answer 200 (Some (JObj [(str "success", JStr (str "true"))])); Answer 200 (Some (JObj [(str "x", JNull); (str "success", JBool true)]))]
  = [false; false; false; false; false; false; true].
Proof. vm_compute. reflexivity. Qed.

(** ** C25. The k posts made are a prefix of the full list, all but the last accepted; publish() returns
    normally iff all were made and accepted, otherwise the last one failed with the error raised. *)
Theorem C25_publish : forall ans log m port app names, exists k, (k <= List.length names)%nat /\
  let '(log', r) := listener_publish ans log (Some m) port app names in
  log' = log ++ map (fun s => (str "services/publish",
      JObj [(str "serviceName", JStr s);
            (str "providerMetaInfo", JObj [(str "protocol", JStr (str "1")); (str "version", JStr (str "4.0"));
                                           (str "serializeType", JStr (str "protobuf")); (str "appName", JStr app)]);
            (str "port", JStr (str_int port)); (str "protocolType", JStr (str "DEFAULT")); (str "onlyPublishInCloud", JBool false)])) (firstn k names) /\
  (forall i, (S i < k)%nat -> accepted (ans (List.length log + i)%nat)) /\
  match r with
  | Ok _ => k = List.length names /\ forall i, (i < k)%nat -> accepted (ans (List.length log + i)%nat)
  | Raise e => exists j, k = S j /\ ~ accepted (ans (List.length log + j)%nat) /\ post_result (ans (List.length log + j)%nat) = Raise e
  end.
Proof.
  intros ans log m port app names. cbn [listener_publish].
  destruct (post_each_spec ans (fun l s => mesh_publish ans l port app s) (fun s => (EP_pub, publish_doc port app s)) (fun l s => eq_refl) names log) as (k & Hk & H).
  exists k. split; [exact Hk|]. destruct (post_each (fun l s => mesh_publish ans l port app s) log names) as [log' r]. exact H.
Qed.
Print Assumptions C25_publish.

Theorem C25_unpublish : forall ans log m names, exists k, (k <= List.length names)%nat /\
  let '(log', r) := listener_unpublish ans log (Some m) names in
  log' = log ++ map (fun s => (str "services/unpublish", JObj [(str "serviceName", JStr s)])) (firstn k names) /\
  (forall i, (S i < k)%nat -> accepted (ans (List.length log + i)%nat)) /\
  match r with
  | Ok _ => k = List.length names /\ forall i, (i < k)%nat -> accepted (ans (List.length log + i)%nat)
  | Raise e => exists j, k = S j /\ ~ accepted (ans (List.length log + j)%nat) /\ post_result (ans (List.length log + j)%nat) = Raise e
  end.
Proof.
  intros ans log m names. cbn [listener_unpublish].
  destruct (post_each_spec ans (fun l s => mesh_unpublish ans l s) (fun s => (EP_unpub, name_doc s)) (fun l s => eq_refl) names log) as (k & Hk & H).
  exists k. split; [exact Hk|]. destruct (post_each (fun l s => mesh_unpublish ans l s) log names) as [log' r]. exact H.
Qed.
Print Assumptions C25_unpublish.

Theorem C25_without_mesh_client : forall ans log port app names,
  listener_publish ans log None port app names = (log, Ok tt) /\ listener_unpublish ans log None names = (log, Ok tt).
Proof. split; reflexivity. Qed.
Print Assumptions C25_without_mesh_client.

(** when every post is accepted, each interface is published exactly once, in order *)
Theorem C25_all_published : forall ans log m port app names, (forall n, accepted (ans n)) ->
  snd (listener_publish ans log (Some m) port app names) = Ok tt /\
  exists docs, fst (listener_publish ans log (Some m) port app names) = log ++ map (fun d => (str "services/publish", d)) docs /\
    map (fun d => match d with JObj ((_, JStr s) :: _) => s | _ => [] end) docs = names.
Proof.
  intros ans log m port app names Ha. destruct (C25_publish ans log m port app names) as (k & Hk & H).
  destruct (listener_publish ans log (Some m) port app names) as [log' r]. destruct H as (-> & _ & H). cbn [fst snd].
  destruct r as [[]|e]; [|destruct H as (j & _ & Hn & _); exfalso; apply Hn, Ha]. destruct H as [-> _]. split; [reflexivity|].
  rewrite firstn_all. eexists (map _ names). rewrite map_map. split; [reflexivity|]. rewrite map_map. apply map_id.
Qed.
Print Assumptions C25_all_published.

(** the constructors of clients and listeners: no error escapes, a mesh client is kept iff registration was accepted *)
Theorem C25_mesh_client_available : forall ans log a,
  ((exists m, snd (open_mesh ans log a) = Some m) <-> accepted (ans (List.length log))) /\
  fst (open_mesh ans log a) = log ++ [(str "configs/application", appinfo_doc a)].
Proof.
  intros ans log a. rewrite <- post_result_accepted. unfold open_mesh, startup, new_mesh, do_post. cbn [m_started m_info].
  destruct (post_result (ans (List.length log))); cbn [fst snd]; (split; [|reflexivity]); split; intros [r H]; eauto; discriminate.
Qed.
Print Assumptions C25_mesh_client_available.

Example C25_case :
  let info := {| ai_appName := JStr (str "app"); ai_dataCenter := JNull; ai_zone := JNull; ai_registryEndPoint := JNull;
                 ai_accessKey := JNull; ai_secretKey := JNull; ai_antShareCloud := JBool false |} in
  let yes := Answer 200 (Some (JObj [(str "success", JBool true)])) in
  let '(log, r) := listener_publish (fun n => if Nat.eqb n 1 then NoAnswer else yes) [] (Some {| m_info := info; m_started := true |}) 12200 (str "app") (map str ["A"%string; "B"%string; "C"%string]) in
  List.length log = 2%nat /\ r = Raise OtherError.
Proof. vm_compute. split; reflexivity. Qed.

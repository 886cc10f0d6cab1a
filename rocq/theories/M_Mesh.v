(** Model of anthunder/helpers/immutable_dict.py, anthunder/client/base.py (routing, subscribe,
    unsubscribe), anthunder/mesh/mesh_client.py and of publish/unpublish of
    anthunder/listener/base_listener.py. *)
From Coq Require Import Strings.String.
From Verif Require Import PyBase PyDict PyInt.

(** JSON values as [requests] sends and returns them. Simplified: numbers are integers. *)
Inductive json :=
| JNull | JBool (b : bool) | JNum (z : Z) | JStr (s : pystr) | JArr (l : list json) | JObj (d : list (pystr * json)).

(** Python truth value of such a value, used by the [filter] of mesh_client.py:87 *)
Definition json_truthy (j : json) : bool :=
  match j with
  | JNull => false | JBool b => b | JNum z => negb (z =? 0)
  | JStr s => negb (Nat.eqb (List.length s) 0) | JArr l => negb (Nat.eqb (List.length l) 0) | JObj d => negb (Nat.eqb (List.length d) 0)
  end.

(** What the local mesh agent does with one POST: the request fails in the HTTP client (refused, reset,
    timed out), or is answered with a status and a body; [None] is a body that is not JSON. *)
Inductive answer := NoAnswer | Answer (status : Z) (body : option json).

(** One POST: endpoint and JSON document. The log of all posts is the observable effect. *)
Definition post := (pystr * json)%type.
Definition EP_app := str "configs/application".
Definition EP_sub := str "services/subscribe".
Definition EP_unsub := str "services/unsubscribe".
Definition EP_pub := str "services/publish".
Definition EP_unpub := str "services/unpublish".

(** mesh_client.py:108-117 [_post], the part after the request was made. [result.get] of a JSON value
    that is not an object is an AttributeError; [is not True] accepts only the constant true. *)
Definition post_result (a : answer) : res json :=
  match a with
  | NoAnswer => Raise OtherError
  | Answer status body =>
      if negb (status =? 200) then Raise MeshConnectionError
      else match body with
           | None => Raise ValueError
           | Some (JObj d) => match dget (str "success") d with
                              | Some (JBool true) => Ok (JObj d)
                              | _ => Raise MeshConnectionError
                              end
           | Some _ => Raise AttributeError
           end
  end.

(** mesh_client.py:108-110: the n-th POST of the process is answered by [ans n]. *)
Definition do_post (ans : nat -> answer) (log : list post) (endpoint : pystr) (doc : json) : list post * res json :=
  (log ++ [(endpoint, doc)], post_result (ans (List.length log))).

(** mesh_client.py:47-67 ApplicationInfo: fields in order, as (name, value); [attr.asdict] with the
    filter of line 87 keeps the truthy ones *)
Record appinfo := { ai_appName : json; ai_dataCenter : json; ai_zone : json; ai_registryEndPoint : json;
                    ai_accessKey : json; ai_secretKey : json; ai_antShareCloud : json }.
Definition appinfo_fields (a : appinfo) : list (pystr * json) :=
  [(str "appName", ai_appName a); (str "dataCenter", ai_dataCenter a); (str "zone", ai_zone a);
   (str "registryEndPoint", ai_registryEndPoint a); (str "accessKey", ai_accessKey a); (str "secretKey", ai_secretKey a);
   (str "antShareCloud", ai_antShareCloud a)].
Definition appinfo_doc (a : appinfo) : json := JObj (filter (fun kv => json_truthy (snd kv)) (appinfo_fields a)).

(** mesh_client.py:74-82 MeshClient: appinfo and _started. *)
Record mesh := { m_info : appinfo; m_started : bool }.
Definition new_mesh (a : appinfo) : mesh := {| m_info := a; m_started := false |}.

(** mesh_client.py:84-89 startup. The RLock makes the whole call atomic with respect to other calls
    of startup, so concurrent calls are some sequence of calls (see M_Threads and C91). *)
Definition startup (ans : nat -> answer) (log : list post) (m : mesh) : list post * mesh * res bool :=
  if m_started m then (log, m, Ok true)
  else let '(log', r) := do_post ans log EP_app (appinfo_doc (m_info m)) in
       match r with
       | Ok _ => (log', {| m_info := m_info m; m_started := true |}, Ok true)
       | Raise e => (log', m, Raise e)
       end.

(** mesh_client.py:91-95, 105-106 subscribe, unsubscribe, unpublish *)
Definition name_doc (s : pystr) : json := JObj [(str "serviceName", JStr s)].
Definition mesh_subscribe ans log s := do_post ans log EP_sub (name_doc s).
Definition mesh_unsubscribe ans log s := do_post ans log EP_unsub (name_doc s).
Definition mesh_unpublish ans log s := do_post ans log EP_unpub (name_doc s).

(** mesh_client.py:29-43, 97-103 publish of PublishServiceRequest(port=, serviceName=, providerMetaInfo=) with
    the values of base_listener.py:89-95; attr.asdict recurses into providerMetaInfo, declaration order *)
Definition publish_doc (port : Z) (app_name service : pystr) : json :=
  JObj [(str "serviceName", JStr service);
        (str "providerMetaInfo", JObj [(str "protocol", JStr (str "1")); (str "version", JStr (str "4.0"));
                                       (str "serializeType", JStr (str "protobuf")); (str "appName", JStr app_name)]);
        (str "port", JStr (str_int port));
        (str "protocolType", JStr (str "DEFAULT"));
        (str "onlyPublishInCloud", JBool false)].
Definition mesh_publish ans log port app_name service := do_post ans log EP_pub (publish_doc port app_name service).

(** base_listener.py:83-95 and 97-103: the loop over the interface names of the registry. Simplified: the
    registry does not change during the loop (a change of its size would raise RuntimeError). *)
Fixpoint post_each (f : list post -> pystr -> list post * res json) (log : list post) (names : list pystr) : list post * res unit :=
  match names with
  | [] => (log, Ok tt)
  | s :: r => match f log s with
              | (log', Ok _) => post_each f log' r
              | (log', Raise e) => (log', Raise e)
              end
  end.
Definition listener_publish (ans : nat -> answer) (log : list post) (mesh_client : option mesh) (port : Z) (app_name : pystr)
    (names : list pystr) : list post * res unit :=
  match mesh_client with
  | None => (log, Ok tt)
  | Some _ => post_each (fun l s => mesh_publish ans l port app_name s) log names
  end.
Definition listener_unpublish (ans : nat -> answer) (log : list post) (mesh_client : option mesh) (names : list pystr) : list post * res unit :=
  match mesh_client with
  | None => (log, Ok tt)
  | Some _ => post_each (fun l s => mesh_unpublish ans l s) log names
  end.

(** client/base.py:35-47 and base_listener.py:72-78, constructors: a failing startup is swallowed and
    leaves no mesh client *)
Definition open_mesh (ans : nat -> answer) (log : list post) (a : appinfo) : list post * option mesh :=
  let '(log', m, r) := startup ans log (new_mesh a) in
  match r with Ok _ => (log', Some m) | Raise _ => (log', None) end.

(** Values of SERVICE_MAP: a host string or a (host, port) pair. *)
Inductive addr := Host (h : pystr) | HostPort (h : pystr) (p : Z).
Definition service_map := dict pystr addr.

(** immutable_dict.py:25-29 [d[k] = v] *)
Definition imm_set (k : pystr) (v : addr) (d : service_map) : service_map * res unit :=
  if dmem k d then (d, Raise KeyError) else (dset k v d, Ok tt).
(** [d.pop(k)] / [del d[k]], inherited from dict *)
Definition imm_pop (k : pystr) (d : service_map) : service_map * res addr :=
  match dget k d with Some v => (ddel k d, Ok v) | None => (d, Raise KeyError) end.

(** operations of a user on SERVICE_MAP *)
Inductive mapop := Assign (k : pystr) (v : addr) | Remove (k : pystr).
Definition mapstep (d : service_map) (o : mapop) : service_map :=
  match o with Assign k v => fst (imm_set k v d) | Remove k => fst (imm_pop k d) end.
Definition maprun (d : service_map) (l : list mapop) : service_map := fold_left mapstep l d.

(** client/base.py:32-33 *)
Definition mesh_service_address : addr := HostPort (str "127.0.0.1") 12220.
Definition sofa_default_port : Z := 12200.

(** client/base.py:49-54 _get_address: the (host, port) pair *)
Definition get_address (d : service_map) (interface : pystr) : pystr * Z :=
  match (match dget interface d with Some a => a | None => mesh_service_address end) with
  | Host h => (h, sofa_default_port)
  | HostPort h p => (h, p)
  end.

(** State seen by the clients of a process: the shared SERVICE_MAP and the posts made. *)
Record cstate := { c_map : service_map; c_log : list post }.

(** client/base.py:64-70 and 79-87, loop bodies; [except Exception] swallows every error *)
Definition subscribe1 (ans : nat -> answer) (st : cstate) (inf : pystr) : cstate :=
  match mesh_subscribe ans (c_log st) inf with
  | (log, Ok _) => {| c_map := fst (imm_set inf mesh_service_address (c_map st)); c_log := log |}
  | (log, Raise _) => {| c_map := c_map st; c_log := log |}
  end.
Definition unsubscribe1 (ans : nat -> answer) (st : cstate) (inf : pystr) : cstate :=
  match mesh_unsubscribe ans (c_log st) inf with
  | (log, Ok _) => {| c_map := fst (imm_pop inf (c_map st)); c_log := log |}
  | (log, Raise _) => {| c_map := c_map st; c_log := log |}
  end.
(** client/base.py:56-70 subscribe( *interface), 72-87 unsubscribe( *interface): result None or an exception *)
Definition subscribe (ans : nat -> answer) (mesh_client : option mesh) (st : cstate) (infs : list pystr) : cstate * res unit :=
  match mesh_client with None => (st, Ok tt) | Some _ => (fold_left (subscribe1 ans) infs st, Ok tt) end.
Definition unsubscribe (ans : nat -> answer) (mesh_client : option mesh) (st : cstate) (infs : list pystr) : cstate * res unit :=
  match mesh_client with None => (st, Ok tt) | Some _ => (fold_left (unsubscribe1 ans) infs st, Ok tt) end.

(** a history of subscribe/unsubscribe calls of any clients of the process (each with or without mesh client) *)
Inductive subop := Sub (mesh_client : option mesh) (infs : list pystr) | Unsub (mesh_client : option mesh) (infs : list pystr).
Definition substep (ans : nat -> answer) (st : cstate) (o : subop) : cstate * res unit :=
  match o with Sub m l => subscribe ans m st l | Unsub m l => unsubscribe ans m st l end.
Fixpoint subrun (ans : nat -> answer) (st : cstate) (ops : list subop) : cstate * list (res unit) :=
  match ops with
  | [] => (st, [])
  | o :: r => let '(st1, x) := substep ans st o in let '(st2, xs) := subrun ans st1 r in (st2, x :: xs)
  end.

(** a history of calls on one MeshClient *)
Inductive meshop := MStartup | MSubscribe (s : pystr) | MUnsubscribe (s : pystr) | MPublish (port : Z) (app service : pystr) | MUnpublish (s : pystr).
Definition meshstep (ans : nat -> answer) (lm : list post * mesh) (o : meshop) : list post * mesh :=
  let '(log, m) := lm in
  match o with
  | MStartup => let '(log', m', _) := startup ans log m in (log', m')
  | MSubscribe s => (fst (mesh_subscribe ans log s), m)
  | MUnsubscribe s => (fst (mesh_unsubscribe ans log s), m)
  | MPublish p a s => (fst (mesh_publish ans log p a s), m)
  | MUnpublish s => (fst (mesh_unpublish ans log s), m)
  end.
Definition meshrun ans (lm : list post * mesh) (ops : list meshop) := fold_left (meshstep ans) ops lm.

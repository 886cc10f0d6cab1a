(** The registrations of one process that makes any number of clients and listeners: anthunder/client/base.py:35-47 and
    anthunder/listener/base_listener.py:60-78. Every constructor makes its own MeshClient: the attribute __metaclass__ of
    mesh_client.py:71 has no effect in Python 3 (see M_Singleton). *)
From Coq Require Import Strings.String.
From Verif Require Import PyBase PyDict PyInt M_Mesh.
Open Scope nat_scope.

(** the arguments of a constructor; None: not given *)
Record given := { g_app : json; g_center : option json; g_zone : option json; g_registry : option json; g_cloud : option json; g_access : option json; g_secret : option json }.
Definition or_else (d : json) (x : option json) : json := match x with Some v => v | None => d end.
(** base.py:35-42: the defaults of the parameters, and the order in which they are passed on *)
Definition client_info (g : given) : appinfo :=
  {| ai_appName := g_app g; ai_dataCenter := or_else JNull (g_center g); ai_zone := or_else JNull (g_zone g); ai_registryEndPoint := or_else JNull (g_registry g);
     ai_accessKey := or_else JNull (g_access g); ai_secretKey := or_else JNull (g_secret g); ai_antShareCloud := or_else (JBool false) (g_cloud g) |}.
(** base_listener.py:60-74 *)
Definition listener_info (g : given) : appinfo :=
  {| ai_appName := g_app g; ai_dataCenter := or_else (JStr []) (g_center g); ai_zone := or_else (JStr []) (g_zone g); ai_registryEndPoint := or_else JNull (g_registry g);
     ai_accessKey := or_else JNull (g_access g); ai_secretKey := or_else JNull (g_secret g); ai_antShareCloud := or_else (JBool false) (g_cloud g) |}.

(** what the process does: makes a client or a listener, or has the i-th of them subscribe, publish and so on *)
Inductive use := USub (s : pystr) | UUnsub (s : pystr) | UPub (port : Z) (app s : pystr) | UUnpub (s : pystr).
Inductive rop := RClient (g : given) | RListener (g : given) | RUse (i : nat) (u : use).
Record regs := { r_objs : list (option mesh); r_posts : list post }.
(** base.py:56-90, base_listener.py:83-103, one interface: nothing is posted without a mesh client *)
Definition do_use (ans : nat -> answer) (log : list post) (u : use) : list post :=
  fst (match u with
       | USub s => mesh_subscribe ans log s
       | UUnsub s => mesh_unsubscribe ans log s
       | UPub port app s => mesh_publish ans log port app s
       | UUnpub s => mesh_unpublish ans log s
       end).
Definition make (ans : nat -> answer) (a : appinfo) (p : regs) : regs :=
  let '(log, m) := open_mesh ans (r_posts p) a in {| r_objs := r_objs p ++ [m]; r_posts := log |}.
Definition r_step (ans : nat -> answer) (p : regs) (o : rop) : regs :=
  match o with
  | RClient g => make ans (client_info g) p
  | RListener g => make ans (listener_info g) p
  | RUse i u => match nth_error (r_objs p) i with
                | Some (Some _) => {| r_objs := r_objs p; r_posts := do_use ans (r_posts p) u |}
                | _ => p
                end
  end.
Definition r_run (ans : nat -> answer) (l : list rop) : regs := fold_left (r_step ans) l {| r_objs := []; r_posts := [] |}.

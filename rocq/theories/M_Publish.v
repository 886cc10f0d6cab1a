(** Model of the listeners of one process and what they tell the mesh agent over their lives: the constructor of
    BaseListener (base_listener.py:60-78), registration of interfaces (aio_listener.py:78-94, sock_listener.py:62-77), publish
    and unpublish (base_listener.py:83-103). The pieces are those of M_Mesh. Simplified: one thread (C93 has threads). *)
From Verif Require Import PyBase PyDict M_Mesh.

(** base_listener.py:68-78: address, app_name, _mesh_client of a listener; only the port of the address is used here *)
Record lst := { l_port : Z; l_app : pystr; l_mesh : option mesh }.
(** The keys of interface_mapping, in order: one dict made with the class BaseHandler (base_listener.py:45), so the same
    for all listeners of the process. *)
Record proc := { p_listeners : list lst; p_names : list pystr; p_log : list post }.
Definition p_init : proc := {| p_listeners := []; p_names := []; p_log := [] |}.

(** What the program does: make a listener, register an interface on the i-th one, publish, unpublish, or use the mesh client of
    a client object (client/base.py:56-87). *)
Inductive pop := New (port : Z) (app : pystr) (info : appinfo) | Register (i : nat) (name : pystr) | Publish (i : nat) | Unpublish (i : nat)
               | Client (endpoint : bool) (name : pystr).

(** [interface_mapping[interface] = ...]: a key that is there keeps its place *)
Definition add_name (s : pystr) (l : list pystr) : list pystr := if existsb (pystr_eqb s) l then l else l ++ [s].

(** one such action, with what it returns or raises *)
Definition p_step (ans : nat -> answer) (o : pop) (p : proc) : proc * res unit :=
  match o with
  | New port app info =>
      let '(log, m) := open_mesh ans (p_log p) info in
      ({| p_listeners := p_listeners p ++ [{| l_port := port; l_app := app; l_mesh := m |}]; p_names := p_names p; p_log := log |}, Ok tt)
  | Register i name => ({| p_listeners := p_listeners p; p_names := add_name name (p_names p); p_log := p_log p |}, Ok tt)
  | Publish i =>
      match nth_error (p_listeners p) i with
      | Some l => let '(log, r) := listener_publish ans (p_log p) (l_mesh l) (l_port l) (l_app l) (p_names p) in
                  ({| p_listeners := p_listeners p; p_names := p_names p; p_log := log |}, r)
      | None => (p, Ok tt)
      end
  | Unpublish i =>
      match nth_error (p_listeners p) i with
      | Some l => let '(log, r) := listener_unpublish ans (p_log p) (l_mesh l) (p_names p) in
                  ({| p_listeners := p_listeners p; p_names := p_names p; p_log := log |}, r)
      | None => (p, Ok tt)
      end
  | Client b name => ({| p_listeners := p_listeners p; p_names := p_names p; p_log := fst ((if b then mesh_subscribe else mesh_unsubscribe) ans (p_log p) name) |}, Ok tt)
  end.
Definition p_run (ans : nat -> answer) (l : list pop) : proc := fold_left (fun p o => fst (p_step ans o p)) l p_init.

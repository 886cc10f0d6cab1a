(** Threads that subscribe and unsubscribe at the same time: anthunder/client/base.py:56-87, with the service map of
    anthunder/helpers/immutable_dict.py:25-29. Each thread makes one call, of any clients of the process that have a mesh
    client; a thread that makes several calls is several threads here, scheduled one after the other. A step of a thread is
    one post (the agent handles posts one at a time, in the order of the log) or one access to the map; the schedule is
    the list of the threads that move. Simplified: posts of several threads do not disturb each other in the HTTP client. *)
From Coq Require Import Strings.String.
From Verif Require Import PyBase PyDict PyInt M_Mesh M_AioServer.
Open Scope nat_scope.

Inductive upc :=
| UPost (b : bool) (rest : list pystr)               (* lines 64, 67 (b: subscribe) and 81, 84: at the head of the loop *)
| UMap (b : bool) (x : pystr) (rest : list pystr)    (* line 68 (immutable_dict.py:27) or 85 *)
| UStore (x : pystr) (rest : list pystr).            (* immutable_dict.py:29 *)
Record ust := { u_map : service_map; u_log : list post; u_threads : list upc }.
(** errors of the post and of the map are swallowed (lines 69-70, 86-87) *)
Definition u_step (ans : nat -> answer) (i : nat) (s : ust) : ust :=
  let goto d l p := {| u_map := d; u_log := l; u_threads := upd i (fun _ => p) (u_threads s) |} in
  match nth_error (u_threads s) i with
  | Some (UPost b (x :: r)) =>
      match (if b then mesh_subscribe else mesh_unsubscribe) ans (u_log s) x with
      | (l, Ok _) => goto (u_map s) l (UMap b x r)
      | (l, Raise _) => goto (u_map s) l (UPost b r)
      end
  | Some (UMap true x r) => if dmem x (u_map s) then goto (u_map s) (u_log s) (UPost true r) else goto (u_map s) (u_log s) (UStore x r)
  | Some (UStore x r) => goto (dset x mesh_service_address (u_map s)) (u_log s) (UPost true r)
  | Some (UMap false x r) => goto (fst (imm_pop x (u_map s))) (u_log s) (UPost false r)
  | _ => s
  end.
(** [calls]: for each thread whether it subscribes, and the interfaces; [d]: what the application put into SERVICE_MAP *)
Definition u_init (d : service_map) (calls : list (bool * list pystr)) : ust :=
  {| u_map := d; u_log := []; u_threads := map (fun c => UPost (fst c) (snd c)) calls |}.
Definition u_run (ans : nat -> answer) (d : service_map) (calls : list (bool * list pystr)) (l : list nat) : ust :=
  fold_left (fun s i => u_step ans i s) l (u_init d calls).

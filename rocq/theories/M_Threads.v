(** Model of objects that several threads use at once: the service map (anthunder/helpers/immutable_dict.py), the
    mesh client's startup (anthunder/mesh/mesh_client.py), rpc ids (mytracer/_rpc_id.py), and publish() beside
    registrations (anthunder/listener/base_listener.py). Each thread makes one call; a step of a thread is one access
    to what is shared; the schedule is the list of the threads that move, in order. A thread that makes several calls
    is covered: it is several threads here, scheduled one after the other. *)
From Coq Require Import Strings.String.
From Verif Require Import PyBase PyDict PyInt M_RpcId M_Mesh M_AioServer.
Open Scope nat_scope.

(** ** SERVICE_MAP[k] = v and SERVICE_MAP.pop(k): immutable_dict.py:25-29 *)
Inductive mpc :=
| MCall (o : mapop)                     (* not begun *)
| MStore (k : pystr) (v : addr)         (* line 29: the key was not there *)
| MDone (r : res unit).
Record mst := { ms_map : service_map; ms_threads : list mpc }.
Definition map_step (i : nat) (s : mst) : mst :=
  let goto d p := {| ms_map := d; ms_threads := upd i (fun _ => p) (ms_threads s) |} in
  match nth_error (ms_threads s) i with
  | Some (MCall (Assign k v)) => if dmem k (ms_map s) then goto (ms_map s) (MDone (Raise KeyError)) else goto (ms_map s) (MStore k v)   (* line 27 *)
  | Some (MStore k v) => goto (dset k v (ms_map s)) (MDone (Ok tt))
  | Some (MCall (Remove k)) => goto (fst (imm_pop k (ms_map s))) (MDone (let! _ := snd (imm_pop k (ms_map s)) in Ok tt))   (* dict.pop, atomic *)
  | _ => s
  end.
Definition map_run (d : service_map) (ops : list mapop) (l : list nat) : mst := fold_left (fun s i => map_step i s) l {| ms_map := d; ms_threads := map MCall ops |}.

(** ** MeshClient.startup and other calls of one MeshClient: mesh_client.py:84-117 *)
Inductive spc :=
| SCall                                 (* startup() not begun *)
| SCheck                                (* line 86, the lock is held *)
| SPost                                 (* line 87 *)
| SMark                                 (* line 88 *)
| SLeave (r : res bool)                 (* end of the with statement: the lock is released also by an exception *)
| SDone (r : res bool)
| OCall (endpoint : pystr) (doc : json) (* another call, which makes one post and takes no lock *)
| ODone (r : res json).
Record sstate := { ss_lock : option nat; ss_started : bool; ss_log : list post; ss_threads : list spc }.
Definition up_step (ans : nat -> answer) (info : appinfo) (i : nat) (s : sstate) : sstate :=
  let goto lk st lg p := {| ss_lock := lk; ss_started := st; ss_log := lg; ss_threads := upd i (fun _ => p) (ss_threads s) |} in
  match nth_error (ss_threads s) i with
  | Some SCall => match ss_lock s with None => goto (Some i) (ss_started s) (ss_log s) SCheck | Some _ => s end     (* waits *)
  | Some SCheck => goto (ss_lock s) (ss_started s) (ss_log s) (if ss_started s then SLeave (Ok true) else SPost)
  | Some SPost =>
      let '(lg, r) := do_post ans (ss_log s) EP_app (appinfo_doc info) in
      goto (ss_lock s) (ss_started s) lg (match r with Ok _ => SMark | Raise e => SLeave (Raise e) end)
  | Some SMark => goto (ss_lock s) true (ss_log s) (SLeave (Ok true))
  | Some (SLeave r) => goto None (ss_started s) (ss_log s) (SDone r)
  | Some (OCall ep doc) => let '(lg, r) := do_post ans (ss_log s) ep doc in goto (ss_lock s) (ss_started s) lg (ODone r)
  | _ => s
  end.
Definition up_init (calls : list spc) : sstate := {| ss_lock := None; ss_started := false; ss_log := []; ss_threads := calls |}.
Definition up_run (ans : nat -> answer) (info : appinfo) (calls : list spc) (l : list nat) : sstate := fold_left (fun s i => up_step ans info i s) l (up_init calls).

(** ** RpcId._new_child_of: _rpc_id.py:62-66. [self._child_count += 1] loads and stores; line 64 loads again. *)
Inductive cpc :=
| CLoad (i : nat) | CStore (i : nat) (c : Z) | CBuild (i : nat)
| CDone (r : res nat).                  (* the new object *)
Record rst := { rs_objs : list rpcobj; rs_threads : list cpc }.
Definition set_count (c : Z) (o : rpcobj) : rpcobj := {| r_ids := r_ids o; r_count := c; r_parent := r_parent o |}.
Definition rpc_step (U : tables) (t : nat) (s : rst) : rst :=
  let goto h p := {| rs_objs := h; rs_threads := upd t (fun _ => p) (rs_threads s) |} in
  match nth_error (rs_threads s) t with
  | Some (CLoad i) => match nth_error (rs_objs s) i with Some o => goto (rs_objs s) (CStore i (r_count o)) | None => s end
  | Some (CStore i c) => goto (upd i (set_count (c + 1)) (rs_objs s)) (CBuild i)
  | Some (CBuild i) =>
      match nth_error (rs_objs s) i with
      | Some o => match mk_rpcid U (r_ids o ++ [SInt (r_count o)]) with
                  | Ok ids => goto (rs_objs s ++ [{| r_ids := ids; r_count := 0; r_parent := Some i |}]) (CDone (Ok (List.length (rs_objs s))))
                  | Raise e => goto (rs_objs s) (CDone (Raise e))
                  end
      | None => s
      end
  | _ => s
  end.
Definition rpc_run (U : tables) (h : list rpcobj) (parents : list nat) (l : list nat) : rst := fold_left (fun s t => rpc_step U t s) l {| rs_objs := h; rs_threads := map CLoad parents |}.

(** ** publish() while interfaces are registered: base_listener.py:83-95. The loop's iterator remembers the size of the
    dict and raises when it has changed. Names are never removed from the registry, so the keys it has passed stay. *)
Inductive ppc :=
| PNext (pos size : nat)                (* line 88 *)
| PPost (pos size : nat) (name : pystr) (* line 89 *)
| PDone (r : res unit).
Record pst := { ps_reg : registry; ps_log : list post; ps_pc : ppc }.
Inductive pstep := PGo | PRegister (name : pystr) (sv : service).
Definition pub_step (ans : nat -> answer) (port : Z) (app : pystr) (o : pstep) (s : pst) : pst :=
  let goto lg p := {| ps_reg := ps_reg s; ps_log := lg; ps_pc := p |} in
  match o with
  | PRegister name sv => {| ps_reg := dset name sv (ps_reg s); ps_log := ps_log s; ps_pc := ps_pc s |}
  | PGo =>
      match ps_pc s with
      | PNext pos size =>
          if negb (Nat.eqb (List.length (ps_reg s)) size) then goto (ps_log s) (PDone (Raise OtherError))      (* RuntimeError *)
          else match nth_error (keys (ps_reg s)) pos with
               | Some name => goto (ps_log s) (PPost (S pos) size name)
               | None => goto (ps_log s) (PDone (Ok tt))
               end
      | PPost pos size name =>
          let '(lg, r) := mesh_publish ans (ps_log s) port app name in
          goto lg (match r with Ok _ => PNext pos size | Raise e => PDone (Raise e) end)
      | PDone _ => s
      end
  end.
Definition pub_run (ans : nat -> answer) (port : Z) (app : pystr) (reg : registry) (l : list pstep) : pst :=
  fold_left (fun s o => pub_step ans port app o s) l {| ps_reg := reg; ps_log := []; ps_pc := PNext 0 (List.length reg) |}.

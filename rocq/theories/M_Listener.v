(** Model of the asyncio listener as a whole, anthunder/listener/aio_listener.py:46-122: the connections it has
    accepted, each served as in M_AioServer, with one registry and one executor of 30 worker threads for all of them.
    Simplifications: a worker takes the oldest work item and marks its future as running in one step (a cancellation
    in between would have the effect of one before). Starting and stopping are in M_Lifecycle. Each connection has its
    own tracer state (see M_System). *)
From Verif Require Import PyBase PyDict PyInt M_RpcId M_Trace M_AioServer.
Open Scope nat_scope.

(** line 48 *)
Definition MAX_WORKER : nat := 30.
Record lst := {
  n_reg : registry;                  (* handler.interface_mapping *)
  n_conns : list sst;                (* the connections accepted so far *)
  n_queue : list (nat * nat)         (* the work queue of the executor: connection, number of the job on it *)
}.
Definition linit (reg : registry) : lst := {| n_reg := reg; n_conns := []; n_queue := [] |}.
Definition is_running (b : job) : bool := match j_state b with JRunning => true | _ => false end.
(** the worker threads that are running a method *)
Definition workers (s : lst) : nat := list_sum (map (fun k => List.length (filter is_running (v_jobs k))) (n_conns s)).

Inductive lstep :=
| LAccept (tr : tstate)                        (* a client connects: lines 112, 182 *)
| LRegister (name : pystr) (sv : service)      (* lines 75-94 *)
| LConn (c : nat) (o : sstep)                  (* what happens on connection c, except to the jobs that wait *)
| LTake.                                       (* an idle worker takes the oldest work item, if there is one *)

Definition on_conn (c : nat) (f : sst -> sst) (s : lst) : lst := {| n_reg := n_reg s; n_conns := upd c f (n_conns s); n_queue := n_queue s |}.
Definition lrun_step (U : tables) (o : lstep) (s : lst) : lst :=
  match o with
  | LAccept tr => {| n_reg := n_reg s; n_conns := n_conns s ++ [sinit (n_reg s) tr]; n_queue := n_queue s |}
  | LRegister name sv =>
      {| n_reg := dset name sv (n_reg s); n_conns := map (srun_step U (Register name sv)) (n_conns s); n_queue := n_queue s |}
  | LConn c o =>
      match o with
      | Register _ _ | JobRun _ => s
      | _ =>
          match nth_error (n_conns s) c with
          | Some k =>
              let k' := srun_step U o k in
              (* executor.submit, line 70 *)
              {| n_reg := n_reg s; n_conns := upd c (fun _ => k') (n_conns s);
                 n_queue := n_queue s ++ map (pair c) (seq (List.length (v_jobs k)) (List.length (v_jobs k') - List.length (v_jobs k))) |}
          | None => s
          end
      end
  | LTake =>
      if Nat.ltb (workers s) MAX_WORKER then
        match n_queue s with
        | (c, j) :: q => on_conn c (srun_step U (JobRun j)) {| n_reg := n_reg s; n_conns := n_conns s; n_queue := q |}
        | [] => s
        end
      else s
  end.
Definition lrun (U : tables) (reg : registry) (l : list lstep) : lst := fold_left (fun s o => lrun_step U o s) l (linit reg).

(** Model of a running system: one asyncio client (M_AioClient) and, for each of its connections, a thread of a
    threaded listener at the other end (M_SockServer, the record of a thread: M_Deploy), joined by two streams of
    bytes per connection. As in M_System, which has asyncio servers at the other end, nothing of the code is
    modelled here; what is modelled is the network between the two programs: it delivers in order, in pieces of any
    size and with any delay, nothing that was not written, and it may lose a connection at any time (the steps Eof
    and Reset of the client, and AOver for the thread).
    Simplifications: one client process. A thread is given the registry and the tracer that it will find when it
    looks at them, so a registration by anyone at any time is allowed for. *)
From Verif Require Import PyBase PyDict Struct PyInt M_SofaHeader M_Package M_RpcId M_Trace M_SyncClient M_AioServer M_System M_SockServer.
From Verif Require M_AioClient M_Deploy.

(** the state is given by what has happened to the client, and the threads, one for each connection *)
Record asys := { a_hist : list M_AioClient.step; a_thrs : list M_Deploy.thr }.
Definition a_init : asys := {| a_hist := []; a_thrs := [] |}.
Definition a_client (t : M_AioClient.timer) (s : asys) : M_AioClient.st := M_AioClient.run t (a_hist s).
(** the bytes written on a connection by the thread so far *)
Definition a_replied (U : tables) (x : M_Deploy.thr) : bytes := concat (o_sent (M_Deploy.th_out U x)).

Inductive astep :=
| ACall (d : ycall) (rid : Z) (addr : res Z)         (* a call with the next request id *)
| ADial (i : nat) (fuel : nat) (reg : registry) (tr : tstate) (fresh : pystr) (call : methods) (err : option (nat * exn))
                                                     (* the connection that call i opens is accepted; what the thread
                                                        will find, and what its write raises, if anything *)
| AClient (o : M_AioClient.step)                     (* any other step of the client *)
| AUp (c n : nat)                                    (* at most n bytes reach the thread on connection c *)
| ADown (c n : nat)                                  (* at most n bytes reach the client on connection c *)
| AOver (c : nat) (e : option exn).                  (* the thread sees the end of the stream, or recv raises e *)

Definition a_client_step (o : M_AioClient.step) (s : asys) : asys := {| a_hist := a_hist s ++ [o]; a_thrs := a_thrs s |}.
Definition a_arrive (c : nat) (x : arrival) (s : asys) : asys := {| a_hist := a_hist s; a_thrs := upd c (M_Deploy.th_arrive x) (a_thrs s) |}.

Definition a_step (U : tables) (t : M_AioClient.timer) (o : astep) (s : asys) : asys :=
  match o with
  | ACall d rid addr => match y_request d rid with Ok p => a_client_step (M_AioClient.Call p addr) s | Raise _ => s end
  | ADial i fuel reg tr fresh call err =>
      let s' := a_client_step (M_AioClient.DialOk i) s in
      let old := M_AioClient.s_links (a_client t s) in
      match skipn (List.length old) (M_AioClient.s_links (a_client t s')) with
      | [] => s
      | k :: _ => {| a_hist := a_hist s';
            a_thrs := a_thrs s ++ [{| M_Deploy.th_addr := M_AioClient.k_addr k; M_Deploy.th_fuel := fuel; M_Deploy.th_reg := reg; M_Deploy.th_tr := tr;
              M_Deploy.th_fresh := fresh; M_Deploy.th_call := call; M_Deploy.th_err := err; M_Deploy.th_net := [] |}] |}
      end
  | AClient o =>
      match o with
      | M_AioClient.Call _ _ | M_AioClient.DialOk _ | M_AioClient.Feed _ _ => s
      | _ => a_client_step o s
      end
  | AUp c n =>
      match nth_error (a_thrs s) c with
      | Some x => a_arrive c (Arrive (firstn n (skipn (List.length (M_Deploy.arrived (M_Deploy.th_net x))) (y_sent (a_client t s) c)))) s
      | None => s
      end
  | ADown c n =>
      match nth_error (a_thrs s) c, nth_error (M_AioClient.s_links (a_client t s)) c with
      | Some x, Some k => a_client_step (M_AioClient.Feed c (firstn n (skipn (List.length (M_AioClient.k_in k)) (a_replied U x)))) s
      | _, _ => s
      end
  | AOver c e => a_arrive c (match e with Some e => Err e | None => Fin end) s
  end.
Definition a_run (U : tables) (t : M_AioClient.timer) (l : list astep) : asys := fold_left (fun s o => a_step U t o s) l a_init.

(** the request ids drawn, in order *)
Definition a_ids (l : list astep) : list Z :=
  concat (map (fun o => match o with ACall _ rid _ => [rid] | AClient (M_AioClient.Beat rid) => [rid] | _ => [] end) l).

(** Model of a running system: one asyncio client (M_AioClient) and, for each of its connections, the connection
    handler of an asyncio server at the other end (M_AioServer), joined by two streams of bytes per connection.
    Nothing of the code is modelled here; what is modelled is the network between the two programs: it delivers
    in order, in pieces of any size and with any delay, nothing that was not written, and it may lose a connection
    at any time (the steps Eof and Reset of either side).
    Simplifications: one client process. Each connection has its own registry and its own tracer on the server
    side; with the steps Register at any time this allows everything that handlers sharing a registry can do, and
    which span contexts the other connections of a server use has no effect on what is looked at here. *)
From Verif Require Import PyBase PyDict Struct PyInt M_SofaHeader M_Package M_RpcId M_Trace M_SyncClient M_AioServer.
From Verif Require M_AioClient.

(** what a caller of the client asks for: anthunder/client/aio_client.py:74-104, the header being built by
    anthunder/protocol/_sofa_header.py:115-139 *)
Record ycall := { y_baggage : dict pystr pystr; y_interface : pystr; y_method : pystr; y_app : pystr; y_uid : pystr; y_extra : dict pystr pystr;
  y_content : bytes; y_ptype : Z; y_timeout : pyobj }.
Definition y_request (d : ycall) (rid : Z) : res pkg :=
  let! h := build_header (y_baggage d) (y_interface d) (y_method d) (y_app d) (y_uid d) (y_extra d) in
  new_request h (PBytes (y_content d)) (y_ptype d) (y_timeout d) rid.

(** the server side of a connection: registry and tracer when the connection was accepted, and what happened since *)
Record yconn := { y_reg : registry; y_tr : tstate; y_steps : list sstep }.
(** the state is given by what has happened to each part *)
Record sys := { y_hist : list M_AioClient.step; y_conns : list yconn }.
Definition y_init : sys := {| y_hist := []; y_conns := [] |}.
Definition y_client (t : M_AioClient.timer) (y : sys) : M_AioClient.st := M_AioClient.run t (y_hist y).
Definition y_server (U : tables) (k : yconn) : sst := srun U (y_reg k) (y_tr k) (y_steps k).

(** the bytes written on connection c by the client, and by the server, so far *)
Definition y_sent (s : M_AioClient.st) (c : nat) : bytes := concat (map snd (filter (fun x => Nat.eqb (fst x) c) (M_AioClient.s_written s))).
Definition y_replied (s : sst) : bytes := concat (map snd (v_out s)).
(** of these, the bytes the other side has received *)
Definition y_got (k : yconn) : bytes := concat (map (fun o => match o with Feed bs => bs | _ => [] end) (y_steps k)).

Inductive ystep :=
| YCall (d : ycall) (rid : Z) (addr : res Z)         (* a call with the next request id *)
| YDial (i : nat) (reg : registry) (tr : tstate)     (* the connection that call i opens is accepted *)
| YClient (o : M_AioClient.step)                     (* any other step of the client *)
| YServer (c : nat) (o : sstep)                      (* a step of the server on connection c *)
| YUp (c n : nat)                                    (* at most n bytes reach the server on connection c *)
| YDown (c n : nat).                                 (* at most n bytes reach the client on connection c *)

Definition y_client_step (o : M_AioClient.step) (y : sys) : sys := {| y_hist := y_hist y ++ [o]; y_conns := y_conns y |}.
Definition y_server_step (c : nat) (o : sstep) (y : sys) : sys :=
  {| y_hist := y_hist y;
     y_conns := upd c (fun k => {| y_reg := y_reg k; y_tr := y_tr k; y_steps := y_steps k ++ [o] |}) (y_conns y) |}.

Definition y_step (U : tables) (t : M_AioClient.timer) (o : ystep) (y : sys) : sys :=
  match o with
  | YCall d rid addr => match y_request d rid with Ok p => y_client_step (M_AioClient.Call p addr) y | Raise _ => y end
  | YDial i reg tr =>
      let y' := y_client_step (M_AioClient.DialOk i) y in
      if Nat.ltb (List.length (M_AioClient.s_links (y_client t y))) (List.length (M_AioClient.s_links (y_client t y')))
      then {| y_hist := y_hist y'; y_conns := y_conns y ++ [{| y_reg := reg; y_tr := tr; y_steps := [] |}] |}
      else y
  | YClient o =>
      match o with
      | M_AioClient.Call _ _ | M_AioClient.DialOk _ | M_AioClient.Feed _ _ => y
      | _ => y_client_step o y
      end
  | YServer c o => match o with Feed _ => y | _ => y_server_step c o y end
  | YUp c n =>
      match nth_error (y_conns y) c with
      | Some k => y_server_step c (Feed (firstn n (skipn (List.length (y_got k)) (y_sent (y_client t y) c)))) y
      | None => y
      end
  | YDown c n =>
      match nth_error (y_conns y) c, nth_error (M_AioClient.s_links (y_client t y)) c with
      | Some k, Some l => y_client_step (M_AioClient.Feed c (firstn n (skipn (List.length (M_AioClient.k_in l)) (y_replied (y_server U k))))) y
      | _, _ => y
      end
  end.
Definition y_run (U : tables) (t : M_AioClient.timer) (l : list ystep) : sys := fold_left (fun y o => y_step U t o y) l y_init.

(** the request ids drawn, in order *)
Definition y_ids (l : list ystep) : list Z :=
  concat (map (fun o => match o with YCall _ rid _ => [rid] | YClient (M_AioClient.Beat rid) => [rid] | _ => [] end) l).

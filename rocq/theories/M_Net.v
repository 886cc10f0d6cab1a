(** Model of a network of programs: any number of asyncio clients (M_AioClient) and any number of asyncio listeners
    (M_Listener), each listener with one registry and one executor for all its connections. Listener number a has the
    address a. Nothing of the code is modelled here but the network between the programs: as in M_System it delivers
    in order, in pieces of any size and with any delay, nothing that was not written, and it may lose a connection at any
    time (the steps Eof and Reset of either side). Listeners also have connections with other programs, on which anything
    may arrive. *)
From Verif Require Import PyBase PyDict PyInt M_RpcId M_Trace M_AioServer M_System M_Listener.
From Verif Require M_AioClient.

(** a client: what has happened to it, and for each of its connections the listener and the number there *)
Record zclient := { z_hist : list M_AioClient.step; z_conns : list (nat * nat) }.
Record net := { z_clients : list zclient; z_servers : list lst }.
Definition z_init (clients : nat) (regs : list registry) : net :=
  {| z_clients := repeat {| z_hist := []; z_conns := [] |} clients; z_servers := map linit regs |}.
Definition z_state (t : M_AioClient.timer) (k : zclient) : M_AioClient.st := M_AioClient.run t (z_hist k).
Definition z_add (o : M_AioClient.step) (k : zclient) : zclient := {| z_hist := z_hist k ++ [o]; z_conns := z_conns k |}.
(** connection n of listener a *)
Definition z_conn (z : net) (a n : nat) : option sst := match nth_error (z_servers z) a with Some s => nth_error (n_conns s) n | None => None end.
Definition owned (z : net) (a n : nat) : bool :=
  existsb (fun k => existsb (fun x => Nat.eqb (fst x) a && Nat.eqb (snd x) n) (z_conns k)) (z_clients z).

Inductive zstep :=
| ZCall (p : nat) (d : ycall) (rid : Z) (addr : res Z)   (* a call of client p with its next request id *)
| ZDial (p i : nat) (tr : tstate)                        (* the connection that call i of client p opens is accepted *)
| ZClient (p : nat) (o : M_AioClient.step)               (* any other step of client p *)
| ZServer (a : nat) (o : lstep)                          (* a step of listener a *)
| ZUp (p c n : nat)                                      (* at most n bytes reach the listener on connection c of client p *)
| ZDown (p c n : nat).                                   (* at most n bytes reach client p on its connection c *)

Definition on_client (p : nat) (f : zclient -> zclient) (z : net) : net := {| z_clients := upd p f (z_clients z); z_servers := z_servers z |}.
Definition on_server (U : tables) (a : nat) (o : lstep) (z : net) : net := {| z_clients := z_clients z; z_servers := upd a (lrun_step U o) (z_servers z) |}.

Definition z_step (U : tables) (t : M_AioClient.timer) (o : zstep) (z : net) : net :=
  match o with
  | ZCall p d rid addr => match y_request d rid with Ok q => on_client p (z_add (M_AioClient.Call q addr)) z | Raise _ => z end
  | ZDial p i tr =>
      match nth_error (z_clients z) p with
      | Some k =>
          let k' := z_add (M_AioClient.DialOk i) k in
          match nth_error (M_AioClient.s_links (z_state t k')) (List.length (M_AioClient.s_links (z_state t k))) with
          | Some lk =>
              let a := Z.to_nat (M_AioClient.k_addr lk) in
              match nth_error (z_servers z) a with
              | Some s =>
                  if (0 <=? M_AioClient.k_addr lk)%Z then
                    on_client p (fun _ => {| z_hist := z_hist k'; z_conns := z_conns k ++ [(a, List.length (n_conns s))] |}) (on_server U a (LAccept tr) z)
                  else z
              | None => z
              end
          | None => z
          end
      | None => z
      end
  | ZClient p o =>
      match o with
      | M_AioClient.Call _ _ | M_AioClient.DialOk _ | M_AioClient.Feed _ _ => z
      | _ => on_client p (z_add o) z
      end
  | ZServer a o =>
      match o with
      | LConn n (Feed _) => if owned z a n then z else on_server U a o z
      | _ => on_server U a o z
      end
  | ZUp p c n =>
      match nth_error (z_clients z) p with
      | Some k =>
          match nth_error (z_conns k) c with
          | Some (a, m) =>
              match z_conn z a m with
              | Some x => on_server U a (LConn m (Feed (firstn n (skipn (List.length (v_in x)) (y_sent (z_state t k) c))))) z
              | None => z
              end
          | None => z
          end
      | None => z
      end
  | ZDown p c n =>
      match nth_error (z_clients z) p with
      | Some k =>
          match nth_error (z_conns k) c, nth_error (M_AioClient.s_links (z_state t k)) c with
          | Some (a, m), Some l =>
              match z_conn z a m with
              | Some x => on_client p (z_add (M_AioClient.Feed c (firstn n (skipn (List.length (M_AioClient.k_in l)) (y_replied x))))) z
              | None => z
              end
          | _, _ => z
          end
      | None => z
      end
  end.
Definition z_run (U : tables) (t : M_AioClient.timer) (clients : nat) (regs : list registry) (l : list zstep) : net :=
  fold_left (fun z o => z_step U t o z) l (z_init clients regs).

(** the request ids drawn by client p, in order *)
Definition z_ids (p : nat) (l : list zstep) : list Z :=
  concat (map (fun o => match o with
                        | ZCall p' _ rid _ => if Nat.eqb p' p then [rid] else []
                        | ZClient p' (M_AioClient.Beat rid) => if Nat.eqb p' p then [rid] else []
                        | _ => [] end) l).

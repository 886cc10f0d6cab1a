(** Model of all the programs together: any number of asyncio clients (M_AioClient), each of which calls asyncio and
    threaded listeners, beside the calls of synchronous clients, the asyncio listeners and the threads of threaded
    listeners of M_Deploy (where there are no asyncio clients here). Nothing of the code is modelled here but the network
    between the asyncio clients and the listeners: as in M_System it delivers in order, in pieces of any size and with any
    delay, nothing that was not written, and it may lose a connection at any time (Eof and Reset of either side, DOver for
    a thread). As in M_Deploy asyncio listener number a has the address a >= 0, addresses below 0 are those of threaded
    listeners, and listeners also serve other programs, on whose connections anything may arrive. *)
From Verif Require Import PyBase PyDict PyInt M_RpcId M_Trace M_SyncClient M_AioServer M_SockServer M_System M_Listener M_Net M_Deploy.
From Verif Require M_AioClient.
Open Scope nat_scope.

(** an asyncio client: what has happened to it, and for each of its connections the other end *)
Record oclient := { o_hist : list M_AioClient.step; o_conns : list peer }.
Record world := { b_dep : dep; b_clients : list oclient }.
Definition b_init (clients : nat) (regs : list registry) : world := {| b_dep := d_init 0 regs; b_clients := repeat {| o_hist := []; o_conns := [] |} clients |}.
Definition o_state (t : M_AioClient.timer) (k : oclient) : M_AioClient.st := M_AioClient.run t (o_hist k).
Definition o_add (o : M_AioClient.step) (k : oclient) : oclient := {| o_hist := o_hist k ++ [o]; o_conns := o_conns k |}.
Definition peer_eqb (x y : peer) : bool :=
  match x, y with PAio a n, PAio a' n' => Nat.eqb a a' && Nat.eqb n n' | PThr t, PThr t' => Nat.eqb t t' | _, _ => false end.
(** is this the other end of a connection of an asyncio client? *)
Definition theirs (x : world) (e : peer) : bool := existsb (fun k => existsb (peer_eqb e) (o_conns k)) (b_clients x).

Inductive wstep :=
| WCall (p : nat) (d : ycall) (rid : Z) (addr : res Z)   (* a call of client p with its next request id *)
| WDial (p i : nat) (acc : accepter)                     (* the connection that call i of client p opens is accepted *)
| WClient (p : nat) (o : M_AioClient.step)               (* any other step of client p *)
| WRest (o : dstep)                                      (* a step of the rest: listeners, synchronous calls, other programs *)
| WUp (p c n : nat)                                      (* at most n bytes reach the server on connection c of client p *)
| WDown (p c n : nat).                                   (* at most n bytes reach client p on its connection c *)

Definition on_oclient (p : nat) (f : oclient -> oclient) (x : world) : world := {| b_dep := b_dep x; b_clients := upd p f (b_clients x) |}.
Definition on_rest (U : tables) (t : M_AioClient.timer) (o : dstep) (x : world) : world := {| b_dep := d_step U t o (b_dep x); b_clients := b_clients x |}.
(** who accepts a connection to this address: the step of the listener and the other end *)
Definition accepts (addr : Z) (acc : accepter) (s : dep) : option (dstep * peer) :=
  match acc with
  | AAio tr =>
      match nth_error (z_servers (d_net s)) (Z.to_nat addr) with
      | Some v => if (0 <=? addr)%Z then Some (DNet (ZServer (Z.to_nat addr) (LAccept tr)), PAio (Z.to_nat addr) (List.length (n_conns v))) else None
      | None => None
      end
  | AThr fuel reg tr fresh call e => if (addr <? 0)%Z then Some (DAccept addr fuel reg tr fresh call e, PThr (List.length (d_thrs s))) else None
  | ANone => None
  end.
(** bytes reach the other end of a connection *)
Definition bring (e : peer) (b : bytes) : dstep := match e with PAio a m => DNet (ZServer a (LConn m (Feed b))) | PThr th => DFeed th b end.

Definition w_step (U : tables) (t : M_AioClient.timer) (o : wstep) (x : world) : world :=
  match o with
  | WCall p d rid addr => match y_request d rid with Ok q => on_oclient p (o_add (M_AioClient.Call q addr)) x | Raise _ => x end
  | WDial p i acc =>
      match nth_error (b_clients x) p with
      | Some k =>
          let k' := o_add (M_AioClient.DialOk i) k in
          match nth_error (M_AioClient.s_links (o_state t k')) (List.length (M_AioClient.s_links (o_state t k))) with
          | Some lk =>
              match accepts (M_AioClient.k_addr lk) acc (b_dep x) with
              | Some (o, e) => on_oclient p (fun _ => {| o_hist := o_hist k'; o_conns := o_conns k ++ [e] |}) (on_rest U t o x)
              | None => x
              end
          | None => x
          end
      | None => x
      end
  | WClient p o =>
      match o with
      | M_AioClient.Call _ _ | M_AioClient.DialOk _ | M_AioClient.Feed _ _ => x
      | _ => on_oclient p (o_add o) x
      end
  | WRest o =>
      match o with
      | DNet (ZServer a (LConn n (Feed _))) => if theirs x (PAio a n) then x else on_rest U t o x
      | DFeed th _ => if theirs x (PThr th) then x else on_rest U t o x
      | _ => on_rest U t o x
      end
  | WUp p c n =>
      match nth_error (b_clients x) p with
      | Some k =>
          match nth_error (o_conns k) c with
          | Some e =>
              match end_got (b_dep x) e with
              | Some got => on_rest U t (bring e (firstn n (skipn (List.length got) (y_sent (o_state t k) c)))) x
              | None => x
              end
          | None => x
          end
      | None => x
      end
  | WDown p c n =>
      match nth_error (b_clients x) p with
      | Some k =>
          match nth_error (o_conns k) c, nth_error (M_AioClient.s_links (o_state t k)) c with
          | Some e, Some lk =>
              match end_sent U (b_dep x) e with
              | Some sent => on_oclient p (o_add (M_AioClient.Feed c (firstn n (skipn (List.length (M_AioClient.k_in lk)) sent)))) x
              | None => x
              end
          | _, _ => x
          end
      | None => x
      end
  end.
Definition w_run (U : tables) (t : M_AioClient.timer) (clients : nat) (regs : list registry) (l : list wstep) : world :=
  fold_left (fun x o => w_step U t o x) l (b_init clients regs).

(** the request ids drawn by client p, in order *)
Definition w_ids (p : nat) (l : list wstep) : list Z :=
  concat (map (fun o => match o with
                        | WCall p' _ rid _ => if Nat.eqb p' p then [rid] else []
                        | WClient p' (M_AioClient.Beat rid) => if Nat.eqb p' p then [rid] else []
                        | _ => [] end) l).

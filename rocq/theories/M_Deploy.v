(** Model of a whole deployment: the network of asyncio clients and asyncio listeners of M_Net, and with it any number of
    calls of synchronous clients (M_SyncClient), made by any number of threads and processes at the same time, and the
    threads of threaded listeners (M_SockServer). Nothing of the code is modelled here that is not modelled there; the
    functions of M_SyncClient are taken apart into the steps between which other calls may run.
    Asyncio listener number a has the address a >= 0; addresses below 0 are those of threaded listeners.
    Listeners also serve other programs, on whose connections anything may arrive.
    Simplifications: connections that a pool opens and the call does not use carry nothing and are left out;
    the address of a call is looked up once (C21 says how; it cannot change while it is configured, C20);
    the asyncio clients of M_Net call asyncio listeners only (in M_World they call both kinds). *)
From Verif Require Import PyBase PyDict PyInt M_SofaHeader M_Package M_RpcId M_Trace M_SyncClient M_AioServer M_SockServer M_System M_Listener M_Net.
From Verif Require M_AioClient.
Open Scope nat_scope.

(** a thread of the threaded listener at an address, with what has arrived there *)
Record thr := { th_addr : Z; th_fuel : nat; th_reg : registry; th_tr : tstate; th_fresh : pystr; th_call : methods; th_err : option (nat * exn); th_net : list arrival }.
Definition th_out (U : tables) (x : thr) : sout := handle (th_fuel x) U (th_reg x) (th_tr x) (th_fresh x) (th_call x) (th_err x) (th_net x).
Definition th_arrive (a : arrival) (x : thr) : thr :=
  {| th_addr := th_addr x; th_fuel := th_fuel x; th_reg := th_reg x; th_tr := th_tr x; th_fresh := th_fresh x; th_call := th_call x; th_err := th_err x; th_net := th_net x ++ [a] |}.
(** the bytes that arrived before the end of the stream *)
Fixpoint arrived (net : list arrival) : bytes := match net with Arrive bs :: r => bs ++ arrived r | _ => [] end.

(** the other end of a connection: connection n of asyncio listener a, or thread t *)
Inductive peer := PAio (a n : nat) | PThr (t : nat).
(** a connection of the synchronous client: its name (M_SyncClient.fetch), the call that opened it, its other end (none if
    it was not accepted), the bytes written to it and the bytes that have come back *)
Record wire := { w_id : nat * nat; w_call : nat; w_peer : option peer; w_out : bytes; w_in : bytes }.
Definition w_write (b : bytes) (w : wire) : wire := {| w_id := w_id w; w_call := w_call w; w_peer := w_peer w; w_out := w_out w ++ b; w_in := w_in w |}.
Definition w_feed (b : bytes) (w : wire) : wire := {| w_id := w_id w; w_call := w_call w; w_peer := w_peer w; w_out := w_out w; w_in := w_in w ++ b |}.

(** where a call is: in a round of the loop of client.py:72-86 with the variable [conn]; in that of lines 122-133; over *)
Inductive spc := SSend (round : nat) (conn : option nat) | SRecv (w : nat) (s : rstate) | SEnd (r : res pyobj).
(** [c_back]: what giving the connection back will do (M_SyncClient.sync_result) *)
Record scall := { c_what : ycall; c_addr : Z; c_oneway : bool; c_rid : Z; c_back : res unit; c_pc : spc }.
Definition c_goto (p : spc) (c : scall) : scall := {| c_what := c_what c; c_addr := c_addr c; c_oneway := c_oneway c; c_rid := c_rid c; c_back := c_back c; c_pc := p |}.
(** client.py:69-71, 95, 113: the request of a call *)
Definition c_request (c : scall) : res pkg :=
  let d := c_what c in
  let! h := build_header (y_baggage d) (y_interface d) (y_method d) (y_app d) (y_uid d) (y_extra d) in
  new_request h (PBytes (y_content d)) (if c_oneway c then PTYPE_ONEWAY else PTYPE_REQUEST) (py_or (if c_oneway c then PNone else y_timeout d) (PInt (-1))) (c_rid c).

Record dep := { d_net : net; d_thrs : list thr; d_mgrs : nat; d_wires : list wire; d_calls : list scall }.
Definition d_init (clients : nat) (regs : list registry) : dep := {| d_net := z_init clients regs; d_thrs := []; d_mgrs := 0; d_wires := []; d_calls := [] |}.

(** what has been received and sent at the other end of a connection *)
Definition end_got (s : dep) (e : peer) : option bytes :=
  match e with PAio a n => option_map v_in (z_conn (d_net s) a n) | PThr t => option_map (fun x => arrived (th_net x)) (nth_error (d_thrs s) t) end.
Definition end_sent (U : tables) (s : dep) (e : peer) : option bytes :=
  match e with PAio a n => option_map y_replied (z_conn (d_net s) a n) | PThr t => option_map (fun x => concat (o_sent (th_out U x))) (nth_error (d_thrs s) t) end.

(** who accepts a new connection, if anybody does *)
Inductive accepter := AAio (tr : tstate) | AThr (fuel : nat) (reg : registry) (tr : tstate) (fresh : pystr) (call : methods) (w : option (nat * exn)) | ANone.
Inductive dstep :=
| DNet (o : zstep)                                                            (* a step of M_Net *)
| DCall (d : ycall) (addr : Z) (oneway : bool) (rid : Z) (back : res unit)    (* a call of a synchronous client: invoke_sync or invoke_oneway *)
| DRound (i : nat) (mk dr : nat -> nat -> bool) (acc : accepter) (send : res Z)   (* call i: one round of the send loop *)
| DRecv (i : nat) (ev : event)                                                (* call i: one round of the receive loop *)
| DUp (w n : nat)                                                             (* at most n bytes reach the server on connection w *)
| DDown (w n : nat)                                                           (* at most n bytes reach the client on connection w *)
| DOver (t : nat) (e : option exn)                                            (* for thread t the stream ends, or recv fails *)
| DAccept (addr : Z) (fuel : nat) (reg : registry) (tr : tstate) (fresh : pystr) (call : methods) (w : option (nat * exn))   (* a threaded listener accepts a connection of another program *)
| DFeed (t : nat) (b : bytes).                                                (* bytes of another program reach thread t *)

Definition with_call (i : nat) (f : scall -> scall) (s : dep) : dep :=
  {| d_net := d_net s; d_thrs := d_thrs s; d_mgrs := d_mgrs s; d_wires := d_wires s; d_calls := upd i f (d_calls s) |}.
Definition with_mgrs (n : nat) (s : dep) : dep := {| d_net := d_net s; d_thrs := d_thrs s; d_mgrs := n; d_wires := d_wires s; d_calls := d_calls s |}.
Definition with_wire (w : nat) (f : wire -> wire) (s : dep) : dep :=
  {| d_net := d_net s; d_thrs := d_thrs s; d_mgrs := d_mgrs s; d_wires := upd w f (d_wires s); d_calls := d_calls s |}.
Definition with_net (z : net) (s : dep) : dep := {| d_net := z; d_thrs := d_thrs s; d_mgrs := d_mgrs s; d_wires := d_wires s; d_calls := d_calls s |}.
Definition with_thr (t : nat) (a : arrival) (s : dep) : dep :=
  {| d_net := d_net s; d_thrs := upd t (th_arrive a) (d_thrs s); d_mgrs := d_mgrs s; d_wires := d_wires s; d_calls := d_calls s |}.
Definition add_wire (x : wire) (s : dep) : dep := {| d_net := d_net s; d_thrs := d_thrs s; d_mgrs := d_mgrs s; d_wires := d_wires s ++ [x]; d_calls := d_calls s |}.

(** is connection n of listener a one of a synchronous client? *)
Definition sync_conn (s : dep) (a n : nat) : bool :=
  existsb (fun w => match w_peer w with Some (PAio a' n') => Nat.eqb a' a && Nat.eqb n' n | _ => false end) (d_wires s).
(** is thread t at the other end of a connection of a synchronous client? *)
Definition sync_thr (s : dep) (t : nat) : bool := existsb (fun w => match w_peer w with Some (PThr t') => Nat.eqb t' t | _ => false end) (d_wires s).
Definition pair_eqb (x y : nat * nat) : bool := Nat.eqb (fst x) (fst y) && Nat.eqb (snd x) (snd y).
(** the connection with this name *)
Fixpoint find_wire (id : nat * nat) (l : list wire) : option nat :=
  match l with [] => None | w :: r => if pair_eqb (w_id w) id then Some 0 else option_map S (find_wire id r) end.

(** the connection that a call has fetched: the same as before if it is a connection used before, otherwise a new one *)
Definition new_wire (id : nat * nat) (i : nat) (p : option peer) : wire := {| w_id := id; w_call := i; w_peer := p; w_out := []; w_in := [] |}.
Definition new_thr (addr : Z) (fuel : nat) (reg : registry) (tr : tstate) (fresh : pystr) (call : methods) (e : option (nat * exn)) : thr :=
  {| th_addr := addr; th_fuel := fuel; th_reg := reg; th_tr := tr; th_fresh := fresh; th_call := call; th_err := e; th_net := [] |}.
Definition add_thr (x : thr) (s : dep) : dep := {| d_net := d_net s; d_thrs := d_thrs s ++ [x]; d_mgrs := d_mgrs s; d_wires := d_wires s; d_calls := d_calls s |}.
Definition connect (U : tables) (id : nat * nat) (i : nat) (addr : Z) (acc : accepter) (s : dep) : dep * nat :=
  match find_wire id (d_wires s) with
  | Some w => (s, w)
  | None =>
      let w := List.length (d_wires s) in
      match acc with
      | AAio tr =>
          match nth_error (z_servers (d_net s)) (Z.to_nat addr) with
          | Some x =>
              if (0 <=? addr)%Z then
                (add_wire (new_wire id i (Some (PAio (Z.to_nat addr) (List.length (n_conns x))))) (with_net (on_server U (Z.to_nat addr) (LAccept tr) (d_net s)) s), w)
              else (add_wire (new_wire id i None) s, w)
          | None => (add_wire (new_wire id i None) s, w)
          end
      | AThr fuel reg tr fresh call e =>
          if (addr <? 0)%Z then
            (add_wire (new_wire id i (Some (PThr (List.length (d_thrs s))))) (add_thr (new_thr addr fuel reg tr fresh call e) s), w)
          else (add_wire (new_wire id i None) s, w)
      | ANone => (add_wire (new_wire id i None) s, w)
      end
  end.

(** client.py:88-97, 115-121: after the send loop. A one-way call gives the connection back (to a new pool of a new
    manager), the other begins to receive *)
Definition leave (i : nat) (c : scall) (conn : option nat) (s : dep) : dep :=
  match conn with
  | None => with_call i (c_goto (SEnd (Raise NameError))) s
  | Some w =>
      if c_oneway c then with_mgrs (S (d_mgrs s)) (with_call i (c_goto (SEnd (let! _ := c_back c in Ok PNone))) s)
      else with_call i (c_goto (SRecv w (rinit (match nth_error (d_wires s) w with Some x => w_in x | None => [] end)))) s
  end.
(** client.py:77-80: the next round, if there is one *)
Definition again (i : nat) (c : scall) (r : nat) (conn : option nat) (s : dep) : dep :=
  if Nat.ltb (S r) 3 then with_call i (c_goto (SSend (S r) conn)) s else leave i c conn s.
(** client.py:72-86 *)
Definition round (U : tables) (i : nat) (mk dr : nat -> nat -> bool) (acc : accepter) (send : res Z) (c : scall) (r : nat) (conn : option nat) (s : dep) : dep :=
  let '(m, got) := fetch mk dr (c_addr c) (d_mgrs s) in
  let s := with_mgrs m s in
  match got with
  | Raise SocketValueError => again i c r conn s
  | Raise _ => leave i c conn s
  | Ok id =>
      let '(s, w) := connect U id i (c_addr c) acc s in
      match (let! p := c_request c in to_stream p) with
      | Raise SocketValueError => again i c r (Some w) s
      | Raise _ => leave i c (Some w) s
      | Ok bs =>
          match send with
          | Raise SocketValueError => again i c r (Some w) s
          | Raise _ => leave i c (Some w) s
          | Ok k => leave i c (Some w) (with_wire w (w_write (py_take k bs)) s)
          end
      end
  end.
(** client.py:122-141: one round of the receive loop, and what follows when it ends *)
Definition recv (i : nat) (c : scall) (w : nat) (x : rstate) (ev : event) (s : dep) : dep :=
  match ev with
  | Silent => with_call i (c_goto (SEnd (Raise TimeoutError))) s
  | Broken e => with_call i (c_goto (SEnd (Raise e))) s
  | Avail n =>
      match receive n x with
      | Raise e => with_call i (c_goto (SEnd (Raise e))) s
      | Ok x' =>
          if (len (y_buf x') <? y_total x')%Z then with_call i (c_goto (SRecv w x')) s
          else with_mgrs (S (d_mgrs s)) (with_call i (c_goto (SEnd (let! _ := c_back c in finish (c_rid c) x'))) s)
      end
  end.
(** bytes that come back on connection w reach the call that waits for them *)
Definition more (w : nat) (b : bytes) (c : scall) : scall :=
  match c_pc c with
  | SRecv w' x => if Nat.eqb w' w then c_goto (SRecv w' {| y_buf := y_buf x; y_total := y_total x; y_header := y_header x; y_rest := y_rest x ++ b |}) c else c
  | _ => c
  end.

Definition is_number (o : pyobj) : bool := match o with PInt _ | PBool _ | PFloat _ _ => true | _ => false end.
Definition d_step (U : tables) (t : M_AioClient.timer) (o : dstep) (s : dep) : dep :=
  match o with
  | DNet o =>
      match o with
      | ZServer a (LConn n (Feed _)) => if sync_conn s a n then s else with_net (z_step U t o (d_net s)) s
      | _ => with_net (z_step U t o (d_net s)) s
      end
  | DCall d addr oneway rid back =>
      let c := {| c_what := d; c_addr := addr; c_oneway := oneway; c_rid := rid; c_back := back; c_pc := SSend 0 None |} in
      let c := if oneway || is_number (y_timeout d) then match c_request c with Ok _ => c | Raise e => c_goto (SEnd (Raise e)) c end
               else c_goto (SEnd (Raise AssertionError)) c in
      {| d_net := d_net s; d_thrs := d_thrs s; d_mgrs := d_mgrs s; d_wires := d_wires s; d_calls := d_calls s ++ [c] |}
  | DRound i mk dr acc send =>
      match nth_error (d_calls s) i with
      | Some c => match c_pc c with SSend r conn => round U i mk dr acc send c r conn s | _ => s end
      | None => s
      end
  | DRecv i ev =>
      match nth_error (d_calls s) i with
      | Some c => match c_pc c with SRecv w x => recv i c w x ev s | _ => s end
      | None => s
      end
  | DUp w n =>
      match nth_error (d_wires s) w with
      | Some x =>
          match w_peer x with
          | Some e =>
              match end_got s e with
              | Some got =>
                  let b := firstn n (skipn (List.length got) (w_out x)) in
                  match e with PAio a m => with_net (on_server U a (LConn m (Feed b)) (d_net s)) s | PThr t => with_thr t (Arrive b) s end
              | None => s
              end
          | None => s
          end
      | None => s
      end
  | DDown w n =>
      match nth_error (d_wires s) w with
      | Some x =>
          match w_peer x with
          | Some e =>
              match end_sent U s e with
              | Some sent => let b := firstn n (skipn (List.length (w_in x)) sent) in with_call (w_call x) (more w b) (with_wire w (w_feed b) s)
              | None => s
              end
          | None => s
          end
      | None => s
      end
  | DOver t e => with_thr t (match e with Some e => Err e | None => Fin end) s
  | DAccept addr fuel reg tr fresh call e => if (addr <? 0)%Z then add_thr (new_thr addr fuel reg tr fresh call e) s else s
  | DFeed t b => if sync_thr s t then s else with_thr t (Arrive b) s
  end.
Definition d_run (U : tables) (t : M_AioClient.timer) (clients : nat) (regs : list registry) (l : list dstep) : dep :=
  fold_left (fun s o => d_step U t o s) l (d_init clients regs).

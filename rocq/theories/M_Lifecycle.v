(** Model of starting and stopping the listeners: run_forever and shutdown of anthunder/listener/sock_listener.py:143-156
    with socketserver.BaseServer.serve_forever and shutdown of the standard library (CPython 3.7 to 3.12), and of
    anthunder/listener/aio_listener.py:108-122 with asyncio.Server.close. run_threading (base_listener.py:111-113) is
    run_forever in another thread. What happens on accepted connections is in M_SockServer and M_Listener. *)
From Verif Require Import PyBase PyDict PyInt M_RpcId M_Trace M_AioServer M_Listener.
Open Scope nat_scope.

(** ** The threaded listener *)

(** where a call of serve_forever is *)
Inductive rpc :=
| RClear                 (* self.__is_shut_down.clear() *)
| RWhile                 (* while not self.__shutdown_request *)
| RSelect                (* ready = selector.select(poll_interval) *)
| RBreak (ready : bool)  (* if self.__shutdown_request: break *)
| RHandle                (* self._handle_request_noblock(): accept, and start a thread for the connection *)
| RReset                 (* finally: self.__shutdown_request = False *)
| REvent                 (* self.__is_shut_down.set() *)
| RReturned.
(** where a call of shutdown is *)
Inductive hpc :=
| HSet                   (* self.__shutdown_request = True *)
| HWait                  (* self.__is_shut_down.wait() *)
| HReturned.
Inductive kpc := KServe (p : rpc) | KStop (p : hpc).
Record kst := {
  k_open : bool;              (* the socket listens; from the constructor on (line 150) *)
  k_request : bool;           (* __shutdown_request *)
  k_event : bool;             (* __is_shut_down *)
  k_waiting : list nat;       (* connections that the system has accepted and the program has not *)
  k_served : list nat;        (* connections for which a thread was started *)
  k_refused : list nat;       (* connections that were refused *)
  k_next : nat;
  k_threads : list kpc
}.
(** line 150: the constructor binds and listens; the event of BaseServer is not set *)
Definition k_init : kst := {| k_open := true; k_request := false; k_event := false; k_waiting := []; k_served := []; k_refused := []; k_next := 0; k_threads := [] |}.
Inductive kstep :=
| KRun                        (* a thread calls run_forever, lines 152-153 *)
| KShutdown                   (* a thread calls shutdown, lines 155-156 *)
| KConnect                    (* a client connects *)
| KGo (i : nat).              (* thread i does its next step; if it must wait, nothing happens *)
Definition k_thread (p : kpc) (s : kst) : kst :=
  {| k_open := k_open s; k_request := k_request s; k_event := k_event s; k_waiting := k_waiting s; k_served := k_served s; k_refused := k_refused s; k_next := k_next s; k_threads := k_threads s ++ [p] |}.
Definition k_put (req ev : bool) (wait served : list nat) (i : nat) (p : kpc) (s : kst) : kst :=
  {| k_open := k_open s; k_request := req; k_event := ev; k_waiting := wait; k_served := served; k_refused := k_refused s; k_next := k_next s; k_threads := upd i (fun _ => p) (k_threads s) |}.
Definition k_goto (i : nat) (p : kpc) (s : kst) : kst := k_put (k_request s) (k_event s) (k_waiting s) (k_served s) i p s.
Definition k_step (o : kstep) (s : kst) : kst :=
  match o with
  | KRun => k_thread (KServe RClear) s
  | KShutdown => k_thread (KStop HSet) s
  | KConnect =>
      let n := k_next s in
      if k_open s then
        {| k_open := k_open s; k_request := k_request s; k_event := k_event s; k_waiting := k_waiting s ++ [n]; k_served := k_served s; k_refused := k_refused s; k_next := S n; k_threads := k_threads s |}
      else
        {| k_open := k_open s; k_request := k_request s; k_event := k_event s; k_waiting := k_waiting s; k_served := k_served s; k_refused := k_refused s ++ [n]; k_next := S n; k_threads := k_threads s |}
  | KGo i =>
      match nth_error (k_threads s) i with
      | Some (KServe p) =>
          match p with
          | RClear => k_put (k_request s) false (k_waiting s) (k_served s) i (KServe RWhile) s
          | RWhile => k_goto i (KServe (if k_request s then RReset else RSelect)) s
          | RSelect => k_goto i (KServe (RBreak (match k_waiting s with [] => false | _ => true end))) s
          | RBreak ready => k_goto i (KServe (if k_request s then RReset else if ready then RHandle else RWhile)) s
          | RHandle =>
              match k_waiting s with
              | c :: r => k_put (k_request s) (k_event s) r (k_served s ++ [c]) i (KServe RWhile) s
              | [] => k_goto i (KServe RWhile) s
              end
          | RReset => k_put false (k_event s) (k_waiting s) (k_served s) i (KServe REvent) s
          | REvent => k_put (k_request s) true (k_waiting s) (k_served s) i (KServe RReturned) s
          | RReturned => s
          end
      | Some (KStop p) =>
          match p with
          | HSet => k_put true (k_event s) (k_waiting s) (k_served s) i (KStop HWait) s
          | HWait => if k_event s then k_goto i (KStop HReturned) s else s
          | HReturned => s
          end
      | None => s
      end
  end.
Definition k_from (s : kst) (l : list kstep) : kst := fold_left (fun s o => k_step o s) l s.
Definition k_run (l : list kstep) : kst := k_from k_init l.

(** ** The asyncio listener *)

(** where the call of run_forever is (lines 108-114) *)
Inductive gpc :=
| GIdle                  (* not called *)
| GStarting              (* in start_server, line 111-112 *)
| GBound                 (* start_server is over, self._server is not yet assigned *)
| GRunning               (* in self._loop.run_forever(), line 114 *)
| GFailed                (* the address could not be bound: run_forever raised OSError *)
| GReturned.             (* run_forever has returned *)
(** where a call of shutdown is (lines 116-121) *)
Inductive apc :=
| AFind                  (* if self._loop and self._server *)
| AClose                 (* self._server.close() *)
| ASchedule              (* run_coroutine_threadsafe(wait_closed()), whose result nobody looks at *)
| AReturned (found : bool).
Record gst := {
  g_pc : gpc;
  g_server : bool;            (* self._server is assigned *)
  g_open : bool;              (* the socket listens *)
  g_stop : bool;              (* loop.stop() was called *)
  g_waiting : nat;            (* connections that the system has accepted and the program has not *)
  g_refused : nat;            (* connections that were refused or reset *)
  g_stops : list apc;
  g_lst : lst                 (* the accepted connections, M_Listener *)
}.
Definition g_init (reg : registry) : gst :=
  {| g_pc := GIdle; g_server := false; g_open := false; g_stop := false; g_waiting := 0; g_refused := 0; g_stops := []; g_lst := linit reg |}.
Inductive gstep :=
| GRun (bound : bool)         (* the thread of run_forever does its next step; [bound]: the address can be bound *)
| GShutdown                   (* a thread calls shutdown *)
| GGo (i : nat)               (* call i of shutdown does its next step *)
| GConnect                    (* a client connects *)
| GList (o : lstep).          (* a step of M_Listener: an accepted connection, a registration, a worker thread *)
Definition g_set (pc : gpc) (server opn : bool) (s : gst) : gst :=
  {| g_pc := pc; g_server := server; g_open := opn; g_stop := g_stop s; g_waiting := g_waiting s; g_refused := g_refused s; g_stops := g_stops s; g_lst := g_lst s |}.
Definition g_goto (i : nat) (p : apc) (s : gst) : gst :=
  {| g_pc := g_pc s; g_server := g_server s; g_open := g_open s; g_stop := g_stop s; g_waiting := g_waiting s; g_refused := g_refused s; g_stops := upd i (fun _ => p) (g_stops s); g_lst := g_lst s |}.
Definition g_listener (w : nat) (x : lst) (s : gst) : gst :=
  {| g_pc := g_pc s; g_server := g_server s; g_open := g_open s; g_stop := g_stop s; g_waiting := w; g_refused := g_refused s; g_stops := g_stops s; g_lst := x |}.
(** the loop runs, also while start_server is being run to its end *)
Definition looping (s : gst) : bool := match g_pc s with GBound | GRunning => true | _ => false end.
Definition g_step (U : tables) (o : gstep) (s : gst) : gst :=
  match o with
  | GRun bound =>
      match g_pc s with
      | GIdle | GFailed => g_set GStarting (g_server s) (g_open s) s
      | GStarting => if bound then g_set GBound (g_server s) true s else g_set GFailed (g_server s) (g_open s) s
      | GBound => g_set GRunning true (g_open s) s
      | GRunning => if g_stop s then g_set GReturned (g_server s) (g_open s) s else s
      | GReturned => s
      end
  | GShutdown =>
      {| g_pc := g_pc s; g_server := g_server s; g_open := g_open s; g_stop := g_stop s; g_waiting := g_waiting s; g_refused := g_refused s; g_stops := g_stops s ++ [AFind]; g_lst := g_lst s |}
  | GGo i =>
      match nth_error (g_stops s) i with
      | Some AFind => g_goto i (if g_server s then AClose else AReturned false) s
      | Some AClose =>
          (* the connections that wait are reset *)
          {| g_pc := g_pc s; g_server := g_server s; g_open := false; g_stop := g_stop s; g_waiting := 0; g_refused := g_refused s + g_waiting s; g_stops := upd i (fun _ => ASchedule) (g_stops s); g_lst := g_lst s |}
      | Some ASchedule => g_goto i (AReturned true) s
      | Some (AReturned _) => s
      | None => s
      end
  | GConnect =>
      if g_open s then g_listener (S (g_waiting s)) (g_lst s) s
      else {| g_pc := g_pc s; g_server := g_server s; g_open := g_open s; g_stop := g_stop s; g_waiting := g_waiting s; g_refused := S (g_refused s); g_stops := g_stops s; g_lst := g_lst s |}
  | GList o =>
      match o with
      | LAccept _ => if looping s && g_open s then match g_waiting s with S w => g_listener w (lrun_step U o (g_lst s)) s | O => s end else s
      | LRegister _ _ | LTake | LConn _ (JobEnd _ _) => g_listener (g_waiting s) (lrun_step U o (g_lst s)) s      (* other threads *)
      | LConn _ _ => if looping s then g_listener (g_waiting s) (lrun_step U o (g_lst s)) s else s
      end
  end.
Definition g_from (U : tables) (s : gst) (l : list gstep) : gst := fold_left (fun s o => g_step U o s) l s.
Definition g_run (U : tables) (reg : registry) (l : list gstep) : gst := g_from U (g_init reg) l.

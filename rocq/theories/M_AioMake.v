(** Making an asyncio client: the constructor of anthunder/client/aio_client.py:51-72, beside the thread of its event loop
    that it starts, until the first heartbeat is sent. M_AioClient is what comes then. The clock is in milliseconds.
    Only the attributes that a coroutine of the client uses are modelled. *)
From Verif Require Import PyBase.

(** where the constructor stands *)
Inductive cpc :=
| MkBase      (* line 52: the mesh client, base.py:35-47 *)
| MkLoop      (* line 53 *)
| MkMaps      (* lines 54-56 *)
| MkThread    (* lines 65-66: the thread is started *)
| MkBeat      (* lines 67-70 *)
| MkRest      (* line 58: _pending_dial. Line 57 assigns loop_thread, which nothing uses *)
| MkDone
| MkFailed (e : exn).
(** the heartbeat: not asked for, handed to the event loop, asleep in line 124, on its way (line 125), ended by an exception *)
Inductive beat := BNone | BQueued | BAsleep (until : Z) | BSent | BDead.
(** [a_mesh]: the client has a mesh client; [a_run]: the event loop thread runs; [a_asked]: the time of line 70 *)
Record making := { a_pc : cpc; a_mesh : bool; a_loop : bool; a_maps : bool; a_dial : bool; a_run : bool; a_beat : beat; a_asked : Z; a_now : Z }.

Definition INTERVAL : Z := 30000.
(** what happens: the next line of the constructor ([mesh]: the application could be registered; [thread]: a thread could be
    started, otherwise Thread.start raises RuntimeError, OtherError here); a turn of the event loop; time goes by *)
Inductive mk_event := Line (mesh thread : bool) | Turn | Wait (d : nat).
Definition mk_step (s : making) (o : mk_event) : making :=
  match o with
  | Line mesh thread =>
      match a_pc s with
      | MkBase => {| a_pc := MkLoop; a_mesh := mesh; a_loop := a_loop s; a_maps := a_maps s; a_dial := a_dial s; a_run := a_run s; a_beat := a_beat s; a_asked := a_asked s; a_now := a_now s |}
      | MkLoop => {| a_pc := MkMaps; a_mesh := a_mesh s; a_loop := true; a_maps := a_maps s; a_dial := a_dial s; a_run := a_run s; a_beat := a_beat s; a_asked := a_asked s; a_now := a_now s |}
      | MkMaps => {| a_pc := MkThread; a_mesh := a_mesh s; a_loop := a_loop s; a_maps := true; a_dial := a_dial s; a_run := a_run s; a_beat := a_beat s; a_asked := a_asked s; a_now := a_now s |}
      | MkThread => if thread
                    then {| a_pc := MkBeat; a_mesh := a_mesh s; a_loop := a_loop s; a_maps := a_maps s; a_dial := a_dial s; a_run := true; a_beat := a_beat s; a_asked := a_asked s; a_now := a_now s |}
                    else {| a_pc := MkFailed OtherError; a_mesh := a_mesh s; a_loop := a_loop s; a_maps := a_maps s; a_dial := a_dial s; a_run := a_run s; a_beat := a_beat s; a_asked := a_asked s; a_now := a_now s |}
      | MkBeat => {| a_pc := MkRest; a_mesh := a_mesh s; a_loop := a_loop s; a_maps := a_maps s; a_dial := a_dial s; a_run := a_run s; a_beat := if a_mesh s then BQueued else BNone; a_asked := a_now s; a_now := a_now s |}
      | MkRest => {| a_pc := MkDone; a_mesh := a_mesh s; a_loop := a_loop s; a_maps := a_maps s; a_dial := true; a_run := a_run s; a_beat := a_beat s; a_asked := a_asked s; a_now := a_now s |}
      | MkDone | MkFailed _ => s
      end
  | Turn =>
      if a_run s then
        {| a_pc := a_pc s; a_mesh := a_mesh s; a_loop := a_loop s; a_maps := a_maps s; a_dial := a_dial s; a_run := a_run s; a_asked := a_asked s; a_now := a_now s;
           a_beat := match a_beat s with
                     | BQueued => BAsleep (a_now s + INTERVAL)
                     (* lines 125, 135, 151: the connection has to be made, which uses _pending_dial. If that is missing the
                        AttributeError is swallowed at lines 209-212, and line 136 raises another one because invoke gave None *)
                     | BAsleep t => if a_now s <? t then BAsleep t else if a_dial s then BSent else BDead
                     | b => b
                     end |}
      else s
  | Wait d => {| a_pc := a_pc s; a_mesh := a_mesh s; a_loop := a_loop s; a_maps := a_maps s; a_dial := a_dial s; a_run := a_run s; a_beat := a_beat s; a_asked := a_asked s; a_now := a_now s + Z.of_nat d |}
  end.
Definition mk_init (now : Z) : making := {| a_pc := MkBase; a_mesh := false; a_loop := false; a_maps := false; a_dial := false; a_run := false; a_beat := BNone; a_asked := now; a_now := now |}.
Definition mk_run (now : Z) (l : list mk_event) : making := fold_left mk_step l (mk_init now).

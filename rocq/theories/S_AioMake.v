(** Vocabulary for C142. *)
From Verif Require Import PyBase M_AioMake.

(** everything that a coroutine of the client uses is there, and the event loop runs *)
Definition complete (s : making) : Prop := a_loop s = true /\ a_maps s = true /\ a_dial s = true /\ a_run s = true.
(** the constructor has returned *)
Definition returned (s : making) : Prop := a_pc s = MkDone.

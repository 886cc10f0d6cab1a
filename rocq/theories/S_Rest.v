(** What C87 says about a system (M_System) that is left alone. *)
From Verif Require Import PyBase PyDict PyInt M_RpcId M_Trace M_AioServer M_System.
From Verif Require M_AioClient.

(** everything that can happen except that somebody makes a new call, that the heartbeat timer fires and that
    somebody registers a service: the programs go on, bytes arrive, dials succeed or fail, calls are cancelled,
    methods return or raise or take too long, flushes fail, connections are closed or lost *)
Definition left_alone (o : ystep) : Prop :=
  match o with YCall _ _ _ | YClient (M_AioClient.Beat _) | YServer _ (Register _ _) => False | _ => True end.
(** nothing changed *)
Definition unchanged (U : tables) (t : M_AioClient.timer) (y y' : sys) : Prop :=
  y_client t y' = y_client t y /\ map (y_server U) (y_conns y') = map (y_server U) (y_conns y).
(** y' comes from y by such a step, and the step changed something *)
Definition goes_on (U : tables) (t : M_AioClient.timer) (y' y : sys) : Prop := exists o, left_alone o /\ y' = y_step U t o y /\ ~ unchanged U t y y'.
Definition y_from (U : tables) (t : M_AioClient.timer) (y : sys) (l : list ystep) : sys := fold_left (fun z o => y_step U t o z) l y.
(** the state after the first n steps of an endless schedule *)
Fixpoint after (U : tables) (t : M_AioClient.timer) (f : nat -> ystep) (n : nat) (y : sys) : sys := match n with O => y | S n => y_step U t (f n) (after U t f n y) end.

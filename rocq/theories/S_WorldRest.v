(** What C134 says about all the programs together (M_World) when they are left alone. *)
From Verif Require Import PyBase PyDict PyInt M_SofaHeader M_Package M_RpcId M_Trace M_SyncClient M_AioServer S_Server M_SockServer S_SockServer M_System M_Listener M_Net S_NetRest M_Deploy S_DepRest M_World.
From Verif Require M_AioClient.
Open Scope nat_scope.

(** everything that can happen except that somebody makes a new call or registers a service, that a heartbeat timer fires,
    and that other programs connect or send something. Timeouts and failures can happen *)
Definition w_left_alone (o : wstep) : Prop :=
  match o with WCall _ _ _ _ | WClient _ (M_AioClient.Beat _) => False | WRest o => d_left_alone o | _ => True end.
(** nothing changed: in no asyncio client, and in nothing else *)
Definition w_unchanged (U : tables) (t : M_AioClient.timer) (x x' : world) : Prop :=
  map (o_state t) (b_clients x') = map (o_state t) (b_clients x) /\ d_unchanged U t (b_dep x) (b_dep x').
(** x' comes from x by such a step, and the step changed something *)
Definition w_goes_on (U : tables) (t : M_AioClient.timer) (x' x : world) : Prop := exists o, w_left_alone o /\ x' = w_step U t o x /\ ~ w_unchanged U t x x'.
(** the state after the first n steps of an endless schedule *)
Fixpoint w_after (U : tables) (t : M_AioClient.timer) (f : nat -> wstep) (n : nat) (x : world) : world := match n with O => x | S n => w_step U t (f n) (w_after U t f n x) end.


(** what the programs and the network do by themselves *)
Definition w_routine (o : wstep) : Prop :=
  match o with
  | WDial _ _ _ | WUp _ _ _ | WDown _ _ _ => True
  | WClient _ (M_AioClient.Run _) | WClient _ (M_AioClient.Acquire _) | WClient _ (M_AioClient.DrainOk _) | WClient _ (M_AioClient.Wake _) | WClient _ (M_AioClient.Read _) => True
  | WRest o => d_routine o
  | _ => False
  end.
(** nothing of this has any effect any more *)
Definition w_settled (U : tables) (t : M_AioClient.timer) (x : world) : Prop := forall o, w_routine o -> w_unchanged U t x (w_step U t o x).
(** what happened to the rest of the programs, besides the asyncio clients *)
Definition rest_steps (l : list wstep) : list dstep := concat (map (fun o => match o with WRest o => [o] | _ => [] end) l).

(** What C124 says about a deployment (M_Deploy) that is left alone. *)
From Verif Require Import PyBase PyDict PyInt M_SofaHeader M_Package M_RpcId M_Trace M_SyncClient M_AioServer S_Server M_SockServer S_SockServer M_System M_Listener M_Net S_NetRest M_Deploy.
From Verif Require M_AioClient.
Open Scope nat_scope.

(** everything that can happen except that somebody makes a new call or registers a service, that a heartbeat timer fires,
    and that other programs connect or send something. Timeouts and failures can happen *)
Definition d_left_alone (o : dstep) : Prop :=
  match o with DNet o => z_left_alone o | DCall _ _ _ _ _ | DAccept _ _ _ _ _ _ _ | DFeed _ _ => False | _ => True end.
(** what a thread of a threaded listener has received, whether its stream has ended, and what it has done *)
Definition th_seen (U : tables) (x : thr) : bytes * option arrival * sout := (received (th_net x), ending (th_net x), th_out U x).
(** nothing changed: in no client and no listener, in no thread, on no connection and in no call *)
Definition d_unchanged (U : tables) (t : M_AioClient.timer) (s s' : dep) : Prop :=
  z_unchanged t (d_net s) (d_net s') /\ map (th_seen U) (d_thrs s') = map (th_seen U) (d_thrs s) /\ d_wires s' = d_wires s /\ d_calls s' = d_calls s.
(** s' comes from s by such a step, and the step changed something *)
Definition d_goes_on (U : tables) (t : M_AioClient.timer) (s' s : dep) : Prop := exists o, d_left_alone o /\ s' = d_step U t o s /\ ~ d_unchanged U t s s'.
(** the state after the first n steps of an endless schedule *)
Fixpoint d_after (U : tables) (t : M_AioClient.timer) (f : nat -> dstep) (n : nat) (s : dep) : dep := match n with O => s | S n => d_step U t (f n) (d_after U t f n s) end.

(** what the programs and the network do by themselves *)
Definition d_routine (o : dstep) : Prop :=
  match o with
  | DNet o => z_routine o
  | DUp _ _ | DDown _ _ | DRecv _ (Avail _) => True
  | DRound _ mk dr _ (Ok _) => forall a b, mk a b = true /\ dr a b = false
  | _ => False
  end.
(** nothing of this has any effect any more *)
Definition d_settled (U : tables) (t : M_AioClient.timer) (s : dep) : Prop := forall o, d_routine o -> d_unchanged U t s (d_step U t o s).

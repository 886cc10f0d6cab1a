(** What C115 says about a connection of the asyncio listener (M_AioServer). *)
From Verif Require Import PyBase PyInt M_AioServer.
Open Scope nat_scope.

(** the listener has closed the connection: lines 254, 270 *)
Definition hung_up (s : sst) : Prop := v_rd s = REnd.
(** the coroutine that reads the connection has nothing to do *)
Definition handler_rests (U : tables) (s : sst) : Prop := srun_step U Read s = s /\ forall ok, srun_step U (DrainR ok) s = s.
(** the number of steps of that coroutine in which it does something *)
Definition of_handler (o : sstep) : bool := match o with Read | DrainR _ => true | _ => false end.
Fixpoint moves (U : tables) (s : sst) (l : list sstep) (n : nat) : Prop :=
  match l with
  | [] => n = 0
  | o :: r => ((of_handler o = false \/ srun_step U o s = s) /\ moves U (srun_step U o s) r n) \/
              (of_handler o = true /\ srun_step U o s <> s /\ exists m, n = S m /\ moves U (srun_step U o s) r m)
  end.
(** the number of bytes that arrive *)
Fixpoint received (l : list sstep) : nat := match l with [] => 0 | Feed bs :: r => List.length bs + received r | _ :: r => received r end.

(** What C114 says about methods that call other methods of the same asyncio listener and wait for the answers. *)
From Verif Require Import PyBase PyDict PyInt M_RpcId M_Trace M_AioServer S_Server M_Listener S_Listener.
Open Scope nat_scope.

(** [needs (c, j) = Some (d, e)]: the method of call j of connection c asks for call e of connection d and waits for it *)
Definition need := nat * nat -> option (nat * nat).
(** a method that waits for another call ends only after that call has ended *)
Fixpoint obeys (U : tables) (needs : need) (s : lst) (l : list lstep) : Prop :=
  match l with
  | [] => True
  | o :: r =>
      match o with
      | LConn c (JobEnd j _) => call_state s c j = Some JRunning -> forall d e, needs (c, j) = Some (d, e) -> exists x, call_state s d e = Some (JEnded x)
      | _ => True
      end /\ obeys U needs (lrun_step U o s) r
  end.
(** the request for it has not arrived, or it waits for a worker *)
Definition not_begun (s : lst) (c j : nat) : Prop := call_state s c j = None \/ call_state s c j = Some JQueued.
(** the calls that are not over yet and wait for others, or will, are among w *)
Definition waiters (needs : need) (s : lst) (w : list (nat * nat)) : Prop :=
  forall c j, call_state s c j = Some JQueued \/ call_state s c j = Some JRunning -> needs (c, j) <> None -> In (c, j) w.

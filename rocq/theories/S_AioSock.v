(** What C99 says about a system (M_AioSock). *)
From Verif Require Import PyBase PyDict PyInt M_SofaHeader M_Package M_RpcId M_Trace M_AioServer S_Server M_SockServer S_SockServer M_System M_AioSock.
From Verif Require M_AioClient M_Deploy.

(** the method calls that the thread of a connection has made: service, method, argument and span context *)
Definition called_on (U : tables) (x : M_Deploy.thr) : list (pystr * pystr * bytes * nat) := o_calls (M_Deploy.th_out U x).
(** the request with this id is what the thread of connection c read, and its method has been called *)
Definition served_for (U : tables) (s : asys) (rid : Z) (c : nat) : Prop := exists x q,
  nth_error (a_thrs s) c = Some x /\ called_on U x <> [] /\ begins (received (M_Deploy.th_net x)) (IRequest q) /\ q_id q = rid.
(** how many flushes failed for the call with this number *)
Definition failed_flushes (i : nat) (s : asys) : nat :=
  List.length (filter (fun o => match o with M_AioClient.DrainFail j => Nat.eqb j i | _ => false end) (a_hist s)).

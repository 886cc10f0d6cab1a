(** What C67 and C68 say about a system (M_System); the server side in the words of S_Server. *)
From Coq Require Import Strings.String.
From Verif Require Import PyBase PyDict PyInt M_SofaHeader M_Package M_RpcId M_Trace M_AioServer S_Server M_System.
From Verif Require M_AioClient.
Open Scope Z_scope.

(** the coroutine of the call with this id has ended: its caller gets [r] *)
Definition gives (s : M_AioClient.st) (rid : Z) (r : res pyobj) : Prop := exists i tk o, nth_error (M_AioClient.s_tasks s) i = Some tk /\
  p_request_id (M_AioClient.t_req tk) = PInt rid /\ M_AioClient.t_pc tk = M_AioClient.Done o /\ M_AioClient.caller_sees o = r.

(** the method calls made by the server on a connection, as in S_Server *)
Definition calls_on (U : tables) (k : yconn) : list (nat * pystr * pystr * bytes) := executions U (sinit (y_reg k) (y_tr k)) (y_steps k).
(** the request with the id [rid] is the n-th unit on connection c, and its method has been called *)
Definition executed_for (U : tables) (y : sys) (rid : Z) (c n : nat) : Prop := exists k items rest q sv m b,
  nth_error (y_conns y) c = Some k /\ In (n, sv, m, b) (calls_on U k) /\
  cuts (fed (y_steps k)) items rest /\ nth_error items n = Some (IRequest q) /\ q_id q = rid.
(** how many flushes failed for the call with this number *)
Definition flush_failures (i : nat) (y : sys) : nat :=
  List.length (filter (fun o => match o with M_AioClient.DrainFail j => Nat.eqb j i | _ => false end) (y_hist y)).

(** What C102 says about all programs together (M_World); the rest in the words of S_Deploy and S_System. *)
From Verif Require Import PyBase PyDict PyInt M_AioServer S_Server M_SockServer S_SockServer M_System M_Listener M_Net M_Deploy M_World.
From Verif Require M_AioClient.
Open Scope nat_scope.

(** on connection c of the client, the j-th method call was started, and it is for the request with the id [rid] *)
Definition started_by (U : tables) (s : dep) (k : oclient) (rid : Z) (c j : nat) : Prop := exists e q, nth_error (o_conns k) c = Some e /\ q_id q = rid /\
  match e with
  | PAio a n => exists x b items rest, z_conn (d_net s) a n = Some x /\ nth_error (v_jobs x) j = Some b /\ (j_state b = JRunning \/ exists r, j_state b = JEnded r) /\
                                       cuts (v_in x) items rest /\ nth_error items (j_frame b) = Some (IRequest q)
  | PThr th => exists x, nth_error (d_thrs s) th = Some x /\ j < List.length (o_calls (th_out U x)) /\ begins (arrived (th_net x)) (IRequest q)
  end.
(** how many flushes failed for call i of the client *)
Definition flushes_failed (i : nat) (k : oclient) : nat :=
  List.length (filter (fun o => match o with M_AioClient.DrainFail j => Nat.eqb j i | _ => false end) (o_hist k)).

(** What C96 says about a deployment (M_Deploy); the asyncio part in the words of S_Net. *)
From Verif Require Import PyBase PyDict PyInt M_SofaHeader M_Package M_AioServer S_Server M_SockServer M_System M_Listener M_Net S_Net M_Deploy.
Open Scope nat_scope.

(** the other end of a connection belongs to the listener at this address *)
Definition located (s : dep) (e : peer) (addr : Z) : Prop :=
  match e with PAio a _ => addr = Z.of_nat a | PThr t => exists x, nth_error (d_thrs s) t = Some x /\ th_addr x = addr end.
(** a method was called there, as the call [d] wants it, and has returned bs *)
Definition returned_at (U : tables) (s : dep) (e : peer) (d : ycall) (bs : bytes) : Prop :=
  match e with
  | PAio a n => method_returned (d_net s) a n d (PBytes bs)
  | PThr t => exists x c, nth_error (d_thrs s) t = Some x /\ In (y_interface d, y_method d, y_content d, c) (o_calls (th_out U x)) /\
                          th_call x (y_interface d) (y_method d) (y_content d) c = Some (Ok (PBytes bs))
  end.
(** the j-th method call there was started, and it is the one that [d] asks for *)
Definition started_at (U : tables) (s : dep) (e : peer) (j : nat) (d : ycall) : Prop :=
  match e with
  | PAio a n => exists x b, z_conn (d_net s) a n = Some x /\ nth_error (v_jobs x) j = Some b /\ (j_state b = JRunning \/ exists r, j_state b = JEnded r) /\
                            j_service b = y_interface d /\ j_method b = y_method d /\ j_body b = y_content d
  | PThr t => exists x c, nth_error (d_thrs s) t = Some x /\ nth_error (o_calls (th_out U x)) j = Some (y_interface d, y_method d, y_content d, c)
  end.
(** the j-th method call there was started, whatever it is *)
Definition any_started_at (U : tables) (s : dep) (e : peer) (j : nat) : Prop :=
  match e with
  | PAio a n => exists x b, z_conn (d_net s) a n = Some x /\ nth_error (v_jobs x) j = Some b /\ (j_state b = JRunning \/ exists r, j_state b = JEnded r)
  | PThr t => exists x c, nth_error (d_thrs s) t = Some x /\ nth_error (o_calls (th_out U x)) j = Some c
  end.
(** connection w was opened by call i, and e is its other end *)
Definition connection_of (s : dep) (i w : nat) (e : peer) : Prop := exists x, nth_error (d_wires s) w = Some x /\ w_call x = i /\ w_peer x = Some e.
(** the steps of the asyncio clients and listeners *)
Definition net_steps (l : list dstep) : list zstep := concat (map (fun o => match o with DNet o => [o] | _ => [] end) l).

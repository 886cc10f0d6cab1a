(** What C117 says about a synchronous call in a deployment (M_Deploy). *)
From Verif Require Import PyBase PyDict PyInt M_SofaHeader M_Package M_SyncClient M_AioServer S_Server M_SockServer M_System M_Listener M_Net S_Net M_Deploy S_Deploy.
Open Scope nat_scope.

(** the call ran into no timeout, and its socket did not fail *)
Definition undisturbed (l : list dstep) (i : nat) : Prop := forall ev, In (DRecv i ev) l -> exists n, ev = Avail n.
(** call i has written its whole request to connection w, with e at its other end *)
Definition asked (s : dep) (i w : nat) (e : peer) : Prop :=
  exists c x bs, nth_error (d_calls s) i = Some c /\ c_oneway c = false /\ nth_error (d_wires s) w = Some x /\ w_call x = i /\ w_peer x = Some e /\ (let! p := c_request c in to_stream p) = Ok bs /\ w_out x = bs.
(** nothing is on its way on connection w any more, and call i has read what has come back there *)
Definition delivered (U : tables) (s : dep) (i w : nat) : Prop :=
  exists c x e, nth_error (d_calls s) i = Some c /\ nth_error (d_wires s) w = Some x /\ w_peer x = Some e /\ end_got s e = Some (w_out x) /\ end_sent U s e = Some (w_in x) /\
    forall y, c_pc c = SRecv w y -> y_rest y = [].
(** a thread that answers the call [d] with v: it has not failed, the service has the method, and that returns v *)
Definition answers_with (x : thr) (d : ycall) (v : bytes) : Prop :=
  1 <= th_fuel x /\ th_err x = None /\ offers (th_reg x) (y_interface d) (y_method d) /\ (forall c, th_call x (y_interface d) (y_method d) (y_content d) c = Some (Ok (PBytes v))) /\ (len v <= 4294967295)%Z.
(** a call that has just been made, with a request and a response *)
Definition new_call (d : ycall) (addr rid : Z) (back : res unit) : scall := {| c_what := d; c_addr := addr; c_oneway := false; c_rid := rid; c_back := back; c_pc := SSend 0 None |}.
Definition numeric (o : pyobj) : Prop := (exists z, o = PInt z) \/ (exists b, o = PBool b) \/ exists n d, o = PFloat n d.

(** Specification of what a threaded Bolt server sees of a connection, and of registrations. Frames and what
    requests name: S_Server. *)
From Verif Require Import PyBase PyDict PyInt M_RpcId M_Trace S_Wire M_AioServer S_Server M_SockServer.

(** the bytes the client sent before it closed its side or the connection broke *)
Fixpoint received (net : list arrival) : bytes := match net with Arrive bs :: r => bs ++ received r | _ => [] end.
(** how the connection ended, if it did *)
Fixpoint ending (net : list arrival) : option arrival := match net with [] => None | Arrive _ :: r => ending r | x :: _ => Some x end.
(** [bs] begins with the unit [i] *)
Definition begins (bs : bytes) (i : item) : Prop := exists a rest, bs = a ++ rest /\ one a i.
(** [bs] does not contain a complete unit *)
Definition incomplete (bs : bytes) : Prop := forall i, ~ begins bs i.

(** of [bs] was sent the whole, or, if sending failed, the beginning *)
Definition sent_of (w : option (nat * exn)) (sent : list bytes) (bs : bytes) : Prop := exists p rest, sent = [p] /\ bs = p ++ rest /\ (w = None -> rest = []).
(** why something is sent, or a method called *)
Definition reply_for reg (call : methods) (D : bytes) (o : sout) (bs : bytes) : Prop :=
  (exists id, begins D (IHeartbeat id) /\ response bs id 0 0 [] /\ o_calls o = []) \/
  (exists q, begins D (IRequest q) /\ ((~ exists sv, names_service (q_header q) sv) \/ ~ exists m, names_method (q_header q) m) /\ response bs (q_id q) 2 8 [] /\ o_calls o = []) \/
  (exists q sv m c v, begins D (IRequest q) /\ names_service (q_header q) sv /\ names_method (q_header q) m /\ offers reg sv m /\
     o_calls o = [(sv, m, q_body q, c)] /\ call sv m (q_body q) c = Some (Ok (PBytes v)) /\ response bs (q_id q) 2 0 v).
Definition calls_for U reg tr fresh (D : bytes) (l : list (pystr * pystr * bytes * nat)) : Prop := exists q sv m c,
  begins D (IRequest q) /\ names_service (q_header q) sv /\ names_method (q_header q) m /\ offers reg sv m /\ snd (extract U tr (q_header q) fresh) = Ok c /\ l = [(sv, m, q_body q, c)].

(** the number of listeners created *)
Fixpoint listeners (l : list regop) : nat := match l with [] => O | NewListener _ :: r => S (listeners r) | _ :: r => listeners r end.
(** [registered on l name sv]: in the history [l] the last registration of the name on one of the listeners [on] is [sv] *)
Inductive registered (on : nat -> Prop) : list regop -> pystr -> service -> Prop :=
| Reg_here l i name sv : (i < listeners l)%nat -> on i -> registered on (l ++ [RegisterOn i name sv]) name sv
| Reg_later l x name sv : registered on l name sv -> (forall i sv', x = RegisterOn i name sv' -> (i < listeners l)%nat -> ~ on i) -> registered on (l ++ [x]) name sv.
Definition anywhere (i : nat) : Prop := True.

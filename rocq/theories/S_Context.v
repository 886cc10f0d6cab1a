(** What C130 says about the trace contexts with which methods are called (M_Deploy, M_World). *)
From Coq Require Import Strings.String.
From Verif Require Import PyBase PyDict PyInt M_SofaHeader M_RpcId M_Trace M_AioServer M_SockServer M_System M_Listener M_Net M_Deploy.
Open Scope nat_scope.

(** the baggage, as text, of the context with which the j-th method call at the end of a connection is made *)
Definition context_at (U : tables) (s : dep) (e : peer) (j : nat) : option (dict pystr pystr) :=
  match e with
  | PAio a n => match z_conn (d_net s) a n with
                | Some x => match nth_error (v_jobs x) j with Some b => baggage_text (v_trace x) (j_ctx b) | None => None end
                | None => None
                end
  | PThr th => match nth_error (d_thrs s) th with
               | Some x => match nth_error (o_calls (th_out U x)) j with Some (_, c) => baggage_text (o_trace (th_out U x)) c | None => None end
               | None => None
               end
  end.
(** the baggage of the call is that of a context that a process can have; no item is named "prefix" (C13), and no further
    header of the call looks like a trace header *)
Definition traced (U : tables) (d : ycall) : Prop :=
  (exists ops c, baggage_text (trun U t_init ops) c = Some (y_baggage d)) /\ dget (str "prefix") (y_baggage d) = None /\
  wf_dict (y_extra d) /\ forall k, In k (keys (y_extra d)) -> starts_with PREFIX k = false.
(** a method is called in the context of the call [d]: the same items, among them the trace id and the rpc id *)
Definition in_context (U : tables) (s : dep) (e : peer) (j : nat) (d : ycall) : Prop :=
  exists b, context_at U s e j = Some b /\ forall k, dget k b = dget k (y_baggage d).

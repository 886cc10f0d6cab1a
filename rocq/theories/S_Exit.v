(** What C119 says about methods that raise what is not an Exception (M_Exit). *)
From Verif Require Import PyBase PyDict PyInt M_RpcId M_Trace M_AioServer S_Server M_Listener S_Listener M_Exit.
Open Scope nat_scope.

(** the same history with an ordinary exception instead of each such one *)
Definition plain_step (o : xstep) : lstep := match o with XStep o => o | XRaise c j _ => LConn c (JobEnd j (Raise OtherError)) end.
(** the first list is the second without some elements, each of which is a P *)
Inductive part_but {A} (P : A -> Prop) : list A -> list A -> Prop :=
| part_nil : part_but P [] []
| part_keep x a b : part_but P a b -> part_but P (x :: a) (x :: b)
| part_skip x a b : P x -> part_but P a b -> part_but P a (x :: b).
(** what has been written on connection c; None: there is no such connection *)
Definition out_on (s : lst) (c : nat) : option (list (nat * bytes)) := option_map v_out (nth_error (n_conns s) c).
(** coroutine i on connection c, which answers frame n with request q, awaits job j, whose method is being executed *)
Definition awaits (s : lst) (c i n : nat) (q : request) (j : nat) : Prop := answering_on s c i n q (TWait j) /\ call_state s c j = Some JRunning.
(** the method raises b while the coroutine awaits it *)
Definition hit (U : tables) (reg : registry) (l : list xstep) (c i j : nat) (b : base_exn) (l2 : list xstep) : Prop :=
  exists l1 n q, l = l1 ++ XRaise c j b :: l2 /\ awaits (x_l (x_run U reg l1)) c i n q j.
(** the step runs a coroutine hit so *)
Definition step_of (o : lstep) (c i : nat) : Prop := o = LConn c (Result i) \/ o = LConn c (Expire i) \/ (exists f, o = LConn c (Dispatch i f)) \/ exists ok, o = LConn c (Drain i ok).
Definition of_hit (U : tables) (reg : registry) (l : list xstep) (o : lstep) : Prop := exists c i j b l2, step_of o c i /\ hit U reg l c i j b l2.

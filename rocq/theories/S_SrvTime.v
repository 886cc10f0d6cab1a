(** Specification for C126: runs of one connection of the asyncio listener (M_AioServer) with times, what it means that the
    event loop of the listener does its work promptly, and that the timers of asyncio are right. Times are as in M_SyncTime. *)
From Verif Require Import PyBase PyDict PyInt M_SofaHeader M_Package M_RpcId M_Trace M_AioServer S_Server M_SyncTime.
Open Scope Z_scope.

(** The steps of the run with the times at which they were made, the state after them, the time of the last one (t0 is the time
    at which the connection was accepted). *)
Definition trun : Type := list (Z * sstep).
Definition after (U : tables) (reg : registry) (tr : tstate) (x : trun) : sst := srun U reg tr (map snd x).
Definition now (t0 : Z) (x : trun) : Z := last (map fst x) t0.
(** the clock does not go backwards; the run has been watched until [till] *)
Definition ticking (t0 : Z) (x : trun) (till : Z) : Prop := now t0 x <= till /\ forall x1 t o x2, x = x1 ++ (t, o) :: x2 -> now t0 x1 <= t.
(** a timeout of so many milliseconds *)
Definition ms (n : Z) : Z := n * (SECOND / 1000).

(** [within x1 x2 d P]: at some moment of the run x1 ++ x2, not before the end of x1 and at time d at the latest, P holds *)
Definition within (t0 : Z) (x1 x2 : trun) (d : Z) (P : trun -> Prop) : Prop := exists y z, x2 = y ++ z /\ now t0 (x1 ++ y) <= d /\ P (x1 ++ y).

(** The event loop is prompt: within [lag] it lets the connection handler read what has come, and lets a coroutine that need not wait
    for a method (to call it, or to write when the transport does not hold it up) do so. *)
Definition may_go (r : option request) (p : tpc) : Prop := p = TStart /\ r <> None \/ exists bs, p = TDrain1 bs.
Record prompt (U : tables) (reg : registry) (tr : tstate) (t0 : Z) (x : trun) (till lag : Z) : Prop := {
  pr_lag : 0 <= lag;
  pr_reads : forall x1 x2, x = x1 ++ x2 -> now t0 x1 + lag <= till -> within t0 x1 x2 (now t0 x1 + lag) (fun y => waiting (after U reg tr y));
  pr_goes : forall x1 x2 i n r p, x = x1 ++ x2 -> now t0 x1 + lag <= till -> answering (after U reg tr x1) i n r p -> may_go r p ->
    within t0 x1 x2 (now t0 x1 + lag) (fun y => ~ answering (after U reg tr y) i n r p)
}.
(** coroutine i begins to wait for its method with the last step of x1 *)
Definition begins (U : tables) (reg : registry) (tr : tstate) (x1 : trun) (i n : nat) (q : request) (j : nat) : Prop :=
  answering (after U reg tr x1) i n (Some q) (TWait j) /\ ~ answering (after U reg tr (removelast x1)) i n (Some q) (TWait j).
(** The timers: a wait ends when its time is over, within [lag], if it has not ended before; it is not said to be over earlier. *)
Record timers (U : tables) (reg : registry) (tr : tstate) (t0 : Z) (x : trun) (till lag : Z) : Prop := {
  ti_ends : forall x1 x2 i n q j, x = x1 ++ x2 -> begins U reg tr x1 i n q j -> 0 < q_timeout q -> now t0 x1 + ms (q_timeout q) + lag <= till ->
    within t0 x1 x2 (now t0 x1 + ms (q_timeout q) + lag) (fun y => ~ answering (after U reg tr y) i n (Some q) (TWait j));
  ti_not_before : forall x1 x2 t x3 i n q j, x = x1 ++ x2 ++ (t, Expire i) :: x3 -> begins U reg tr x1 i n q j ->
    answering (after U reg tr (x1 ++ x2)) i n (Some q) (TWait j) -> now t0 x1 + ms (q_timeout q) <= t
}.

(** the trace headers of the request can be read, and making a service object does not raise CancelledError (C50, C53) *)
Definition in_order (U : tables) (reg : registry) (tr : tstate) (x : trun) (q : request) : Prop := (exists c, snd (extract U t_init (q_header q) []) = Ok c) /\ forall y z sv, x = y ++ z -> ~ broken (v_reg (after U reg tr y)) sv CancelledError.

(** what the server has to say to the n-th unit, the request q: a value that its method has returned, or an error *)
Definition told (s : sst) (n : nat) (q : request) (bs : bytes) (st : Z) (c : bytes) : Prop :=
  answers n s = [bs] /\ response bs (q_id q) 2 st c /\ (st = 0 /\ ended_with s n (Ok (PBytes c)) \/ In st [2; 3; 6; 7; 8]).
(** the n-th unit has been received completely *)
Definition has_come (x : trun) (n : nat) (q : request) : Prop := exists items rest, cuts (fed (map snd x)) items rest /\ nth_error items n = Some (IRequest q).

(** What C118 says about callbacks that use the client (M_Callback). *)
From Verif Require Import PyBase PyDict PyInt M_SofaHeader M_Package M_RpcId M_Trace M_AioServer S_Server M_System S_System M_Front S_Front M_Callback.
From Verif Require M_AioClient.
Open Scope nat_scope.

(** call i is an invoke_sync made by a callback that the loop was running *)
Definition sync_in_callback (U : tables) (t : M_AioClient.timer) (l : list cbstep) (i : nat) (d : ycall) (rid : Z) : Prop :=
  exists l1 l2 j addr, l = l1 ++ EAct ASync d rid addr :: l2 /\ e_loop (e_run U t l1) = InCallback j /\ i = List.length (w_calls (e_front (e_run U t l1))).
(** the client as it was, but for new calls that have not begun *)
Definition stands_still (s s' : M_AioClient.st) : Prop :=
  exists more, M_AioClient.s_tasks s' = M_AioClient.s_tasks s ++ more /\ (forall k, In k more -> M_AioClient.t_pc k = M_AioClient.Start) /\
    M_AioClient.s_written s' = M_AioClient.s_written s /\ M_AioClient.s_links s' = M_AioClient.s_links s /\ M_AioClient.s_conn s' = M_AioClient.s_conn s /\
    M_AioClient.s_resp s' = M_AioClient.s_resp s /\ M_AioClient.s_req s' = M_AioClient.s_req s /\ M_AioClient.s_timer s' = M_AioClient.s_timer s.
(** the outcome of call i has been passed on to its caller's future *)
Definition settled (i : nat) (w : front) : Prop := exists c, nth_error (w_calls w) i = Some c /\ exists r, f_fut c = FDone r.
(** no callback is called, no value is returned that had not been passed on before, and none is passed on *)
Definition quiet (w w' : front) : Prop := (exists g, w_log w' = w_log w ++ g /\ (forall j v, ~ In (ECallback j v) g) /\ forall j v, In (EOver j (Ok v)) g -> settled j w) /\ forall j, settled j w' -> settled j w.
(** the steps of M_Front that a history asks for *)
Definition plain (o : cbstep) : list fstep := match o with EOut o => [o] | EEarly j => [WSettle j] | EAct k d rid a => [WInvoke k d rid a] | EEnd _ => [] end.
Inductive part_of {A} : list A -> list A -> Prop :=
| part_nil : part_of [] []
| part_keep x a b : part_of a b -> part_of (x :: a) (x :: b)
| part_skip x a b : part_of a b -> part_of a (x :: b).
(** call i is an invoke_sync made by anybody after the steps l1 *)
Definition sync_after (U : tables) (t : M_AioClient.timer) (l1 l2 : list cbstep) (i : nat) (d : ycall) (rid : Z) : Prop :=
  exists a b addr, l2 = a ++ EOut (WInvoke ASync d rid addr) :: b /\ i = List.length (w_calls (e_front (e_run U t (l1 ++ a)))).
(** what is done by the callers' threads, by the servers and by the network towards them *)
Inductive elsewhere : fstep -> Prop :=
| EW_call k d rid a : elsewhere (WInvoke k d rid a)
| EW_cancel j : elsewhere (WCancel j)
| EW_late j : elsewhere (WLate j)
| EW_return j : elsewhere (WReturn j)
| EW_server c o : elsewhere (WSys (YServer c o))
| EW_up c n : elsewhere (WSys (YUp c n)).

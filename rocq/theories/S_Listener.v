(** What C88 and C89 say about an asyncio listener (M_Listener) with many connections. *)
From Verif Require Import PyBase PyDict PyInt M_RpcId M_Trace M_AioServer S_Server M_Listener.
Open Scope nat_scope.

(** the state of the j-th method call asked for on connection c *)
Definition call_state (s : lst) (c j : nat) : option jstate := match nth_error (n_conns s) c with Some k => option_map j_state (nth_error (v_jobs k) j) | None => None end.
(** its method is called in this step *)
Definition starts_in (U : tables) (o : lstep) (s : lst) (c j : nat) : Prop := call_state s c j = Some JQueued /\ call_state (lrun_step U o s) c j = Some JRunning.
(** the methods that are being executed: all of the calls (c, j) are different and running *)
Definition executing (s : lst) (l : list (nat * nat)) : Prop := NoDup l /\ Forall (fun x => call_state s (fst x) (snd x) = Some JRunning) l.
(** the bytes received on connection c, which exists when they arrive *)
Fixpoint received (U : tables) (c : nat) (s : lst) (l : list lstep) : bytes :=
  match l with
  | [] => []
  | o :: r => match o with LConn c' (Feed bs) => if Nat.eqb c' c && Nat.ltb c (List.length (n_conns s)) then bs else [] | _ => [] end ++ received U c (lrun_step U o s) r
  end.
(** no method that is being executed ends *)
Definition nothing_ends (o : lstep) : Prop := match o with LConn _ (JobEnd _ _) => False | _ => True end.
(** the coroutine answering the n-th unit of connection c *)
Definition answering_on (s : lst) (c i n : nat) (q : request) (p : tpc) : Prop := exists k, nth_error (n_conns s) c = Some k /\ answering k i n (Some q) p.
(** a worker takes the next call, k times *)
Definition takes (U : tables) (k : nat) (s : lst) : lst := fold_left (fun s o => lrun_step U o s) (repeat LTake k) s.
(** only workers that take calls, and methods that end *)
Definition only_workers (o : lstep) : Prop := match o with LTake | LConn _ (JobEnd _ _) => True | _ => False end.

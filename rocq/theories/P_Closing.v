(** Property theorem C115: connections of the asyncio listener are closed. [srun U reg tr l] is one connection after the
    steps l, as in P_AioServer. [DrainR false]: a write of an error answer fails because the connection is lost. *)
From Coq Require Import Strings.String.
From Verif Require Import PyBase PyDict PyInt Struct M_SofaHeader M_Package M_RpcId M_Trace L_Trace2 M_AioServer S_Server P_AioServer S_Closing L_Closing.
Open Scope nat_scope.

(** once the client has closed its side or the connection has failed, the coroutine that reads the connection stops only
    after it has closed the connection *)
Theorem C115_closed : forall U reg tr l, ~ In (DrainR false) l -> let s := srun U reg tr l in v_eof s = true \/ v_exn s = true -> handler_rests U s -> hung_up s.
Proof. exact listener_closes. Qed.
Print Assumptions C115_closed.

(** and that coroutine cannot go on for long: its steps are at most 3 more than the bytes that arrived *)
Theorem C115_few_steps : forall U reg tr l n, moves U (sinit reg tr) l n -> n <= received l + 3.
Proof. exact few_moves. Qed.
Print Assumptions C115_few_steps.

(** so left to itself it closes the connection *)
Theorem C115_soon : forall U reg tr l n, ~ In (DrainR false) l -> (let s := srun U reg tr l in v_eof s = true \/ v_exn s = true) -> received l + 3 <= n ->
  hung_up (srun U reg tr (l ++ concat (repeat [Read; DrainR true] n))).
Proof. exact closes_in_time. Qed.
Print Assumptions C115_soon.

(** what is closed stays closed, and nothing is written any more *)
Theorem C115_for_good : forall U reg tr l1 l2, hung_up (srun U reg tr l1) -> hung_up (srun U reg tr (l1 ++ l2)) /\ v_out (srun U reg tr (l1 ++ l2)) = v_out (srun U reg tr l1).
Proof. exact stays_hung_up. Qed.
Print Assumptions C115_for_good.

(** a request and half of another one arrive, then the stream ends *)
Definition torn : list sstep := Feed (req 1 7 (hdr "svc" "m") "hi" 100) :: reads 1 ++ [Feed (bytes_lit "half")] ++ [Eof].
Example C115_case : let s := srun ascii_tables reg0 t_init torn in
  ~ In (DrainR false) torn /\ v_eof s = true /\ ~ hung_up s /\ received torn = 137 /\
  let s2 := srun ascii_tables reg0 t_init (torn ++ [Read; DrainR true; DrainR true]) in hung_up s2 /\ srun_step ascii_tables Read s2 = s2 /\ map snd (v_out s2) = [reply 7 2 16 []] /\
  moves ascii_tables (sinit reg0 t_init) (torn ++ [Read; DrainR true; DrainR true]) 7.
Proof.
  cbn zeta. split; [cbn; intros H; repeat (destruct H as [H|H]; [discriminate H|]); destruct H|]. split; [vm_compute; reflexivity|]. split; [intros H; vm_compute in H; discriminate H|]. split; [vm_compute; reflexivity|].
  split; [vm_compute; reflexivity|]. split; [vm_compute; reflexivity|]. split; [vm_compute; reflexivity|].
  assert (Other : forall o s l n, of_handler o = false -> moves ascii_tables (srun_step ascii_tables o s) l n -> moves ascii_tables s (o :: l) n) by (intros o s l n Ho M; left; auto).
  assert (Own : forall o s l n, of_handler o = true -> (v_rd (srun_step ascii_tables o s) <> v_rd s) -> moves ascii_tables (srun_step ascii_tables o s) l n -> moves ascii_tables s (o :: l) (S n)) by (intros o s l n Ho N M; right; split; [exact Ho|]; split; [congruence|]; exists n; auto).
  unfold torn, reads. cbn [Nat.mul Nat.add repeat app].
  apply Other; [reflexivity|]. do 4 (apply Own; [reflexivity|intros E; vm_compute in E; discriminate E|]). do 2 (apply Other; [reflexivity|]).
  do 3 (apply Own; [reflexivity|intros E; vm_compute in E; discriminate E|]). reflexivity.
Qed.

(** Property theorem C114: methods of the asyncio listener that call other methods of the same listener. *)
From Coq Require Import Strings.String Lia.
From Verif Require Import PyBase PyDict PyInt M_RpcId M_Trace S_Wire M_AioServer S_Server L_AioServer2 M_Listener S_Listener L_Listener P_AioServer P_Listener S_Nested L_Nested.
Open Scope nat_scope.

(** ** C114. Full property: a method may call other methods served by the same listener and wait for the answers.
    False: when the methods on all 30 worker threads wait for calls that have not begun, then whatever happens next, as
    long as a method ends only after the call it waits for, none of them ever ends and no call ever begins. *)
Theorem C114_deadlock_refuted : forall U reg l1 l2 x needs, let s := lrun U reg l1 in let s' := lrun U reg (l1 ++ l2) in
  executing s x -> List.length x = 30 -> (forall c j, In (c, j) x -> exists d e, needs (c, j) = Some (d, e) /\ not_begun s d e) -> obeys U needs s l2 ->
  executing s' x /\ forall c j, not_begun s c j -> call_state s' c j <> Some JRunning /\ forall r, call_state s' c j <> Some (JEnded r).
Proof. exact deadlock. Qed.
Print Assumptions C114_deadlock_refuted.

(** What holds: while fewer than 30 of the calls that are not over wait for others, or will, every call can be brought to
    its end by the workers alone, also one that waits for another call (which was asked for, was not cancelled and waits
    for nothing itself). Missing: 30 such calls or more, for which the claim is false. *)
Theorem C114_nested_ends_partial : forall U reg l needs w c j, let s := lrun U reg l in waiters needs s w -> List.length w < 30 ->
  call_state s c j = Some JQueued \/ call_state s c j = Some JRunning ->
  (forall d e, needs (c, j) = Some (d, e) -> needs (d, e) = None /\ call_state s d e <> None /\ call_state s d e <> Some JCancelled) ->
  exists l2 r, Forall only_workers l2 /\ obeys U needs s l2 /\ call_state (lrun U reg (l ++ l2)) c j = Some (JEnded r).
Proof. exact nested_ends. Qed.
Print Assumptions C114_nested_ends_partial.

(** n requests on connection 0 whose methods are started, then one on connection 1, which the first of them waits for *)
Definition outer (n : nat) : list lstep :=
  [LAccept t_init; LAccept t_init] ++ on 0 (Feed (concat (map (fun i => req 1 (Z.of_nat i) (hdr "svc" "m") "hi" 0) (seq 0 n))) :: reads n ++ map (fun i => Dispatch i (str "T")) (seq 0 n)) ++
  repeat LTake n ++ on 1 (Feed (req 1 7 (hdr "svc" "m") "hi" 0) :: reads 1 ++ [Dispatch 0 (str "T")]).
Definition waits_on_1 : need := fun x => match x with (0, j) => Some (1, j) | _ => None end.

Example C114_case30 : let s := lgo (outer 30) in let x := map (pair 0) (seq 0 30) in
  executing s x /\ List.length x = 30 /\ (forall c j, In (c, j) x -> exists d e, waits_on_1 (c, j) = Some (d, e) /\ not_begun s d e) /\
  call_state s 1 0 = Some JQueued /\ obeys ascii_tables waits_on_1 s [LTake; LConn 1 (Feed (req 1 8 (hdr "svc" "m") "hi" 0)); LTake; LConn 1 (JobEnd 0 (Ok PNone))].
Proof.
  cbv zeta. split; [split; [repeat constructor; cbn [In map]; intros H; repeat (destruct H as [H|H]; [discriminate H|]); destruct H|]|].
  - apply Forall_forall. intros (c, j) H. apply in_map_iff in H as (j0 & E & H). injection E as <- <-. apply in_seq in H. do 30 (destruct j0 as [|j0]; [vm_compute; reflexivity|]). exfalso. lia.
  - split; [reflexivity|]. split.
    + intros c j H. apply in_map_iff in H as (j0 & E & H). injection E as <- <-. apply in_seq in H. exists 1, j0. split; [reflexivity|]. unfold not_begun.
      destruct j0 as [|j0]; [right; vm_compute; reflexivity|left]. do 29 (destruct j0 as [|j0]; [vm_compute; reflexivity|]). exfalso. lia.
    + split; [vm_compute; reflexivity|]. cbn [obeys]. repeat (split; [exact Logic.I|]). split; [|exact Logic.I]. intros _ d e H. discriminate H.
Qed.

(** with 29 of them the call on connection 1 is started and ends, and so does the method that waits for it *)
Example C114_case29 : let s := lgo (outer 29) in let l2 := [LTake; LConn 1 (JobEnd 0 (Ok PNone)); LConn 0 (JobEnd 0 (Ok PNone))] in
  waiters waits_on_1 s (map (pair 0) (seq 0 29)) /\ call_state s 1 0 = Some JQueued /\ call_state s 0 0 = Some JRunning /\ obeys ascii_tables waits_on_1 s l2 /\
  call_state (lgo (outer 29 ++ l2)) 1 0 = Some (JEnded (Ok PNone)) /\ call_state (lgo (outer 29 ++ l2)) 0 0 = Some (JEnded (Ok PNone)).
Proof.
  cbv zeta. split.
  { intros c j H N. destruct c as [|c]; [|destruct N; reflexivity]. apply in_map. apply in_seq. split; [apply Nat.le_0_l|].
    apply (calls_bound (lgo (outer 29)) 0 29); [vm_compute; reflexivity|]. clear - H. intros X. rewrite X in H. destruct H as [H|H]; discriminate H. }
  split; [vm_compute; reflexivity|]. split; [vm_compute; reflexivity|]. split; [|split; vm_compute; reflexivity].
  cbn [obeys]. split; [exact Logic.I|]. split; [intros _ d e H; discriminate H|]. split; [|exact Logic.I]. intros _ d e H. injection H as <- <-. exists (Ok PNone). vm_compute. reflexivity.
Qed.

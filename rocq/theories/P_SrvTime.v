(** Property theorems C126: how long the asyncio listener takes to answer a request. A run [x] of a connection of the listener is
    the steps of M_AioServer with the times at which they are made (S_SrvTime), watched until [till]; the connection was accepted
    at [t0]. [has_come x1 n q]: the n-th frame on the connection is the request q and has been received completely at the end
    of x1. [told s n q bs st c]: the server has answered it with the frame bs, of status st and content c. [prompt] and [timers]: the
    event loop of the listener does what it can within [lag], and its timers are right. *)
From Coq Require Import Strings.String ZifyBool.
From Verif Require Import PyBase L_PyBase PyDict L_PyDict PyInt M_SofaHeader M_Package M_RpcId M_Trace S_Wire M_SyncTime S_SyncTime M_AioServer S_Server S_Settle L_AioServer L_AioServer8 P_AioServer S_SrvTime L_SrvTime.
Open Scope Z_scope.

(** A request with a timeout that wants an answer is answered, however long its method takes, when its timeout and four times the
    lag of the event loop are over, if the connection stays; or else the method has returned something that cannot be sent (C50). *)
Theorem C126_in_time : forall U reg tr t0 x till lag x1 x2 n q,
  ticking t0 x till -> prompt U reg tr t0 x till lag -> timers U reg tr t0 x till lag -> v_closed (after U reg tr x) = false -> (forall k, ~ In (Drain k false) (map snd x)) -> in_order U reg tr x q ->
  x = x1 ++ x2 -> has_come x1 n q -> q_type q <> 2 -> 0 < q_timeout q -> now t0 x1 + ms (q_timeout q) + 4 * lag <= till ->
  exists y z, x = y ++ z /\ now t0 y <= now t0 x1 + ms (q_timeout q) + 4 * lag /\
    ((exists bs st c, told (after U reg tr y) n q bs st c) \/ exists v, ended_with (after U reg tr y) n (Ok v) /\ ~ sendable v).
Proof. exact answered_in_time. Qed.
Print Assumptions C126_in_time.

(** It is told TIMEOUT only if its method has raised TimeoutError or CancelledError itself, or if its timeout has passed since it came:
    a caller that waits no longer than the timeout, as those of the asyncio client do, is always too early for this answer. *)
Theorem C126_not_early : forall U reg tr t0 x till lag n q bs c,
  ticking t0 x till -> timers U reg tr t0 x till lag -> v_closed (after U reg tr x) = false -> has_come x n q -> told (after U reg tr x) n q bs 7 c ->
  (exists y z e, x = y ++ z /\ ended_with (after U reg tr y) n (Raise e) /\ (e = TimeoutError \/ e = CancelledError)) \/
  (exists y z, x = y ++ z /\ has_come y n q /\ now t0 y + ms (q_timeout q) <= now t0 x).
Proof. exact not_early. Qed.
Print Assumptions C126_not_early.

(** The synchronous client waits a second longer than the timeout. If the way there ([u]), the lag of the listener and the way back ([d])
    fit into it, then its caller gets the verdict of the server, not a TimeoutError of the client; w is what comes back on the
    connection, as in C94. *)
Theorem C126_caller_is_told : forall U reg tr t0 x till lag x1 x2 n q w start u d cn st rounds bt,
  ticking t0 x till -> prompt U reg tr t0 x till lag -> timers U reg tr t0 x till lag -> v_closed (after U reg tr x) = false -> (forall k, ~ In (Drain k false) (map snd x)) -> in_order U reg tr x q ->
  x = x1 ++ x2 -> has_come x1 n q -> q_type q <> 2 -> 0 < q_timeout q -> now t0 x1 + ms (q_timeout q) + 4 * lag <= till ->
  now t0 x1 <= start + u -> u + 4 * lag + d <= SECOND ->
  (forall y z bs, x = y ++ z -> answers n (after U reg tr y) = [bs] -> S_SyncTime.answered_by (now t0 y + d) w bs /\ len bs <= len rounds) ->
  exists y z, x = y ++ z /\
    ((exists t bs s c, told (after U reg tr y) n q bs s c /\
        returned (timed_call w start (ms (q_timeout q)) (q_id q) (Some cn) st rounds (Ok tt) bt) = Some (t, if s =? 0 then Ok (PBytes c) else Raise ServerError)) \/
     exists v, ended_with (after U reg tr y) n (Ok v) /\ ~ sendable v).
Proof. exact call_told. Qed.
Print Assumptions C126_caller_is_told.

(** A request with a timeout of 100 milliseconds whose method does not end; the listener does its work within 100 microseconds. *)
Definition slow126 : trun := [(0, Feed good7); (10, Read); (20, Read); (30, Read); (40, Read); (60, Dispatch 0 (str "T")); (80, JobRun 0); (100090, Expire 0); (100130, Drain 0 true); (100140, Drain 0 true)].
Definition late : bytes := reply 7 2 7 [].
Definition wire126 : wire := {| w_bytes := map (pair 100600) late; w_end := None |}.
Definition rounds126 : list round := repeat {| r_before := 10; r_after := 10; r_upto := 4000 |} 200.

Ltac prefixes k L := destruct k as [|[|[|[|[|[|[|[|[|[|[|k]]]]]]]]]]]; [..|exfalso; clear -L; cbn in L; lia].
Example C126_met : let x := slow126 in ticking 0 x 200000 /\ prompt ascii_tables reg0 t_init 0 x 200000 100 /\ timers ascii_tables reg0 t_init 0 x 200000 100 /\ v_closed (after ascii_tables reg0 t_init x) = false /\
  (forall k, ~ In (Drain k false) (map snd x)) /\ in_order ascii_tables reg0 t_init x request7 /\ has_come (firstn 1 x) 0 request7 /\ now 0 (firstn 1 x) + ms (q_timeout request7) + 4 * 100 <= 200000 /\
  told (after ascii_tables reg0 t_init x) 0 request7 late 7 [] /\ (forall y z bs, x = y ++ z -> answers 0 (after ascii_tables reg0 t_init y) = [bs] -> S_SyncTime.answered_by (now 0 y + 500) wire126 bs /\ len bs <= len rounds126) /\
  returned (timed_call wire126 (-300) 100000 7 (Some (-200)) 10 rounds126 (Ok tt) 10) = Some (100640, Raise ServerError).
Proof.
  intros x. split; [|split; [|split; [|split; [|split; [|split; [|split; [|split; [|split; [|split]]]]]]]]].
  - apply ticking_intro; [vm_compute; discriminate|]. intros k L. prefixes k L; vm_compute; discriminate.
  - apply prompt_intro; [lia| |].
    + intros k L. exists (if Nat.leb 1 k && Nat.leb k 4 then 5%nat else k). prefixes k L; cbn [Nat.leb andb]; (split; [lia|]); (split; [vm_compute; discriminate|vm_compute; repeat split]).
    + intros k i t L N M. exists (S k). prefixes k L; vm_compute in N; (destruct i as [|[|i]]; try discriminate N); injection N as <-; (destruct M as [(M & _)|(b & M)]; try discriminate M); (split; [lia|]); (split; [vm_compute; discriminate|]); intros K; vm_compute in K; discriminate K.
  - apply timers_intro.
    + intros k i n q j L (A & B) _. exists 8%nat. unfold answering in A, B |- *. prefixes k L; vm_compute in A; (destruct i as [|[|i]]; try discriminate A); injection A as <- <- <-; try (exfalso; apply B; vm_compute; reflexivity);
        (split; [lia|]); (split; [vm_compute; discriminate|]); intros K; vm_compute in K; discriminate K.
    + intros k m i t n q j L N (A & B). assert (Lk : (k <= 10)%nat) by (assert (m < 10)%nat by (change 10%nat with (List.length x); apply nth_error_Some; rewrite N; discriminate); lia). 
      assert (t = 100090) as -> by (assert (Lm : (m < 10)%nat) by (change 10%nat with (List.length x); apply nth_error_Some; rewrite N; discriminate); prefixes m Lm; vm_compute in N; try discriminate N; injection N as <- _; reflexivity).
      unfold answering in A, B. clear N L. prefixes k Lk; vm_compute in A; (destruct i as [|[|i]]; try discriminate A); injection A as <- <- <-; try (exfalso; apply B; vm_compute; reflexivity); vm_compute; discriminate.
  - vm_compute. reflexivity.
  - intros k H. repeat (destruct H as [H|H]; [discriminate H|]). destruct H.
  - split; [eexists; vm_compute; reflexivity|]. intros y z sv E (b & Hb & Sb). assert (R : v_reg (after ascii_tables reg0 t_init y) = reg0).
    { destruct (split_firstn _ _ _ E) as (E1 & L). rewrite E1. set (k := List.length y) in *. clearbody k. prefixes k L; vm_compute; reflexivity. }
    rewrite R in Hb. unfold reg0 in Hb. cbn [dget] in Hb. repeat (destruct (eq_dec _ _) in Hb; [apply (f_equal (fun o => match o with Some b => b | None => b end)) in Hb; subst b; discriminate Sb|]). discriminate Hb.
  - destruct (run_cuts ascii_tables reg0 t_init (map snd (firstn 5 x))) as (r & C). exists (v_items (srun ascii_tables reg0 t_init (map snd (firstn 5 x)))), r. split; [exact C|vm_compute; reflexivity].
  - vm_compute. discriminate.
  - split; [vm_compute; reflexivity|]. split; [|right; cbn; auto 8]. destruct (fail_bytes_Ok 7 7) as (bs & Eb & R); [vm_compute; split; discriminate|unfold legal_status; lia|].
    assert (late = bs) as -> by (unfold late, reply; cbn [Z.eqb]; rewrite Eb; reflexivity). exact R.
  - intros y z bs E A. destruct (split_firstn _ _ _ E) as (E1 & L). rewrite E1 in A |- *. set (k := List.length y) in *. clearbody k. clear E E1.
    assert (bs = late /\ (9 <= k)%nat) as (-> & Lk) by (prefixes k L; vm_compute in A; try discriminate A; (split; [injection A as <-; vm_compute; reflexivity|lia])). clear A.
    split; [|vm_compute; discriminate]. exists (List.length late). split; [vm_compute; reflexivity|]. split; [reflexivity|]. apply Forall_forall. intros a Ha.
    assert (K : forallb (fun a => fst a <=? 100600) (firstn (List.length late) (w_bytes wire126)) = true) by (vm_compute; reflexivity). rewrite forallb_forall in K. apply K in Ha. apply Z.leb_le in Ha.
    assert (100130 <= now 0 (firstn k x)) by (prefixes k L; try (exfalso; lia); vm_compute; discriminate). lia.
  - vm_compute. reflexivity.
Qed.

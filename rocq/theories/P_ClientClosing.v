(** Property theorems for C116: connections of the asyncio client. [run t l] is the client after the steps l, as in P_Aio;
    a server that does nothing to connection c: [server_keeps c]. *)
From Coq Require Import Strings.String.
From Verif Require Import PyBase PyDict Struct M_SofaHeader M_Package M_AioClient P_Aio S_ClientClosing L_ClientClosing.
Open Scope nat_scope.

(** ** C116. False of this code, in three ways. A request that cannot be encoded (a timeout that is not an integer, a content
    that is not bytes, ...) leaves three connections behind that the client never uses again and never closes, whatever
    happens later *)
Theorem C116_unsendable_refuted : forall t req a e l2 c, to_stream req = Raise e -> c < 3 ->
  let l := [Call req (Ok a); Run 0; Acquire 0; DialOk 0; DrainOk 0; Acquire 0; DialOk 0; DrainOk 0; Acquire 0; DialOk 0; DrainOk 0] in
  given_up (run t (l ++ l2)) c /\ still_open (run t (l ++ l2)) c.
Proof. exact unsendable. Qed.
Print Assumptions C116_unsendable_refuted.

(** (in general: a connection whose read task is cancelled before it ran is never closed) *)
Theorem C116_cancelled_unread_refuted : forall t l c k l2, nth_error (s_links (run t l)) c = Some k -> k_cancel k = true -> k_rd k = RdNew -> k_closed k = false -> still_open (run t (l ++ l2)) c.
Proof. exact cancelled_unread. Qed.
Print Assumptions C116_cancelled_unread_refuted.

(** a connection that is given up without cancelling its read task stays open for as long as the server wishes *)
Theorem C116_forgotten_refuted : forall t l c k l2, given_up (run t l) c -> nth_error (s_links (run t l)) c = Some k -> ~ ending k -> k_closed k = false -> server_keeps c l2 ->
  given_up (run t (l ++ l2)) c /\ still_open (run t (l ++ l2)) c.
Proof. exact forgotten. Qed.
Print Assumptions C116_forgotten_refuted.

(** and this happens when two calls find out, one after the other, that the connection they share is broken: the second one
    throws away the connection that the first one has just made; *)
Definition both_fail : list step :=
  [Call req7 (Ok 1%Z); Run 0; Acquire 0; DialOk 0; Read 0; Call req8 (Ok 1%Z); Run 1; DrainFail 0; Acquire 0; DialOk 0; Read 1; DrainFail 1; Acquire 1; DialOk 1; Read 2;
   DrainOk 0; DrainOk 0; DrainOk 1; DrainOk 1; Read 0].
Example C116_second_failure : let s := run NoTimer both_fail in s_conn s = [(1%Z, 2)] /\ pcs s = [WaitResp 0; WaitResp 1] /\ map fst (s_written s) = [1; 2] /\ map k_closed (s_links s) = [true; false; false] /\
  given_up s 1 /\ forall k, nth_error (s_links s) 1 = Some k -> ~ ending k.
Proof.
  cbn zeta. split; [vm_compute; reflexivity|]. split; [vm_compute; reflexivity|]. split; [vm_compute; reflexivity|]. split; [vm_compute; reflexivity|]. split.
  - split; [vm_compute; repeat constructor|]. split.
    + intros a H. vm_compute in H. destruct a as [|[p|p|]|]; discriminate H.
    + intros i (t & n & Hi & Hp). vm_compute in Hi. destruct i as [|[|[|i]]]; [| |discriminate Hi|discriminate Hi]; injection Hi as <-; destruct Hp as [Hp|Hp]; discriminate Hp.
  - intros k Hk. vm_compute in Hk. injection Hk as <-. intros [E|[E|E]]; discriminate E.
Qed.
(** or when a call waits for a lock that was replaced meanwhile, and both dial *)
Definition both_dial : list step :=
  [Call req7 (Ok 1%Z); Run 0; Acquire 0; Call req8 (Ok 1%Z); Run 1; DialOk 0; Read 0; DrainFail 0; Acquire 0; Acquire 1; DialOk 1; DialOk 0; Read 1; Read 2;
   DrainOk 0; DrainOk 0; DrainOk 1; DrainOk 1; Read 0].
Example C116_two_dials : let s := run NoTimer both_dial in s_conn s = [(1%Z, 1)] /\ pcs s = [WaitResp 0; WaitResp 1] /\ map fst (s_written s) = [1; 1] /\ map k_closed (s_links s) = [true; false; false] /\
  given_up s 2 /\ forall k, nth_error (s_links s) 2 = Some k -> ~ ending k.
Proof.
  cbn zeta. split; [vm_compute; reflexivity|]. split; [vm_compute; reflexivity|]. split; [vm_compute; reflexivity|]. split; [vm_compute; reflexivity|]. split.
  - split; [vm_compute; repeat constructor|]. split.
    + intros a H. vm_compute in H. destruct a as [|[p|p|]|]; discriminate H.
    + intros i (t & n & Hi & Hp). vm_compute in Hi. destruct i as [|[|[|i]]]; [| |discriminate Hi|discriminate Hi]; injection Hi as <-; destruct Hp as [Hp|Hp]; discriminate Hp.
  - intros k Hk. vm_compute in Hk. injection Hk as <-. intros [E|[E|E]]; discriminate E.
Qed.

(** What holds. Missing: exactly the two cases above. Exactly which of the connections given up can still be closed while the
    server keeps them open: those whose read task had run when it was cancelled, and those not cancelled that the server had
    closed or reset already *)
Theorem C116_exactly_partial : forall t l c k, given_up (run t l) c -> nth_error (s_links (run t l)) c = Some k -> k_closed k = false ->
  ((exists l2, server_keeps c l2 /\ closed (run t (l ++ l2)) c) <-> k_cancel k = true /\ reading k \/ k_cancel k = false /\ (k_eof k = true \/ k_exn k = true)).
Proof. exact can_close_iff. Qed.
Print Assumptions C116_exactly_partial.
(** when a send fails on a connection that is being read, the next run of its read task closes it *)
Theorem C116_failed_send_partial : forall t l i tk n c a k l2, nth_error (s_tasks (run t l)) i = Some tk -> t_pc tk = Drain1 n c \/ t_pc tk = Drain2 n c -> t_addr tk = Ok a ->
  nth_error (s_links (run t l)) c = Some k -> reading k -> In (Read c) l2 -> closed (run t (l ++ DrainFail i :: l2)) c.
Proof. exact failed_send_closes. Qed.
Print Assumptions C116_failed_send_partial.
(** and a connection that is being read and is cancelled, closed or reset is closed after at most two more runs of its read
    task than bytes are unread or still arrive, whatever else happens meanwhile *)
Theorem C116_soon_partial : forall t l l2 c k, nth_error (s_links (run t l)) c = Some k -> reading k -> ending k -> List.length (k_buf k) + arrives_on c l2 + 2 <= reads_of c l2 -> closed (run t (l ++ l2)) c.
Proof. exact closes_soon. Qed.
Print Assumptions C116_soon_partial.

(** a timeout of 1.5 ms: the request can be made, but not encoded *)
Definition req_float : pkg := get (sync_request [(str "service", str "s")] (PBytes (bytes_lit "hi")) (PFloat 3 1) 7).
Definition three_answers : list step := started req7 ++ [Feed 0 (concat (repeat (answer 7 0 2 []) 3)); Eof 0].
Example C116_case : (exists e, to_stream req_float = Raise e) /\
  (let s := run NoTimer (thrice req_float 1 ++ [Read 0; Read 1; Read 2; Eof 0; Eof 1; Eof 2; Read 0; Read 1; Read 2]) in map k_closed (s_links s) = [false; false; false] /\ pcs s = [Done RetNone]) /\
  (* three answers and the end of the stream: closed after 7 runs *)
  (forall k, nth_error (s_links (run NoTimer three_answers)) 0 = Some k -> reading k /\ ending k) /\
  map k_closed (s_links (run NoTimer (three_answers ++ repeat (Read 0) 6))) = [false] /\ map k_closed (s_links (run NoTimer (three_answers ++ repeat (Read 0) 7))) = [true].
Proof.
  split; [eexists; vm_compute; reflexivity|]. split; [vm_compute; repeat split|]. split; [|vm_compute; repeat split].
  intros k Hk. vm_compute in Hk. injection Hk as <-. split; [left; reflexivity|right; left; reflexivity].
Qed.

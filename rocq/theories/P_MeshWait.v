(** Property theorems C143: calls of one mesh client by several threads while the agent takes its time. [calls] says what each
    thread calls, [l] which threads move and which posts the agent answers, and when. *)
From Coq Require Import Strings.String.
From Verif Require Import PyBase PyDict PyInt M_Mesh M_AioServer M_MeshWait S_MeshWait L_MeshWait.
Open Scope nat_scope.

(** when no thread can go on by itself and no post is waiting for its answer, every call has ended; *)
Theorem C143_answered_partial : forall calls l, fresh_calls calls -> let s := w_run calls l in stuck s -> (forall i, ~ unanswered s i) ->
  forall i p, stands s i p -> exists r, p = WDone r.
Proof. exact stuck_done. Qed.
Print Assumptions C143_answered_partial.

(** and that point is reached after at most three steps for each call *)
Theorem C143_few_steps : forall calls l n, fresh_calls calls -> changes (w_begin calls) l n -> n <= 3 * List.length calls.
Proof. exact few_changes. Qed.
Print Assumptions C143_few_steps.

(** a subscribe, unsubscribe, publish or unpublish waits for the answer to its own post only, whatever the others wait for *)
Theorem C143_others_partial : forall calls l j ep a, stands (w_run calls l) j (WOther ep) -> stands (w_run calls (l ++ [KGo j; KAnswer j a])) j (WDone (k_result a)).
Proof. exact other_call. Qed.
Print Assumptions C143_others_partial.

(** a startup that returns without an error was accepted by the agent, or one of another thread was *)
Theorem C143_startup_true : forall calls l i, nth_error calls i = Some WStart -> stands (w_run calls l) i (WDone (Ok tt)) -> start_accepted calls l.
Proof. exact startup_true. Qed.
Print Assumptions C143_startup_true.

(** missing from the claim: there is no time limit. A call whose post is not answered does not end, however long it is waited *)
Theorem C143_unanswered_refuted : forall calls l1 l2 i, unanswered (w_run calls l1) i -> never_answers i l2 -> unanswered (w_run calls (l1 ++ l2)) i.
Proof. exact unanswered_stays. Qed.
Print Assumptions C143_unanswered_refuted.

(** and if it is a startup, no other thread's startup gets anywhere either: it does not even ask the agent *)
Theorem C143_holds_up_refuted : forall calls l1 l2 i j, fresh_calls calls -> stands (w_run calls l1) i WAsked -> never_answers i l2 -> stands (w_run calls l1) j WStart ->
  stands (w_run calls (l1 ++ l2)) j WStart.
Proof. exact holds_up. Qed.
Print Assumptions C143_holds_up_refuted.

(** ** Concrete cases: two startups and a subscribe *)
Definition good : answer := Answer 200 (Some (JObj [(str "success", JBool true)])).
Definition bad : answer := Answer 500 None.
Definition three : list wpc := [WStart; WStart; WOther EP_sub].
Example three_fresh : fresh_calls three.
Proof. unfold fresh_calls, three. repeat apply Forall_cons; eauto. Qed.
(** the agent accepts: one startup post only *)
Definition all_good : list wev := [KGo 0; KGo 1; KGo 0; KGo 2; KGo 1; KAnswer 0 good; KGo 1; KGo 1; KAnswer 2 bad].
Example answered_case : let s := w_run three all_good in
  k_threads s = [WDone (Ok tt); WDone (Ok tt); WDone (Raise MeshConnectionError)] /\ k_started s = true /\ k_lock s = None /\ k_sent s = [(0, EP_app); (2, EP_sub)].
Proof. vm_compute. repeat split. Qed.
Example answered_stuck : stuck (w_run three all_good) /\ forall i, ~ unanswered (w_run three all_good) i.
Proof. split; [|intros i [H|H]; revert H]; try intros i; unfold stands; destruct i as [|[|[|[|i]]]]; vm_compute; congruence. Qed.
(** the first startup is refused: the second asks again *)
Example refused_case : let s := w_run three [KGo 0; KGo 0; KAnswer 0 bad; KGo 1; KGo 1; KAnswer 1 good] in
  k_threads s = [WDone (Raise MeshConnectionError); WDone (Ok tt); WOther EP_sub] /\ k_sent s = [(0, EP_app); (1, EP_app)].
Proof. vm_compute. repeat split. Qed.
(** the agent never answers the first startup: the second one waits, the subscribe ends *)
Example held_up_case : let s := w_run three [KGo 0; KGo 0] in
  stands s 0 WAsked /\ stands s 1 WStart /\ never_answers 0 [KGo 1; KGo 2; KAnswer 2 good; KGo 1; KGo 0] /\
  k_threads (w_run three ([KGo 0; KGo 0] ++ [KGo 1; KGo 2; KAnswer 2 good; KGo 1; KGo 0])) = [WAsked; WStart; WDone (Ok tt)].
Proof. vm_compute. repeat split. intros a H. repeat (destruct H as [H|H]; [discriminate|]). exact H. Qed.
Example few_steps_case : changes (w_begin three) [KGo 0; KGo 1; KGo 0] 2.
Proof. apply ch_step; [vm_compute; discriminate|]. apply ch_same; [reflexivity|]. apply ch_step; [vm_compute; discriminate|]. apply ch_nil. Qed.

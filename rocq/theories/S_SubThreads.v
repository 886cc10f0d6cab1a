(** Vocabulary for C141. *)
From Coq Require Import Strings.String.
From Verif Require Import PyBase PyDict PyInt M_Mesh S_Mesh M_SubThreads.
Open Scope nat_scope.

Definition sub_post (x : pystr) : post := (str "services/subscribe", JObj [(str "serviceName", JStr x)]).
Definition unsub_post (x : pystr) : post := (str "services/unsubscribe", JObj [(str "serviceName", JStr x)]).
(** the agent has accepted a subscription to x, and no unsubscription since *)
Definition subscribed (ans : nat -> answer) (log : list post) (x : pystr) : Prop :=
  exists n, nth_error log n = Some (sub_post x) /\ accepted (ans n) /\ forall n', n < n' -> nth_error log n' = Some (unsub_post x) -> ~ accepted (ans n').

(** thread i has had its post about x accepted and has not dealt with the map yet *)
Definition halfway (x : pystr) (s : ust) (i : nat) : Prop :=
  exists p, nth_error (u_threads s) i = Some p /\ match p with UMap _ y _ | UStore y _ => y = x | _ => False end.
(** no two threads are ever halfway with x at the same time *)
Definition apart (x : pystr) ans d calls (l : list nat) : Prop :=
  forall l1 l2 i j, l = l1 ++ l2 -> halfway x (u_run ans d calls l1) i -> halfway x (u_run ans d calls l1) j -> i = j.
(** every call has returned *)
Definition all_returned (s : ust) : Prop := forall p, In p (u_threads s) -> exists b, p = UPost b [].

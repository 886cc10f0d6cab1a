(** Vocabulary for C143. *)
From Verif Require Import PyBase M_Mesh M_MeshWait.
Open Scope nat_scope.

(** calls that have not begun *)
Definition fresh_calls (calls : list wpc) : Prop := Forall (fun p => p = WStart \/ exists ep, p = WOther ep) calls.
(** where thread i is *)
Definition stands (s : waits) (i : nat) (p : wpc) : Prop := nth_error (k_threads s) i = Some p.
(** the agent has not answered the post of thread i yet *)
Definition unanswered (s : waits) (i : nat) : Prop := stands s i WAsked \/ stands s i WOtherAsked.
Definition never_answers (i : nat) (l : list wev) : Prop := forall a, ~ In (KAnswer i a) l.
(** no thread can do anything by itself *)
Definition stuck (s : waits) : Prop := forall i, w_step s (KGo i) = s.
(** n of the events change something *)
Inductive changes : waits -> list wev -> nat -> Prop :=
| ch_nil s : changes s [] 0
| ch_same s o l n : w_step s o = s -> changes s l n -> changes s (o :: l) n
| ch_step s o l n : w_step s o <> s -> changes (w_step s o) l n -> changes s (o :: l) (S n).
(** the agent has accepted the post of a startup *)
Definition start_accepted (calls : list wpc) (l : list wev) : Prop :=
  exists l1 j a l2 d, l = l1 ++ KAnswer j a :: l2 /\ stands (w_run calls l1) j WAsked /\ post_result a = Ok d.

(** C105. What the borrowers of pooled connections read. *)
From Coq Require Import Strings.String.
From Verif Require Import PyBase PyDict M_ConnPool S_Pool M_PoolStream S_PoolStream L_PoolStream.
Open Scope nat_scope.

(** Full property: whoever has got a connection from a pool reads only what was sent in answer to their own requests.
    It is false: a connection is taken back whatever is still to come on it, and an answer that comes when it has been
    handed out again is read by the next borrower, from the first byte to the last. *)
Theorem C105_own_answers_refuted : forall mk p bs, (forall n, mk n = true) -> build usual mk = Built p ->
  has_read (u_run usual mk p (late bs)) 1 (map (pair 0) bs).
Proof. exact late_read. Qed.
Print Assumptions C105_own_answers_refuted.
Example C105_own_answers_case : exists p, build usual (fun _ => true) = Built p /\ map (pair 0) (bytes_lit "hi") = [(0, Byte.x68); (0, Byte.x69)].
Proof. eexists. split; vm_compute; reflexivity. Qed.

(** Proved: that is the only way. If bytes that arrive while somebody has the connection are for them, everybody reads
    only bytes that are for them, whatever else was left on the connections. *)
Theorem C105_own_answers_partial : forall cfg mk p l u bs, build cfg mk = Built p -> timely cfg mk p l ->
  has_read (u_run cfg mk p l) u bs -> Forall (fun b => fst b = u) bs.
Proof. exact own_bytes. Qed.
Print Assumptions C105_own_answers_partial.

(** For what has arrived before does no harm: a connection that get_conn returns has nothing to be read, or is closed. *)
Theorem C105_nothing_waiting_partial : forall cfg mk p l c, build cfg mk = Built p -> let s := u_run cfg mk p l in let s' := ustep_do cfg mk UGet s in
  has s' (List.length (u_uses s)) c -> shut s' c = true \/ f_unread (u_str s' c) = [].
Proof. exact get_nothing_waiting. Qed.
Print Assumptions C105_nothing_waiting_partial.

(** Nor is it one that its peer has closed, unless it is closed here too. *)
Theorem C105_not_ended_partial : forall cfg mk p l c, build cfg mk = Built p -> closes_made cfg mk p l -> let s := u_run cfg mk p l in let s' := ustep_do cfg mk UGet s in
  has s' (List.length (u_uses s)) c -> In (UFin c) l -> shut s' c = true.
Proof. exact get_not_ended. Qed.
Print Assumptions C105_not_ended_partial.
(** the peer closes the connection that has been given back: the next one to get it finds it closed here *)
Definition ended : list ustep := [UGet; UGive 0; UFin 0].
Example C105_ended_case : exists p, build usual (fun _ => true) = Built p /\ closes_made usual (fun _ => true) p ended /\ let s' := ustep_do usual (fun _ => true) UGet (u_run usual (fun _ => true) p ended) in has s' 1 0 /\ shut s' 0 = true.
Proof.
  eexists. split; [vm_compute; reflexivity|]. split.
  - intros l1 c l2 E. unfold ended in E. do 3 (destruct l1 as [|? l1]; [try discriminate E|injection E as <- E]); [injection E as <- <-; vm_compute; repeat constructor|destruct l1; discriminate E].
  - cbv zeta. unfold has. split; [eexists; vm_compute; repeat split|vm_compute; reflexivity].
Qed.

(** one borrower leaves a part of an answer unread; the next one gets the connection closed; a third one a good one *)
Definition three_uses : list ustep := [UGet; UAnswer 0 (bytes_lit "abc"); UArrive 0 3; URecv 0 2; UGive 0; UGet; URecv 1 5; UGet; UAnswer 2 (bytes_lit "xy"); UArrive 1 2; URecv 2 5].
Example C105_case : exists p, build usual (fun _ => true) = Built p /\ timely usual (fun _ => true) p three_uses /\
  let s := u_run usual (fun _ => true) p three_uses in
  has_read s 0 [(0, Byte.x61); (0, Byte.x62)] /\ has_read s 1 [] /\ has s 1 0 /\ shut s 0 = true /\ has_read s 2 [(2, Byte.x78); (2, Byte.x79)].
Proof.
  eexists. split; [vm_compute; reflexivity|]. split.
  - intros l1 c n l2 E. cbv zeta. unfold three_uses in E.
    do 11 (destruct l1 as [|? l1]; [solve [discriminate E|injection E as <- <- <-; intros u (x & Hx & Hc & _); vm_compute in Hx;
      do 4 (destruct u as [|u]; [try discriminate Hx; injection Hx as <-; try discriminate Hc; vm_compute; repeat constructor|]); destruct u; discriminate Hx]|injection E as <- E]).
    destruct l1; discriminate E.
  - cbv zeta. unfold has_read, has. repeat split; try (eexists; vm_compute; repeat split; fail).
Qed.

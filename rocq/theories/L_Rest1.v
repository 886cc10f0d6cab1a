(** Lemmas for C87: every step of the client (M_AioClient) that changes something lowers a measure, unless it is a
    new call, a heartbeat or data that arrives. *)
From Coq Require Import ZifyBool.
From Verif Require Import PyBase L_PyBase PyDict PyInt M_SofaHeader M_Package M_AioClient.
Open Scope nat_scope.

Definition total {A} (f : A -> nat) (l : list A) : nat := list_sum (map f l).
Lemma total_app {A} (f : A -> nat) a b : total f (a ++ b) = total f a + total f b.
Proof. unfold total. rewrite map_app, list_sum_app. reflexivity. Qed.
Lemma total_upd {A} (f : A -> nat) g l : forall i x, nth_error l i = Some x -> total f (upd i g l) + f x = total f l + f (g x).
Proof. unfold total, list_sum. induction l as [|y l IH]; intros [|i] x H; cbn in *; try discriminate; [injection H as ->; lia|]. specialize (IH i x H). lia. Qed.
Lemma upd_none {A} (g : A -> A) l : forall i, nth_error l i = None -> upd i g l = l.
Proof. induction l as [|x l IH]; intros [|i] H; cbn in *; try discriminate; [reflexivity..|]. rewrite (IH i H). reflexivity. Qed.
Lemma upd_id {A} (g : A -> A) l : forall i x, nth_error l i = Some x -> g x = x -> upd i g l = l.
Proof. induction l as [|y l IH]; intros [|i] x H E; cbn in *; try discriminate; [congruence|]. rewrite (IH i x H E). reflexivity. Qed.

(** ** coroutines *)
Definition crank (p : pc) : nat :=
  match p with Start => 100 | WaitLock n _ => 10 * n + 5 | Dialing n _ => 10 * n + 4 | Drain1 n _ => 10 * n + 3 | Drain2 n _ => 10 * n + 2 | WaitResp _ => 1 | Done _ => 0 end.
Definition busy (s : st) : nat := total (fun t => crank (t_pc t)) (s_tasks s) + match s_timer s with InBeat _ _ => 1 | _ => 0 end.
Lemma goto_busy i p s s' t : nth_error (s_tasks s) i = Some t -> s_tasks s' = s_tasks s -> s_timer s' = s_timer s -> crank p < crank (t_pc t) -> busy (goto i p s') < busy s.
Proof.
  intros Hi E1 E2 L. unfold busy, goto. cbn [set_tasks s_tasks s_timer]. rewrite E1, E2. pose proof (total_upd (fun t => crank (t_pc t)) (at_pc p) (s_tasks s) i t Hi) as U. cbn [at_pc t_pc] in U. lia.
Qed.
Lemma abandon_busy i rid s s' t : nth_error (s_tasks s) i = Some t -> s_tasks s' = s_tasks s -> s_timer s' = s_timer s -> 0 < crank (t_pc t) -> busy (abandon i rid s') < busy s.
Proof. intros Hi E1 E2 L. unfold abandon. destruct (dmem rid (s_req s')); apply (goto_busy i _ s _ t Hi); cbn; auto. Qed.
Lemma enter_busy i rid a n s s' t : nth_error (s_tasks s) i = Some t -> s_tasks s' = s_tasks s -> s_timer s' = s_timer s -> 0 < crank (t_pc t) -> (n = 0 \/ 10 * n + 5 < crank (t_pc t)) -> busy (enter_send i rid a n s') < busy s.
Proof.
  intros Hi E1 E2 L0 L. unfold enter_send. destruct n as [|n]; [apply (abandon_busy i rid s s' t); assumption|]. destruct L as [L|L]; [discriminate|].
  destruct (dget a (s_conn s')); [apply (goto_busy i _ s _ t Hi); auto; cbn [crank]; lia|]. destruct (dget a (s_dial s')); apply (goto_busy i _ s _ t Hi); cbn [crank set_dial s_tasks s_timer]; auto; lia.
Qed.
Lemma failed_busy i rid a n c s t : nth_error (s_tasks s) i = Some t -> 10 * n + 2 <= crank (t_pc t) -> busy (send_failed i rid a n c s) < busy s.
Proof.
  intros Hi L. unfold send_failed. cbv zeta. assert (C1 : s_tasks (cancel_reader c s) = s_tasks s) by reflexivity. assert (C2 : s_timer (cancel_reader c s) = s_timer s) by reflexivity.
  assert (0 < crank (t_pc t)) by lia. destruct (dmem a (s_conn (cancel_reader c s))); [|apply (abandon_busy i rid s _ t Hi); auto].
  match goal with |- context [if ?b then _ else _] => destruct b end; [apply (enter_busy i rid a (pred n) s _ t Hi); auto; destruct n; [left; reflexivity|right; cbn [pred]; lia]|apply (abandon_busy i rid s _ t Hi); auto].
Qed.
Lemma sent_busy i req s t : nth_error (s_tasks s) i = Some t -> 1 < crank (t_pc t) -> busy (sent i req s) < busy s.
Proof.
  intros Hi L. unfold sent. cbv zeta. destruct (dget (rid_of req) (s_req s)); [|apply (goto_busy i _ s _ t Hi); cbn; auto; lia].
  destruct (p_ptype req =? PTYPE_ONEWAY)%Z; apply (goto_busy i _ s _ t Hi); cbn; auto; lia.
Qed.

(** ** readers *)
Definition rank_rd (r : reader) : nat := match r with RdDone => 0 | RdHead => 1 | RdBody _ _ _ => 2 | RdNew => 3 end.
Definition waiting (k : link) : nat := List.length (k_buf k) + rank_rd (k_rd k) + (if k_eof k then 0 else 1) + (if k_exn k then 0 else 1).
Definition unread (s : st) : nat := total waiting (s_links s).
(** a step of a reader leaves the coroutines, what was written and what was received as they are *)
Record aside (s s' : st) : Prop := { as_tasks : s_tasks s' = s_tasks s; as_timer : s_timer s' = s_timer s; as_written : s_written s' = s_written s; as_in : map k_in (s_links s') = map k_in (s_links s) }.
Lemma drop_length n (b : bytes) : List.length (py_drop n b) <= List.length b.
Proof. rewrite py_drop_skipn, skipn_length. lia. Qed.
Lemma map_in_upd c (f : link -> link) l : (forall k, nth_error l c = Some k -> k_in (f k) = k_in k) -> map k_in (upd c f l) = map k_in l.
Proof. revert c. induction l as [|k l IH]; intros [|c] H; cbn in *; try reflexivity; [rewrite (H k eq_refl); reflexivity|]. rewrite (IH c H). reflexivity. Qed.
Lemma link_step c k k' s : nth_error (s_links s) c = Some k -> k_in k' = k_in k -> waiting k' < waiting k -> aside s (set_link c k' s) /\ unread (set_link c k' s) < unread s.
Proof.
  intros Hc E L. split.
  - constructor; try reflexivity. cbn. apply map_in_upd. intros k0 H. congruence.
  - unfold unread, set_link. cbn [set_links s_links]. pose proof (total_upd waiting (fun _ => k') (s_links s) c k Hc) as U. cbn beta in U. lia.
Qed.
Lemma wake_links rid s : s_links (wake rid s) = s_links s /\ s_tasks (wake rid s) = s_tasks s /\ s_timer (wake rid s) = s_timer s /\ s_written (wake rid s) = s_written s.
Proof. unfold wake. destruct (dget rid (s_req s)); auto. Qed.
Lemma process_links h bs s : s_links (process h bs s) = s_links s /\ s_tasks (process h bs s) = s_tasks s /\ s_timer (process h bs s) = s_timer s /\ s_written (process h bs s) = s_written s.
Proof.
  unfold process. destruct (bolt_content_from_stream BoltResponse bs h) as [p|]; [|auto]. unfold deliver. cbv zeta.
  destruct (p_cmdcode p =? CMDCODE_HEARTBEAT)%Z; [apply wake_links|]. destruct (p_cmdcode p =? CMDCODE_REQUEST)%Z; [apply wake_links|]. destruct (negb (p_respstatus p =? ST_SUCCESS)%Z); [apply wake_links|].
  destruct (dmem (rid_of p) (s_req s)); [|apply wake_links]. destruct (wake_links (rid_of p) (set_resp s (dset (rid_of p) p (s_resp s)))) as (A & B & C & D). rewrite A, B, C, D. auto.
Qed.
Lemma close_waiting k : k_rd k <> RdDone -> waiting (rd_close k) < waiting k.
Proof. intros N. unfold waiting, rd_close. cbn. destruct (k_rd k); cbn; try lia. contradiction. Qed.
Lemma read_lowers c s : read c s = s \/ (aside s (read c s) /\ unread (read c s) < unread s).
Proof.
  unfold read. destruct (nth_error (s_links s) c) as [k|] eqn:Hc; [|auto]. destruct (k_rd k) as [| |fixed h n|] eqn:Hr; [| | |auto].
  - right. apply (link_step c k _ s Hc); [reflexivity|]. unfold waiting, rd_goto. cbn. rewrite Hr. destruct (k_cancel k); cbn; lia.
  - destruct (k_cancel k || k_exn k); [right; apply (link_step c k _ s Hc); [reflexivity|apply close_waiting; congruence]|].
    destruct (bolt_header_size BoltResponse <=? len (k_buf k))%Z eqn:L.
    + right. assert (W : forall r, rank_rd r <= 2 -> waiting (rd_take k (bolt_header_size BoltResponse) r []) < waiting k).
      { intros r Lr. unfold waiting, rd_take. cbn [k_buf k_rd k_eof k_exn]. rewrite Hr. cbn [rank_rd]. change (bolt_header_size BoltResponse) with 20%Z in *. apply Z.leb_le in L. pose proof (len_py_drop 20 (k_buf k) ltac:(lia) L) as Ld. unfold len in *. lia. }
      cbv zeta. destruct (bolt_header_from_stream BoltResponse (py_take (bolt_header_size BoltResponse) (k_buf k))); apply (link_step c k _ s Hc); try reflexivity; apply W; cbn; lia.
    + destruct (k_eof k); [right; apply (link_step c k _ s Hc); [reflexivity|apply close_waiting; congruence]|auto].
  - destruct (k_cancel k || k_exn k); [right; apply (link_step c k _ s Hc); [reflexivity|apply close_waiting; congruence]|].
    destruct (n <=? len (k_buf k))%Z eqn:L.
    + right. set (s1 := set_link c (rd_take k n RdHead [fixed ++ py_take n (k_buf k)]) s). destruct (link_step c k (rd_take k n RdHead [fixed ++ py_take n (k_buf k)]) s Hc) as ([A B C D] & W).
      { reflexivity. } { unfold waiting, rd_take. cbn [k_buf k_rd k_eof k_exn]. rewrite Hr. cbn [rank_rd]. pose proof (drop_length n (k_buf k)). lia. }
      fold s1 in A, B, C, D, W. destruct (process_links h (py_take n (k_buf k)) s1) as (P1 & P2 & P3 & P4). split; [constructor; congruence|]. unfold unread. rewrite P1. exact W.
    + destruct (k_eof k); [right; apply (link_step c k _ s Hc); [reflexivity|apply close_waiting; congruence]|auto].
Qed.
Lemma same_links s : set_links s (s_links s) = s.
Proof. destruct s. reflexivity. Qed.
Lemma flag_lowers c (f : link -> link) s : (forall k, k_in (f k) = k_in k) -> (forall k, f k = k \/ waiting (f k) < waiting k) -> on_link c f s = s \/ (aside s (on_link c f s) /\ unread (on_link c f s) < unread s).
Proof.
  intros Hi Hf. unfold on_link. destruct (nth_error (s_links s) c) as [k|] eqn:Hc; [|left; rewrite upd_none by exact Hc; apply same_links].
  destruct (Hf k) as [E|L]; [left; rewrite (upd_id f _ c k Hc E); apply same_links|]. right. split.
  - constructor; try reflexivity. cbn. apply map_in_upd. intros k0 _. apply Hi.
  - unfold unread. cbn [set_links s_links]. pose proof (total_upd waiting f (s_links s) c k Hc). lia.
Qed.

(** ** all steps *)
Definition own_step (o : step) : Prop := match o with Call _ _ | Feed _ _ | Beat _ => False | _ => True end.
Lemma client_lowers o s : own_step o -> run_step o s = s \/ busy (run_step o s) < busy s \/ (aside s (run_step o s) /\ unread (run_step o s) < unread s).
Proof.
  intros Ho. destruct o as [r ad|i|i|i|i|i|i|i|i|c bs|c|c|c|rid|]; try destruct Ho; cbn [run_step].
  - destruct (nth_error (s_tasks s) i) as [t|] eqn:Hi; [|auto]. destruct (t_pc t) eqn:Hp; destruct (t_addr t); auto; right; left.
    + apply (enter_busy i _ _ 3 s _ t Hi); try reflexivity; rewrite Hp; cbn [crank]; [lia|right; lia].
    + apply (goto_busy i _ s _ t Hi); auto. rewrite Hp. cbn. lia.
  - destruct (nth_error (s_tasks s) i) as [t|] eqn:Hi; [|auto]. destruct (t_pc t) as [|n l|n l|n c|n c|ev|r] eqn:Hp; destruct (t_addr t) as [a|]; auto. destruct (nth_error (s_locks s) l) as [[]|]; auto. right. left.
    destruct (dget a (s_conn s)); apply (goto_busy i _ s _ t Hi); auto; rewrite Hp; cbn [crank]; lia.
  - destruct (nth_error (s_tasks s) i) as [t|] eqn:Hi; [|auto]. destruct (t_pc t) as [|n l|n l|n c|n c|ev|r] eqn:Hp; destruct (t_addr t) as [a|]; auto. right. left. cbv zeta.
    match goal with |- context [dsetdefault ?x ?y ?z] => destruct (dsetdefault x y z) as (dd & cc) end. apply (goto_busy i _ s _ t Hi); auto. rewrite Hp. cbn [crank]. lia.
  - destruct (nth_error (s_tasks s) i) as [t|] eqn:Hi; [|auto]. destruct (t_pc t) as [|n l|n l|n c|n c|ev|r] eqn:Hp; auto. right. left. apply (abandon_busy i _ s _ t Hi); auto. rewrite Hp. cbn [crank]. lia.
  - destruct (nth_error (s_tasks s) i) as [t|] eqn:Hi; [|auto]. destruct (t_pc t) as [|n l|n l|n c|n c|ev|r] eqn:Hp; destruct (t_addr t) as [a|]; auto; right; left.
    + destruct (to_stream (t_req t)); [apply (goto_busy i _ s _ t Hi); auto; rewrite Hp; cbn [crank]; lia|]. apply (failed_busy i _ _ _ _ s t Hi). rewrite Hp. cbn [crank]. lia.
    + apply (sent_busy i _ s t Hi). rewrite Hp. cbn [crank]. lia.
    + apply (sent_busy i _ s t Hi). rewrite Hp. cbn [crank]. lia.
  - destruct (nth_error (s_tasks s) i) as [t|] eqn:Hi; [|auto]. destruct (t_pc t) as [|n l|n l|n c|n c|ev|r] eqn:Hp; destruct (t_addr t) as [a|]; auto; right; left; apply (failed_busy i _ _ _ _ s t Hi); rewrite Hp; cbn [crank]; lia.
  - destruct (nth_error (s_tasks s) i) as [t|] eqn:Hi; [|auto]. destruct (t_pc t) as [|n l|n l|n c|n c|ev|r] eqn:Hp; auto. destruct (nth_error (s_events s) ev) as [[]|]; auto. right. left.
    destruct (dget (rid_of (t_req t)) (s_resp s)); apply (goto_busy i _ s _ t Hi); auto; rewrite Hp; cbn [crank]; lia.
  - destruct (nth_error (s_tasks s) i) as [t|] eqn:Hi; [|auto]. destruct (t_pc t) as [|n l|n l|n c|n c|ev|r] eqn:Hp; auto; right; left; apply (goto_busy i _ s _ t Hi); auto; rewrite Hp; cbn [crank]; lia.
  - destruct (flag_lowers c (fun k => {| k_addr := k_addr k; k_buf := k_buf k; k_eof := true; k_exn := k_exn k; k_rd := k_rd k; k_cancel := k_cancel k; k_closed := k_closed k; k_frames := k_frames k; k_in := k_in k |}) s) as [E|E]; auto.
    intros k. destruct (k_eof k) eqn:E; [left; destruct k; cbn in *; congruence|right; unfold waiting; cbn; rewrite E; lia].
  - destruct (flag_lowers c (fun k => {| k_addr := k_addr k; k_buf := k_buf k; k_eof := k_eof k; k_exn := true; k_rd := k_rd k; k_cancel := k_cancel k; k_closed := k_closed k; k_frames := k_frames k; k_in := k_in k |}) s) as [E|E]; auto.
    intros k. destruct (k_exn k) eqn:E; [left; destruct k; cbn in *; congruence|right; unfold waiting; cbn; rewrite E; lia].
  - destruct (read_lowers c s); auto.
  - destruct (s_timer s) as [|a|a i|] eqn:Ht; auto. destruct (nth_error (s_tasks s) i) as [t|]; [|auto]. destruct (t_pc t) as [| | | | | |r]; auto. right. left. unfold busy. rewrite Ht. destruct r; cbn [set_timer s_tasks s_timer]; lia.
Qed.

(** Property theorems C103-C104: what the synchronous client costs in connections, and giving a connection back.
    [mk n k]: the k-th socket of the n-th pool manager can be created; [dr]: is_connection_dropped. A history of a
    client is a list of fetches ([_get_pool().get_conn()]) and of givings back ([_get_pool().put_conn(c)]). *)
From Coq Require Import Strings.String.
From Verif Require Import PyBase L_PyBase PyDict M_SofaHeader M_Package S_Wire M_SyncClient L_SyncClient S_SyncPool L_SyncPool P_Sync.

(** ** C103. False of this code: every fetch opens two connections and every giving back one more, so that a call whose
    first attempt succeeds opens three and leaves two of them unused, whatever happened before ... *)
Theorem C103_three_per_call_refuted : forall mk dr key c n, (forall n k, mk n k = true) -> opened mk dr (one_call key 0 c) n = 3%nat.
Proof. intros mk dr key c n M. exact (call_opens mk dr key 0 c n M). Qed.
Print Assumptions C103_three_per_call_refuted.

(** ... and over any history the number grows without bound, because nothing is used again. *)
Theorem C103_history_refuted : forall mk dr acts n, (forall n k, mk n k = true) -> opened mk dr acts n = (2 * fetches acts + gives_back acts)%nat.
Proof. intros mk dr acts n M. exact (opened_all mk dr acts M n). Qed.
Print Assumptions C103_history_refuted.

(** What holds: that is the most that is opened; a call never opens more than seven. Missing: one per call. *)
Theorem C103_at_most_partial : forall mk dr acts n, (opened mk dr acts n <= 2 * fetches acts + gives_back acts)%nat.
Proof. intros mk dr acts n. exact (opened_most mk dr acts n). Qed.
Print Assumptions C103_at_most_partial.
Theorem C103_call_at_most_partial : forall mk dr key r c n, (r < 3)%nat -> (opened mk dr (one_call key r c) n <= 7)%nat.
Proof. exact call_opens_most. Qed.
Print Assumptions C103_call_at_most_partial.

Example C103_case : opened (fun _ _ => true) (fun _ _ => false) (one_call 1 0 (0, 0)%nat ++ one_call 1 2 (4, 0)%nat) 0 = 10%nat /\
  opened (fun _ k => Nat.eqb k 0) (fun _ _ => false) (one_call 1 0 (0, 0)%nat) 0 = 2%nat /\
  opens (fun _ k => Nat.eqb k 0) (fun _ _ => false) (CFetch 1) 0 = 1%nat /\ fetches (one_call 1 2 (4, 0)%nat) = 3%nat.
Proof. vm_compute. repeat split. Qed.

(** ** C104. False of this code: the complete answer has been read, whatever it says, and the caller gets an OSError
    because no socket can be created for a pool that is never used ... *)
Theorem C104_answer_lost_refuted : forall mk key n frame f tail rid evs,
  response_layout frame f -> mk n 0%nat = false -> Forall avail evs -> len frame <= len evs ->
  sync_result rid (snd (give_back mk key n)) (frame ++ tail) evs = Some (Raise OSError).
Proof. exact answer_lost. Qed.
Print Assumptions C104_answer_lost_refuted.

(** ... and a one-way call raises though its request was sent. *)
Theorem C104_one_way_refuted : forall mk key n header content rid atts p bs c,
  new_request header content PTYPE_ONEWAY (PInt (-1)) rid = Ok p -> to_stream p = Ok bs -> a_conn (atts 0%nat) = Ok c -> a_send (atts 0%nat) = Ok (len bs) -> mk n 0%nat = false ->
  invoke_oneway header content rid atts (snd (give_back mk key n)) = ([(c, bs)], Raise OSError).
Proof.
  intros mk key n header content rid atts p bs c N T Hc Hs M. rewrite (oneway_sent_raises mk key n header content rid atts p bs c (len bs) N T Hc Hs M).
  replace (py_take (len bs) bs) with bs; [reflexivity|]. rewrite <- (app_nil_r bs) at 3. rewrite py_take_app. reflexivity.
Qed.
Print Assumptions C104_one_way_refuted.

(** What holds: if that socket can be created, a successful answer with the id of the request is returned; and a value
    is returned in no other case. Missing: returning it without that socket. *)
Theorem C104_answer_kept_partial : forall mk key n frame f kvs tail rid evs,
  response_layout frame f -> legal_common f -> header_pairs (fr_header f) kvs -> fr_request_id f = rid -> fr_tos f = 0 -> mk n 0%nat = true -> Forall avail evs -> len frame <= len evs ->
  sync_result rid (snd (give_back mk key n)) (frame ++ tail) evs = Some (Ok (PBytes (fr_content f))).
Proof. exact answer_kept. Qed.
Print Assumptions C104_answer_kept_partial.
Theorem C104_only_then_partial : forall mk key n rid srv evs v, sync_result rid (snd (give_back mk key n)) srv evs = Some (Ok v) -> mk n 0%nat = true.
Proof. exact value_given_back. Qed.
Print Assumptions C104_only_then_partial.

(** [ok_bytes]: the answer of P_Sync, for which C35_hypotheses_met shows the hypotheses; the second manager of the process has no socket left *)
Definition tight (n k : nat) : bool := Nat.ltb n 1.
Definition one_way7 : bytes := bytes_of (new_request [] (PBytes (bytes_lit "hi")) PTYPE_ONEWAY (PInt (-1)) 7).
Example C104_case :
  snd (fetch tight (fun _ _ => false) 1 0) = Ok (0, 0)%nat /\ snd (give_back tight 1 1) = Raise OSError /\ snd (give_back tight 1 0) = Ok tt /\
  sync_result 7 (snd (give_back tight 1 1)) ok_bytes (bytewise 78) = Some (Raise OSError) /\
  sync_result 7 (snd (give_back tight 1 0)) ok_bytes (bytewise 78) = Some (Ok (PBytes (bytes_lit "ok"))) /\
  invoke_oneway [] (PBytes (bytes_lit "hi")) 7 (one_conn (len one_way7)) (snd (give_back tight 1 1)) = ([(5%nat, one_way7)], Raise OSError) /\ len one_way7 = 68.
Proof. vm_compute. repeat split. Qed.

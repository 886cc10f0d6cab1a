(** How many connections the synchronous client opens, and what giving them back does *)
From Verif Require Import PyBase L_PyBase PyDict L_PyDict M_SofaHeader M_Package L_Package S_Wire M_Lru M_ConnPool M_PoolManager M_SyncClient L_SyncClient S_SyncPool.
Open Scope nat_scope.

(** the pool as it is built: one connection, if it could be created *)
Definition fresh_pool : pool := {| p_free := Some [0]; p_num := 1; p_attempts := 1; p_closed := [] |}.
Lemma lookup_new (m : nat -> bool) key : match lookup 10 default_config (fun _ => m) (w_init (K:=Z)) key with
  | (w, Ok i) => m 0 = true /\ nth_error (w_pools w) i = Some fresh_pool
  | (_, Raise e) => m 0 = false /\ e = OSError
  end.
Proof.
  set (r := lookup _ _ _ _ _). vm_compute in r. subst r. destruct (m 0) eqn:E; vm_compute; split; try reflexivity.
Qed.

Lemma give_back_result mk key n : snd (give_back mk key n) = if mk n 0 then Ok tt else Raise OSError.
Proof.
  unfold give_back. pose proof (lookup_new (mk n) key) as L. destruct (lookup 10 default_config (fun _ => mk n) (w_init (K:=Z)) key) as [w [i|e]].
  - destruct L as [-> _]. reflexivity.
  - destruct L as [-> ->]. reflexivity.
Qed.

Lemma get_attempts m d : p_attempts (fst (get_conn default_config m d fresh_pool)) = 2.
Proof.
  set (r := p_attempts _). vm_compute in r. subst r. destruct (m 1), (d 0); reflexivity.
Qed.

Lemma opens_count mk dr a n : opens mk dr a n =
  if mk n 0 then match a with CFetch _ => if mk n 1 then 2 else 1 | CGiveBack _ _ => 1 end else 0.
Proof.
  unfold opens, pool_after. set (key := match a with CFetch key | CGiveBack key _ => key end). pose proof (lookup_new (mk n) key) as L.
  destruct (lookup 10 default_config (fun _ => mk n) (w_init (K:=Z)) key) as [w [i|e]].
  - destruct L as [E ->]. rewrite E. cbn [option_map]. destruct a as [k|k c].
    + rewrite get_attempts. cbn [seq filter]. rewrite E. destruct (mk n 1); reflexivity.
    + cbn. rewrite E. reflexivity.
  - destruct L as [-> _]. reflexivity.
Qed.

Lemma opened_all mk dr acts : (forall n k, mk n k = true) -> forall n, opened mk dr acts n = 2 * fetches acts + gives_back acts.
Proof.
  intros M. induction acts as [|a acts IH]; intros n; [reflexivity|]. cbn [opened]. rewrite IH, opens_count, !M. unfold fetches, gives_back. destruct a; cbn [filter is_fetch negb List.length]; lia.
Qed.
Lemma opened_most mk dr acts : forall n, opened mk dr acts n <= 2 * fetches acts + gives_back acts.
Proof.
  induction acts as [|a acts IH]; intros n; [cbn; lia|]. cbn [opened]. specialize (IH (fst (cstep mk dr (n, []) a))). rewrite opens_count. unfold fetches, gives_back in *.
  destruct a; cbn [filter is_fetch negb List.length]; destruct (mk n 0), (mk n 1); lia.
Qed.
Lemma call_counts key r c : fetches (one_call key r c) = S r /\ gives_back (one_call key r c) = 1.
Proof.
  unfold fetches, gives_back, one_call. rewrite !filter_app, !app_length. cbn [filter is_fetch negb List.length].
  assert (A : forall n, List.length (filter is_fetch (repeat (CFetch key) n)) = n /\ List.length (filter (fun a => negb (is_fetch a)) (repeat (CFetch key) n)) = 0).
  { induction n as [|n IH]; cbn; [auto|]. destruct IH. split; congruence. }
  destruct (A (S r)) as [-> ->]. lia.
Qed.
Lemma call_opens mk dr key r c n : (forall n k, mk n k = true) -> opened mk dr (one_call key r c) n = 2 * r + 3.
Proof. intros M. rewrite (opened_all _ _ _ M). destruct (call_counts key r c) as [-> ->]. lia. Qed.
Lemma call_opens_most mk dr key r c n : r < 3 -> opened mk dr (one_call key r c) n <= 7.
Proof. intros R. pose proof (opened_most mk dr (one_call key r c) n) as L. destruct (call_counts key r c) as [E1 E2]. rewrite E1, E2 in L. lia. Qed.

(** ** The answer and giving back *)
Open Scope Z_scope.
Lemma answer_lost mk key n frame f tail rid evs : response_layout frame f -> mk n 0%nat = false -> Forall avail evs -> len frame <= len evs ->
  sync_result rid (snd (give_back mk key n)) (frame ++ tail) evs = Some (Raise OSError).
Proof. intros L M F H. rewrite give_back_result, M. exact (proj1 (sync_complete frame f tail evs rid _ L F H)). Qed.
Lemma answer_kept mk key n frame f kvs tail rid evs :
  response_layout frame f -> legal_common f -> header_pairs (fr_header f) kvs -> fr_request_id f = rid -> fr_tos f = 0 -> mk n 0%nat = true -> Forall avail evs -> len frame <= len evs ->
  sync_result rid (snd (give_back mk key n)) (frame ++ tail) evs = Some (Ok (PBytes (fr_content f))).
Proof.
  intros L C K Hr Ht M F H. rewrite give_back_result, M. rewrite (proj1 (sync_complete frame f tail evs rid (Ok tt) L F H)). cbn [bind]. f_equal.
  rewrite (proj1 (judge_cases rid frame f L) kvs C); [rewrite Hr, Ht, Z.eqb_refl; reflexivity| |exact K]. rewrite Ht. left. lia.
Qed.
Lemma value_given_back mk key n rid srv evs v : sync_result rid (snd (give_back mk key n)) srv evs = Some (Ok v) -> mk n 0%nat = true.
Proof. intros E. apply sync_returns in E as [E _]. rewrite give_back_result in E. destruct (mk n 0%nat); [reflexivity|discriminate]. Qed.
Lemma oneway_sent_raises mk key n header content rid atts p bs c k :
  new_request header content PTYPE_ONEWAY (PInt (-1)) rid = Ok p -> to_stream p = Ok bs -> a_conn (atts 0%nat) = Ok c -> a_send (atts 0%nat) = Ok k -> mk n 0%nat = false ->
  invoke_oneway header content rid atts (snd (give_back mk key n)) = ([(c, py_take k bs)], Raise OSError).
Proof.
  intros N T Hc Hs M. unfold invoke_oneway. destruct (raw_sends header content PTYPE_ONEWAY PNone rid atts p N) as (_ & A & _). rewrite (A _ _ _ T Hc Hs), give_back_result, M. reflexivity.
Qed.

(** Lemmas about reads and writes on one connection. *)
From Verif Require Import PyBase L_PyBase M_SockConn S_SockConn.

Lemma consumed_app l1 l2 s m rest : consumed l1 s m -> consumed l2 m rest -> consumed (l1 ++ l2) s rest.
Proof. intros H H2. induction H; cbn; [exact H2| |]; constructor; auto. Qed.

Lemma consumed_more l s rest bs : consumed l s rest -> consumed l (s ++ bs) (rest ++ bs).
Proof. intros H. induction H; cbn; rewrite <- ?app_assoc; constructor; auto. Qed.

(** the bytes that the current call holds, and those that wait in the socket *)
Definition held (s : rx) : bytes := match x_cur s with Some (_, buf) => buf | None => [] end.
Definition x_ok (s : rx) : Prop :=
  consumed (x_log s) (k_all (x_sk s)) (held s ++ k_queue (x_sk s)) /\
  (forall size buf, x_cur s = Some (size, buf) -> len buf <= Z.max 0 size).

Lemma x_end_ok s size buf r :
  x_ok s -> x_cur s = Some (size, buf) ->
  (match r with Ok b => b = buf /\ len buf = Z.max 0 size | Raise _ => len buf < size end) ->
  x_ok (x_end size r s).
Proof.
  intros [C B] E H. split; [|cbn; discriminate]. cbn.
  unfold held in C. rewrite E in C.
  eapply consumed_app; [exact C|].
  destruct r as [b|e].
  - destruct H as [-> H]. constructor; [exact H|constructor].
  - constructor; [exact H|constructor].
Qed.

Lemma x_step_ok s o : x_ok s -> x_ok (x_step s o).
Proof.
  intros Hs. pose proof Hs as [C B]. destruct o as [size|n| |bs| |]; cbn [x_step].
  - destruct (x_cur s) as [[z b]|] eqn:E; [exact Hs|].
    split; cbn.
    + unfold held in C. rewrite E in C. exact C.
    + intros ? ? [= <- <-]. unfold len. cbn. lia.
  - unfold x_go. destruct (x_cur s) as [[size buf]|] eqn:E; [|exact Hs].
    destruct (Z.ltb_spec (len buf) size) as [L|L].
    + destruct (k_closed (x_sk s)).
      * eapply x_end_ok; eauto.
      * destruct (k_queue (x_sk s)) as [|q0 q] eqn:Q; [exact Hs|].
        rewrite <- Q.
        split.
        -- unfold held in C. rewrite E in C. cbn.
           rewrite <- app_assoc.
           assert (X : py_take (Z.min (Z.of_nat n + 1) (size - len buf)) (k_queue (x_sk s)) ++
                   py_drop (len (py_take (Z.min (Z.of_nat n + 1) (size - len buf)) (k_queue (x_sk s)))) (k_queue (x_sk s)) = k_queue (x_sk s)).
           { set (t := py_take _ _).
             assert (Y : k_queue (x_sk s) = t ++ py_drop (Z.min (Z.of_nat n + 1) (size - len buf)) (k_queue (x_sk s))) by (symmetry; apply py_take_drop).
             rewrite Y at 1. rewrite py_drop_app. symmetry. exact Y. }
           rewrite X, Q. exact C.
        -- cbn. intros ? ? [= <- <-]. rewrite len_app.
           pose proof (len_py_take_le (Z.min (Z.of_nat n + 1) (size - len buf)) (k_queue (x_sk s)) ltac:(lia)). lia.
    + eapply x_end_ok; [exact Hs|exact E|]. split; [reflexivity|]. specialize (B _ _ eq_refl).
      pose proof (len_nonneg buf). lia.
  - unfold x_fail. destruct (x_cur s) as [[size buf]|] eqn:E; [|exact Hs].
    destruct (Z.ltb_spec (len buf) size) as [L|L].
    + eapply x_end_ok; eauto.
    + eapply x_end_ok; [exact Hs|exact E|]. split; [reflexivity|]. specialize (B _ _ eq_refl).
      pose proof (len_nonneg buf). lia.
  - destruct (k_end (x_sk s)); [exact Hs|]. split; [|exact B]. cbn.
    rewrite app_assoc. apply consumed_more. exact C.
  - split; [exact C|exact B].
  - split; [exact C|exact B].
Qed.

Lemma x_run_ok l : x_ok (x_run l).
Proof.
  unfold x_run. assert (H : x_ok rx_init).
  { split; cbn; [constructor|discriminate]. }
  revert H. generalize rx_init. induction l as [|o l IH]; cbn; intros s H; [exact H|].
  apply IH, x_step_ok, H.
Qed.

Lemma c101_stream l :
  exists rest, consumed (x_log (x_run l)) (k_all (x_sk (x_run l))) rest.
Proof. eexists. apply x_run_ok. Qed.

Lemma consumed_cut l s rest :
  consumed l s rest -> Forall returned l ->
  map snd l = map Ok (cut (map fst l) s) /\ total (map fst l) + len rest = len s.
Proof.
  intros H. induction H as [s|n b l s rest E H IH|n e b l s rest E H IH]; intros F; cbn.
  - split; [reflexivity|lia].
  - inversion F; subst. destruct IH as [I1 I2]; [assumption|].
    assert (X : Z.to_nat n = length b) by (unfold len in E; lia).
    rewrite X, firstn_app, Nat.sub_diag, firstn_all, firstn_O, app_nil_r.
    rewrite skipn_app, Nat.sub_diag, skipn_all, skipn_O. cbn [app]. rewrite I1, len_app. split; [reflexivity|].
    unfold total in *. lia.
  - inversion F; subst. destruct H2 as [? X]. discriminate X.
Qed.

Lemma c101_pieces l :
  Forall returned (x_log (x_run l)) ->
  map snd (x_log (x_run l)) = map Ok (cut (map fst (x_log (x_run l))) (k_all (x_sk (x_run l)))) /\
  total (map fst (x_log (x_run l))) <= len (k_all (x_sk (x_run l))).
Proof.
  intros F. destruct (c101_stream l) as [rest C].
  destruct (consumed_cut _ _ _ C F) as [A B]. split; [exact A|]. pose proof (len_nonneg rest). lia.
Qed.

Lemma gos_cons o l : gos (o :: l) = (match o with XGo _ => 1 | _ => 0 end) + gos l.
Proof. unfold gos. cbn [filter]. destruct o; rewrite ?len_cons; lia. Qed.

Lemma x_log_grows l s : exists l', x_log (fold_left x_step l s) = x_log s ++ l'.
Proof.
  revert s. induction l as [|o l IH]; intros s; cbn [fold_left]; [exists []; now rewrite app_nil_r|].
  destruct (IH (x_step s o)) as [l' E]. rewrite E.
  assert (X : exists m, x_log (x_step s o) = x_log s ++ m).
  { assert (Y : exists m, x_log s = x_log s ++ m) by (exists []; now rewrite app_nil_r).
    destruct o as [size|n| |bs| |]; cbn [x_step]; try exact Y.
    - destruct (x_cur s); exact Y.
    - unfold x_go. destruct (x_cur s) as [[size buf]|]; [|exact Y].
      destruct (len buf <? size); [|eexists; reflexivity].
      destruct (k_closed (x_sk s)); [eexists; reflexivity|]. destruct (k_queue (x_sk s)); exact Y.
    - unfold x_fail. destruct (x_cur s) as [[size buf]|]; [|exact Y].
      destruct (len buf <? size); eexists; reflexivity.
    - destruct (k_end (x_sk s)); exact Y. }
  destruct X as [m ->]. exists (m ++ l'). now rewrite app_assoc.
Qed.

Lemma py_take_take_app {A} a b (l : list A) :
  0 <= a -> a <= b -> a <= len l -> py_take a l ++ py_take (b - a) (py_drop a l) = py_take b l.
Proof.
  intros Ha Hb Hl. rewrite !py_take_firstn, py_drop_skipn.
  replace (Z.to_nat b) with (Z.to_nat a + Z.to_nat (b - a))%nat by lia.
  set (n := Z.to_nat a). set (m := Z.to_nat (b - a)).
  clear. revert l. induction n as [|n IH]; intros [|x l]; cbn [firstn skipn app plus]; rewrite ?firstn_nil; try reflexivity.
  now rewrite IH.
Qed.

Lemma c101_ends l s size buf :
  x_cur s = Some (size, buf) -> len buf <= Z.max 0 size -> size - len buf <= len (k_queue (x_sk s)) ->
  k_closed (x_sk s) = false -> Forall quiet l -> Z.max 0 (size - len buf) < gos l ->
  exists l', x_log (fold_left x_step l s) = x_log s ++ (size, Ok (buf ++ py_take (size - len buf) (k_queue (x_sk s)))) :: l'.
Proof.
  revert s buf. induction l as [|o l IH]; intros s buf E B Q K F G.
  { unfold gos in G. cbn in G. change (len []) with 0 in G. lia. }
  rewrite gos_cons in G. inversion F as [|? ? F1 F2]; subst. cbn [fold_left].
  assert (Same : forall s', x_cur s' = x_cur s -> x_log s' = x_log s -> k_closed (x_sk s') = false ->
            (exists t, k_queue (x_sk s') = k_queue (x_sk s) ++ t) -> Z.max 0 (size - len buf) < gos l ->
            exists l', x_log (fold_left x_step l s') = x_log s ++ (size, Ok (buf ++ py_take (size - len buf) (k_queue (x_sk s)))) :: l').
  { intros s' E1 E2 E3 [t E4] G'. destruct (IH s' buf) as [l' X]; auto.
    - congruence.
    - rewrite E4, len_app. pose proof (len_nonneg t). lia.
    - exists l'. rewrite X, E2, E4. destruct (Z.leb_spec (size - len buf) 0) as [Z0|Z0].
      + replace (py_take (size - len buf) (k_queue (x_sk s) ++ t)) with (@nil byte); [|rewrite py_take_firstn; replace (Z.to_nat (size - len buf)) with 0%nat by lia; reflexivity].
        replace (py_take (size - len buf) (k_queue (x_sk s))) with (@nil byte); [reflexivity|rewrite py_take_firstn; replace (Z.to_nat (size - len buf)) with 0%nat by lia; reflexivity].
      + now rewrite py_take_app_ge by lia. }
  assert (Nil : exists t : bytes, k_queue (x_sk s) = k_queue (x_sk s) ++ t) by (exists []; now rewrite app_nil_r).
  destruct o as [z|n| |bs| |]; cbn [x_step quiet] in *; try contradiction.
  - rewrite E. apply Same; auto.
  - unfold x_go. rewrite E. destruct (Z.ltb_spec (len buf) size) as [L|L].
    + rewrite K. destruct (k_queue (x_sk s)) as [|q0 q] eqn:Qe.
      { rewrite len_nil in Q. lia. }
      rewrite <- Qe in *. set (t := py_take _ (k_queue (x_sk s))).
      assert (T : len t = Z.min (Z.min (Z.of_nat n + 1) (size - len buf)) (len (k_queue (x_sk s)))).
      { unfold t. rewrite len_py_take; lia. }
      assert (Q1 : 1 <= len (k_queue (x_sk s))) by (rewrite Qe, len_cons; pose proof (len_nonneg q); lia).
      match goal with |- context [fold_left x_step l ?s'] => destruct (IH s' (buf ++ t)) as [l' X] end.
      * reflexivity.
      * rewrite len_app. lia.
      * cbn. rewrite len_app, len_py_drop by lia. lia.
      * exact K.
      * exact F2.
      * rewrite len_app. lia.
      * exists l'. rewrite X. cbn. do 3 f_equal. rewrite <- app_assoc. do 2 f_equal.
        rewrite len_app. unfold t at 1.
        replace (Z.min (Z.of_nat n + 1) (size - len buf)) with (len t) by lia.
        replace (size - (len buf + len t)) with (size - len buf - len t) by lia.
        apply py_take_take_app; lia.
    + destruct (x_log_grows l (x_end size (Ok buf) s)) as [l' X]. exists l'. rewrite X. cbn.
      rewrite <- app_assoc. cbn. do 4 f_equal.
      rewrite py_take_firstn. replace (Z.to_nat (size - len buf)) with 0%nat by lia. cbn. now rewrite app_nil_r.
  - destruct (k_end (x_sk s)); [apply Same; auto; lia|].
    apply Same; [reflexivity|reflexivity|exact K|cbn; eexists; reflexivity|lia].
  - apply Same; auto.
Qed.

(** at the end of the stream with too little: the call goes on *)
Definition starving (size : Z) (s : rx) : Prop :=
  exists buf, x_cur s = Some (size, buf) /\ k_end (x_sk s) = true /\ k_closed (x_sk s) = false /\
              len buf + len (k_queue (x_sk s)) < size /\ x_log s = [].

Lemma starving_step size s o : quiet o -> starving size s -> starving size (x_step s o).
Proof.
  intros H (buf & E & E1 & E2 & E3 & E4). destruct o as [z|n| |bs| |]; cbn [x_step quiet] in *; try contradiction.
  - rewrite E. exists buf. auto.
  - unfold x_go. rewrite E.
    pose proof (len_nonneg (k_queue (x_sk s))).
    destruct (Z.ltb_spec (len buf) size) as [L|L]; [|lia].
    rewrite E2. destruct (k_queue (x_sk s)) as [|q0 q] eqn:Q.
    + exists buf. rewrite Q. auto.
    + rewrite <- Q in *. set (t := py_take _ (k_queue (x_sk s))).
      assert (T : len t = Z.min (Z.min (Z.of_nat n + 1) (size - len buf)) (len (k_queue (x_sk s)))).
      { unfold t. rewrite py_take_firstn. unfold len. rewrite firstn_length. unfold len in *. lia. }
      exists (buf ++ t). cbn. rewrite len_app, len_py_drop by lia. repeat split; auto. lia.
  - rewrite E1. exists buf. auto.
  - exists buf. cbn. auto.
Qed.

Lemma c101_never size bs l :
  len bs < size -> Forall quiet l ->
  let s := x_run ([XArrive bs; XEnd; XCall size] ++ l) in
  (exists buf, x_cur s = Some (size, buf)) /\ x_log s = [].
Proof.
  intros H F s. assert (X : starving size s).
  { unfold s, x_run. rewrite fold_left_app. cbn [fold_left].
    match goal with |- context [fold_left x_step l ?s0] => assert (I : starving size s0) end.
    { exists []. cbn [x_step x_cur x_set x_sk rx_init k_end k_closed k_queue x_log app]. rewrite len_nil. repeat split. lia. }
    revert I. match goal with |- context [fold_left x_step l ?s0] => generalize s0 end.
    induction F as [|o l Ho F IH]; cbn; intros s0 I; [exact I|]. apply IH. now apply starving_step. }
  destruct X as (buf & E & _ & _ & _ & E4). split; [exists buf; exact E|exact E4].
Qed.

(** writing *)
Lemma sendall_spec bl l : forall d w e,
  sendall bl d l = (w, e) ->
  exists r, d = w ++ r /\
    match e with Some (Ok _) => r = [] | Some (Raise x) => x = OSError /\ r <> [] | None => r <> [] end.
Proof.
  induction l as [|o l IH]; intros d w e E.
  - destruct d as [|b d]; cbn in E; injection E as <- <-.
    + exists []. auto.
    + exists (b :: d). split; [reflexivity|discriminate].
  - destruct d as [|b d].
    { cbn in E. injection E as <- <-. exists []. auto. }
    assert (N : b :: d <> []) by discriminate. remember (b :: d) as dd eqn:D.
    assert (E' : match o with
         | Room n => let k := Z.of_nat n + 1 in
                          let '(w, e) := sendall bl (py_drop k dd) l in (py_take k dd ++ w, e)
         | Full => if bl then sendall bl dd l else ([], Some (Raise OSError))
         | Broke => ([], Some (Raise OSError))
         end = (w, e)) by (rewrite <- E, D; destruct o; reflexivity).
    clear E D. destruct o as [n| |].
    + cbv zeta in E'. destruct (sendall bl (py_drop (Z.of_nat n + 1) dd) l) as [w' e'] eqn:S1.
      injection E' as <- <-. destruct (IH _ _ _ S1) as (r & R1 & R2). exists r. split; [|exact R2].
      rewrite <- app_assoc, <- R1. symmetry. apply py_take_drop.
    + destruct bl; [exact (IH _ _ _ E')|]. injection E' as <- <-. exists dd. auto.
    + injection E' as <- <-. exists dd. auto.
Qed.

Lemma sendall_blocking l : forall d,
  ~ In Broke l -> len d <= rooms l -> sendall true d l = (d, Some (Ok tt)).
Proof.
  induction l as [|o l IH]; intros d NB R.
  - destruct d; [reflexivity|]. unfold rooms in R. cbn [filter] in R. rewrite len_cons, len_nil in R. pose proof (len_nonneg d). lia.
  - destruct d as [|b d]; [reflexivity|].
    assert (N : 1 <= len (b :: d)) by (rewrite len_cons; pose proof (len_nonneg d); lia).
    assert (NB' : ~ In Broke l) by (intros H; apply NB; now right).
    destruct o as [n| |].
    + cbn [sendall]. remember (b :: d) as dd.
      assert (R' : len dd <= 1 + rooms l) by (unfold rooms in *; cbn [filter] in R; rewrite len_cons in R; exact R).
      rewrite IH; [rewrite py_take_drop; reflexivity|exact NB'|].
      destruct (Z.leb_spec (len dd) (Z.of_nat n + 1)).
      * rewrite py_drop_all by lia. rewrite len_nil. unfold rooms. apply len_nonneg.
      * rewrite len_py_drop by lia. lia.
    + exact (IH (b :: d) NB' R).
    + exfalso. apply NB. now left.
Qed.

Lemma sendall_full d n l :
  (n + 1 < length d)%nat -> sendall false d (Room n :: Full :: l) = (firstn (S n) d, Some (Raise OSError)).
Proof.
  intros H. destruct d as [|b d]; [cbn in H; lia|]. cbn [sendall]. remember (b :: d) as dd.
  assert (X : exists x y, py_drop (Z.of_nat n + 1) dd = x :: y).
  { rewrite py_drop_skipn. destruct (skipn (Z.to_nat (Z.of_nat n + 1)) dd) as [|x y] eqn:E; [|eauto].
    apply (f_equal (@length _)) in E. rewrite skipn_length in E. cbn in E. lia. }
  destruct X as (x & y & ->). cbn [sendall].
  rewrite py_take_firstn, app_nil_r. replace (Z.to_nat (Z.of_nat n + 1)) with (S n) by lia. reflexivity.
Qed.

(** ** What came, and why calls raise *)
Lemma x_run_snoc l o : x_run (l ++ [o]) = x_step (x_run l) o.
Proof. unfold x_run. rewrite fold_left_app. reflexivity. Qed.
Lemma go_sk n s : k_all (x_sk (x_go n s)) = k_all (x_sk s) /\ k_end (x_sk (x_go n s)) = k_end (x_sk s) /\ k_closed (x_sk (x_go n s)) = k_closed (x_sk s).
Proof. unfold x_go. destruct (x_cur s) as [[z b]|]; [|auto]. destruct (_ <? _); [|auto]. destruct (k_closed (x_sk s)) eqn:E; [auto|]. destruct (k_queue (x_sk s)); auto. Qed.
Lemma fail_sk s : x_sk (x_fail s) = x_sk s.
Proof. unfold x_fail. destruct (x_cur s) as [[z b]|]; [|auto]. destruct (_ <? _); auto. Qed.
Lemma came_app l1 l2 : came (l1 ++ l2) = came l1 ++ if existsb is_end l1 then [] else came l2.
Proof. induction l1 as [|o l IH]; [reflexivity|]. destruct o; cbn; try exact IH; [|reflexivity]. rewrite IH, app_assoc. reflexivity. Qed.
Lemma sk_of l : k_all (x_sk (x_run l)) = came l /\ k_end (x_sk (x_run l)) = existsb is_end l /\ k_closed (x_sk (x_run l)) = existsb is_close l.
Proof.
  induction l as [|o l (A & B & C)] using rev_ind; [repeat split|]. rewrite x_run_snoc, came_app, !existsb_app. destruct o as [z|n| |bs| |]; cbn [x_step existsb is_end is_close came orb]; rewrite ?orb_false_r.
  - assert (E : (if existsb is_end l then [] else []) = @nil byte) by (destruct (existsb is_end l); reflexivity). rewrite E, app_nil_r. destruct (x_cur (x_run l)); auto.
  - assert (E : (if existsb is_end l then [] else []) = @nil byte) by (destruct (existsb is_end l); reflexivity). rewrite E, app_nil_r. destruct (go_sk n (x_run l)) as (A1 & B1 & C1). rewrite A1, B1, C1. auto.
  - assert (E : (if existsb is_end l then [] else []) = @nil byte) by (destruct (existsb is_end l); reflexivity). rewrite E, app_nil_r. rewrite fail_sk. auto.
  - rewrite B. destruct (existsb is_end l); cbn; rewrite ?app_nil_r, ?A, ?B, ?C; auto.
  - cbn. rewrite orb_true_r. destruct (existsb is_end l); rewrite app_nil_r; auto.
  - cbn. rewrite orb_true_r. destruct (existsb is_end l); rewrite app_nil_r; auto.
Qed.
Lemma close_in l : existsb is_close l = true <-> In XClose l.
Proof. rewrite existsb_exists. split; [intros (o & H & E); destruct o; try discriminate; exact H|intros H; exists XClose; auto]. Qed.
Lemma why_raised l size e : In (size, Raise e) (x_log (x_run l)) -> (e = OSError /\ In XFail l) \/ (e = SocketValueError /\ In XClose l).
Proof.
  induction l as [|o l IH] using rev_ind; [intros []|]. rewrite x_run_snoc. intros H.
  assert (K : In (size, Raise e) (x_log (x_run l)) -> (e = OSError /\ In XFail (l ++ [o])) \/ (e = SocketValueError /\ In XClose (l ++ [o]))) by (intros H'; destruct (IH H') as [(-> & I)|(-> & I)]; [left|right]; split; auto; apply in_or_app; auto).
  destruct (sk_of l) as (_ & _ & C). destruct o as [z|n| |bs| |]; cbn [x_step] in H.
  - destruct (x_cur (x_run l)); exact (K H).
  - unfold x_go in H. destruct (x_cur (x_run l)) as [[z b]|]; [|exact (K H)]. destruct (_ <? _).
    + destruct (k_closed (x_sk (x_run l))); [|destruct (k_queue (x_sk (x_run l))); exact (K H)]. cbn in H. apply in_app_or in H as [H|[[= _ <-]|[]]]; [exact (K H)|]. right. split; [reflexivity|]. apply in_or_app. left. apply close_in. congruence.
    + cbn in H. apply in_app_or in H as [H|[[=]|[]]]. exact (K H).
  - unfold x_fail in H. destruct (x_cur (x_run l)) as [[z b]|]; [|exact (K H)]. destruct (_ <? _).
    + cbn in H. apply in_app_or in H as [H|[[= _ <-]|[]]]; [exact (K H)|]. destruct (k_closed (x_sk (x_run l))) eqn:Kc; [right; split; [reflexivity|]; apply in_or_app; left; apply close_in; congruence|left; split; [reflexivity|]; apply in_or_app; right; left; reflexivity].
    + cbn in H. apply in_app_or in H as [H|[[=]|[]]]. exact (K H).
  - destruct (k_end (x_sk (x_run l))); exact (K H).
  - exact (K H).
  - exact (K H).
Qed.
Lemma closed_ends l size buf n : x_cur (x_run l) = Some (size, buf) -> In XClose l -> len buf < size -> x_log (x_run (l ++ [XGo n])) = x_log (x_run l) ++ [(size, Raise SocketValueError)].
Proof.
  intros E C L. rewrite x_run_snoc. cbn [x_step]. unfold x_go. rewrite E. destruct (Z.ltb_spec (len buf) size); [|lia]. destruct (sk_of l) as (_ & _ & K). apply close_in in C. rewrite K, C. reflexivity.
Qed.

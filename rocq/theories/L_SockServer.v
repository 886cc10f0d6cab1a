(** Lemmas about the threaded server. *)
From Coq Require Import ZifyBool Strings.String.
From Verif Require Import PyBase L_PyBase PyDict L_PyDict PyInt Struct M_SofaHeader L_SofaHeader M_Package L_Package L_Codec M_RpcId M_Trace S_Wire M_AioServer S_Server L_AioServer L_AioServer2 L_AioServer3 L_AioServer5 M_SockServer S_SockServer.
Open Scope Z_scope.

(** ** Reading *)
Lemma rfile_enough n net : forall buf, 0 <= n -> n <= len (buf ++ received net) ->
  exists buf' net', rfile_read n buf net = Got (py_take n (buf ++ received net)) buf' net' /\ buf' ++ received net' = py_drop n (buf ++ received net) /\ ending net' = ending net.
Proof.
  induction net as [|x net IH]; intros buf N L.
  - cbn [received] in *. rewrite app_nil_r in *. cbn [rfile_read]. destruct (Z.leb_spec n (len buf)); [|lia]. do 2 eexists. split; [reflexivity|]. cbn [received]. rewrite app_nil_r. auto.
  - cbn [rfile_read]. destruct (Z.leb_spec n (len buf)) as [K|K].
    + do 2 eexists. split; [rewrite py_take_app_ge by lia; reflexivity|]. split; [rewrite py_drop_app_ge by lia; reflexivity|reflexivity].
    + destruct x as [bs| |e]; cbn [received] in *.
      * rewrite app_assoc in *. cbn [ending]. apply IH; assumption.
      * rewrite app_nil_r in L. lia.
      * rewrite app_nil_r in L. lia.
Qed.
Lemma rfile_short n net : forall buf, len (buf ++ received net) < n ->
  match ending net with
  | None => rfile_read n buf net = Blocked
  | Some (Err e) => rfile_read n buf net = Failed e
  | Some _ => exists r, rfile_read n buf net = Got (buf ++ received net) [] (Fin :: r)
  end.
Proof.
  induction net as [|x net IH]; intros buf L; cbn [rfile_read].
  - cbn [received] in *. rewrite app_nil_r in *. cbn [ending]. destruct (Z.leb_spec n (len buf)); [lia|reflexivity].
  - assert (K : n <=? len buf = false) by (rewrite len_app in L; pose proof (len_nonneg (received (x :: net))); lia). rewrite K.
    destruct x as [bs| |e]; cbn [received ending] in *.
    + rewrite app_assoc in *. apply IH. exact L.
    + rewrite app_nil_r. eexists. reflexivity.
    + reflexivity.
Qed.
Lemma ending_not_arrive net bs : ending net <> Some (Arrive bs).
Proof. induction net as [|[| |] net IH]; cbn; [discriminate|exact IH|discriminate..]. Qed.
Lemma readexactly_enough fuel n buf net : (1 <= fuel)%nat -> 0 <= n -> n <= len (buf ++ received net) ->
  exists buf' net', readexactly fuel n [] buf net = Got (py_take n (buf ++ received net)) buf' net' /\ buf' ++ received net' = py_drop n (buf ++ received net) /\ ending net' = ending net.
Proof.
  intros F N L. destruct fuel as [|f]; [lia|]. cbn [readexactly].
  change (len (@nil byte)) with 0. destruct (Z.ltb_spec 0 n) as [P|P].
  - rewrite Z.sub_0_r. destruct (rfile_enough n net buf N L) as (b' & n' & E & D & En). rewrite E. cbn [app]. exists b', n'.
    destruct f; cbn [readexactly]; rewrite len_py_take by lia; rewrite Z.ltb_irrefl; auto.
  - assert (n = 0) by lia. subst n. exists buf, net. rewrite py_drop_0. split; [|auto]. rewrite py_take_firstn. reflexivity.
Qed.
Lemma readexactly_eof fuel n r : forall bs, len bs < n -> readexactly fuel n bs [] (Fin :: r) = Unfinished.
Proof.
  induction fuel as [|f IH]; intros bs L; cbn [readexactly rfile_read]; destruct (Z.ltb_spec (len bs) n); try lia; [reflexivity|].
  change (len (@nil byte)) with 0. destruct (Z.leb_spec (n - len bs) 0); [lia|]. rewrite app_nil_r. apply IH. exact L.
Qed.
(** too little was sent *)
Definition starve (e : option arrival) : tstatus := match e with None => SBlocked | Some (Err e) => SEnded (Raise e) | Some _ => SUnfinished end.
Definition stuck (r : rread bytes) : option tstatus := match r with Got _ _ _ => None | Blocked => Some SBlocked | Failed e => Some (SEnded (Raise e)) | Unfinished => Some SUnfinished end.
Lemma readexactly_short fuel n buf net : (1 <= fuel)%nat -> 0 <= n -> len (buf ++ received net) < n -> stuck (readexactly fuel n [] buf net) = Some (starve (ending net)).
Proof.
  intros F N L. destruct fuel as [|f]; [lia|]. cbn [readexactly]. change (len (@nil byte)) with 0. pose proof (len_nonneg (buf ++ received net)). destruct (Z.ltb_spec 0 n); [|lia]. rewrite Z.sub_0_r.
  pose proof (rfile_short n net buf L) as K. pose proof (ending_not_arrive net) as A. destruct (ending net) as [[bs| |e]|]; [congruence|..].
  - destruct K as (r & K). rewrite K. cbn [app]. rewrite readexactly_eof by assumption. reflexivity.
  - rewrite K. reflexivity.
  - rewrite K. reflexivity.
Qed.
Lemma readexactly_spins fuel n buf net : 0 <= n -> len (buf ++ received net) < n -> ending net = Some Fin -> readexactly fuel n [] buf net = Unfinished.
Proof.
  intros N L E. destruct fuel as [|f].
  - cbn [readexactly]. change (len (@nil byte)) with 0. pose proof (len_nonneg (buf ++ received net)). destruct (Z.ltb_spec 0 n); [reflexivity|lia].
  - pose proof (readexactly_short (S f) n buf net ltac:(lia) N L) as K. rewrite E in K. cbn [starve] in K. destruct (readexactly (S f) n [] buf net); cbn [stuck] in K; congruence.
Qed.

(** ** The whole handler *)
Definition rest_of (U : tables) (reg : registry) (tr : tstate) (fresh : pystr) (call : methods) (w : option (nat * exn)) (q : request) : sout :=
  match service_name (q_header q) with
  | None => wfile_write [] tr w (fail_bytes (q_id q) 8)
  | Some sv =>
      match method_name (q_header q) with
      | None => wfile_write [] tr w (fail_bytes (q_id q) 8)
      | Some m =>
          match extract U tr (q_header q) fresh with
          | (tr', Raise e) => sfails tr' e
          | (tr', Ok c) =>
              match find_method reg sv m with
              | Raise e => sfails tr' e
              | Ok _ =>
                  match call sv m (q_body q) c with
                  | None => {| o_calls := [(sv, m, q_body q, c)]; o_sent := []; o_trace := tr'; o_status := SUnfinished |}
                  | Some (Raise e) => wfile_write [(sv, m, q_body q, c)] tr' w (Raise e)
                  | Some (Ok v) => wfile_write [(sv, m, q_body q, c)] tr' w (result_bytes v (q_id q))
                  end
              end
          end
      end
  end.
(** what the handler does about a unit *)
Definition reacts U reg tr fresh call w (i : item) (o : sout) : Prop :=
  match i with
  | IHeartbeat id => o = wfile_write [] tr w (beat_bytes id)
  | IBad _ _ | IFatal _ => exists e, o = sfails tr e
  | IRequest q => o = rest_of U reg tr fresh call w q
  end.
Lemma answer_reacts U reg tr fresh call w fx c sofa body :
  reacts U reg tr fresh call w (kind fx c sofa body) (sock_answer U reg tr fresh call w (req_dict fx) c sofa body).
Proof.
  unfold kind, sock_answer. destruct (int_req fx) as (-> & _ & _ & _ & -> & _ & _).
  change CMDCODE_HEARTBEAT with 0. change CMDCODE_RESPONSE with 2. change SofaRequest_name with request_class.
  destruct (sval (field 2 2 fx) =? 0); [reflexivity|]. destruct (sval (field 2 2 fx) =? 2); [cbn; eauto|]. destruct (negb (bytes_eqb c request_class)); [cbn; eauto|]. reflexivity.
Qed.

(** one read of the handler: enough bytes, or stuck *)
Lemma read_cases fuel n buf net D : (1 <= fuel)%nat -> 0 <= n -> buf ++ received net = D ->
  (n <= len D /\ exists buf' net', readexactly fuel n [] buf net = Got (py_take n D) buf' net' /\ buf' ++ received net' = py_drop n D /\ ending net' = ending net) \/
  (len D < n /\ stuck (readexactly fuel n [] buf net) = Some (starve (ending net))).
Proof.
  intros F N <-. destruct (Z_le_gt_dec n (len (buf ++ received net))).
  - left. split; [assumption|]. apply readexactly_enough; assumption.
  - right. split; [lia|]. apply readexactly_short; auto. lia.
Qed.

Lemma handle_spec fuel U reg tr fresh call w net : (1 <= fuel)%nat ->
  match unit_of (received net) with
  | None => handle fuel U reg tr fresh call w net = sdone tr (starve (ending net))
  | Some (i, _) => reacts U reg tr fresh call w i (handle fuel U reg tr fresh call w net)
  end.
Proof.
  intros F. unfold handle, unit_of. change (bolt_header_size BoltRequest) with 22.
  assert (St : forall (r : rread bytes) e (k : bytes -> bytes -> list arrival -> sout), stuck r = Some (starve e) ->
     match r with Got x b n => k x b n | Blocked => sdone tr SBlocked | Failed e => sfails tr e | Unfinished => sdone tr SUnfinished end = sdone tr (starve e)).
  { intros r e k H. destruct r; cbn [stuck] in H; try discriminate; injection H as <-; reflexivity. }
  set (D := received net).
  destruct (read_cases fuel 22 [] net D F ltac:(lia) eq_refl) as [(L1 & b1 & n1 & E1 & D1 & N1)|(L1 & S1)].
  2: { destruct (Z.ltb_spec (len D) 22); [|lia]. apply St. exact S1. }
  rewrite E1. destruct (Z.ltb_spec (len D) 22); [lia|]. cbv zeta. set (fx := py_take 22 D) in *.
  assert (Lf : len fx = 22) by (apply len_py_take; lia). change BoltRequest with (req_class (cls_name BoltRequest)). rewrite (bolt_header_req (cls_name BoltRequest) fx) by lia.
  destruct (int_req fx) as (_ & -> & -> & -> & _ & _ & _).
  pose proof (uval_nonneg (field 14 2 fx)) as P1. pose proof (uval_nonneg (field 16 2 fx)) as P2. pose proof (uval_nonneg (field 18 4 fx)) as P3.
  set (cl := uval (field 14 2 fx)) in *. set (hl := uval (field 16 2 fx)) in *.
  assert (LD1 : len (py_drop 22 D) = len D - 22) by (apply len_py_drop; lia).
  destruct (read_cases fuel cl b1 n1 _ F P1 D1) as [(L2 & b2 & n2 & E2 & D2 & N2)|(L2 & S2)].
  2: { destruct (Z.ltb_spec (len D) (22 + cl + hl)); [|lia]. rewrite <- N1. apply St. exact S2. }
  rewrite E2. rewrite py_drop_drop in D2 by lia.
  assert (LD2 : len (py_drop (22 + cl) D) = len D - (22 + cl)) by (apply len_py_drop; lia).
  destruct (read_cases fuel hl b2 n2 _ F P2 D2) as [(L3 & b3 & n3 & E3 & D3 & N3)|(L3 & S3)].
  2: { destruct (Z.ltb_spec (len D) (22 + cl + hl)); [|lia]. rewrite <- N1, <- N2. apply St. exact S3. }
  rewrite E3. rewrite py_drop_drop in D3 by lia. destruct (Z.ltb_spec (len D) (22 + cl + hl)); [lia|].
  unfold classify. fold cl hl. destruct (from_bytes (py_take hl (py_drop (22 + cl) D))) as [sofa|e] eqn:Eh.
  - destruct (read_cases fuel (uval (field 18 4 fx)) b3 n3 _ F P3 D3) as [(L4 & b4 & n4 & E4 & D4 & N4)|(L4 & S4)].
    + destruct (Z.ltb_spec (len (py_drop (22 + cl + hl) D)) (uval (field 18 4 fx))); [lia|]. rewrite E4. apply answer_reacts.
    + destruct (Z.ltb_spec (len (py_drop (22 + cl + hl) D)) (uval (field 18 4 fx))); [|lia]. rewrite <- N1, <- N2, <- N3. apply St. exact S4.
  - destruct e; cbn [reacts]; eauto.
Qed.

(** ** Properties of the handler *)
Lemma begins_unit D i : begins D i <-> exists n, unit_of D = Some (i, n).
Proof.
  split.
  - intros (a & rest & -> & O). apply one_unit in O. exists (len a). apply unit_more. exact O.
  - intros (n & U). destruct (unit_one _ _ _ U) as (L & O). exists (py_take n D), (py_drop n D). split; [symmetry; apply py_take_drop|exact O].
Qed.
Lemma incomplete_unit D : incomplete D <-> unit_of D = None.
Proof.
  split.
  - intros I. destruct (unit_of D) as [[i n]|] eqn:E; [|reflexivity]. exfalso. apply (I i). apply begins_unit. eauto.
  - intros E i B. apply begins_unit in B as (n & B). congruence.
Qed.
Lemma begins_reacts fuel U reg tr fresh call w net i : (1 <= fuel)%nat -> begins (received net) i -> reacts U reg tr fresh call w i (handle fuel U reg tr fresh call w net).
Proof. intros F B. apply begins_unit in B as (n & B). pose proof (handle_spec fuel U reg tr fresh call w net F) as H. rewrite B in H. exact H. Qed.
Lemma classify_id fx c h rest i n : classify fx c h rest = Some (i, n) -> item_id i = sval (field 5 4 fx).
Proof.
  unfold classify, kind. destruct (from_bytes h) as [sofa|e].
  - destruct (_ <? _); [discriminate|]. intros K. apply Some_pair_inj in K as [<- _]. destruct (_ =? 0); [reflexivity|]. destruct (_ =? 2); [reflexivity|]. destruct (negb _); reflexivity.
  - intros K. destruct e; apply Some_pair_inj in K as [<- _]; reflexivity.
Qed.
Lemma begins_id D i : begins D i -> id_ok (item_id i).
Proof.
  intros B. apply begins_unit in B as (n & B). destruct (unit_parts _ _ _ B) as (fx & c & h & rest & _ & L & _ & _ & K). rewrite (classify_id _ _ _ _ _ _ K). apply id_fixed. exact L.
Qed.

Lemma sock_result fuel U reg tr fresh call net q sv m tr' c v : (1 <= fuel)%nat -> begins (received net) (IRequest q) ->
  names_service (q_header q) sv -> names_method (q_header q) m -> extract U tr (q_header q) fresh = (tr', Ok c) -> offers reg sv m ->
  call sv m (q_body q) c = Some (Ok (PBytes v)) -> len v <= 4294967295 ->
  exists bs, response bs (q_id q) 2 0 v /\ handle fuel U reg tr fresh call None net = {| o_calls := [(sv, m, q_body q, c)]; o_sent := [bs]; o_trace := tr'; o_status := SEnded (Ok tt) |}.
Proof.
  intros F B Ns Nm Ex Of Ca L. pose proof (begins_reacts fuel U reg tr fresh call None net _ F B) as R. cbn [reacts] in R. rewrite R. clear R. unfold rest_of.
  apply service_name_iff in Ns. apply method_name_iff in Nm. rewrite Ns, Nm, Ex, (find_method_offers _ _ _ Of), Ca.
  destruct (result_bytes_Ok v (q_id q) (begins_id _ _ B) L) as (bs & E & Rs). exists bs. rewrite E. split; [exact Rs|reflexivity].
Qed.
Lemma sock_beat fuel U reg tr fresh call net id : (1 <= fuel)%nat -> begins (received net) (IHeartbeat id) ->
  exists bs, response bs id 0 0 [] /\ handle fuel U reg tr fresh call None net = {| o_calls := []; o_sent := [bs]; o_trace := tr; o_status := SEnded (Ok tt) |}.
Proof.
  intros F B. pose proof (begins_reacts fuel U reg tr fresh call None net _ F B) as R. cbn [reacts] in R. rewrite R.
  destruct (beat_bytes_Ok id (begins_id _ _ B)) as (bs & E & Rs). exists bs. rewrite E. split; [exact Rs|reflexivity].
Qed.
Lemma sock_unnamed fuel U reg tr fresh call net q : (1 <= fuel)%nat -> begins (received net) (IRequest q) ->
  (~ exists sv, names_service (q_header q) sv) \/ (~ exists m, names_method (q_header q) m) ->
  exists bs, response bs (q_id q) 2 8 [] /\ handle fuel U reg tr fresh call None net = {| o_calls := []; o_sent := [bs]; o_trace := tr; o_status := SEnded (Ok tt) |}.
Proof.
  intros F B N. pose proof (begins_reacts fuel U reg tr fresh call None net _ F B) as R. cbn [reacts] in R. rewrite R. unfold rest_of.
  destruct (fail_bytes_Ok (q_id q) 8 (begins_id _ _ B) ltac:(vm_compute; intuition discriminate)) as (bs & E & Rs). exists bs. split; [exact Rs|].
  rewrite E. destruct N as [N|N]; [apply no_service in N; rewrite N; reflexivity|]. apply no_method in N. rewrite N. destruct (service_name (q_header q)); reflexivity.
Qed.

Lemma handle_0 U reg tr fresh call w net : handle 0 U reg tr fresh call w net = sdone tr SUnfinished.
Proof. reflexivity. Qed.
Lemma wfile_inv calls tr w r : o_calls (wfile_write calls tr w r) = calls /\ (o_sent (wfile_write calls tr w r) = [] \/ exists bs, r = Ok bs /\ sent_of w (o_sent (wfile_write calls tr w r)) bs).
Proof.
  unfold wfile_write. destruct r as [bs|e]; [destruct w as [[k e]|]|]; cbn; auto; (split; [reflexivity|]).
  - unfold sent_part. destruct (firstn k bs) as [|x p] eqn:E; [auto|]. right. exists bs. split; [reflexivity|]. exists (x :: p), (skipn k bs). rewrite <- E, firstn_skipn, E. repeat split; discriminate.
  - right. exists bs. split; [reflexivity|]. exists bs, []. rewrite app_nil_r. auto.
Qed.
Lemma sock_effects fuel U reg tr fresh call w net : let o := handle fuel U reg tr fresh call w net in let D := received net in
  (o_sent o = [] \/ exists bs, sent_of w (o_sent o) bs /\ reply_for reg call D o bs) /\ (o_calls o = [] \/ calls_for U reg tr fresh D (o_calls o)).
Proof.
  cbv zeta. destruct fuel as [|f]; [rewrite handle_0; cbn; auto|]. set (o := handle (S f) U reg tr fresh call w net).
  pose proof (handle_spec (S f) U reg tr fresh call w net ltac:(lia)) as H. fold o in H. destruct (unit_of (received net)) as [[i n]|] eqn:Eu; [|rewrite H; cbn; auto].
  assert (B : begins (received net) i) by (apply begins_unit; eauto). clearbody o. destruct i as [q|id|id st|id]; cbn [reacts] in H.
  - unfold rest_of in H. destruct (service_name (q_header q)) as [sv|] eqn:Es.
    + destruct (method_name (q_header q)) as [m|] eqn:Em.
      * destruct (extract U tr (q_header q) fresh) as [tr' [c|e]] eqn:Ex; [|subst o; cbn; auto]. destruct (find_method reg sv m) as [u|e] eqn:Ef; [|subst o; cbn; auto].
        apply service_name_iff in Es. apply method_name_iff in Em. apply find_method_Ok in Ef.
        assert (C : calls_for U reg tr fresh (received net) [(sv, m, q_body q, c)]) by (exists q, sv, m, c; rewrite Ex; auto 8).
        destruct (call sv m (q_body q) c) as [[v|e]|] eqn:Ec.
        -- destruct (wfile_inv [(sv, m, q_body q, c)] tr' w (result_bytes v (q_id q))) as (Hc & Hs). rewrite <- H in Hc, Hs. split; [|right; rewrite Hc; exact C].
           destruct Hs as [Hs|(bs & Hr & Hs)]; [auto|]. right. exists bs. split; [exact Hs|]. apply result_bytes_inv in Hr as (b & -> & _ & Rs). right. right. exists q, sv, m, c, b. auto 10.
        -- destruct (wfile_inv [(sv, m, q_body q, c)] tr' w (Raise e)) as (Hc & Hs). rewrite <- H in Hc, Hs. split; [|right; rewrite Hc; exact C]. destruct Hs as [Hs|(bs & Hr & Hs)]; [auto|discriminate].
        -- subst o; cbn; auto.
      * destruct (wfile_inv [] tr w (fail_bytes (q_id q) 8)) as (Hc & Hs). rewrite <- H in Hc, Hs. split; [|auto]. destruct Hs as [Hs|(bs & Hr & Hs)]; [auto|]. right. exists bs. split; [exact Hs|].
        apply fail_bytes_inv in Hr. right. left. exists q. repeat (split; [assumption|]). split; [right; apply no_method; exact Em|auto].
    + destruct (wfile_inv [] tr w (fail_bytes (q_id q) 8)) as (Hc & Hs). rewrite <- H in Hc, Hs. split; [|auto]. destruct Hs as [Hs|(bs & Hr & Hs)]; [auto|]. right. exists bs. split; [exact Hs|].
      apply fail_bytes_inv in Hr. right. left. exists q. repeat (split; [assumption|]). split; [left; apply no_service; exact Es|auto].
  - destruct (wfile_inv [] tr w (beat_bytes id)) as (Hc & Hs). rewrite <- H in Hc, Hs. split; [|auto]. destruct Hs as [Hs|(bs & Hr & Hs)]; [auto|]. right. exists bs. split; [exact Hs|].
    apply beat_bytes_inv in Hr. left. exists id. auto.
  - destruct H as (e & ->). cbn. auto.
  - destruct H as (e & ->). cbn. auto.
Qed.
Lemma wfile_ends calls tr w r : exists x, o_status (wfile_write calls tr w r) = SEnded x.
Proof. unfold wfile_write. destruct r as [bs|e]; [destruct w as [[k e]|]|]; cbn; eauto. Qed.
Lemma sock_ends fuel U reg tr fresh call w net i : (1 <= fuel)%nat -> begins (received net) i -> (forall sv m b c, call sv m b c <> None) ->
  exists r, o_status (handle fuel U reg tr fresh call w net) = SEnded r.
Proof.
  intros F B C. pose proof (begins_reacts fuel U reg tr fresh call w net _ F B) as R. destruct i as [q|id|id st|id]; cbn [reacts] in R.
  - rewrite R. unfold rest_of. destruct (service_name (q_header q)) as [sv|]; [|apply wfile_ends]. destruct (method_name (q_header q)) as [m|]; [|apply wfile_ends].
    destruct (extract U tr (q_header q) fresh) as [tr' [c|e]]; [|cbn; eauto]. destruct (find_method reg sv m) as [u|e]; [|cbn; eauto].
    destruct (call sv m (q_body q) c) as [[v|e]|] eqn:Ec; [apply wfile_ends..|]. destruct (C _ _ _ _ Ec).
  - rewrite R. apply wfile_ends.
  - destruct R as (e & ->). cbn. eauto.
  - destruct R as (e & ->). cbn. eauto.
Qed.
Lemma sock_spins fuel U reg tr fresh call w net : incomplete (received net) -> ending net = Some Fin -> handle fuel U reg tr fresh call w net = sdone tr SUnfinished.
Proof.
  intros I E. destruct fuel as [|f]; [apply handle_0|]. pose proof (handle_spec (S f) U reg tr fresh call w net ltac:(lia)) as H. apply incomplete_unit in I. rewrite I, E in H. exact H.
Qed.
Lemma sock_broken fuel U reg tr fresh call w net e : (1 <= fuel)%nat -> incomplete (received net) -> ending net = Some (Err e) ->
  handle fuel U reg tr fresh call w net = sdone tr (SEnded (Raise e)).
Proof. intros F I E. pose proof (handle_spec fuel U reg tr fresh call w net F) as H. apply incomplete_unit in I. rewrite I, E in H. exact H. Qed.
Lemma sock_waits fuel U reg tr fresh call w net : (1 <= fuel)%nat -> incomplete (received net) -> ending net = None ->
  handle fuel U reg tr fresh call w net = sdone tr SBlocked.
Proof. intros F I E. pose proof (handle_spec fuel U reg tr fresh call w net F) as H. apply incomplete_unit in I. rewrite I, E in H. exact H. Qed.
(** what follows the first unit is not looked at *)
Lemma sock_first_only fuel U reg tr fresh call w net net' i : (1 <= fuel)%nat -> begins (received net) i -> begins (received net') i -> ~ (exists id st, i = IBad id st) -> ~ fatal i ->
  handle fuel U reg tr fresh call w net = handle fuel U reg tr fresh call w net'.
Proof.
  intros F B B' N1 N2. pose proof (begins_reacts fuel U reg tr fresh call w net _ F B) as R. pose proof (begins_reacts fuel U reg tr fresh call w net' _ F B') as R'.
  destruct i as [q|id|id st|id]; cbn [reacts] in *; [congruence|congruence|exfalso; eauto|exfalso; apply N2; exact Logic.I].
Qed.

(** ** Registration *)
Lemma regrun_snoc l x : regrun (l ++ [x]) = regstep (regrun l) x.
Proof. unfold regrun. rewrite fold_left_app. reflexivity. Qed.
Lemma listeners_app l l' : listeners (l ++ l') = (listeners l + listeners l')%nat.
Proof. induction l as [|[k|i n s] l IH]; cbn; auto. Qed.
Lemma registered_inv on l x name sv : registered on (l ++ [x]) name sv ->
  (exists i, x = RegisterOn i name sv /\ (i < listeners l)%nat /\ on i) \/
  (registered on l name sv /\ forall i sv', x = RegisterOn i name sv' -> (i < listeners l)%nat -> ~ on i).
Proof.
  intros H. inversion H as [l' i n s L O E|l' y n s R N E]; subst.
  - apply app_inj_tail in E as [-> <-]. left. eauto.
  - apply app_inj_tail in E as [-> ->]. right. auto.
Qed.
Lemma registered_nil on name sv : ~ registered on [] name sv.
Proof. intros H. inversion H as [l' i n s L O E|l' y n s R N E]; subst; destruct l'; discriminate. Qed.
Record reg_inv (l : list regop) (o : objects) (r : registry) : Prop := {
  ri_dicts : h_dicts o = [r]; ri_class : h_class_attr o = 0%nat; ri_own : Forall (fun h => snd h = None) (h_handlers o);
  ri_count : List.length (h_handlers o) = listeners l;
  ri_sock : match h_service_handler o with Some j => (j < listeners l)%nat | None => Forall (fun h => fst h = Aio) (h_handlers o) end;
  ri_last : forall name sv, dget name r = Some sv <-> registered anywhere l name sv
}.
Lemma inv_ref l o r i : reg_inv l o r -> (i < listeners l)%nat -> mapping_ref o i = Some 0%nat.
Proof.
  intros [A B C D E G] L. unfold mapping_ref. destruct (nth_error (h_handlers o) i) as [[k d]|] eqn:N.
  - pose proof (nth_error_In _ _ N) as I. rewrite Forall_forall in C. specialize (C _ I). cbn in C. subst d. rewrite B. reflexivity.
  - apply nth_error_None in N. lia.
Qed.
Lemma inv_noref l o r i : reg_inv l o r -> ~ (i < listeners l)%nat -> mapping_ref o i = None.
Proof. intros [A B C D E G] L. unfold mapping_ref. destruct (nth_error (h_handlers o) i) as [[k d]|] eqn:N; [|reflexivity]. assert (i < List.length (h_handlers o))%nat by (apply nth_error_Some; congruence). lia. Qed.
Lemma reg_inv_run l : exists r, reg_inv l (regrun l) r.
Proof.
  induction l as [|x l (r & IH)] using rev_ind.
  - exists []. constructor; cbn; auto. intros name sv. split; [discriminate|]. intros H. destruct (registered_nil _ _ _ H).
  - rewrite regrun_snoc. destruct x as [k|i name sv]; cbn [regstep].
    + exists r. pose proof IH as [A B C D E G]. unfold new_listener. constructor; cbn [h_dicts h_class_attr h_handlers h_service_handler]; auto.
      * apply Forall_app. split; [exact C|]. repeat constructor.
      * rewrite app_length, listeners_app. cbn. lia.
      * rewrite listeners_app. cbn [listeners]. destruct k.
        -- destruct (h_service_handler (regrun l)); [lia|]. apply Forall_app. split; [exact E|]. repeat constructor.
        -- lia.
      * intros n s. rewrite G. split.
        -- intros H. apply Reg_later; [exact H|]. discriminate.
        -- intros H. apply registered_inv in H as [(i & H & _)|(H & _)]; [discriminate|exact H].
    + unfold register_interface. destruct (Nat.lt_ge_cases i (listeners l)) as [L|L].
      * rewrite (inv_ref _ _ _ _ IH L). pose proof IH as [A B C D E G]. rewrite A. cbn [upd]. exists (dset name sv r). constructor; cbn [h_dicts h_class_attr h_handlers h_service_handler]; auto; rewrite ?listeners_app; cbn [listeners]; rewrite ?Nat.add_0_r; auto.
        intros n s. destruct (pystr_eq_dec n name) as [->|Ne].
        -- rewrite dget_dset_same. split.
           ++ intros [= <-]. apply Reg_here; [exact L|exact Logic.I].
           ++ intros H. apply registered_inv in H as [(j & H & _)|(_ & H)]; [congruence|]. destruct (H _ _ eq_refl L Logic.I).
        -- rewrite dget_dset_other by congruence. rewrite G. split.
           ++ intros H. apply Reg_later; [exact H|]. intros j s' K. congruence.
           ++ intros H. apply registered_inv in H as [(j & H & _)|(H & _)]; [congruence|exact H].
      * rewrite (inv_noref _ _ _ _ IH (proj1 (Nat.le_ngt _ _) L)). exists r. pose proof IH as [A B C D E G]. constructor; auto; rewrite ?listeners_app; cbn [listeners]; rewrite ?Nat.add_0_r; auto.
        intros n s. rewrite G. split.
        -- intros H. apply Reg_later; [exact H|]. intros j s' K. injection K as -> -> ->. intros K. lia.
        -- intros H. apply registered_inv in H as [(j & H & K & _)|(H & _)]; [|exact H]. injection H as -> -> ->. lia.
Qed.
Lemma inv_serving l o r i : reg_inv l o r -> (i < listeners l)%nat -> serving o i = Some r /\ publishing o i = keys r.
Proof.
  intros I L. assert (M : forall j, (j < listeners l)%nat -> mapping o j = Some r).
  { intros j Lj. unfold mapping. rewrite (inv_ref _ _ _ _ I Lj), (ri_dicts _ _ _ I). reflexivity. }
  split; [|unfold publishing; rewrite M by exact L; reflexivity]. unfold serving. destruct I as [A B C D E G].
  destruct (nth_error (h_handlers o) i) as [[[|] d]|] eqn:N.
  - apply M. exact L.
  - destruct (h_service_handler o) as [j|]; [apply M; exact E|]. pose proof (nth_error_In _ _ N) as In0. rewrite Forall_forall in E. specialize (E _ In0). discriminate.
  - apply nth_error_None in N. lia.
Qed.
Lemma last_registration l i name : (i < listeners l)%nat -> exists r, serving (regrun l) i = Some r /\
  (forall sv, dget name r = Some sv <-> registered anywhere l name sv) /\ (In name (publishing (regrun l) i) <-> exists sv, registered anywhere l name sv).
Proof.
  intros L. destruct (reg_inv_run l) as (r & I). destruct (inv_serving _ _ _ _ I L) as (S & P). exists r. split; [exact S|]. split; [apply (ri_last _ _ _ I)|].
  rewrite P. split.
  - intros H. destruct (dget name r) as [sv|] eqn:E; [exists sv; apply (ri_last _ _ _ I); exact E|]. exfalso. apply dget_None in E. contradiction.
  - intros (sv & H). apply (ri_last _ _ _ I) in H. apply dget_keys in H. exact H.
Qed.
Lemma not_separate l i j name sv : (i < listeners l)%nat -> (j < listeners l)%nat -> let o := regrun (l ++ [RegisterOn i name sv]) in
  (exists r, serving o j = Some r /\ dget name r = Some sv) /\ In name (publishing o j).
Proof.
  intros Li Lj o. assert (L : (j < listeners (l ++ [RegisterOn i name sv]))%nat) by (rewrite listeners_app; lia).
  destruct (last_registration _ j name L) as (r & S & G & P). assert (R : registered anywhere (l ++ [RegisterOn i name sv]) name sv) by (apply Reg_here; [exact Li|exact Logic.I]).
  split; [exists r; split; [exact S|apply G; exact R]|apply P; eauto].
Qed.

(** ** Several frames, failures *)
Lemma cuts_begins D i l rest : cuts D (i :: l) rest -> begins D i.
Proof. intros H. inversion H; subst; do 2 eexists; eauto. Qed.
Lemma begins_fun D i j : begins D i -> begins D j -> i = j.
Proof. intros A B. apply begins_unit in A as (n & A). apply begins_unit in B as (m & B). congruence. Qed.
Lemma reply_id reg call D o bs i : reply_for reg call D o bs -> begins D i -> exists cmd st c, response bs (item_id i) cmd st c.
Proof.
  intros [(id & B & R & _)|[(q & B & _ & R & _)|(q & sv & m & c & v & B & _ & _ & _ & _ & _ & R)]] Bi; rewrite (begins_fun _ _ _ Bi B); eauto.
Qed.
Lemma sock_first fuel U reg tr fresh call w net i l rest : cuts (received net) (i :: l) rest -> let o := handle fuel U reg tr fresh call w net in
  (o_sent o = [] \/ exists bs cmd st c, sent_of w (o_sent o) bs /\ response bs (item_id i) cmd st c) /\
  (o_calls o = [] \/ exists q sv m c, i = IRequest q /\ names_service (q_header q) sv /\ names_method (q_header q) m /\ o_calls o = [(sv, m, q_body q, c)]).
Proof.
  intros C. apply cuts_begins in C. cbv zeta. destruct (sock_effects fuel U reg tr fresh call w net) as ([S|(bs & S & R)] & K); split; auto.
  - destruct K as [K|(q & sv & m & c & B & Ns & Nm & _ & _ & K)]; [auto|]. right. exists q, sv, m, c. split; [exact (begins_fun _ _ _ C B)|auto].
  - destruct (reply_id _ _ _ _ _ _ R C) as (cmd & st & c & Rs). right. exists bs, cmd, st, c. auto.
  - destruct K as [K|(q & sv & m & c & B & Ns & Nm & _ & _ & K)]; [auto|]. right. exists q, sv, m, c. split; [exact (begins_fun _ _ _ C B)|auto].
Qed.
Lemma sock_second fuel U reg tr fresh call w net i1 i2 l rest : cuts (received net) (i1 :: i2 :: l) rest -> item_id i1 <> item_id i2 ->
  forall bs cmd st c, In bs (o_sent (handle fuel U reg tr fresh call w net)) -> ~ response bs (item_id i2) cmd st c.
Proof.
  intros C N bs cmd st c I R. destruct (sock_first fuel U reg tr fresh call w net _ _ _ C) as ([S|(b & c1 & s1 & x1 & (p & r & S & Eb & _) & R1)] & _); rewrite S in I; [destruct I|].
  destruct I as [->|[]]. assert (bs = b) by (destruct R as (f & L & _); destruct R1 as (f1 & L1 & _); apply (L_Codec.resp_prefix_free _ _ r [] _ _ L L1); rewrite app_nil_r; auto). rewrite <- H in R1. destruct (response_fun _ _ _ _ _ _ _ _ _ R1 R) as (E & _). contradiction.
Qed.
Lemma sock_failures fuel U reg tr fresh call w net q : (1 <= fuel)%nat -> begins (received net) (IRequest q) -> forall sv m tr' c,
  names_service (q_header q) sv -> names_method (q_header q) m -> extract U tr (q_header q) fresh = (tr', Ok c) ->
  (unknown reg sv m -> handle fuel U reg tr fresh call w net = {| o_calls := []; o_sent := []; o_trace := tr'; o_status := SEnded (Raise NoProcessorError) |}) /\
  (forall e, offers reg sv m -> call sv m (q_body q) c = Some (Raise e) -> handle fuel U reg tr fresh call w net = {| o_calls := [(sv, m, q_body q, c)]; o_sent := []; o_trace := tr'; o_status := SEnded (Raise e) |}).
Proof.
  intros F B sv m tr' c Ns Nm Ex. pose proof (begins_reacts fuel U reg tr fresh call w net _ F B) as R. cbn [reacts] in R. rewrite R. unfold rest_of.
  apply service_name_iff in Ns. apply method_name_iff in Nm. rewrite Ns, Nm, Ex. split.
  - intros Un. rewrite find_method_not_found; [reflexivity|]. left. exact Un.
  - intros e Of Ca. rewrite (find_method_offers _ _ _ Of), Ca. reflexivity.
Qed.
Lemma sock_bad fuel U reg tr fresh call w net i : (1 <= fuel)%nat -> begins (received net) i -> (exists id st, i = IBad id st) \/ fatal i ->
  exists e, handle fuel U reg tr fresh call w net = {| o_calls := []; o_sent := []; o_trace := tr; o_status := SEnded (Raise e) |}.
Proof.
  intros F B H. pose proof (begins_reacts fuel U reg tr fresh call w net _ F B) as R. destruct H as [(id & st & ->)|H].
  - destruct R as (e & ->). exists e. reflexivity.
  - destruct i; try destruct H. destruct R as (e & ->). exists e. reflexivity.
Qed.
Lemma begins_case bs i n : unit_of bs = Some (i, n) -> begins bs i.
Proof. intros H. apply begins_unit. eauto. Qed.

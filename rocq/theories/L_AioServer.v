(** Lemmas about the asyncio server: the answers it can form, and how the stream is cut. *)
From Coq Require Import ZifyBool Strings.String.
From Verif Require Import PyBase L_PyBase PyDict L_PyDict Struct M_SofaHeader L_SofaHeader M_Package L_Package L_Codec M_RpcId M_Trace S_Wire M_AioServer S_Server.
Open Scope Z_scope.

(** ** Answers *)
Definition id_ok (id : Z) : Prop := -2147483648 <= id <= 2147483647.
Lemma mk_response n c content cmd rid status : n = cls_name c -> c = resp_class n -> len n <= 65535 -> id_ok rid -> legal_status status -> In cmd [0; 1; 2] ->
  len content <= 4294967295 ->
  exists p bs, mk_package c empty_header (PBytes content) (PInt PROTO_BOLT) (PInt PTYPE_RESPONSE) (PInt cmd) (PInt VER2_REMOTING) (PInt rid) (PInt CODEC_PROTOBUF) PNone (PInt status) = Ok p /\
    to_stream p = Ok bs /\ response bs rid cmd status content.
Proof.
  intros Hn Hc Ln Hid Hst Hcmd Lc.
  set (p := {| p_cls := c; p_header := empty_header; p_header_bytes := []; p_content := PBytes content; p_request_id := PInt rid; p_timeout := PInt 0;
     p_proto := 1; p_ptype := 0; p_cmdcode := cmd; p_ver2 := 1; p_codec := 11; p_respstatus := status |}).
  assert (L : legal_pkg p). { unfold legal_pkg. cbn. cbn in Hcmd. repeat split; auto. }
  exists p. assert (M : mk_package c empty_header (PBytes content) (PInt PROTO_BOLT) (PInt PTYPE_RESPONSE) (PInt cmd) (PInt VER2_REMOTING) (PInt rid) (PInt CODEC_PROTOBUF) PNone (PInt status) = Ok p).
  { apply mk_package_Ok. cbn. repeat split; auto; apply L. }
  eexists. split; [exact M|]. 
  assert (T : to_stream p = Ok (common_bytes p rid ++ be_bytes 2 (p_respstatus p) ++ tail_bytes p content)).
  { apply (to_stream_resp_iff p n); [exact Hc|exact L|]. exists rid, content. repeat split; try apply Hid; auto; unfold p_class_len, p_header_len; cbn [p p_cls p_header_bytes]; try (rewrite <- Hn; lia). unfold len. cbn. lia. }
  split; [exact T|]. destruct (resp_layout_of p n _ Hc L T) as (r & ct & E1 & E2 & Lay). injection E1 as <-. injection E2 as <-.
  eexists. split; [exact Lay|]. split; [|repeat split; solve [reflexivity|assumption]]. destruct L as (L1 & L2 & L3 & L4 & L5 & L6 & L7). repeat split; assumption.
Qed.
Lemma legal_cmds : In 0 [0; 1; 2] /\ In 2 [0; 1; 2]. Proof. split; cbn; auto. Qed.
Lemma fail_name : len (cls_name FailResponse) <= 65535. Proof. vm_compute. discriminate. Qed.
Lemma beat_name : len (cls_name HeartbeatResponse) <= 65535. Proof. vm_compute. discriminate. Qed.
Lemma fail_bytes_Ok id st : id_ok id -> legal_status st -> exists bs, fail_bytes id st = Ok bs /\ response bs id 2 st [].
Proof.
  intros H1 H2. destruct (mk_response (cls_name FailResponse) FailResponse [] 2 id st eq_refl eq_refl fail_name H1 H2 (proj2 legal_cmds)) as (p & bs & M & T & R); [rewrite len_nil; lia|].
  exists bs. unfold fail_bytes, fail_response_to. change CMDCODE_RESPONSE with 2. rewrite M. cbn [bind]. auto.
Qed.
Lemma beat_bytes_Ok id : id_ok id -> exists bs, beat_bytes id = Ok bs /\ response bs id 0 0 [].
Proof.
  intros H1. destruct (mk_response (cls_name HeartbeatResponse) HeartbeatResponse [] 0 id 0 eq_refl eq_refl beat_name H1) as (p & bs & M & T & R); [left; lia|apply legal_cmds|rewrite len_nil; lia|].
  exists bs. unfold beat_bytes, heartbeat_response_to. change CMDCODE_HEARTBEAT with 0. rewrite M. cbn [bind]. auto.
Qed.
Lemma result_bytes_Ok c id : id_ok id -> len c <= 4294967295 -> exists bs, result_bytes (PBytes c) id = Ok bs /\ response bs id 2 0 c.
Proof.
  intros H1 H2. destruct (mk_response (cls_name BoltResponse) BoltResponse c 2 id 0 eq_refl eq_refl fail_name H1) as (p & bs & M & T & R); [left; lia|apply legal_cmds|exact H2|].
  exists bs. unfold result_bytes, response_to. change CMDCODE_RESPONSE with 2. rewrite M. cbn [bind]. auto.
Qed.
Lemma result_bytes_inv v id bs : result_bytes v id = Ok bs -> exists c, v = PBytes c /\ len c <= 4294967295 /\ response bs id 2 0 c.
Proof.
  unfold result_bytes, response_to. intros H. apply bind_Ok in H as (p & M & T). apply mk_package_Ok in M as (M1 & M2 & M3 & M4 & M5 & M6 & M7 & M8 & M9 & M10 & M11 & L).
  pose proof T as T0. apply (to_stream_resp_iff p (cls_name BoltResponse)) in T as (rid & c & E1 & E2 & R1 & R2 & R3 & R4 & E); [|exact M1|exact L].
  rewrite M3 in E2. rewrite M4 in E1. injection E1 as <-. exists c. split; [exact E2|]. split; [exact R4|].
  destruct (resp_layout_of p (cls_name BoltResponse) _ M1 L T0) as (r & ct & F1 & F2 & Lay). rewrite M4 in F1. injection F1 as <-. rewrite M3, E2 in F2. injection F2 as <-.
  eexists. split; [exact Lay|]. pose proof L as (L1 & L2 & L3 & L4 & L5 & L6 & L7). split; [repeat split; assumption|]. injection M7 as M7. injection M8 as M8. injection M11 as M11.
  rewrite M2 in L7. injection L7 as L7. rewrite <- M11 in L6. repeat split; solve [symmetry; assumption|assumption].
Qed.
(** statuses are told apart *)
Lemma response_fun bs a1 a2 a3 a4 b1 b2 b3 b4 : response bs a1 a2 a3 a4 -> response bs b1 b2 b3 b4 -> a1 = b1 /\ a2 = b2 /\ a3 = b3 /\ a4 = b4.
Proof.
  intros (f & Lf & _ & _ & A1 & A2 & A3 & A4 & _) (g & Lg & _ & _ & B1 & B2 & B3 & B4 & _). apply resp_layout_iff in Lf as (_ & _ & ->). apply resp_layout_iff in Lg as (_ & _ & ->).
  repeat split; congruence.
Qed.

(** ** The header part *)
Lemma step_bad b : bytes_to_str_step b = Raise UnicodeDecodeError <->
  exists l payload rest, b = l ++ payload ++ rest /\ len l = 4 /\ sval l = len payload /\ ~ exists s, utf8_text s payload.
Proof.
  split.
  - unfold bytes_to_str_step. destruct (len b <? 4) eqn:E4; [discriminate|]. remember (py_take 4 b) as l eqn:Hl.
    assert (Hll : len l = 4) by (subst l; apply len_py_take; lia).
    rewrite (bytes2int_be_4 _ Hll). cbn [bind].
    destruct (sval l =? -1) eqn:E1.
    + cbn [Z.ltb Z.compare]. destruct (len b <? 4 + 0) eqn:E2; [discriminate|].
      replace (4 + 0) with 4 by lia. rewrite <- Hl. rewrite py_drop_all by lia. cbn. discriminate.
    + destruct (sval l <? 0) eqn:E2; [discriminate|]. destruct (len b <? 4 + sval l) eqn:E3; [discriminate|].
      remember (4 + sval l) as n eqn:Hn.
      destruct (Utf8.utf8_decode (py_drop 4 (py_take n b))) as [s0|] eqn:E5; [discriminate|]. intros _.
      exists l, (py_drop 4 (py_take n b)), (py_drop n b).
      assert (Hpl : len (py_drop 4 (py_take n b)) = sval l).
      { rewrite len_py_drop by (try rewrite len_py_take; lia). rewrite len_py_take; lia. }
      split; [|split; [exact Hll|split; [symmetry; exact Hpl|]]].
      * rewrite app_assoc. rewrite <- (py_take_drop n b) at 1. f_equal.
        rewrite <- (py_take_drop 4 (py_take n b)) at 1. f_equal. subst l.
        rewrite !py_take_firstn. rewrite firstn_firstn. f_equal. lia.
      * intros (s & Hs). apply utf8_text_decode in Hs. congruence.
  - intros (l & p & rest & -> & Hl & Hs & Hu). unfold bytes_to_str_step. pose proof (len_nonneg p). pose proof (len_nonneg rest).
    rewrite !len_app. destruct (_ <? 4) eqn:E4; [lia|].
    rewrite (py_take_app' 4) by lia. rewrite (bytes2int_be_4 _ Hl). cbn [bind].
    destruct (sval l =? -1) eqn:E1; [lia|]. destruct (sval l <? 0) eqn:E2; [lia|].
    destruct (_ <? 4 + sval l) eqn:E3; [lia|].
    rewrite app_assoc. rewrite (py_take_app' (4 + sval l)) by (rewrite len_app; lia).
    rewrite (py_drop_app' 4) by lia. destruct (Utf8.utf8_decode p) as [s|] eqn:E; [|reflexivity]. exfalso. apply Hu. exists s. apply utf8_text_decode. exact E.
Qed.
Lemma bytes_to_str_bad b : bytes_to_str b = Raise UnicodeDecodeError <-> bad_text b.
Proof.
  split.
  - remember (List.length b) as n eqn:Hn. revert b Hn. induction n as [n IH] using lt_wf_ind. intros b Hn H.
    destruct b as [|x b]; [discriminate|]. rewrite bytes_to_str_unfold in H by discriminate.
    destruct (bytes_to_str_step (x :: b)) as [[s b']|e] eqn:E.
    + assert (E' : bytes_to_str b' = Raise UnicodeDecodeError) by (destruct (bytes_to_str b'); [discriminate|exact H]).
      pose proof (step_shorter _ _ _ E) as Hsh. unfold len in Hsh. cbn [List.length] in *.
      apply (IH (List.length b')) in E' as (b1 & ss & l & p & rest & H1 & -> & H3 & H4 & H5); [|lia|reflexivity].
      apply step_Ok in E as [(l' & p' & -> & Hl & Hs & Hu)|(l' & -> & Hl & Hs & ->)].
      * exists (l' ++ p' ++ b1), (s :: ss), l, p, rest. split; [constructor; assumption|]. rewrite <- !app_assoc. auto.
      * exists (l' ++ b1), ([] :: ss), l, p, rest. split; [constructor; assumption|]. rewrite <- !app_assoc. auto.
    + injection H as ->. apply step_bad in E as (l & p & rest & E & H3 & H4 & H5). exists [], [], l, p, rest. split; [constructor|]. auto.
  - intros (b1 & ss & l & p & rest & H1 & -> & H3 & H4 & H5).
    induction H1 as [|l' p' b1 s ss Hl Hs Hu _ IH|l' b1 ss Hl Hs _ IH].
    + cbn [app]. rewrite bytes_to_str_unfold by (destruct l; [discriminate H3|discriminate]).
      assert (E : bytes_to_str_step (l ++ p ++ rest) = Raise UnicodeDecodeError) by (apply step_bad; eauto 9). rewrite E. reflexivity.
    + rewrite <- !app_assoc. rewrite bytes_to_str_unfold by (destruct l'; [discriminate Hl|discriminate]).
      assert (E : bytes_to_str_step (l' ++ p' ++ b1 ++ l ++ p ++ rest) = Ok (s, b1 ++ l ++ p ++ rest)) by (apply step_Ok; left; eauto 7).
      rewrite E, IH. reflexivity.
    + rewrite <- !app_assoc. rewrite bytes_to_str_unfold by (destruct l'; [discriminate Hl|discriminate]).
      assert (E : bytes_to_str_step (l' ++ b1 ++ l ++ p ++ rest) = Ok ([], b1 ++ l ++ p ++ rest)) by (apply step_Ok; right; eauto 7).
      rewrite E, IH. reflexivity.
Qed.
Lemma from_bytes_bad b : from_bytes b = Raise UnicodeDecodeError <-> bad_text b.
Proof.
  rewrite <- bytes_to_str_bad. unfold from_bytes. destruct (bytes_to_str b) as [ss|e]; cbn [bind].
  - destruct (negb _); split; discriminate.
  - split; intros H; injection H as ->; reflexivity.
Qed.
Lemma from_bytes_codec b : (exists e, from_bytes b = Raise e /\ e <> UnicodeDecodeError) <-> (~ exists kvs, header_pairs b kvs) /\ ~ bad_text b.
Proof.
  split.
  - intros (e & H & N). split.
    + intros (kvs & K). assert (from_bytes b = Ok (dict_of kvs)) by (apply from_bytes_iff; eauto). congruence.
    + intros B. apply from_bytes_bad in B. congruence.
  - intros [A B]. destruct (from_bytes b) as [h|e] eqn:E.
    + exfalso. apply A. apply from_bytes_iff in E as (kvs & K & _). eauto.
    + exists e. split; [reflexivity|]. intros ->. apply B, from_bytes_bad. exact E.
Qed.
Lemma header_pairs_not_bad b kvs : header_pairs b kvs -> ~ bad_text b.
Proof. intros K B. apply from_bytes_bad in B. assert (from_bytes b = Ok (dict_of kvs)) by (apply from_bytes_iff; eauto). congruence. Qed.
Lemma header_pairs_fun b k1 k2 : header_pairs b k1 -> header_pairs b k2 -> k1 = k2.
Proof. intros A B. apply flatten_pairs_inj. exact (header_strings_fun _ _ _ A B). Qed.

(** ** Units of the stream *)
Lemma Some_pair_inj {A B} (a a' : A) (b b' : B) : Some (a, b) = Some (a', b') -> a = a' /\ b = b'.
Proof. intros H. injection H. auto. Qed.
Definition kind (fx c : bytes) (sofa : sofa_header) (body : bytes) : item :=
  let id := sval (field 5 4 fx) in
  if sval (field 2 2 fx) =? 0 then IHeartbeat id
  else if sval (field 2 2 fx) =? 2 then IBad id 8
  else if negb (bytes_eqb c request_class) then IBad id 8
  else IRequest {| q_type := sval (field 1 1 fx); q_id := id; q_header := sofa; q_body := body; q_timeout := sval (field 10 4 fx) |}.
Definition classify (fx c h rest : bytes) : option (item * Z) :=
  match from_bytes h with
  | Raise UnicodeDecodeError => Some (IFatal (sval (field 5 4 fx)), 22 + len c + len h)
  | Raise _ => Some (IBad (sval (field 5 4 fx)) 9, 22 + len c + len h)
  | Ok sofa => if len rest <? uval (field 18 4 fx) then None
               else Some (kind fx c sofa (py_take (uval (field 18 4 fx)) rest), 22 + len c + len h + uval (field 18 4 fx))
  end.
Definition unit_of (bs : bytes) : option (item * Z) :=
  if len bs <? 22 then None
  else
    let fx := py_take 22 bs in let cl := uval (field 14 2 fx) in let hl := uval (field 16 2 fx) in
    if len bs <? 22 + cl + hl then None
    else classify fx (py_take cl (py_drop 22 bs)) (py_take hl (py_drop (22 + cl) bs)) (py_drop (22 + cl + hl) bs).

Lemma unit_split fx c h rest : len fx = 22 -> uval (field 14 2 fx) = len c -> uval (field 16 2 fx) = len h ->
  unit_of (fx ++ c ++ h ++ rest) = classify fx c h rest.
Proof.
  intros L C H. unfold unit_of. rewrite !len_app. pose proof (len_nonneg c). pose proof (len_nonneg h). pose proof (len_nonneg rest).
  destruct (Z.ltb_spec (len fx + (len c + (len h + len rest))) 22); [lia|]. cbv zeta. rewrite (py_take_app' 22 fx) by lia. rewrite C, H. destruct (Z.ltb_spec (len fx + (len c + (len h + len rest))) (22 + len c + len h)); [lia|].
  rewrite (py_drop_app' 22 fx) by lia. rewrite py_take_app' by lia.
  replace (py_drop (22 + len c) (fx ++ c ++ h ++ rest)) with (h ++ rest) by (rewrite app_assoc; rewrite py_drop_app' by (rewrite len_app; lia); reflexivity).
  replace (py_drop (22 + len c + len h) (fx ++ c ++ h ++ rest)) with rest by (rewrite (app_assoc c), app_assoc; rewrite py_drop_app' by (rewrite !len_app; lia); reflexivity).
  rewrite py_take_app' by lia. reflexivity.
Qed.
(** a stream that contains the first three parts *)
Lemma unit_parts bs i n : unit_of bs = Some (i, n) -> exists fx c h rest,
  bs = fx ++ c ++ h ++ rest /\ len fx = 22 /\ uval (field 14 2 fx) = len c /\ uval (field 16 2 fx) = len h /\ classify fx c h rest = Some (i, n).
Proof.
  intros U. pose proof U as U0. unfold unit_of in U. destruct (Z.ltb_spec (len bs) 22); [discriminate|]. cbv zeta in U. destruct (Z.ltb_spec (len bs) (22 + uval (field 14 2 (py_take 22 bs)) + uval (field 16 2 (py_take 22 bs)))); [discriminate|].
  set (fx := py_take 22 bs) in *. set (cl := uval (field 14 2 fx)) in *. set (hl := uval (field 16 2 fx)) in *.
  assert (0 <= cl) by apply uval_nonneg. assert (0 <= hl) by apply uval_nonneg.
  exists fx, (py_take cl (py_drop 22 bs)), (py_take hl (py_drop (22 + cl) bs)), (py_drop (22 + cl + hl) bs).
  split.
  - rewrite <- (py_take_drop 22 bs) at 1. f_equal. rewrite <- (py_take_drop cl (py_drop 22 bs)) at 1. f_equal. rewrite py_drop_drop by lia.
    rewrite <- (py_take_drop hl (py_drop (22 + cl) bs)) at 1. rewrite py_drop_drop by lia. reflexivity.
  - split; [apply len_py_take; lia|]. rewrite !len_py_take; rewrite ?len_py_drop by lia; auto; try lia.
Qed.
Lemma classify_more fx c h rest y i n : classify fx c h rest = Some (i, n) -> classify fx c h (rest ++ y) = Some (i, n).
Proof.
  unfold classify. destruct (from_bytes h) as [sofa|e]; [|auto]. rewrite len_app. pose proof (len_nonneg y).
  destruct (Z.ltb_spec (len rest) (uval (field 18 4 fx))); [discriminate|]. destruct (Z.ltb_spec (len rest + len y) (uval (field 18 4 fx))); [lia|].
  rewrite py_take_app_ge by (try apply uval_nonneg; lia). auto.
Qed.
Lemma unit_more bs y i n : unit_of bs = Some (i, n) -> unit_of (bs ++ y) = Some (i, n).
Proof.
  intros U. destruct (unit_parts _ _ _ U) as (fx & c & h & rest & -> & L & C & H & K). rewrite <- !app_assoc. rewrite unit_split by assumption. apply classify_more. exact K.
Qed.
Lemma field_fixed fx y off n : len fx = 22 -> (off + n <= 22)%nat -> field off n (fx ++ y) = field off n fx.
Proof. intros L H. apply field_app. unfold len in L. lia. Qed.
Lemma unit_one bs i n : unit_of bs = Some (i, n) -> 0 <= n <= len bs /\ one (py_take n bs) i.
Proof.
  intros U. destruct (unit_parts _ _ _ U) as (fx & c & h & rest & -> & L & C & H & K). pose proof (len_nonneg c). pose proof (len_nonneg h). pose proof (len_nonneg rest). pose proof (uval_nonneg (field 18 4 fx)) as Nn.
  rewrite !len_app. unfold classify in K.
  assert (HL : head_layout (fx ++ c ++ h) (sval (field 5 4 fx)) h).
  { exists c. rewrite !len_app, !(field_fixed fx) by (auto; lia). split; [lia|]. repeat (split; [auto|]). apply skipn_app_len. unfold len in L. lia. }
  assert (T3 : py_take (22 + len c + len h) (fx ++ c ++ h ++ rest) = fx ++ c ++ h).
  { rewrite (app_assoc c), app_assoc. rewrite py_take_app' by (rewrite !len_app; lia). reflexivity. }
  destruct (from_bytes h) as [sofa|e] eqn:Eh.
  - destruct (Z.ltb_spec (len rest) (uval (field 18 4 fx))) as [|Lr]; [discriminate|]. apply Some_pair_inj in K as [<- <-].
    split; [lia|].
    set (body := py_take (uval (field 18 4 fx)) rest).
    assert (Lb : len body = uval (field 18 4 fx)) by (apply len_py_take; lia).
    assert (T4 : py_take (22 + len c + len h + uval (field 18 4 fx)) (fx ++ c ++ h ++ rest) = fx ++ c ++ h ++ body).
    { rewrite <- (py_take_drop (uval (field 18 4 fx)) rest) at 1. fold body. replace (fx ++ c ++ h ++ body ++ py_drop (uval (field 18 4 fx)) rest) with ((fx ++ c ++ h ++ body) ++ py_drop (uval (field 18 4 fx)) rest) by (now rewrite <- !app_assoc). rewrite py_take_app' by (rewrite !len_app; lia). reflexivity. }
    rewrite T4. set (f := {| fr_proto := sval (field 0 1 fx); fr_type := sval (field 1 1 fx); fr_cmdcode := sval (field 2 2 fx); fr_ver2 := sval (field 4 1 fx); fr_request_id := sval (field 5 4 fx);
       fr_codec := sval (field 9 1 fx); fr_tos := sval (field 10 4 fx); fr_class := c; fr_header := h; fr_content := body |}).
    assert (RL : request_layout (fx ++ c ++ h ++ body) f).
    { unfold request_layout, common_layout. rewrite !(field_fixed fx) by (auto; lia). rewrite !len_app. pose proof (len_nonneg body). split; [lia|]. cbn [f fr_proto fr_type fr_cmdcode fr_ver2 fr_request_id fr_codec fr_tos fr_class fr_header fr_content].
      split; [repeat split|]. repeat (split; [auto|]). apply skipn_app_len. unfold len in L. lia. }
    apply from_bytes_iff in Eh as (kvs & Hk & ->). unfold kind.
    destruct (Z.eqb_spec (sval (field 2 2 fx)) 0) as [E0|E0]; [exact (One_heartbeat _ f kvs RL Hk E0)|].
    destruct (Z.eqb_spec (sval (field 2 2 fx)) 2) as [E2|E2]; [exact (One_wrong _ f kvs RL Hk E0 (or_introl E2))|].
    unfold bytes_eqb. destruct (bytes_eq_dec c request_class) as [Ec|Ec]; cbn [negb]; [exact (One_request _ f kvs RL Hk E0 E2 Ec)|exact (One_wrong _ f kvs RL Hk E0 (or_intror Ec))].
  - assert (D : e = UnicodeDecodeError \/ e <> UnicodeDecodeError) by (destruct (from_bytes_errors _ _ Eh) as [->| ->]; [right; discriminate|left; reflexivity]). destruct D as [->|D].
    + apply Some_pair_inj in K as [<- <-]. split; [lia|]. rewrite T3. apply (One_fatal _ _ h); [exact HL|]. apply from_bytes_bad. exact Eh.
    + assert (K' : Some (IBad (sval (field 5 4 fx)) 9, 22 + len c + len h) = Some (i, n)) by (destruct e; congruence).
      apply Some_pair_inj in K' as [<- <-]. split; [lia|]. rewrite T3. apply (One_codec _ _ h); [exact HL| |]; apply from_bytes_codec; eauto.
Qed.
Lemma layout_parts a f : request_layout a f -> exists fx, a = fx ++ fr_class f ++ fr_header f ++ fr_content f /\ len fx = 22 /\
  uval (field 14 2 fx) = len (fr_class f) /\ uval (field 16 2 fx) = len (fr_header f) /\ uval (field 18 4 fx) = len (fr_content f) /\
  sval (field 1 1 fx) = fr_type f /\ sval (field 2 2 fx) = fr_cmdcode f /\ sval (field 5 4 fx) = fr_request_id f /\ sval (field 10 4 fx) = fr_tos f.
Proof.
  intros (L & (F1 & F2 & F3 & F4 & F5 & F6) & F7 & F8 & F9 & F10 & F11). exists (firstn 22 a).
  assert (Lf : len (firstn 22 a) = 22) by (unfold len in *; rewrite firstn_length; lia).
  assert (Fd : forall off n, (off + n <= 22)%nat -> field off n (firstn 22 a) = field off n a).
  { intros off n Hn. rewrite <- (firstn_skipn 22 a) at 2. symmetry. apply field_fixed; assumption. }
  rewrite !Fd by lia. rewrite <- F11, firstn_skipn. auto 12.
Qed.
Lemma head_parts a id h : head_layout a id h -> exists fx c, a = fx ++ c ++ h /\ len fx = 22 /\ uval (field 14 2 fx) = len c /\ uval (field 16 2 fx) = len h /\ sval (field 5 4 fx) = id.
Proof.
  intros (c & L & F1 & F2 & F3 & F4). exists (firstn 22 a), c.
  assert (Lf : len (firstn 22 a) = 22) by (unfold len in *; rewrite firstn_length; lia).
  assert (Fd : forall off n, (off + n <= 22)%nat -> field off n (firstn 22 a) = field off n a).
  { intros off n Hn. rewrite <- (firstn_skipn 22 a) at 2. symmetry. apply field_fixed; assumption. }
  rewrite !Fd by lia. rewrite <- F4, firstn_skipn. auto 12.
Qed.
Lemma one_unit a i : one a i -> unit_of a = Some (i, len a).
Proof.
  assert (E : forall (a : bytes), a = a ++ []) by (intros; now rewrite app_nil_r).
  destruct 1 as [a f kvs RL K N0 N2 Ec|a f kvs RL K E0|a f kvs RL K N0 O|a id h HL N B|a id h HL B].
  1-3: destruct (layout_parts a f RL) as (fx & -> & L & C & H & Ct & T1 & T2 & T3 & T4); rewrite unit_split by assumption; unfold classify;
    assert (Fb : from_bytes (fr_header f) = Ok (dict_of kvs)) by (apply from_bytes_iff; eauto); rewrite Fb;
    rewrite Ct, Z.ltb_irrefl, py_take_all by lia; rewrite !len_app, L; unfold kind; rewrite T1, T2, T3, T4.
  - destruct (Z.eqb_spec (fr_cmdcode f) 0); [congruence|]. destruct (Z.eqb_spec (fr_cmdcode f) 2); [congruence|]. rewrite Ec. unfold bytes_eqb. destruct (bytes_eq_dec request_class request_class); [|congruence].
    cbn [negb]. unfold as_request. do 2 f_equal. lia.
  - rewrite E0. cbn [Z.eqb]. do 2 f_equal. lia.
  - destruct (Z.eqb_spec (fr_cmdcode f) 0); [congruence|]. destruct (Z.eqb_spec (fr_cmdcode f) 2); [do 2 f_equal; lia|]. destruct O as [O|O]; [congruence|]. unfold bytes_eqb. destruct (bytes_eq_dec (fr_class f) request_class); [congruence|].
    cbn [negb]. do 2 f_equal. lia.
  - destruct (head_parts _ _ _ HL) as (fx & c & -> & L & C & H & T). rewrite (E h) at 1. rewrite unit_split by assumption. unfold classify.
    destruct (proj2 (from_bytes_codec h) (conj N B)) as (e & Eh & Ne). rewrite Eh, T, !len_app, L. destruct e; try congruence; do 2 f_equal; lia.
  - destruct (head_parts _ _ _ HL) as (fx & c & -> & L & C & H & T). rewrite (E h) at 1. rewrite unit_split by assumption. unfold classify.
    rewrite (proj2 (from_bytes_bad h) B), T, !len_app, L. do 2 f_equal; lia.
Qed.
Lemma one_fun a b x y i j : one a i -> one b j -> a ++ x = b ++ y -> a = b /\ x = y /\ i = j.
Proof.
  intros A B E. apply one_unit in A, B. apply (unit_more _ x) in A. apply (unit_more _ y) in B. rewrite E, B in A. apply Some_pair_inj in A as [-> L].
  pose proof (app_eq_len a b x y E ltac:(unfold len in L; lia)). subst b. apply app_inv_head in E. auto.
Qed.

Lemma cuts_more bs l rest y : cuts bs l rest -> cuts (bs ++ y) l (rest ++ y).
Proof. induction 1; rewrite <- ?app_assoc; econstructor; eassumption. Qed.
Lemma cuts_snoc bs l a i rest : cuts bs l (a ++ rest) -> Forall (fun j => ~ fatal j) l -> one a i -> cuts bs (l ++ [i]) rest.
Proof.
  intros C F O. remember (a ++ rest) as r eqn:Er. induction C as [bs|a' i' r O' Fi|a' i' bs l r O' Fi C IH].
  - subst bs. cbn [app]. assert (D : fatal i \/ ~ fatal i) by (destruct i; cbn; auto). destruct D as [D|D]; [constructor; assumption|apply Cuts_cons; auto; constructor].
  - inversion F; subst. contradiction.
  - inversion F; subst. cbn [app]. apply Cuts_cons; auto.
Qed.
(** the units of a stream are determined by it *)
Lemma cuts_comparable bs l : forall l' r r', cuts bs l r -> cuts bs l' r' -> (exists m, l' = l ++ m) \/ (exists m, l = l' ++ m).
Proof.
  intros l' r r' C. revert l' r'. induction C as [bs|a i r O F|a i bs l r O F C IH]; intros l' r' C'.
  - left. exists l'. reflexivity.
  - inversion C' as [|a' i' ? O' F' E|a' i' bs' l'' ? O' F' C'' E]; subst.
    + right. exists [i]. reflexivity.
    + destruct (one_fun _ _ _ _ _ _ O O' (eq_sym E)) as (_ & _ & ->). left. exists []. reflexivity.
    + destruct (one_fun _ _ _ _ _ _ O O' (eq_sym E)) as (_ & _ & ->). contradiction.
  - inversion C' as [|a' i' ? O' F' E|a' i' bs' l'' ? O' F' C'' E]; subst.
    + right. exists (i :: l). reflexivity.
    + destruct (one_fun _ _ _ _ _ _ O O' (eq_sym E)) as (_ & _ & ->). contradiction.
    + destruct (one_fun _ _ _ _ _ _ O O' (eq_sym E)) as (_ & <- & ->). destruct (IH _ _ C'') as [(m & ->)|(m & ->)]; [left|right]; exists m; reflexivity.
Qed.

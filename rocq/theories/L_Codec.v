(** Property-level lemmas of the codec. *)
From Coq Require Import ZifyBool.
From Verif Require Import PyBase L_PyBase PyDict L_PyDict Utf8 L_Utf8 Struct L_Struct M_SofaHeader L_SofaHeader M_Package L_Package S_Wire.
Ltac Zify.zify_post_hook ::= Z.div_mod_to_equations.

Definition frame_of (p : pkg) (rid tos : Z) (content : bytes) : frame :=
  {| fr_proto := p_proto p; fr_type := p_ptype p; fr_cmdcode := p_cmdcode p; fr_ver2 := p_ver2 p;
     fr_request_id := rid; fr_codec := p_codec p; fr_tos := tos;
     fr_class := cls_name (p_cls p); fr_header := p_header_bytes p; fr_content := content |}.

Lemma to_stream_req_iff p n bs : p_cls p = req_class n -> legal_pkg p ->
  (to_stream p = Ok bs <->
   exists rid tmo content, int_value (p_request_id p) = Some rid /\ int_value (p_timeout p) = Some tmo /\
     p_content p = PBytes content /\ -2147483648 <= rid <= 2147483647 /\ -2147483648 <= tmo <= 2147483647 /\
     p_class_len p <= 65535 /\ p_header_len p <= 65535 /\ len content <= 4294967295 /\
     bs = common_bytes p rid ++ be_bytes 4 tmo ++ tail_bytes p content).
Proof.
  intros Hc Hl. unfold to_stream. assert (Hk : cls_kind (p_cls p) = KReq) by (rewrite Hc; reflexivity). rewrite Hk.
  apply req_to_stream_iff; [rewrite Hc; reflexivity|exact Hl].
Qed.

Lemma to_stream_resp_iff p n bs : p_cls p = resp_class n -> legal_pkg p ->
  (to_stream p = Ok bs <->
   exists rid content, int_value (p_request_id p) = Some rid /\
     p_content p = PBytes content /\ -2147483648 <= rid <= 2147483647 /\
     p_class_len p <= 65535 /\ p_header_len p <= 65535 /\ len content <= 4294967295 /\
     bs = common_bytes p rid ++ be_bytes 2 (p_respstatus p) ++ tail_bytes p content).
Proof.
  intros Hc Hl. unfold to_stream. assert (Hk : cls_kind (p_cls p) = KResp) by (rewrite Hc; reflexivity). rewrite Hk.
  apply resp_to_stream_iff; [rewrite Hc; reflexivity|exact Hl].
Qed.

Lemma req_layout_of p n bs : p_cls p = req_class n -> legal_pkg p -> to_stream p = Ok bs ->
  exists rid tmo content, int_value (p_request_id p) = Some rid /\ int_value (p_timeout p) = Some tmo /\
    p_content p = PBytes content /\ request_layout bs (frame_of p rid tmo content).
Proof.
  intros Hc Hl H. apply (to_stream_req_iff p n) in H as (rid & tmo & content & H1 & H2 & H3 & R1 & R2 & R3 & R4 & R5 & ->); auto.
  exists rid, tmo, content. repeat (split; [assumption|]). apply req_bytes_layout; assumption.
Qed.

Lemma resp_layout_of p n bs : p_cls p = resp_class n -> legal_pkg p -> to_stream p = Ok bs ->
  exists rid content, int_value (p_request_id p) = Some rid /\
    p_content p = PBytes content /\ response_layout bs (frame_of p rid (p_respstatus p) content).
Proof.
  intros Hc Hl H. apply (to_stream_resp_iff p n) in H as (rid & content & H1 & H3 & R1 & R3 & R4 & R5 & ->); auto.
  exists rid, content. repeat (split; [assumption|]). apply resp_bytes_layout; assumption.
Qed.

Lemma req_roundtrip p n n' bs : p_cls p = req_class n -> legal_pkg p -> wf_dict (p_header p) -> to_stream p = Ok bs ->
  exists rid tmo content, int_value (p_request_id p) = Some rid /\ int_value (p_timeout p) = Some tmo /\
    p_content p = PBytes content /\
    from_stream (req_class n') bs = Ok (pkg_of_req n' (frame_of p rid tmo content) (p_header p) (p_header_bytes p)).
Proof.
  intros Hc Hl Hw H. destruct (req_layout_of _ _ _ Hc Hl H) as (rid & tmo & content & H1 & H2 & H3 & Hlay).
  exists rid, tmo, content. repeat (split; [assumption|]).
  destruct Hl as (L1 & L2 & L3 & L4 & L5 & L6 & L7).
  apply from_stream_req_iff. exists (frame_of p rid tmo content), (p_header p), (p_header_bytes p).
  rewrite dict_of_id by exact Hw. split; [exact Hlay|]. split; [unfold legal_common; cbn [frame_of fr_proto fr_type fr_cmdcode fr_ver2 fr_codec]; auto|].
  split; [apply to_bytes_strings; exact L7|]. split; [exact L7|reflexivity].
Qed.

Lemma resp_roundtrip p n n' bs : p_cls p = resp_class n -> legal_pkg p -> wf_dict (p_header p) -> to_stream p = Ok bs ->
  exists rid content, int_value (p_request_id p) = Some rid /\ p_content p = PBytes content /\
    from_stream (resp_class n') bs = Ok (pkg_of_resp n' (frame_of p rid (p_respstatus p) content) (p_header p) (p_header_bytes p)).
Proof.
  intros Hc Hl Hw H. destruct (resp_layout_of _ _ _ Hc Hl H) as (rid & content & H1 & H3 & Hlay).
  exists rid, content. repeat (split; [assumption|]).
  destruct Hl as (L1 & L2 & L3 & L4 & L5 & L6 & L7).
  apply from_stream_resp_iff. exists (frame_of p rid (p_respstatus p) content), (p_header p), (p_header_bytes p).
  rewrite dict_of_id by exact Hw. split; [exact Hlay|]. split; [unfold legal_common; cbn [frame_of fr_proto fr_type fr_cmdcode fr_ver2 fr_codec]; auto|].
  split; [exact L6|]. split; [apply to_bytes_strings; exact L7|]. split; [exact L7|reflexivity].
Qed.

(** ** decoded packages *)

Lemma sval_range (b : bytes) k : len b = k -> 1 <= k -> - (256 ^ k / 2) <= sval b < 256 ^ k / 2.
Proof. intros <- H. rewrite sval_be_sint by exact H. apply be_sint_range. exact H. Qed.

Lemma len_field off n bs : Z.of_nat (off + n) <= len bs -> len (field off n bs) = Z.of_nat n.
Proof. unfold field, len. intros H. rewrite firstn_length, skipn_length. lia. Qed.

Lemma uval_field_range off n bs : Z.of_nat (off + n) <= len bs -> 0 <= uval (field off n bs) < 256 ^ Z.of_nat n.
Proof. intros H. rewrite uval_be_uint, <- (len_field off n bs H). apply be_uint_range. Qed.

Lemma forward_req n bs p : len n <= 65535 -> from_stream (req_class n) bs = Ok p ->
  exists bs', to_stream p = Ok bs' /\ from_stream (req_class n) bs' = Ok p.
Proof.
  intros Hn H. pose proof H as H0. apply from_stream_req_iff in H as (f & kvs & hb & Hlay & Hleg & Hk & Hb & ->).
  destruct (parsed_to_bytes _ _ Hk) as (hb' & Hb' & Hlen). assert (hb' = hb) by congruence. subst hb'.
  pose proof Hlay as Hlay0. destruct Hlay as (Hl22 & (F1 & F2 & F3 & F4 & F5 & F6) & F7 & F8 & F9 & F10 & F11).
  destruct Hleg as (G1 & G2 & G3 & G4 & G5).
  remember (pkg_of_req n f (dict_of kvs) hb) as p eqn:Hp.
  assert (Hleg : legal_pkg p) by (subst p; unfold legal_pkg; cbn; repeat (split; [assumption|]); unfold legal_status; split; [lia|assumption]).
  assert (E : exists bs', to_stream p = Ok bs').
  { eexists. apply (to_stream_req_iff p n); [subst p; reflexivity|exact Hleg|].
    exists (fr_request_id f), (fr_tos f), (fr_content f). subst p. unfold p_class_len, p_header_len. cbn [p_request_id p_timeout p_content int_value pkg_of_req p_cls p_header_bytes].
    repeat (split; [reflexivity|]).
    assert (R1 : -2147483648 <= fr_request_id f <= 2147483647).
    { rewrite <- F5. apply sval_range4. apply (len_field 5 4). lia. }
    assert (R2 : -2147483648 <= fr_tos f <= 2147483647).
    { rewrite <- F7. apply sval_range4. apply (len_field 10 4). lia. }
    pose proof (uval_field_range 16 2 bs ltac:(lia)) as U2. pose proof (uval_field_range 18 4 bs ltac:(lia)) as U3.
    change (256 ^ Z.of_nat 2) with 65536 in U2. change (256 ^ Z.of_nat 4) with 4294967296 in U3. change (len (cls_name (req_class n))) with (len n).
    split; [exact R1|]. split; [exact R2|]. split; [lia|]. split; [lia|]. split; [lia|]. reflexivity. }
  destruct E as [bs' E]. exists bs'. split; [exact E|].
  destruct (req_roundtrip p n n bs') as (rid & tmo & content & H1 & H2 & H3 & H4).
  - subst p. reflexivity.
  - exact Hleg.
  - subst p. apply wf_dict_of.
  - exact E.
  - rewrite H4. f_equal. subst p. cbn in H1, H2, H3. apply Some_inj in H1, H2. injection H3 as H3. subst. reflexivity.
Qed.

Lemma forward_resp n bs p : len n <= 65535 -> from_stream (resp_class n) bs = Ok p ->
  exists bs', to_stream p = Ok bs' /\ from_stream (resp_class n) bs' = Ok p.
Proof.
  intros Hn H. apply from_stream_resp_iff in H as (f & kvs & hb & Hlay & Hleg & Hst & Hk & Hb & ->).
  destruct (parsed_to_bytes _ _ Hk) as (hb' & Hb' & Hlen). assert (hb' = hb) by congruence. subst hb'.
  destruct Hlay as (Hl22 & (F1 & F2 & F3 & F4 & F5 & F6) & F7 & F8 & F9 & F10 & F11).
  destruct Hleg as (G1 & G2 & G3 & G4 & G5).
  remember (pkg_of_resp n f (dict_of kvs) hb) as p eqn:Hp.
  assert (Hleg : legal_pkg p) by (subst p; unfold legal_pkg; cbn; repeat (split; [assumption|]); assumption).
  assert (E : exists bs', to_stream p = Ok bs').
  { eexists. apply (to_stream_resp_iff p n); [subst p; reflexivity|exact Hleg|].
    exists (fr_request_id f), (fr_content f). subst p. unfold p_class_len, p_header_len. cbn [p_request_id p_timeout p_content int_value pkg_of_resp p_cls p_header_bytes p_respstatus].
    repeat (split; [reflexivity|]).
    assert (R1 : -2147483648 <= fr_request_id f <= 2147483647).
    { rewrite <- F5. apply sval_range4. apply (len_field 5 4). lia. }
    pose proof (uval_field_range 14 2 bs ltac:(lia)) as U2. pose proof (uval_field_range 16 4 bs ltac:(lia)) as U3.
    change (256 ^ Z.of_nat 2) with 65536 in U2. change (256 ^ Z.of_nat 4) with 4294967296 in U3. change (len (cls_name (resp_class n))) with (len n).
    split; [exact R1|]. split; [lia|]. split; [lia|]. split; [lia|]. reflexivity. }
  destruct E as [bs' E]. exists bs'. split; [exact E|].
  destruct (resp_roundtrip p n n bs') as (rid & content & H1 & H3 & H4).
  - subst p. reflexivity.
  - exact Hleg.
  - subst p. apply wf_dict_of.
  - exact E.
  - rewrite H4. f_equal. subst p. cbn in H1, H3. apply Some_inj in H1. injection H3 as H3. subst. reflexivity.
Qed.

(** ** self-delimitation *)

Lemma field_app off n (a x : bytes) : (off + n <= length a)%nat -> field off n (a ++ x) = field off n a.
Proof.
  intros H. unfold field. rewrite skipn_app. replace (off - length a)%nat with O by lia. cbn [skipn].
  rewrite firstn_app. rewrite skipn_length. replace (n - (length a - off))%nat with O by lia. cbn [firstn]. apply app_nil_r.
Qed.

Lemma app_eq_len {A} (a b x y : list A) : a ++ x = b ++ y -> length a = length b -> a = b.
Proof.
  revert b. induction a as [|u a IH]; intros [|v b] H Hl; cbn in Hl; try discriminate; [reflexivity|].
  injection H as -> H. f_equal. apply (IH b); [exact H|lia].
Qed.

Lemma field_total_common off1 n1 (a b x y : bytes) : a ++ x = b ++ y ->
  (off1 + n1 <= length a)%nat -> (off1 + n1 <= length b)%nat -> field off1 n1 a = field off1 n1 b.
Proof. intros H Ha Hb. rewrite <- (field_app off1 n1 a x Ha), H. apply field_app. exact Hb. Qed.

Lemma req_prefix_free a b x y f g : request_layout a f -> request_layout b g -> a ++ x = b ++ y -> a = b.
Proof.
  intros Ha Hb H. apply req_layout_iff in Ha as (Ha & Hla & _). apply req_layout_iff in Hb as (Hb & Hlb & _).
  apply (app_eq_len a b x y H). unfold len, req_total in *.
  rewrite (field_total_common 14 2 a b x y H) in Hla by lia. rewrite (field_total_common 16 2 a b x y H) in Hla by lia.
  rewrite (field_total_common 18 4 a b x y H) in Hla by lia. lia.
Qed.

Lemma resp_prefix_free a b x y f g : response_layout a f -> response_layout b g -> a ++ x = b ++ y -> a = b.
Proof.
  intros Ha Hb H. apply resp_layout_iff in Ha as (Ha & Hla & _). apply resp_layout_iff in Hb as (Hb & Hlb & _).
  apply (app_eq_len a b x y H). unfold len, resp_total in *.
  rewrite (field_total_common 12 2 a b x y H) in Hla by lia. rewrite (field_total_common 14 2 a b x y H) in Hla by lia.
  rewrite (field_total_common 16 4 a b x y H) in Hla by lia. lia.
Qed.

Definition decodes (c : bolt_class) (bs : bytes) : Prop := exists p, from_stream c bs = Ok p.

Inductive api_class : bolt_class -> Prop :=
| api_req : api_class BoltRequest
| api_hreq : api_class HeartbeatRequest
| api_resp : api_class BoltResponse
| api_hresp : api_class HeartbeatResponse.

Lemma BoltRequest_eq : BoltRequest = req_class request_class_name. Proof. reflexivity. Qed.
Lemma BoltResponse_eq : BoltResponse = resp_class response_class_name. Proof. reflexivity. Qed.

Lemma api_class_cases c : api_class c -> exists n, len n <= 65535 /\ (c = req_class n \/ c = resp_class n).
Proof.
  intros [].
  - exists request_class_name. split; [vm_compute; discriminate|left; reflexivity].
  - exists []. split; [vm_compute; discriminate|left; reflexivity].
  - exists response_class_name. split; [vm_compute; discriminate|right; reflexivity].
  - exists []. split; [vm_compute; discriminate|right; reflexivity].
Qed.

Lemma decodes_prefix_free c a b x y : api_class c -> decodes c a -> decodes c b -> a ++ x = b ++ y -> a = b.
Proof.
  intros Hc [p Hp] [q Hq] H. destruct (api_class_cases c Hc) as (n & _ & [->| ->]).
  - apply from_stream_req_iff in Hp as (f & ? & ? & Hf & _). apply from_stream_req_iff in Hq as (g & ? & ? & Hg & _).
    eapply req_prefix_free; eassumption.
  - apply from_stream_resp_iff in Hp as (f & ? & ? & Hf & _). apply from_stream_resp_iff in Hq as (g & ? & ? & Hg & _).
    eapply resp_prefix_free; eassumption.
Qed.

Lemma decodes_nonempty c a : api_class c -> decodes c a -> a <> [].
Proof.
  intros Hc [p Hp] ->. destruct (api_class_cases c Hc) as (n & _ & [->| ->]).
  - apply from_stream_req_iff in Hp as (f & ? & ? & (Hf & _) & _). rewrite len_nil in Hf. lia.
  - apply from_stream_resp_iff in Hp as (f & ? & ? & (Hf & _) & _). rewrite len_nil in Hf. lia.
Qed.

Lemma concat_frames_inj c (fs : list bytes) : api_class c -> forall gs, Forall (decodes c) fs -> Forall (decodes c) gs ->
  concat fs = concat gs -> fs = gs.
Proof.
  intros Hc. induction fs as [|a fs IH]; intros [|b gs] Hf Hg H; cbn [concat] in H; [reflexivity|..].
  - inversion Hg; subst. exfalso. apply (decodes_nonempty c b Hc H2). destruct b; [reflexivity|discriminate].
  - inversion Hf; subst. exfalso. apply (decodes_nonempty c a Hc H2). destruct a; [reflexivity|discriminate].
  - inversion Hf; subst. inversion Hg; subst. assert (a = b) by (eapply decodes_prefix_free; eassumption). subst b.
    f_equal. apply app_inv_head in H. apply IH; assumption.
Qed.

(** ** mutable header objects *)

Lemma hop_to_stream ops : forall p, to_stream (fold_left (fun p o => hop_pkg o p) ops p) = to_stream p.
Proof. induction ops as [|o ops IH]; intros p; [reflexivity|]. cbn [fold_left]. rewrite IH. reflexivity. Qed.

Lemma setitem_header kvs : forall h, fold_left (fun h kv => hop_apply (HSetItem (fst kv) (snd kv)) h) kvs h = h.
Proof. induction kvs as [|kv kvs IH]; intros h; [reflexivity|]. cbn [fold_left]. rewrite IH. reflexivity. Qed.

(** ** malformed headers *)

Lemma bytes_to_str_prefix b1 ss1 : header_strings b1 ss1 -> forall r, bytes_to_str (b1 ++ r) = prepend ss1 (bytes_to_str r).
Proof.
  induction 1 as [|l payload rest s ss Hl Hs Hu _ IH|l rest ss Hl Hs _ IH]; intros r.
  - cbn [app]. destruct (bytes_to_str r); reflexivity.
  - rewrite <- !app_assoc. rewrite bytes_to_str_unfold by (destruct l; [discriminate Hl|discriminate]).
    assert (E : bytes_to_str_step (l ++ payload ++ rest ++ r) = Ok (s, rest ++ r)) by (apply step_Ok; left; eauto 7).
    rewrite E, IH. destruct (bytes_to_str r); reflexivity.
  - rewrite <- !app_assoc. rewrite bytes_to_str_unfold by (destruct l; [discriminate Hl|discriminate]).
    assert (E : bytes_to_str_step (l ++ rest ++ r) = Ok ([], rest ++ r)) by (apply step_Ok; right; eauto 7).
    rewrite E, IH. destruct (bytes_to_str r); reflexivity.
Qed.

Lemma bad_entry b1 ss1 r : header_strings b1 ss1 ->
  (0 < len r < 4 \/ (exists l rest, r = l ++ rest /\ len l = 4 /\ (sval l < -1 \/ sval l > len rest))) ->
  from_bytes (b1 ++ r) = Raise DecodeError.
Proof.
  intros H1 Hr. unfold from_bytes. rewrite (bytes_to_str_prefix _ _ H1).
  assert (Hne : r <> []).
  { intros E0. destruct Hr as [Hr|(l & rest & He & Hl & _)]; subst r; [unfold len in Hr; cbn in Hr; lia|]. symmetry in E0. rename E0 into He.
    apply (f_equal len) in He. rewrite len_app, len_nil in He. pose proof (len_nonneg rest). lia. }
  rewrite bytes_to_str_unfold by exact Hne.
  assert (E : bytes_to_str_step r = Raise DecodeError).
  { unfold bytes_to_str_step. destruct Hr as [Hr|(l & rest & -> & Hl & Hbad)].
    - destruct (len r <? 4) eqn:E; [reflexivity|lia].
    - rewrite len_app. pose proof (len_nonneg rest). destruct (_ <? 4) eqn:E; [reflexivity|].
      rewrite (py_take_app' 4) by lia. rewrite (bytes2int_be_4 _ Hl). cbn [bind].
      destruct (sval l =? -1) eqn:E1; [lia|].
      destruct (sval l <? 0) eqn:E2; [reflexivity|]. destruct (len l + len rest <? 4 + sval l) eqn:E3; [reflexivity|lia]. }
  rewrite E. reflexivity.
Qed.

Lemma flatten_even kvs : Nat.Even (length (flatten_pairs kvs)).
Proof.
  induction kvs as [|[k v] kvs [m IH]]; [exists O; reflexivity|]. cbn [flatten_pairs length]. exists (S m). lia.
Qed.

Lemma odd_strings b ss : header_strings b ss -> Nat.Odd (length ss) -> from_bytes b = Raise DecodeError.
Proof.
  intros H Ho. destruct (from_bytes b) as [h|e] eqn:E.
  - apply from_bytes_iff in E as (kvs & Hk & _). rewrite (header_strings_fun _ _ _ H Hk) in Ho.
    exfalso. apply (Nat.Even_Odd_False _ (flatten_even kvs) Ho).
  - apply bytes_to_str_iff in H. unfold from_bytes in E. rewrite H in E. cbn [bind] in E.
    destruct (negb _); [congruence|discriminate].
Qed.

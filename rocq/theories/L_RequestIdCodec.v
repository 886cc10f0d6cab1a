(** Drawn request ids always encode. *)
From Coq Require Import ZifyBool.
From Verif Require Import PyBase L_PyBase PyDict M_RequestId L_RequestId M_SofaHeader L_SofaHeader M_Package L_Package L_Codec P_Codec.

Lemma drawn_id_range start n id : 0 <= start < 2 ^ 31 -> cycle_draw (request_ids start) n = Some id -> 0 <= id <= 2147483647.
Proof.
  intros Hs Hd. rewrite request_ids_draw in Hd by exact Hs. injection Hd as Hd. change 2147483648 with (2 ^ 31) in Hd. subst id.
  pose proof (Z.mod_pos_bound (start + Z.of_nat n) (2 ^ 31)). lia.
Qed.

Lemma new_request_any_id header content ptype timeout_ms id' p' id :
  new_request header content ptype timeout_ms id' = Ok p' -> exists p, new_request header content ptype timeout_ms id = Ok p.
Proof.
  unfold new_request. intros H. unfold mk_package in *.
  destruct (to_bytes header); cbn [bind] in *; [|discriminate].
  repeat match goal with |- context [enum_call ?a ?b] => destruct (enum_call a b); cbn [bind] in *; [|discriminate] end.
  eexists. reflexivity.
Qed.

Lemma drawn_id_encodable : forall start n id, 0 <= start < 2 ^ 31 ->
  cycle_draw (request_ids start) n = Some id ->
  (exists p bs, heartbeat_new_request id = Ok p /\ to_stream p = Ok bs) /\
  (forall header content ptype timeout_ms id' p' bs',
     new_request header content ptype timeout_ms id' = Ok p' -> to_stream p' = Ok bs' ->
     exists p bs, new_request header content ptype timeout_ms id = Ok p /\ to_stream p = Ok bs).
Proof.
  intros start n id Hs Hd. apply (drawn_id_range _ _ _ Hs) in Hd. split.
  - destruct (heartbeat_new_request id) as [p|] eqn:Hp; [|cbv in Hp; discriminate]. exists p.
    assert (He : exists bs, to_stream p = Ok bs).
    { unfold heartbeat_new_request in Hp.
      apply (C04_request_encodable_iff _ _ _ _ _ _ _ _ _ _ _ _ (or_intror (or_introl eq_refl)) Hp).
      split; [|exists 0; cbn; split; [reflexivity|lia]].
      unfold representable. split; [exists id; split; [reflexivity|lia]|].
      split; exists []; (split; [reflexivity|cbn; lia]). }
    destruct He as [bs He]. exists bs. auto.
  - intros header content ptype timeout_ms id' p' bs' Hp' Hs'.
    destruct (new_request_any_id _ _ _ _ _ _ id Hp') as [p Hp]. exists p.
    assert (He : exists bs, to_stream p = Ok bs).
    { unfold new_request in Hp, Hp'.
      apply (C04_request_encodable_iff _ _ _ _ _ _ _ _ _ _ _ _ (or_introl eq_refl) Hp).
      destruct (proj1 (C04_request_encodable_iff _ _ _ _ _ _ _ _ _ _ _ _ (or_introl eq_refl) Hp') (ex_intro _ bs' Hs')) as [R T].
      split; [|exact T]. destruct R as (_ & R2 & R3). split; [exists id; split; [reflexivity|lia]|]. auto. }
    destruct He as [bs He]. exists bs. auto.
Qed.

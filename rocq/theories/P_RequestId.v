(** Property theorems C12: request ids. *)
From Coq Require Import ZifyBool.
From Verif Require Import PyBase PyDict M_RequestId L_RequestId M_SofaHeader M_Package L_RequestIdCodec.

Theorem C12_consecutive_modulo_2_31 : forall start n, 0 <= start < 2 ^ 31 ->
  cycle_draw (request_ids start) n = Some ((start + Z.of_nat n) mod 2 ^ 31).
Proof. exact request_ids_draw. Qed.
Print Assumptions C12_consecutive_modulo_2_31.

Theorem C12_in_range_and_never_ends : forall start n, 0 <= start < 2 ^ 31 ->
  exists id, cycle_draw (request_ids start) n = Some id /\ 0 <= id <= 2 ^ 31 - 1.
Proof.
  intros start n Hs. eexists. split; [apply request_ids_draw; exact Hs|].
  pose proof (Z.mod_pos_bound (start + Z.of_nat n) (2 ^ 31)). lia.
Qed.
Print Assumptions C12_in_range_and_never_ends.

Theorem C12_distinct_in_window : forall start i j, 0 <= start < 2 ^ 31 ->
  (i < j)%nat -> Z.of_nat j - Z.of_nat i < 2 ^ 31 ->
  cycle_draw (request_ids start) i <> cycle_draw (request_ids start) j.
Proof. exact request_ids_distinct. Qed.
Print Assumptions C12_distinct_in_window.

(** every id drawn fits the signed 32-bit request id field: a heartbeat with it always encodes, and a
    request that encodes with any id at all also encodes with it *)
Theorem C12_always_encodable : forall start n id, 0 <= start < 2 ^ 31 ->
  cycle_draw (request_ids start) n = Some id ->
  (exists p bs, heartbeat_new_request id = Ok p /\ to_stream p = Ok bs) /\
  (forall header content ptype timeout_ms id' p' bs',
     new_request header content ptype timeout_ms id' = Ok p' -> to_stream p' = Ok bs' ->
     exists p bs, new_request header content ptype timeout_ms id = Ok p /\ to_stream p = Ok bs).
Proof. exact drawn_id_encodable. Qed.
Print Assumptions C12_always_encodable.

Example C12_wraps_around :
  map (cycle_draw (request_ids 2147483646)) [0; 1; 2; 3]%nat = [Some 2147483646; Some 2147483647; Some 0; Some 1].
Proof. vm_compute. reflexivity. Qed.

(** Property theorems C144: trace ids and rpc ids as values. [sub] is the inheritance relation of the classes of the process. *)
From Coq Require Import Strings.String.
From Verif Require Import PyBase PyDict PyInt M_RpcId M_Span M_IdCompare S_IdCompare L_IdCompare.
Open Scope nat_scope.

(** two ids are equal exactly if they have the same class and the same value; no comparison fails, and != is the opposite *)
Theorem C144_ids_partial : forall sub x y, sane sub -> proper sub x -> proper sub y -> is_id x -> is_id y ->
  (x = y /\ py_eq sub x y = Ok true /\ py_ne sub x y = Ok false) \/ (x <> y /\ py_eq sub x y = Ok false /\ py_ne sub x y = Ok true).
Proof. exact compare_ids. Qed.
Print Assumptions C144_ids_partial.

(** an id is not equal to an object of another kind, such as its text; with the id on the right the other object may say
    otherwise, unless it leaves the decision to the id or has a base class of the id as its class *)
Theorem C144_foreign_partial : forall sub c v d f, sane sub -> proper sub (OId c v) -> proper sub (OForeign d f) ->
  py_eq sub (OId c v) (OForeign d f) = Ok false /\
  py_eq sub (OForeign d f) (OId c v) = Ok (if sub c d then false else match f v with Some b => b | None => false end).
Proof. exact compare_foreign. Qed.
Print Assumptions C144_foreign_partial.

(** an id is found in a list of ids exactly if an equal one is there *)
Theorem C144_in_list_partial : forall sub x l, sane sub -> proper sub x -> is_id x -> Forall (fun y => proper sub y /\ is_id y) l ->
  exists b, py_in sub x l = Ok b /\ (b = true <-> In x l).
Proof. exact in_list. Qed.
Print Assumptions C144_in_list_partial.

(** missing from the claim: no id can be a key of a dictionary or a member of a set; [own]: the classes between the one of the
    id and TraceId or RpcId, [rest] those after it *)
Theorem C144_unhashable_refuted : forall A own b rest (k : res A), Forall defines_neither own -> b = trace_body \/ b = rpc_body -> as_key (own ++ b :: rest) k = Raise TypeError.
Proof. exact no_key. Qed.
Print Assumptions C144_unhashable_refuted.

(** ** Concrete cases: class 2 is object, 3 is derived from TraceId, 4 is str *)
Definition sub5 (c d : nat) : bool := Nat.eqb c d || Nat.eqb d 2 || (Nat.eqb c 3 && Nat.eqb d 0).
Example sub5_sane : sane sub5.
Proof.
  split; unfold sub5.
  - intros c. now rewrite Nat.eqb_refl.
  - intros a b c. destruct (Nat.eqb_spec a b), (Nat.eqb_spec b c), (Nat.eqb_spec a c), (Nat.eqb_spec b 2), (Nat.eqb_spec c 2), (Nat.eqb_spec a 3), (Nat.eqb_spec b 0), (Nat.eqb_spec b 3), (Nat.eqb_spec c 0); cbn; congruence.
  - intros a b. destruct (Nat.eqb_spec a b); [congruence|]. destruct (Nat.eqb_spec b a); [congruence|]. destruct (Nat.eqb_spec b 2), (Nat.eqb_spec a 2), (Nat.eqb_spec a 3), (Nat.eqb_spec b 0), (Nat.eqb_spec b 3), (Nat.eqb_spec a 0); cbn; congruence.
  - intros c. unfold C_TRACE, C_RPC. destruct (Nat.eqb_spec c 0), (Nat.eqb_spec c 1), (Nat.eqb_spec c 3); cbn; congruence.
Qed.
Definition t1 : obj := OId 0 (VTrace (str "0a")).
Definition t2 : obj := OId 0 (VTrace (str "0b")).
Definition t3 : obj := OId 3 (VTrace (str "0a")).
Definition r1 : obj := OId 1 (VRpc [SInt 1; SInt 2]).
Definition text : obj := OForeign 4 (fun _ => None).
Definition anything : obj := OForeign 4 (fun _ => Some true).
Example all_proper : Forall (proper sub5) [t1; t2; t3; r1; text; anything].
Proof. repeat constructor. Qed.
Example compare_cases :
  py_eq sub5 t1 t1 = Ok true /\ py_eq sub5 t1 t2 = Ok false /\ py_ne sub5 t1 t2 = Ok true /\ py_eq sub5 t1 t3 = Ok false /\ py_eq sub5 t3 t1 = Ok false /\ py_eq sub5 t3 t3 = Ok true /\
  py_eq sub5 t1 r1 = Ok false /\ py_eq sub5 r1 r1 = Ok true /\ py_eq sub5 t1 text = Ok false /\ py_eq sub5 text t1 = Ok false /\ py_eq sub5 anything t1 = Ok true /\ py_eq sub5 t1 anything = Ok false.
Proof. vm_compute. repeat split. Qed.
Example list_cases : py_in sub5 t2 [r1; t1; t2] = Ok true /\ py_in sub5 t3 [r1; t1; t2] = Ok false.
Proof. vm_compute. split; reflexivity. Qed.
(** an object that does not define __eq__ can be a key, a trace id cannot *)
Example hash_cases : py_hash [{| b_eq := false; b_hash := false |}; object_body] = Ok tt /\ py_hash [trace_body; object_body] = Raise TypeError.
Proof. split; reflexivity. Qed.

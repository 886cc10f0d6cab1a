(** Vocabulary for C144. *)
From Verif Require Import PyBase M_RpcId M_IdCompare.
Open Scope nat_scope.

(** an inheritance relation in which no class is derived from both kinds of ids *)
Record sane (sub : hierarchy) : Prop := {
  s_refl : forall c, sub c c = true;
  s_trans : forall a b c, sub a b = true -> sub b c = true -> sub a c = true;
  s_anti : forall a b, sub a b = true -> sub b a = true -> a = b;
  s_apart : forall c, sub c C_TRACE = true -> sub c C_RPC = true -> False }.
(** objects have the values that their classes say *)
Definition proper (sub : hierarchy) (x : obj) : Prop :=
  match x with
  | OId c (VTrace _) => sub c C_TRACE = true
  | OId c (VRpc _) => sub c C_RPC = true
  | OForeign c _ => sub c C_TRACE = false /\ sub c C_RPC = false
  end.
Definition is_id (x : obj) : Prop := match x with OId _ _ => True | OForeign _ _ => False end.
Definition defines_neither (b : body) : Prop := b_eq b = false /\ b_hash b = false.

(** Specification: the tree of contexts that calls and derivations span. It is read off the record of
    what was made from what and speaks of contexts by their baggage text only. *)
From Coq Require Import Strings.String.
From Verif Require Import PyBase PyDict M_RpcId M_Trace M_CallTree.

Definition rpc_name : pystr := str "sofaRpcId".
Definition trace_name : pystr := str "sofaTraceId".

Definition source (m : made) : option ctx := match m with MNew => None | MFrom _ x => Some x | MSent x => Some x end.

(** y was made directly out of x *)
Definition next (w : world) (x y : ctx) : Prop := exists m, In (y, m) (w_made w) /\ source m = Some x.
(** y was made out of x through any number of calls and derivations *)
Inductive below (w : world) (x : ctx) : ctx -> Prop :=
| below_here : below w x x
| below_next y z : next w x y -> below w y z -> below w x z.
(** y is what the callee of a call sees of x, or the callee of a call with that, and so on *)
Inductive relayed (w : world) (x : ctx) : ctx -> Prop :=
| relayed_here : relayed w x x
| relayed_next y z : In (y, MSent x) (w_made w) -> relayed w y z -> relayed w x z.

(** no context that is sent holds an item named "prefix" (such an item makes the call lose the trace: C13) *)
Definition plain (w : world) (x : ctx) : Prop :=
  forall a y b, below w x a -> In (y, MSent a) (w_made w) -> wtext w a = Some b -> dget (str "prefix") b = None.

(** every call is made with a span of its own: a context that is sent has no other successor *)
Definition own_span (w : world) (x : ctx) : Prop :=
  forall a y z m, below w x a -> In (y, MSent a) (w_made w) -> In (z, m) (w_made w) -> source m = Some a -> z = y.
(** nothing follows from a context *)
Definition children_only (w : world) (x : ctx) : Prop :=
  forall a y t, below w x a -> In (y, MFrom t a) (w_made w) -> t = ChildOf.

(** the second id is the first followed by any number of dotted parts *)
Definition id_extends (r r' : pystr) : Prop := exists s, r' = r ++ s /\ (s = [] \/ exists q, s = 46 :: q).

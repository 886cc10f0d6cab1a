(** Specification for the arguments of start_span. *)
From Verif Require Import PyBase PyDict M_RpcId M_Trace M_Span.

(** the context a new span is derived from: the parent if it is a span or a span context, otherwise the first reference *)
Inductive used (st : tstate) : parent_arg -> refs_arg -> nat -> Prop :=
| used_context c refs : used st (ParentContext c) refs c
| used_span s sp refs : nth_error (t_spans st) s = Some sp -> used st (ParentSpan s) refs (sp_ctx sp)
| used_one parent t c : parent = NoParent \/ parent = OtherParent -> used st parent (OneRef t c) c
| used_first parent t c l : parent = NoParent \/ parent = OtherParent -> used st parent (RefList ((t, c) :: l)) c.

(** the contexts the caller named *)
Inductive named (st : tstate) : parent_arg -> refs_arg -> nat -> Prop :=
| named_context c refs : named st (ParentContext c) refs c
| named_span s sp refs : nth_error (t_spans st) s = Some sp -> named st (ParentSpan s) refs (sp_ctx sp)
| named_one parent t c : named st parent (OneRef t c) c
| named_list parent t c l : In (t, c) l -> named st parent (RefList l) c.

(** What C120 says about calls of classes (M_Singleton). *)
From Verif Require Import PyBase PyDict M_Singleton.

(** the i-th call was one of class c, and returned object x *)
Definition gave (s : gst) (i : nat) (c : klass) (x : nat) : Prop := nth_error (g_calls s) i = Some {| g_class := c; g_pc := GEnd (Ok x) |}.
(** all calls of class c have ended *)
Definition calm (c : klass) (s : gst) : Prop := forall k, In k (g_calls s) -> g_class k = c -> exists r, g_pc k = GEnd r.
(** the calls of class c do not overlap *)
Definition one_by_one (meta : klass -> metaclass) (c : klass) (l : list gstep) : Prop := forall l1 l2, l = l1 ++ GCall c :: l2 -> calm c (g_run meta l1).

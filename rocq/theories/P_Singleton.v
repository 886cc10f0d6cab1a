(** Property theorems C120: how many clients a process has. [g_run meta l]: the calls of classes after the steps [l], by any
    number of threads, where [meta c] is the metaclass of class c; [gave s i c x]: the i-th call was one of class c, and
    returned object x; [client_class]: the metaclass that MeshClient, Client and AioClient have in Python 3. *)
From Verif Require Import PyBase PyDict M_Singleton S_Singleton L_Singleton.
Open Scope nat_scope.

(** calls of the client classes never return the same object twice *)
Theorem C120_new_each_time_refuted : forall meta l i j c c' x, meta c = client_class -> gave (g_run meta l) i c x -> gave (g_run meta l) j c' x -> i = j.
Proof. exact new_each_time. Qed.
Print Assumptions C120_new_each_time_refuted.

(** were Singleton their metaclass: calls of a class that do not overlap all return the same object *)
Theorem C120_one_by_one_partial : forall meta c l i j x y, (forall c, meta c = SingletonMeta) -> one_by_one meta c l ->
  gave (g_run meta l) i c x -> gave (g_run meta l) j c y -> x = y.
Proof. exact same_object. Qed.
Print Assumptions C120_one_by_one_partial.

(** once a call of the class has returned and no other is under way, all later calls return the same object, overlapping
    or not *)
Theorem C120_from_then_on_partial : forall meta c l1 l2 i0 x0 i j x y, (forall c, meta c = SingletonMeta) -> calm c (g_run meta l1) -> gave (g_run meta l1) i0 c x0 ->
  let n := List.length (g_calls (g_run meta l1)) in n <= i -> n <= j -> gave (g_run meta (l1 ++ l2)) i c x -> gave (g_run meta (l1 ++ l2)) j c y -> x = y.
Proof. exact from_then_on. Qed.
Print Assumptions C120_from_then_on_partial.

(** no two classes share an object *)
Theorem C120_own_class_partial : forall meta l i j c c' x, gave (g_run meta l) i c x -> gave (g_run meta l) j c' x -> c = c'.
Proof. exact own_class. Qed.
Print Assumptions C120_own_class_partial.

(** even then, two threads can get different objects *)
Definition race : list gstep := [GCall 1%Z; GCall 1%Z; GRun 0 true; GRun 1 true; GRun 0 true; GRun 1 true; GRun 0 true; GRun 0 true; GRun 1 true; GRun 1 true].
Theorem C120_race_refuted : exists l i j c x y, x <> y /\ gave (g_run (fun _ => SingletonMeta) l) i c x /\ gave (g_run (fun _ => SingletonMeta) l) j c y.
Proof. exists race, 0, 1, 1%Z, 0, 1. split; [discriminate|]. split; vm_compute; reflexivity. Qed.
Print Assumptions C120_race_refuted.

(** a client made twice; then with the metaclass, the constructor failing the first time *)
Definition turns (i : nat) (ok : bool) : list gstep := repeat (GRun i ok) 4.
Example C120_case : let meta (c : klass) := client_class in let s := g_run meta ([GCall 1%Z; GCall 1%Z] ++ turns 0 true ++ turns 1 true) in gave s 0 1%Z 0 /\ gave s 1 1%Z 1.
Proof. split; vm_compute; reflexivity. Qed.
Definition again : list gstep := [GCall 1%Z] ++ turns 0 false ++ [GCall 1%Z; GCall 2%Z] ++ turns 2 true ++ turns 1 true ++ [GCall 1%Z] ++ turns 3 true.
Example C120_helper_case : let meta (c : klass) := SingletonMeta in let s := g_run meta again in
  one_by_one meta 1%Z again /\ map g_pc (g_calls s) = [GEnd (Raise OtherError); GEnd (Ok 1); GEnd (Ok 0); GEnd (Ok 1)] /\ g_made s = 2.
Proof.
  split; [|split; vm_compute; reflexivity]. intros l1 l2 E.
  do 20 (destruct l1 as [|? l1]; [cbn in E; try discriminate E; intros k H _; cbn in H; repeat (destruct H as [<-|H]; [try (eexists; reflexivity); exfalso; discriminate|]); destruct H|
    cbn in E; injection E as <- E]).
  all: destruct l1; discriminate E.
Qed.

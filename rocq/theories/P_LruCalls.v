(** C150: calls of get, setdefault and pop of the recently-used container by several threads are each like one operation.
    Thread i makes the i-th call of [l]; [sched] is any order of their steps. *)
From Verif Require Import PyBase PyDict M_Lru M_LruCalls S_LruCalls L_LruCalls.

(** As long as no two threads use the same key, and there is room for all, every call gives what it gives alone, and its key has the entry it has then. *)
Theorem C150_different_keys_partial : forall (K V : Type) (E : EqDec K) mx (c0 : dict K V) l sched i o r, wf_dict c0 -> NoDup (map key_of l) -> len c0 + len l <= mx -> nth_error l i = Some o -> nth_error (x_at (x_run mx c0 l sched)) i = Some (Gave r) ->
  r = alone_result o (dget (key_of o) c0) /\ dget (key_of o) (x_held (x_run mx c0 l sched)) = alone_after o (dget (key_of o) c0).
Proof. exact as_alone. Qed.
Print Assumptions C150_different_keys_partial.

(** Whatever the threads call, also with the same keys and without room: get and setdefault do not fail, pop fails with nothing but KeyError, setdefault never gives
    the default, and every value given or held was under that key at the beginning or was brought by a call with that key. *)
Theorem C150_results_partial : forall (K V : Type) (E : EqDec K) mx (c0 : dict K V) l sched, wf_dict c0 ->
  (forall i o r, nth_error l i = Some o -> nth_error (x_at (x_run mx c0 l sched)) i = Some (Gave r) -> sensible c0 l o r) /\ (forall k v, dget k (x_held (x_run mx c0 l sched)) = Some v -> comes_from c0 l k v).
Proof. exact any_calls. Qed.
Print Assumptions C150_results_partial.

(** Every call ends after two steps of its thread, whatever the others do; *)
Theorem C150_ends : forall (K V : Type) (E : EqDec K) mx (c0 : dict K V) l sched i o, nth_error l i = Some o -> (2 <= count_occ Nat.eq_dec sched i)%nat -> exists r, nth_error (x_at (x_run mx c0 l sched)) i = Some (Gave r).
Proof. exact all_end. Qed.
Print Assumptions C150_ends.

(** and the size is never exceeded, nor a key held twice. *)
Theorem C150_size : forall (K V : Type) (E : EqDec K) mx (c0 : dict K V) l sched, 0 <= mx -> wf_dict c0 -> len c0 <= mx -> len (x_held (x_run mx c0 l sched)) <= mx /\ wf_dict (x_held (x_run mx c0 l sched)).
Proof. exact size_kept. Qed.
Print Assumptions C150_size.

(** The code violates it for the same key: of two threads that call setdefault each gets its own value, and that of the first has been disposed of; *)
Theorem C150_setdefault_refuted : forall (K V : Type) (E : EqDec K) mx (c0 : dict K V) k v w, dget k c0 = None -> len c0 < mx -> let s := x_run mx c0 [TSetdefault k v; TSetdefault k w] [0; 1; 0; 1]%nat in
  x_at s = [Gave (Ok (Some v)); Gave (Ok (Some w))] /\ x_disposed s = [v] /\ dget k (x_held s) = Some w.
Proof. exact both_set. Qed.
Print Assumptions C150_setdefault_refuted.

(** and pop with a default raises KeyError when another thread pops the same key. *)
Theorem C150_pop_refuted : forall (K V : Type) (E : EqDec K) mx (c0 : dict K V) k v, wf_dict c0 -> dget k c0 = Some v -> x_at (x_run mx c0 [TPop k; TPop k] [0; 1; 0; 1]%nat) = [Gave (Ok (Some v)); Gave (Raise KeyError)].
Proof. exact both_pop. Qed.
Print Assumptions C150_pop_refuted.

(** ** Concrete cases *)
Definition c0 : dict Z Z := [(1, 10); (2, 20)].
Definition calls3 : list (tcall Z Z) := [TSetdefault 1 11; TSetdefault 5 50; TPop 2].
Example C150_hypotheses : wf_dict c0 /\ NoDup (map key_of calls3) /\ len c0 + len calls3 <= 5. Proof. split; [repeat constructor; cbn; intuition discriminate|]. split; [repeat constructor; cbn; intuition discriminate|discriminate]. Qed.
Example C150_case : x_run 5 c0 calls3 [2; 1; 0; 2; 1]%nat = Build_calls [(1, 10); (5, 50)] [20] [Gave (Ok (Some 10)); Gave (Ok (Some 50)); Gave (Ok (Some 20))]. Proof. reflexivity. Qed.
Example C150_setdefault_case : x_run 3 c0 [TSetdefault 7 70; TSetdefault 7 71] [0; 1; 0; 1]%nat = Build_calls [(1, 10); (2, 20); (7, 71)] [70] [Gave (Ok (Some 70)); Gave (Ok (Some 71))]. Proof. reflexivity. Qed.
Example C150_pop_case : x_run 3 c0 [TPop 1; TPop 1] [0; 1; 0; 1]%nat = Build_calls [(2, 20)] [10] [Gave (Ok (Some 10)); Gave (Raise KeyError)]. Proof. reflexivity. Qed.
(** one after the other it is as it should be *)
Example C150_one_by_one : x_at (x_run 3 c0 [TSetdefault 7 70; TSetdefault 7 71] [0; 0; 1; 1]%nat) = [Gave (Ok (Some 70)); Gave (Ok (Some 70))]. Proof. reflexivity. Qed.

(** C147: every mapping method of the recently-used container works, and the values it holds or returns are usable *)
From Verif Require Import PyBase PyDict M_Lru M_LruMap S_LruMap L_LruMap.

(** Reading changes no entry and disposes of nothing; get, in, len and keys give what the entries say. *)
Theorem C147_reading_partial : forall (K V : Type) (E : EqDec K) mx (c : dict K V) o, wf_dict c -> reads o ->
  same_entries c (after_call (mm_do mx c o)) /\ disposed (mm_do mx c o) = [] /\
  match o with
  | CGet k => gives (mm_do mx c o) = Ok (match dget k c with Some v => OVal v | None => ODefault end)
  | CIn k => gives (mm_do mx c o) = Ok (OBool (match dget k c with Some _ => true | None => false end))
  | CLen => gives (mm_do mx c o) = Ok (OLen (length (keys c)))
  | CKeys => gives (mm_do mx c o) = Ok (OKeys (keys c))
  | _ => True
  end.
Proof. exact reading. Qed.
Print Assumptions C147_reading_partial.

(** setdefault of a held key gives the held value; of a new one, if there is room, it holds the new one: no value is disposed of. *)
Theorem C147_setdefault_partial : forall (K V : Type) (E : EqDec K) mx (c : dict K V) k v, wf_dict c ->
  (forall v0, dget k c = Some v0 -> same_entries c (after_call (mm_do mx c (CSetdefault k v))) /\ disposed (mm_do mx c (CSetdefault k v)) = [] /\ gives (mm_do mx c (CSetdefault k v)) = Ok (OVal v0)) /\
  (dget k c = None -> len c < mx -> (forall x, dget x (after_call (mm_do mx c (CSetdefault k v))) = if eq_dec x k then Some v else dget x c) /\ disposed (mm_do mx c (CSetdefault k v)) = [] /\ gives (mm_do mx c (CSetdefault k v)) = Ok (OVal v)).
Proof. exact defaulting. Qed.
Print Assumptions C147_setdefault_partial.

(** update with new keys for which there is room holds all of them beside the old ones, and disposes of nothing. *)
Theorem C147_update_partial : forall (K V : Type) (E : EqDec K) mx l (c : dict K V), wf_dict c -> NoDup (map fst l) -> (forall k, In k (map fst l) -> dget k c = None) -> len c + len l <= mx ->
  disposed (mm_do mx c (CUpdate l)) = [] /\ gives (mm_do mx c (CUpdate l)) = Ok ODone /\
  (forall k v, In (k, v) l -> dget k (after_call (mm_do mx c (CUpdate l))) = Some v) /\ (forall k, ~ In k (map fst l) -> dget k (after_call (mm_do mx c (CUpdate l))) = dget k c).
Proof. exact updating. Qed.
Print Assumptions C147_update_partial.

(** pop takes the entry of the key and no other, and gives its value; of a key that is not held it gives KeyError or the default and changes nothing. *)
Theorem C147_pop_partial : forall (K V : Type) (E : EqDec K) mx (c : dict K V) k o, wf_dict c -> o = CPop k \/ o = CPopOr k ->
  (forall v, dget k c = Some v -> gives (mm_do mx c o) = Ok (OVal v) /\ forall x, dget x (after_call (mm_do mx c o)) = if eq_dec x k then None else dget x c) /\
  (dget k c = None -> gives (mm_do mx c o) = (match o with CPop _ => Raise KeyError | _ => Ok ODefault end) /\ after_call (mm_do mx c o) = c /\ disposed (mm_do mx c o) = []).
Proof. exact popping. Qed.
Print Assumptions C147_pop_partial.

(** Whatever is called, the container never holds more than its size, nor a key twice. *)
Theorem C147_size : forall (K V : Type) (E : EqDec K) mx (l : list (mcall K V)), 0 <= mx -> len (fst (mm_run mx [] l)) <= mx /\ wf_dict (fst (mm_run mx [] l)).
Proof. exact run_size. Qed.
Print Assumptions C147_size.

(** The code violates it: the value that pop gives to its caller has been disposed of, always; *)
Theorem C147_pop_refuted : forall (K V : Type) (E : EqDec K) mx (c : dict K V) k o v, wf_dict c -> o = CPop k \/ o = CPopOr k -> dget k c = Some v -> gives (mm_do mx c o) = Ok (OVal v) /\ disposed (mm_do mx c o) = [v].
Proof. exact pop_disposes. Qed.
Print Assumptions C147_pop_refuted.

(** setting a key to the value it has disposes of the value, which the container goes on holding; *)
Theorem C147_same_value_refuted : forall (K V : Type) (E : EqDec K) mx (c : dict K V) k v, dget k c = Some v -> len c <= mx -> same_entries c (after_call (mm_do mx c (CUpdate [(k, v)]))) /\ disposed (mm_do mx c (CUpdate [(k, v)])) = [v].
Proof. exact same_value. Qed.
Print Assumptions C147_same_value_refuted.

(** and popitem, items, values, == and iteration fail for every content, the empty one too. *)
Theorem C147_walk_refuted : forall (K V : Type) (E : EqDec K) mx (c : dict K V) o, walks o -> gives (mm_do mx c o) = Raise NotImplementedError.
Proof. exact walking. Qed.
Print Assumptions C147_walk_refuted.

(** ** Concrete cases *)
Definition c0 : dict Z Z := [(1, 10); (2, 20)].
Example C147_wf : wf_dict c0. Proof. repeat constructor; cbn; intuition discriminate. Qed.
Example C147_get : mm_do 3 c0 (CGet 1) = ([(2, 20); (1, 10)], [], Ok (OVal 10)). Proof. reflexivity. Qed.
Example C147_in : mm_do 3 c0 (CIn 5) = (c0, [], Ok (OBool false)). Proof. reflexivity. Qed.
Example C147_setdefault : mm_do 3 c0 (CSetdefault 5 50) = ([(1, 10); (2, 20); (5, 50)], [], Ok (OVal 50)). Proof. reflexivity. Qed.
Example C147_setdefault_full : mm_do 2 c0 (CSetdefault 5 50) = ([(2, 20); (5, 50)], [10], Ok (OVal 50)). Proof. reflexivity. Qed.
Example C147_setdefault_none : mm_do 0 ([] : dict Z Z) (CSetdefault 5 50) = ([], [50], Ok (OVal 50)). Proof. reflexivity. Qed.
Example C147_update : mm_do 4 c0 (CUpdate [(3, 30); (4, 40)]) = ([(1, 10); (2, 20); (3, 30); (4, 40)], [], Ok ODone). Proof. reflexivity. Qed.
Example C147_pop : mm_do 3 c0 (CPop 1) = ([(2, 20)], [10], Ok (OVal 10)). Proof. reflexivity. Qed.
Example C147_pop_missing : mm_do 3 c0 (CPop 7) = (c0, [], Raise KeyError). Proof. reflexivity. Qed.
Example C147_same : mm_do 3 c0 (CUpdate [(1, 10)]) = (c0, [10], Ok ODone). Proof. reflexivity. Qed.
Example C147_items : mm_do 3 c0 CItems = (c0, [], Raise NotImplementedError). Proof. reflexivity. Qed.
Example C147_run : mm_run 2 ([] : dict Z Z) [CUpdate [(1, 10); (2, 20); (3, 30)]; CPop 2] = ([(3, 30)], [10; 20]). Proof. reflexivity. Qed.

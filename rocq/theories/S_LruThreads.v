(** What it means for the container and the pool manager to be thread safe: words for C82-C84. *)
From Verif Require Import PyBase PyDict M_Lru M_LruThreads.

(** the operations as single, indivisible operations on the sequential container of M_Lru (C26-C28): the new contents
    and number of pools, the result, and the values that leave the container *)
Definition atom {K} `{EqDec K} (m : Z) (mk : option exn) (o : top K) (c : dict K nat) (n : nat) : dict K nat * nat * res (obs K) * list nat :=
  match o with
  | TGet k => match lru_get c k with (c', Ok v) => (c', n, Ok (OVal v), []) | (c', Raise e) => (c', n, Raise e, []) end
  | TGetOr k => match lru_get c k with (c', Ok v) => (c', n, Ok (OVal v), []) | (c', Raise _) => (c', n, Ok ONone, []) end
  | TSet k v => let '(c', out) := lru_set m c k v in (c', n, Ok ONone, out)
  | TDel k => match lru_del c k with (c', Ok _, out) => (c', n, Ok ONone, out) | (c', Raise e, out) => (c', n, Raise e, out) end
  | TLen => (c, n, Ok (OLen (len c)), [])
  | TKeys => (c, n, Ok (OKeys (keys c)), [])
  | TClear => let '(c', out) := lru_clear c in (c', n, Ok ONone, out)
  | TLookup k =>
      match lru_get c k with
      | (c', Ok v) => (c', n, Ok (OVal v), [])
      | (c', Raise _) => match mk with Some e => (c', n, Raise e, []) | None => let '(c2, out) := lru_set m c' k n in (c2, S n, Ok (OVal n), out) end
      end
  | TPop k => match lru_get c k with (c', Ok v) => (ddel k c', n, Ok (OVal v), [v]) | (c', Raise _) => (c', n, Ok ONone, []) end
  | TSetDefault k v => match lru_get c k with (c', Ok w) => (c', n, Ok (OVal w), []) | (c', Raise _) => let '(c2, out) := lru_set m c' k v in (c2, n, Ok (OVal v), out) end
  end.

(** dispose_func is called for these values, up to the first that raises; the call then raises that *)
Fixpoint attempted (bad : nat -> option exn) (l : list nat) : list nat :=
  match l with [] => [] | v :: r => v :: match bad v with None => attempted bad r | Some _ => [] end end.
Fixpoint outcome {A} (bad : nat -> option exn) (l : list nat) (r : res A) : res A :=
  match l with [] => r | v :: l' => match bad v with None => outcome bad l' r | Some e => Raise e end end.

(** calls of a run: the operation of call i, its result once it has ended, the values it has disposed of *)
Definition called {K} (s : tstate K) (i : nat) (o : top K) : Prop := exists p, nth_error (t_calls s) i = Some (o, p).
Definition ended {K} (s : tstate K) (i : nat) (r : res (obs K)) : Prop := exists o, nth_error (t_calls s) i = Some (o, Done r).
Definition disposed_by {K} (s : tstate K) (i : nat) : list nat := map snd (filter (fun x => Nat.eqb i (fst x)) (t_disposed s)).
Definition ops {K} (s : tstate K) : list (top K) := map fst (t_calls s).
(** all but pop and setdefault *)
Definition simple {K} (o : top K) : bool := match o with TPop _ | TSetDefault _ _ => false | _ => true end.
Definition all_simple {K} (l : list (tevent K)) : Prop := forall o, In (TBegin o) l -> simple o = true.

(** contents and number of pools after doing the calls of [order] one after the other *)
Fixpoint after {K} `{EqDec K} (m : Z) (mk : nat -> option exn) (os : list (top K)) (order : list nat) (c : dict K nat) (n : nat) : dict K nat * nat :=
  match order with
  | [] => (c, n)
  | i :: r => match nth_error os i with Some o => let '(c', n', _, _) := atom m (mk i) o c n in after m mk os r c' n' | None => after m mk os r c n end
  end.
(** call i comes after the calls [pre] in the order; [x] is what it does there *)
Definition does {K} `{EqDec K} (m : Z) (mk : nat -> option exn) (s : tstate K) (pre : list nat) (i : nat) (x : dict K nat * nat * res (obs K) * list nat) : Prop :=
  exists post o c n, t_order s = pre ++ i :: post /\ nth_error (ops s) i = Some o /\ after m mk (ops s) pre [] 0 = (c, n) /\ x = atom m (mk i) o c n.

(** value v has left the container: some call took it out *)
Definition taken_out {K} `{EqDec K} (m : Z) (mk : nat -> option exn) (s : tstate K) (v : nat) : Prop :=
  exists pre j c n r out, does m mk s pre j (c, n, r, out) /\ In v out.
(** all calls are lookups of pools, or do not store anything *)
Definition manager_op {K} (o : top K) : bool := match o with TSet _ _ | TPop _ | TSetDefault _ _ => false | _ => true end.
Definition managed {K} (l : list (tevent K)) : Prop := forall o, In (TBegin o) l -> manager_op o = true.
(** all calls have ended *)
Definition quiet {K} (s : tstate K) : Prop := forall i o p, nth_error (t_calls s) i = Some (o, p) -> exists r, p = Done r.
(** s' comes from s by a step of some call that changes something *)
Definition moves {K} `{EqDec K} m mk bad (s' s : tstate K) : Prop := exists i, s' = tstep m mk bad s (TStep i) /\ s' <> s.

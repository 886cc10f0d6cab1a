(** The recently-used container (mysockpool/recently_used_container.py:51-95) with any dispose_func, over the methods of M_Lru. One thread;
    dispose_func does not use the container itself. [fails n v] says whether its n-th call, with v, raises. *)
From Verif Require Import PyBase PyDict M_Lru.

(** the calls of dispose_func for the values [vs] one after the other, as in the loop of 93-95: the first that raises ends it. [log] are the values
    passed before. *)
Fixpoint pass_all {V} (fails : nat -> V -> option exn) (log vs : list V) : list V * res unit :=
  match vs with
  | [] => (log, Ok tt)
  | v :: r => match fails (length log) v with None => pass_all fails (log ++ [v]) r | Some e => (log ++ [v], Raise e) end
  end.
(** One call: what is held and has been passed to dispose_func afterwards, and the result. 70-71, 77-78 and 93-95 come after the change.
    [has]: whether there is a dispose_func *)
Definition f_do {K V} {E : EqDec K} (mx : Z) (has : bool) (fails : nat -> V -> option exn) (c : dict K V) (log : list V) (o : lop K V) : dict K V * list V * res unit :=
  let pass d := if has then pass_all fails log d else (log, Ok tt) in
  match o with
  | LGet k => let '(c1, r) := lru_get c k in (c1, log, let! _ := r in Ok tt)
  | LSet k v => let '(c1, d) := lru_set mx c k v in let '(log1, r) := pass d in (c1, log1, r)
  | LDel k => let '(c1, r, d) := lru_del c k in match r with Ok _ => let '(log1, r1) := pass d in (c1, log1, r1) | Raise e => (c1, log, Raise e) end
  | LClear => let '(c1, d) := lru_clear c in let '(log1, r) := pass d in (c1, log1, r)
  end.
(** A history: what is held, what was passed to dispose_func, and the operations with their results *)
Definition f_step {K V} {E : EqDec K} (mx : Z) (has : bool) (fails : nat -> V -> option exn) (s : dict K V * list V * list (lop K V * res unit)) (o : lop K V) :=
  let '(c, log, tr) := s in let '(c1, log1, r) := f_do mx has fails c log o in (c1, log1, tr ++ [(o, r)]).
Definition f_run {K V} {E : EqDec K} (mx : Z) (has : bool) (fails : nat -> V -> option exn) (ops : list (lop K V)) : dict K V * list V * list (lop K V * res unit) :=
  fold_left (f_step mx has fails) ops ([], [], []).

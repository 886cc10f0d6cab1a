(** Model of the rest of mytracer: the arguments of start_span, the times of a span, comparison of ids.
    mytracer/tracer.py, span.py, _rpc_id.py, _trace_id.py. *)
From Verif Require Import PyBase PyDict PyInt M_RpcId M_Trace.

(** _rpc_id.py:79-84 [RpcId.__eq__] for another RpcId; an int and a str are never equal *)
Definition seg_eqb (x y : seg) : bool :=
  match x, y with
  | SInt a, SInt b => a =? b
  | SStr a, SStr b => pystr_eqb a b
  | _, _ => false
  end.
Definition rpcid_eqb (a b : list seg) : bool :=
  if Nat.eqb (length a) (length b) then forallb (fun xy => seg_eqb (fst xy) (snd xy)) (combine a b) else false.

(** the argument child_of of start_span: nothing, a span, a span context, or any other object *)
Inductive parent_arg := NoParent | ParentSpan (s : nat) | ParentContext (c : nat) | OtherParent.
(** the argument references: nothing, one Reference, or a list of them *)
Inductive refs_arg := NoRefs | OneRef (t : reftype) (c : nat) | RefList (l : list (reftype * nat)).

(** tracer.py:84-91: the reference that is used *)
Definition choose_ref (st : tstate) (parent : parent_arg) (refs : refs_arg) : res (option (reftype * nat)) :=
  match parent with
  | ParentContext c => Ok (Some (ChildOf, c))
  | ParentSpan s => match nth_error (t_spans st) s with
                    | Some sp => Ok (Some (ChildOf, sp_ctx sp))
                    | None => Raise AttributeError
                    end
  | NoParent | OtherParent =>
      match refs with
      | OneRef t c => Ok (Some (t, c))
      | RefList (r :: _) => Ok (Some r)
      | RefList [] | NoRefs => Ok None
      end
  end.

(** tracer.py:45-104 [start_span] from its arguments; the start time is in [born] *)
Definition start_span_args (U : tables) (st : tstate) (name : pystr) (parent : parent_arg) (refs : refs_arg)
    (tags : dict pystr pyobj) (fresh : pystr) : tstate * res nat :=
  match choose_ref st parent refs with
  | Raise e => (st, Raise e)
  | Ok ref => start_span U st name ref tags fresh
  end.

(** span.py:28-35: the times of a span. Times are integers (of any unit); the clock is a parameter. *)
Record times := { x_start : Z; x_finish : option Z }.

(** span.py:33-34 with tracer.py:101-102 [if start_time]: a span made at clock reading [now] *)
Definition born (now : Z) (start_time : option Z) : times :=
  {| x_start := match start_time with Some t => if t =? 0 then now else t | None => now end; x_finish := None |}.

(** what is done with a span: span.py:57-58 set_start_time, 60-61 finish, 63-65 __enter__, 67-68 __exit__,
    each at a clock reading. __exit__ returns None, whether or not the block raised. *)
Inductive sop := SetStart (t : Z) | Finish | Enter | Exit (raised : bool).
Definition sstep (s : times) (e : Z * sop) : times :=
  let (now, o) := e in
  match o with
  | SetStart t => {| x_start := t; x_finish := x_finish s |}
  | Finish | Exit _ => {| x_start := x_start s; x_finish := Some now |}
  | Enter => {| x_start := now; x_finish := x_finish s |}
  end.
Definition srun (s : times) (l : list (Z * sop)) : times := fold_left sstep l s.

(** Model of mytracer/_rpc_id.py and mytracer/_trace_id.py. *)
From Verif Require Import PyBase PyInt M_RequestId.

(** one element of [RpcId.rpcids] *)
Inductive seg := SInt (z : Z) | SStr (s : pystr).

(** _rpc_id.py:37-41 [_innertrans] *)
Definition innertrans (U : tables) (x : seg) : seg :=
  match x with
  | SInt z => SInt z
  | SStr s => match parse_int U s with Some z => SInt z | None => SStr s end
  end.

(** _rpc_id.py:27-45 [RpcId( *rpcids).rpcids] *)
Definition mk_rpcid (U : tables) (l : list seg) : res (list seg) :=
  match l with
  | [] => Ok [SInt 1]
  | _ => let ids := map (innertrans U) l in
         match last ids (SInt 1) with SInt _ => Ok ids | SStr _ => Raise TypeError end
  end.

(** [str(x)] of an element, and _rpc_id.py:50-51 [__str__] *)
Definition seg_str (x : seg) : pystr := match x with SInt z => str_int z | SStr s => s end.
Definition rpcid_str (ids : list seg) : pystr := join_dot (map seg_str ids).

(** the RpcId objects of the process, by index; _rpc_id.py:43-48 *)
Record rpcobj := { r_ids : list seg; r_count : Z; r_parent : option nat }.

(** [obj._child_count += 1] on object [i] *)
Fixpoint bump (i : nat) (h : list rpcobj) : list rpcobj :=
  match h, i with
  | [], _ => []
  | o :: h', O => {| r_ids := r_ids o; r_count := r_count o + 1; r_parent := r_parent o |} :: h'
  | o :: h', S i' => o :: bump i' h'
  end.

(** the two opentracing reference types *)
Inductive reftype := ChildOf | FollowsFrom.

(** _rpc_id.py:55-66 [extend_id], [_new_child_of]. The counter is incremented before the new id is built. *)
Definition new_child_of (U : tables) (h : list rpcobj) (i : nat) : list rpcobj * res nat :=
  match nth_error h i with
  | None => (h, Raise AttributeError)
  | Some o =>
      let h' := bump i h in
      match mk_rpcid U (r_ids o ++ [SInt (r_count o + 1)]) with
      | Ok ids => (h' ++ [{| r_ids := ids; r_count := 0; r_parent := Some i |}], Ok (length h))
      | Raise e => (h', Raise e)
      end
  end.

(** _rpc_id.py:68-74 [_new_follows_from] *)
Definition new_follows_from (U : tables) (h : list rpcobj) (i : nat) : list rpcobj * res nat :=
  match nth_error h i with
  | None => (h, Raise AttributeError)
  | Some o =>
      match last (r_ids o) (SStr []) with
      | SStr _ => (h, Raise TypeError)                     (* str + int *)
      | SInt z =>
          match mk_rpcid U (removelast (r_ids o) ++ [SInt (z + 1)]) with
          | Raise e => (h, Raise e)
          | Ok ids =>
              let h' := match r_parent o with Some p => bump p h | None => h end in
              (h' ++ [{| r_ids := ids; r_count := 0; r_parent := r_parent o |}], Ok (length h))
          end
      end
  end.

(** _rpc_id.py:76-77 [new_by_reference_type] *)
Definition new_by_reference_type (U : tables) (h : list rpcobj) (i : nat) (t : reftype) : list rpcobj * res nat :=
  match t with ChildOf => new_child_of U h i | FollowsFrom => new_follows_from U h i end.

(** _trace_id.py:34 [_sequence] *)
Definition trace_sequence : cycle := cycle_init [(1000, 9001)].

(** _trace_id.py:38-42: the text of a generated trace id from the IPv4 address as an integer, the
    time in milliseconds, the sequence number and the process id *)
Definition trace_text (ip ts sq pid : Z) : pystr := hex8 ip ++ str_int ts ++ str_int sq ++ str_int pid.

(** the n-th trace id generated by a process; [ts n] is the clock reading at that moment *)
Definition process_trace (ip pid : Z) (ts : nat -> Z) (n : nat) : option pystr :=
  option_map (fun sq => trace_text ip (ts n) sq pid) (cycle_draw trace_sequence n).

(** Comparing trace ids and rpc ids with == and != and keeping them in lists, dictionaries and sets: mytracer/_trace_id.py:46-54,
    mytracer/_rpc_id.py:79-84. Classes are numbers; [sub c d]: c is d or derived from it. Classes that an application derives from
    TraceId and RpcId are taken to define no comparison of their own. *)
From Verif Require Import PyBase PyDict PyInt M_RpcId M_Span.
Open Scope nat_scope.

Definition C_TRACE : nat := 0.
Definition C_RPC : nat := 1.
Definition hierarchy := nat -> nat -> bool.
Inductive idval := VTrace (t : pystr) | VRpc (ids : list seg).
(** an id, or any other object; [answer v]: what its __eq__ says about an id with the value v, None for NotImplemented *)
Inductive obj := OId (c : nat) (v : idval) | OForeign (c : nat) (answer : idval -> option bool).
Definition class_of (x : obj) : nat := match x with OId c _ | OForeign c _ => c end.

(** _trace_id.py:51-54 and _rpc_id.py:79-84 [__eq__]: [self] an id of class c and value v. The attribute of an object that
    does not have it is an AttributeError. *)
Definition id_eq (sub : hierarchy) (c : nat) (v : idval) (other : obj) : res bool :=
  if negb (sub (class_of other) c) then Ok false
  else match v, other with
       | VTrace t, OId _ (VTrace t') => Ok (pystr_eqb t t')
       | VRpc l, OId _ (VRpc l') => Ok (rpcid_eqb l l')
       | _, _ => Raise AttributeError
       end.
(** what x.__eq__(y) gives; two objects that are not ids are not looked at *)
Definition ask_eq (sub : hierarchy) (x y : obj) : res (option bool) :=
  match x, y with
  | OId c v, _ => let! b := id_eq sub c v y in Ok (Some b)
  | OForeign _ f, OId _ v => Ok (f v)
  | OForeign _ _, OForeign _ _ => Ok None
  end.
(** x == y in Python 3: the right operand is asked first if its class is derived from the class of the left one; an operand
    that answers NotImplemented leaves the decision to the other one; objects that both do so are compared by identity, which is
    false for the operands of which at least one is an id *)
Definition py_eq (sub : hierarchy) (x y : obj) : res bool :=
  let right_first := negb (Nat.eqb (class_of x) (class_of y)) && sub (class_of y) (class_of x) in
  let first := if right_first then ask_eq sub y x else ask_eq sub x y in
  let! a := first in
  match a with
  | Some b => Ok b
  | None => let! a2 := (if right_first then ask_eq sub x y else ask_eq sub y x) in
            match a2 with Some b => Ok b | None => Ok false end
  end.
(** x != y: neither class defines __ne__, so object.__ne__ inverts what __eq__ says *)
Definition py_ne (sub : hierarchy) (x y : obj) : res bool := let! b := py_eq sub x y in Ok (negb b).
(** [x in l] for a list l: == with one member after the other *)
Fixpoint py_in (sub : hierarchy) (x : obj) (l : list obj) : res bool :=
  match l with
  | [] => Ok false
  | y :: l' => let! b := py_eq sub y x in if b then Ok true else py_in sub x l'
  end.

(** What a class body defines. A body with __eq__ and without __hash__ sets __hash__ to None (Python language reference 3.3.1). *)
Record body := { b_eq : bool; b_hash : bool }.
Definition trace_body : body := {| b_eq := true; b_hash := false |}.   (* _trace_id.py:33-54 *)
Definition rpc_body : body := {| b_eq := true; b_hash := false |}.     (* _rpc_id.py:26-84 *)
Definition object_body : body := {| b_eq := true; b_hash := true |}.
(** hash(x) for an object whose class and base classes have these bodies, in the order of lookup: can it be computed? *)
Fixpoint py_hash (mro : list body) : res unit :=
  match mro with
  | [] => Raise TypeError
  | b :: rest => if b_hash b then Ok tt else if b_eq b then Raise TypeError else py_hash rest
  end.
(** s.add(x), d[x] = v and d[x] begin with hash(x) *)
Definition as_key {A} (mro : list body) (k : res A) : res A := let! _ := py_hash mro in k.

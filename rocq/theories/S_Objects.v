(** What C132 says about the objects that serve requests (M_Objects). *)
From Coq Require Import Strings.String.
From Verif Require Import PyBase PyDict M_Service M_Objects.
Open Scope nat_scope.

(** no keyword argument is called self, interface or service_cls *)
Definition acceptable (kw : dict pystr value) : Prop := forall x, In x (keys kw) -> x <> str "self" /\ x <> str "interface" /\ x <> str "service_cls".
(** the last registration of the interface: l ends with other steps after it *)
Definition in_force (sv : pystr) (l : list ostep) (k : pycls) (args : list value) (kw : dict pystr value) : Prop :=
  exists l1 l2, l = l1 ++ ORegister sv k args kw :: l2 /\ acceptable kw /\ forall k' args' kw', In (ORegister sv k' args' kw') l2 -> ~ acceptable kw'.
(** the n-th request of the list *)
Definition requests (l : list ostep) : list (pystr * value) := flat_map (fun o => match o with ORequest sv ctx => [(sv, ctx)] | _ => [] end) l.
(** what request r assigned to the variable last *)
Fixpoint assigned (r : nat) (x : pystr) (l : list ostep) : option value :=
  match l with
  | [] => None
  | o :: l' => match assigned r x l' with
               | Some v => Some v
               | None => match o with OSet r' x' v => if Nat.eqb r' r && pystr_eqb x' x then Some v else None | _ => None end
               end
  end.
(** the object on which the method of request r is called *)
Definition object_of (s : ost) (r o : nat) : Prop := exists q, nth_error (o_reqs s) r = Some q /\ q_pc q = QCall o.

(** Service classes and what a name from the network finds on their objects. *)
From Coq Require Import Strings.String.
From Verif Require Import PyBase PyDict M_AioServer M_SockServer.
Open Scope Z_scope.

(** A subclass of BaseService (anthunder/listener/base_listener.py:29-38): the functions that it, or a class between it and
    BaseService, defines and what they do with their argument and context (None: not return); the variables that its
    constructor sets besides [ctx], whose values cannot be called (simplification); what its constructor raises, if anything. *)
Record pyclass := { k_methods : list pystr; k_does : pystr -> bytes -> nat -> option (res pyobj); k_variables : list pystr; k_raises : option exn }.

(** What every object has through [object] and its class besides __init__ (CPython 3.8). *)
Definition object_names : list pystr := map str
  ["__class__"; "__delattr__"; "__dict__"; "__dir__"; "__doc__"; "__eq__"; "__format__"; "__ge__"; "__getattribute__"; "__gt__"; "__hash__"; "__init_subclass__"; "__le__"; "__lt__"; "__module__"; "__ne__";
   "__new__"; "__reduce__"; "__reduce_ex__"; "__repr__"; "__setattr__"; "__sizeof__"; "__str__"; "__subclasshook__"; "__weakref__"]%string.
(** those of them that return NotImplemented when called with a bytes object *)
Definition not_implemented : list pystr := map str ["__eq__"; "__ge__"; "__gt__"; "__le__"; "__lt__"; "__ne__"; "__subclasshook__"]%string.
Definition has (m : pystr) (l : list pystr) : bool := existsb (pystr_eqb m) l.

Inductive attr := AVariable | AMethod | AInit | AObject.
(** [getattr(svc_obj, method)], aio_listener.py:69, sock_listener.py:55: variables of the object, functions of its class and
    its bases, base_listener.py:37 [BaseService.__init__], attributes of [object]; None: AttributeError *)
Definition getattr (k : pyclass) (m : pystr) : option attr :=
  if has m (str "ctx" :: k_variables k) then Some AVariable
  else if has m (k_methods k) then Some AMethod
  else if pystr_eqb m (str "__init__") then Some AInit
  else if has m object_names then Some AObject
  else None.
(** [func(body)], aio_listener.py:74, sock_listener.py:60. __init__ (base_listener.py:37-38) assigns body to ctx; __class__ makes
    another object; the rest of [object] either returns NotImplemented, an object that counts as true, or raises TypeError:
    wrong number or type of arguments, or not callable *)
Definition called (k : pyclass) (m : pystr) (body : bytes) (ctx : nat) : option (res pyobj) :=
  match getattr k m with
  | Some AVariable => Some (Raise TypeError)
  | Some AMethod => k_does k m body ctx
  | Some AInit => Some (Ok PNone)
  | Some AObject => if pystr_eqb m (str "__class__") then Some (Ok (POther 1 true)) else if has m not_implemented then Some (Ok (POther 2 true)) else Some (Raise TypeError)
  | None => Some (Raise AttributeError)
  end.
(** a class as [find_method] (M_AioServer) sees it *)
Definition service_of (k : pyclass) : service := {| sv_raises := k_raises k; sv_methods := fun m => match getattr k m with Some _ => true | None => false end |}.
(** classes registered under names, and what calling their methods does, for M_SockServer *)
Definition registry_of (l : dict pystr pyclass) : registry := map (fun nk => (fst nk, service_of (snd nk))) l.
Definition methods_of (l : dict pystr pyclass) : methods := fun sv m body ctx => match dget sv l with Some k => called k m body ctx | None => Some (Raise NoProcessorError) end.

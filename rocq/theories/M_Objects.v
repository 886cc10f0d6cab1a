(** The objects that serve requests: registration of classes with arguments, construction, variables. Both listeners. *)
From Coq Require Import Strings.String.
From Verif Require Import PyBase PyDict M_AioServer M_Service.
Open Scope nat_scope.

(** a Python object by its identity; only being the same matters here *)
Definition value := nat.
(** A service class: what calling it with these positional and keyword arguments leaves in the variables of the new object,
    or the exception it raises. Arbitrary code of the application. *)
Record pycls := { c_id : nat; c_make : list value -> dict pystr value -> res (dict pystr value) }.
(** aio_listener.py:89-93, sock_listener.py:72-76 [service_cls_wrapper]: the class, or a function that keeps the arguments *)
Inductive factory := FClass (k : pycls) | FWrapped (k : pycls) (args : list value) (kwargs : dict pystr value).
(** [register_interface(i, k, *args, **kw)]: aio_listener.py:78-94, sock_listener.py:62-77. A keyword with the name of a
    parameter of register_interface itself is a second value for it: TypeError, before anything is done. *)
Definition own_parameters : list pystr := map str ["self"; "interface"; "service_cls"]%string.
Definition is_empty {A} (l : list A) : bool := match l with [] => true | _ => false end.
Definition register_interface (i : pystr) (k : pycls) (args : list value) (kw : dict pystr value) (m : dict pystr factory) : res (dict pystr factory) :=
  if existsb (fun x => has x own_parameters) (keys kw) then Raise TypeError
  else Ok (dset i (if negb (is_empty args) || negb (is_empty kw) then FWrapped k args kw else FClass k) m).
(** [ServiceCls(spanctx)], aio_listener.py:68, sock_listener.py:54: the arguments that the class is called with *)
Definition arguments (f : factory) (ctx : value) : pycls * list value * dict pystr value :=
  match f with FClass k => (k, [ctx], []) | FWrapped k args kw => (k, ctx :: args, kw) end.

(** a request in [handle_request], aio_listener.py:59-76, sock_listener.py:46-60: about to look up the class, about to call it,
    its method being called on the object o, or over *)
Inductive qpc := QFind | QMake (f : factory) | QCall (o : nat) | QEnd (e : exn).
Record oreq := { q_name : pystr; q_ctx : value; q_pc : qpc }.
Record ost := { o_map : dict pystr factory; o_objects : list (dict pystr value); o_reqs : list oreq; o_made : list (nat * nat * list value * dict pystr value) }.
Definition o_init : ost := {| o_map := []; o_objects := []; o_reqs := []; o_made := [] |}.
Inductive ostep :=
| ORegister (i : pystr) (k : pycls) (args : list value) (kw : dict pystr value)
| ORequest (sv : pystr) (ctx : value)
| OFind (r : nat) | OMake (r : nat)
(** the method called for request r assigns to a variable of its object *)
| OSet (r : nat) (x : pystr) (v : value).
Definition goto (r : nat) (p : qpc) (s : ost) : ost :=
  {| o_map := o_map s; o_objects := o_objects s; o_reqs := upd r (fun q => {| q_name := q_name q; q_ctx := q_ctx q; q_pc := p |}) (o_reqs s); o_made := o_made s |}.
(** Requests are handled by the loop or by handler threads, classes are registered by other threads: one dict operation, one
    construction, one assignment is a step. *)
Definition o_step (o : ostep) (s : ost) : ost :=
  match o with
  | ORegister i k args kw =>
      match register_interface i k args kw (o_map s) with
      | Ok m => {| o_map := m; o_objects := o_objects s; o_reqs := o_reqs s; o_made := o_made s |}
      | Raise _ => s
      end
  | ORequest sv ctx => {| o_map := o_map s; o_objects := o_objects s; o_reqs := o_reqs s ++ [{| q_name := sv; q_ctx := ctx; q_pc := QFind |}]; o_made := o_made s |}
  | OFind r =>
      match nth_error (o_reqs s) r with
      | Some q => match q_pc q with
                  | QFind => match dget (q_name q) (o_map s) with Some f => goto r (QMake f) s | None => goto r (QEnd NoProcessorError) s end
                  | _ => s
                  end
      | None => s
      end
  | OMake r =>
      match nth_error (o_reqs s) r with
      | Some q =>
          match q_pc q with
          | QMake f =>
              let '(k, args, kw) := arguments f (q_ctx q) in
              let s := {| o_map := o_map s; o_objects := o_objects s; o_reqs := o_reqs s; o_made := o_made s ++ [(r, c_id k, args, kw)] |} in
              match c_make k args kw with
              | Ok vars => let s := goto r (QCall (List.length (o_objects s))) s in {| o_map := o_map s; o_objects := o_objects s ++ [vars]; o_reqs := o_reqs s; o_made := o_made s |}
              | Raise e => goto r (QEnd e) s
              end
          | _ => s
          end
      | None => s
      end
  | OSet r x v =>
      match nth_error (o_reqs s) r with
      | Some q => match q_pc q with
                  | QCall o => {| o_map := o_map s; o_objects := upd o (dset x v) (o_objects s); o_reqs := o_reqs s; o_made := o_made s |}
                  | _ => s
                  end
      | None => s
      end
  end.
Definition o_run (l : list ostep) : ost := fold_left (fun s o => o_step o s) l o_init.
(** what the method called for request r finds in a variable of its object *)
Definition seen (s : ost) (r : nat) (x : pystr) : option value :=
  match nth_error (o_reqs s) r with
  | Some q => match q_pc q with QCall o => match nth_error (o_objects s) o with Some d => dget x d | None => None end | _ => None end
  | None => None
  end.

(** Property theorems C132: the objects that serve requests (M_Objects). "For all l" is for every order in which threads
    register classes, requests arrive and are handled and methods assign to the variables of their objects. *)
From Coq Require Import Strings.String.
From Verif Require Import PyBase PyDict M_Service M_Objects S_Objects L_Objects.
Open Scope nat_scope.

(** ** C132 *)
(** [o_made]: the calls of service classes, each with the request it is made for. The class called, and its arguments, are
    those of the last registration before the request looked it up, after the context of the request. *)
Theorem C132_constructed_as_registered_partial : forall l r c args kw, In (r, c, args, kw) (o_made (o_run l)) ->
  exists l1 l2 l3 sv ctx k a, l = l1 ++ OFind r :: l2 ++ OMake r :: l3 /\ nth_error (requests l) r = Some (sv, ctx) /\ in_force sv l1 k a kw /\ c = c_id k /\ args = ctx :: a.
Proof. exact made_with. Qed.
Print Assumptions C132_constructed_as_registered_partial.

(** once for each request *)
Theorem C132_constructed_once : forall l r, List.length (filter (fun x => Nat.eqb (fst (fst (fst x))) r) (o_made (o_run l))) <= 1.
Proof. exact made_once. Qed.
Print Assumptions C132_constructed_once.

Theorem C132_own_object : forall l r r' o, object_of (o_run l) r o -> object_of (o_run l) r' o -> r = r'.
Proof. exact own_object. Qed.
Print Assumptions C132_own_object.

(** what a method finds in a variable of its object is what it assigned itself, or what the class put there *)
Theorem C132_own_variables : forall l r o, object_of (o_run l) r o -> exists l1 l2 k args kw vars, l = l1 ++ OMake r :: l2 /\ In (r, c_id k, args, kw) (o_made (o_run l)) /\ c_make k args kw = Ok vars /\
  forall x, seen (o_run l) r x = match assigned r x l2 with Some v => Some v | None => dget x vars end.
Proof. exact own_variables. Qed.
Print Assumptions C132_own_variables.

(** only an interface that was not registered before is refused (unless the constructor itself refuses it) *)
Theorem C132_only_unregistered_refused : forall l r q, nth_error (o_reqs (o_run l)) r = Some q -> q_pc q = QEnd NoProcessorError -> (forall i k a kw args kwargs, In (ORegister i k a kw) l -> c_make k args kwargs <> Raise NoProcessorError) ->
  exists l1 l2, l = l1 ++ OFind r :: l2 /\ forall k a kw, In (ORegister (q_name q) k a kw) l1 -> ~ acceptable kw.
Proof. exact refused. Qed.
Print Assumptions C132_only_unregistered_refused.

(** any arguments can be given, except under three names *)
Theorem C132_registration_partial : forall i k a kw m, acceptable kw -> exists f, register_interface i k a kw m = Ok (dset i f m) /\ forall ctx, arguments f ctx = (k, ctx :: a, kw).
Proof. exact registration. Qed.
Print Assumptions C132_registration_partial.

(** a service class whose constructor takes an argument called self, interface or service_cls cannot be given it by name *)
Theorem C132_names_refuted : forall i k a kw m, (exists x, In x (keys kw) /\ In x (map str ["self"; "interface"; "service_cls"]%string)) -> register_interface i k a kw m = Raise TypeError.
Proof. exact taken_names. Qed.
Print Assumptions C132_names_refuted.

(** a class with a name and a counter; it is registered, then registered again with other arguments while a request that has
    looked it up has not called it yet; two requests, each counting in its own object; an interface without registration *)
Definition k132 : pycls := {| c_id := 5; c_make := fun args kw => match args with ctx :: n :: _ => Ok ([(str "ctx", ctx); (str "name", n); (str "count", 0)] ++ kw) | _ => Raise TypeError end |}.
Definition l132 : list ostep :=
  [ORegister (str "svc") k132 [70] [(str "color", 8)]; ORequest (str "svc") 100; ORequest (str "svc") 200; ORequest (str "other") 300; ORequest (str "bare") 400;
   OFind 0; ORegister (str "svc") k132 [71] []; ORegister (str "svc") k132 [72] [(str "interface", 9)]; ORegister (str "bare") k132 [] []; OFind 1; OFind 2; OFind 3; OMake 0; OMake 1; OMake 3;
   OSet 0 (str "count") 1; OSet 1 (str "count") 5; OSet 0 (str "count") 2; OSet 1 (str "ctx") 9].
Example C132_case : o_made (o_run l132) = [(0, 5, [100; 70], [(str "color", 8)]); (1, 5, [200; 71], []); (3, 5, [400], [])] /\
  map q_pc (o_reqs (o_run l132)) = [QCall 0; QCall 1; QEnd NoProcessorError; QEnd TypeError] /\
  map (fun r => map (seen (o_run l132) r) (map str ["ctx"; "name"; "count"; "color"]%string)) [0; 1] = [[Some 100; Some 70; Some 2; Some 8]; [Some 9; Some 71; Some 5; None]].
Proof. repeat split; vm_compute; reflexivity. Qed.
Example C132_objects : (forall i k a kw args kwargs, In (ORegister i k a kw) l132 -> c_make k args kwargs <> Raise NoProcessorError) /\
  object_of (o_run l132) 0 0 /\ object_of (o_run l132) 1 1 /\ acceptable [(str "color", 8)] /\ in_force (str "svc") (firstn 9 l132) k132 [71] [].
Proof.
  split; [intros i k a kw args kwargs H; assert (E : k = k132) by (repeat (destruct H as [H|H]; [try discriminate H; injection H as _ <- _ _; reflexivity|]); destruct H); subst k; destruct args as [|x [|y z]]; discriminate|].
  split; [eexists; split; [vm_compute; reflexivity|reflexivity]|]. split; [eexists; split; [vm_compute; reflexivity|reflexivity]|]. split; [intros x [<-|[]]; repeat split; discriminate|].
  exists (firstn 6 l132), (skipn 7 (firstn 9 l132)). split; [reflexivity|]. split; [intros x []|]. intros k a kw [H|[H|[]]]; [|discriminate]. injection H as <- <- <-. intros A. destruct (A (str "interface")) as (_ & N & _); [left; reflexivity|]. congruence.
Qed.

(** Property theorems C145: the registrations of a process. [ans n] is what the mesh agent answers to the n-th post of the
    process, [l] what the process does. *)
From Coq Require Import Strings.String.
From Verif Require Import PyBase PyDict PyInt M_Mesh S_Mesh L_Mesh M_Register S_Register L_Register.
Open Scope nat_scope.

(** The claim asks for one registration. Instead there is one for every client and listener, also after one was accepted. What
    holds is that each describes the application as it was given, leaving out what is empty, in the same way for clients and listeners. *)
Theorem C145_one_each_refuted : forall ans l, registrations (r_posts (r_run ans l)) = map described (constructors l).
Proof. exact one_each. Qed.
Print Assumptions C145_one_each_refuted.

(** whether an object works with the mesh depends on the answer to its own registration only, once and for all *)
Theorem C145_own_answer_partial : forall ans l1 o g l2, o = RClient g \/ o = RListener g -> let i := List.length (constructors l1) in
  exists m, nth_error (r_objs (r_run ans (l1 ++ o :: l2))) i = Some m /\ (m <> None <-> accepted (ans (List.length (r_posts (r_run ans l1))))).
Proof. exact own_answer. Qed.
Print Assumptions C145_own_answer_partial.

(** and if it does not, it never posts anything *)
Theorem C145_use_partial : forall ans l i u m, nth_error (r_objs (r_run ans l)) i = Some m ->
  (m = None -> r_posts (r_run ans (l ++ [RUse i u])) = r_posts (r_run ans l)) /\
  (m <> None -> exists q, r_posts (r_run ans (l ++ [RUse i u])) = r_posts (r_run ans l) ++ [q] /\ registrations [q] = []).
Proof. exact use_iff. Qed.
Print Assumptions C145_use_partial.

(** ** Concrete cases: a client that is refused, a listener that is accepted, another client, for the same application *)
Definition shop : given := {| g_app := JStr (str "shop"); g_center := None; g_zone := Some (JStr []); g_registry := None; g_cloud := Some (JBool true); g_access := Some (JStr (str "k")); g_secret := None |}.
Definition agent (n : nat) : answer := match n with 0 => Answer 500 None | _ => Answer 200 (Some (JObj [(str "success", JBool true)])) end.
Definition day : list rop := [RClient shop; RListener shop; RUse 0 (USub (str "a")); RUse 1 (UPub 80 (str "shop") (str "b")); RClient shop].
Example C145_case : map (fun m => match m with Some _ => true | None => false end) (r_objs (r_run agent day)) = [false; true; true] /\
  map fst (r_posts (r_run agent day)) = [EP_app; EP_app; EP_pub; EP_app] /\
  described shop = JObj [(str "appName", JStr (str "shop")); (str "accessKey", JStr (str "k")); (str "antShareCloud", JBool true)] /\
  registrations (r_posts (r_run agent day)) = [described shop; described shop; described shop].
Proof. vm_compute. repeat split. Qed.

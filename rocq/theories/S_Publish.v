(** Specification vocabulary for C125: what the mesh agent has been told, and accepted, about an interface. Nothing but the posts
    of the process and their answers is looked at. *)
From Coq Require Import Strings.String.
From Verif Require Import PyBase PyDict PyInt M_Mesh S_Mesh M_Publish.

(** a publication or revocation of interface s *)
Definition about (x : post) (s : pystr) : Prop :=
  In (fst x) [str "services/publish"; str "services/unpublish"] /\ exists d, snd x = JObj d /\ dget (str "serviceName") d = Some (JStr s).
(** x is the last post about s that the agent accepted *)
Definition latest (ans : nat -> answer) (log : list post) (s : pystr) (x : post) : Prop :=
  exists n, nth_error log n = Some x /\ about x s /\ accepted (ans n) /\
    forall n' y, (n < n')%nat -> nth_error log n' = Some y -> about y s -> ~ accepted (ans n').
(** the agent knows s as served on this port by this application *)
Definition known (ans : nat -> answer) (log : list post) (s : pystr) (port : Z) (app : pystr) : Prop :=
  exists d m, latest ans log s (str "services/publish", JObj d) /\ dget (str "port") d = Some (JStr (str_int port)) /\
    dget (str "providerMetaInfo") d = Some (JObj m) /\ dget (str "appName") m = Some (JStr app).
Definition unknown (ans : nat -> answer) (log : list post) (s : pystr) : Prop := forall x, latest ans log s x -> fst x <> str "services/publish".

(** the i-th listener of the process was made with this port and application, and the agent accepted (or not) the registration of
    the application that its constructor sends *)
Definition news (l : list pop) : nat := List.length (filter (fun o => match o with New _ _ _ => true | _ => false end) l).
Definition made (ans : nat -> answer) (l : list pop) (i : nat) (port : Z) (app : pystr) (ok : Prop) : Prop :=
  exists l1 info l2, l = l1 ++ New port app info :: l2 /\ news l1 = i /\ (accepted (ans (List.length (p_log (p_run ans l1)))) <-> ok).

(** Specification vocabulary for the mesh properties. *)
From Coq Require Import Strings.String.
From Verif Require Import PyBase PyDict M_Mesh.

(** the agent accepted the request: HTTP 200 and a JSON object with "success": true *)
Definition accepted (a : answer) : Prop :=
  exists d, a = Answer 200 (Some (JObj d)) /\ dget (str "success") d = Some (JBool true).

(** the n-th POST of the process *)
Definition posted (log : list post) (n : nat) (endpoint : pystr) (doc : json) : Prop := nth_error log n = Some (endpoint, doc).

(** a registration accepted at or after position [from] *)
Definition registered (ans : nat -> answer) (from : nat) (log : list post) : Prop :=
  exists n doc, (from <= n)%nat /\ posted log n (str "configs/application") doc /\ accepted (ans n).

(** an unsubscription of [inf] accepted at or after position [from] *)
Definition unsubscribed (ans : nat -> answer) (from : nat) (log : list post) (inf : pystr) : Prop :=
  exists n, (from <= n)%nat /\ posted log n (str "services/unsubscribe") (JObj [(str "serviceName", JStr inf)]) /\ accepted (ans n).

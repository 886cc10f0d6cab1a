(** What C138 says about making a pool. *)
From Verif Require Import PyBase PyDict M_ConnPool.

(** the limit allows one more connection than i; a queue of i connections takes one more *)
Definition allowed (cfg : config) (i : nat) : Prop := Z.of_nat i < max_connections cfg.
Definition takes (cfg : config) (i : nat) : Prop := max_free cfg <= 0 \/ Z.of_nat i < max_free cfg.
(** the i-th initial connection can be made and stored *)
Definition fine (cfg : config) (mk : nat -> bool) (i : nat) : Prop := allowed cfg i /\ mk i = true /\ takes cfg i.
(** the first initial connection for which this fails *)
Definition first_not (cfg : config) (mk : nat -> bool) (i : nat) : Prop := (i < initial cfg)%nat /\ (forall j, (j < i)%nat -> fine cfg mk j) /\ ~ fine cfg mk i.

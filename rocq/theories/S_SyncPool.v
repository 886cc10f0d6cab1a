(** Words for C103: how often an action is done in a history of the connections of the synchronous client *)
From Verif Require Import PyBase M_SyncClient.

Definition is_fetch (a : caction) : bool := match a with CFetch _ => true | CGiveBack _ _ => false end.
Definition fetches (acts : list caction) : nat := List.length (filter is_fetch acts).
Definition gives_back (acts : list caction) : nat := List.length (filter (fun a => negb (is_fetch a)) acts).
(** the actions of one call that gets its request out in round r (0, 1 or 2) and gives the connection back *)
Definition one_call (key : Z) (r : nat) (c : nat * nat) : list caction := repeat (CFetch key) (S r) ++ [CGiveBack key c].

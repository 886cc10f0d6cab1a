(** Reading exactly, and writing all, said without the code. *)
From Verif Require Import PyBase M_SockConn.

(** Calls [l] = (size, result) have consumed a stream one after another and left [rest]: a call that returned
    returned the next [size] bytes (none for a negative size); one that raised lost fewer than [size] bytes. *)
Inductive consumed : list (Z * res bytes) -> bytes -> bytes -> Prop :=
| CNone s : consumed [] s s
| COk n b l s rest : len b = Z.max 0 n -> consumed l s rest -> consumed ((n, Ok b) :: l) (b ++ s) rest
| CErr n e b l s rest : len b < n -> consumed l s rest -> consumed ((n, Raise e) :: l) (b ++ s) rest.

(** the pieces of a stream, by their sizes *)
Fixpoint cut (l : list Z) (s : bytes) : list bytes :=
  match l with [] => [] | n :: r => firstn (Z.to_nat n) s :: cut r (skipn (Z.to_nat n) s) end.
Definition total (l : list Z) : Z := fold_right (fun n t => Z.max 0 n + t) 0 l.

Definition returned (p : Z * res bytes) : Prop := exists b, snd p = Ok b.

(** nobody closes the connection here and no recv fails *)
Definition quiet (o : xstep) : Prop := match o with XFail | XClose => False | _ => True end.
(** how often the thread is scheduled *)
Definition gos (l : list xstep) : Z := len (filter (fun o => match o with XGo _ => true | _ => false end) l).
(** how much room there was for writing, in attempts *)
Definition rooms (l : list room) : Z := len (filter (fun o => match o with Room _ => true | _ => false end) l).
(** all that comes before the other side ends the stream *)
Fixpoint came (l : list xstep) : bytes :=
  match l with [] => [] | XEnd :: _ => [] | XArrive bs :: r => bs ++ came r | _ :: r => came r end.
Definition is_end (o : xstep) : bool := match o with XEnd => true | _ => false end.
Definition is_close (o : xstep) : bool := match o with XClose => true | _ => false end.

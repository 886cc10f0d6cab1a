(** What C90-C93 say about objects that several threads use at once (M_Threads). *)
From Coq Require Import Strings.String.
From Verif Require Import PyBase PyDict PyInt M_RpcId M_Mesh S_Mesh M_AioServer M_Threads.
Open Scope nat_scope.

Definition op_key (o : mapop) : pystr := match o with Assign k _ => k | Remove k => k end.
(** some thread is in the middle of assigning k *)
Definition assigning (s : mst) (k : pystr) : Prop := exists i v, nth_error (ms_threads s) i = Some (MStore k v).

(** calls of startup(), and of methods that make other posts *)
Definition mesh_calls (calls : list spc) : Prop := Forall (fun p => p = SCall \/ exists ep doc, p = OCall ep doc /\ ep <> str "configs/application") calls.
Definition finished (p : spc) : Prop := match p with SDone _ | ODone _ => True | _ => False end.
(** the number of steps of a schedule in which something happens *)
Fixpoint effective (ans : nat -> answer) (info : appinfo) (s : sstate) (l : list nat) (n : nat) : Prop :=
  match l with
  | [] => n = 0
  | i :: r => (up_step ans info i s = s /\ effective ans info s r n) \/ (up_step ans info i s <> s /\ exists m, n = S m /\ effective ans info (up_step ans info i s) r m)
  end.

(** thread t is in the middle of making a child of rpc id i *)
Definition deriving (s : rst) (t i : nat) : Prop := nth_error (rs_threads s) t = Some (CBuild i) \/ exists c, nth_error (rs_threads s) t = Some (CStore i c).
(** no thread begins to make a child of an rpc id while another is making one *)
Fixpoint one_at_a_time (U : tables) (s : rst) (l : list nat) : Prop :=
  match l with
  | [] => True
  | t :: r => (forall i, nth_error (rs_threads s) t = Some (CLoad i) -> forall t', ~ deriving s t' i) /\ one_at_a_time U (rpc_step U t s) r
  end.
(** thread t has returned an rpc id with this text *)
Definition gave (s : rst) (t : nat) (x : nat) (text : pystr) : Prop :=
  nth_error (rs_threads s) t = Some (CDone (Ok x)) /\ exists o, nth_error (rs_objs s) x = Some o /\ rpcid_str (r_ids o) = text.

(** the interface named by a post to services/publish *)
Definition published_name (p : post) : option pystr :=
  if pystr_eqb (fst p) (str "services/publish") then match snd p with JObj d => match dget (str "serviceName") d with Some (JStr s) => Some s | _ => None end | _ => None end else None.
Definition registers (l : list pstep) (name : pystr) : Prop := exists sv, In (PRegister name sv) l.
(** the number of turns of the publishing thread *)
Definition turns (l : list pstep) : nat := List.length (filter (fun o => match o with PGo => true | PRegister _ _ => false end) l).

(** What C69-C72 say about the callers of the asyncio client (M_Front). *)
From Verif Require Import PyBase PyDict PyInt M_SofaHeader M_Package M_RpcId M_Trace M_AioServer S_Server M_System S_System M_Front.
From Verif Require M_AioClient.

(** the calls made, in order: number j below is a position in this list *)
Definition invocations (l : list fstep) : list (api * ycall * Z * res Z) :=
  concat (map (fun o => match o with WInvoke k d rid a => [(k, d, rid, a)] | _ => [] end) l).
(** with what values the callback of call j was called, and how its entry point ended, in order *)
Definition callbacks (j : nat) (w : front) : list pyobj :=
  concat (map (fun e => match e with ECallback i v => if Nat.eqb i j then [v] else [] | _ => [] end) (w_log w)).
Definition outcomes (j : nat) (w : front) : list (res pyobj) :=
  concat (map (fun e => match e with EOver i r => if Nat.eqb i j then [r] else [] | _ => [] end) (w_log w)).
Definition late (j : nat) (w : front) : Prop := In (ELate j) (w_log w).

(** a server at the address of the call has called the method with the content of the call, and it returned v *)
Definition method_returned (U : tables) (t : M_AioClient.timer) (w : front) (d : ycall) (a : res Z) (v : pyobj) : Prop :=
  let y := y_run U t (w_hist w) in
  exists c k lk n bs, nth_error (y_conns y) c = Some k /\ nth_error (M_AioClient.s_links (y_client t y)) c = Some lk /\ a = Ok (M_AioClient.k_addr lk) /\
    In (n, y_interface d, y_method d, y_content d) (calls_on U k) /\ v = PBytes bs /\ bs <> [] /\ ended_with (y_server U k) n (Ok v).
(** the request ids of the calls and heartbeats so far are distinct (C12) *)
Definition ids_differ (U : tables) (t : M_AioClient.timer) (l : list fstep) : Prop := NoDup (y_ids (w_hist (w_run U t l))).

(** Calls of one MeshClient when the mesh agent takes its time: anthunder/mesh/mesh_client.py:84-117, by any number of threads,
    one call each. A post is sent in one step and answered in another, or never: line 110 gives no timeout to the HTTP client,
    which then waits without limit. Simplified: only whether a post was answered well is looked at. *)
From Coq Require Import Strings.String.
From Verif Require Import PyBase PyDict PyInt M_Mesh M_AioServer.
Open Scope nat_scope.

Inductive wpc :=
| WStart                       (* startup() not begun, or waiting for the lock of line 85 *)
| WCheck                       (* line 86, the lock is held *)
| WAsked                       (* line 87: waiting for the answer, the lock is held *)
| WOther (endpoint : pystr)    (* another call, lines 91-106: one post and no lock; not begun *)
| WOtherAsked
| WDone (r : res unit).
Record waits := { k_lock : option nat; k_started : bool; k_sent : list (nat * pystr); k_threads : list wpc }.
(** thread i makes its next step, or the agent answers the post of thread i *)
Inductive wev := KGo (i : nat) | KAnswer (i : nat) (a : answer).
Definition k_result (a : answer) : res unit := match post_result a with Ok _ => Ok tt | Raise e => Raise e end.
Definition w_step (s : waits) (o : wev) : waits :=
  match o with
  | KGo i =>
      let goto lk sent p := {| k_lock := lk; k_started := k_started s; k_sent := sent; k_threads := upd i (fun _ => p) (k_threads s) |} in
      match nth_error (k_threads s) i with
      | Some WStart => match k_lock s with None => goto (Some i) (k_sent s) WCheck | Some _ => s end
      | Some WCheck => if k_started s then goto None (k_sent s) (WDone (Ok tt)) else goto (k_lock s) (k_sent s ++ [(i, EP_app)]) WAsked
      | Some (WOther ep) => goto (k_lock s) (k_sent s ++ [(i, ep)]) WOtherAsked
      | _ => s
      end
  | KAnswer i a =>
      match nth_error (k_threads s) i with
      | Some WAsked => {| k_lock := None; k_started := match post_result a with Ok _ => true | Raise _ => k_started s end; k_sent := k_sent s; k_threads := upd i (fun _ => WDone (k_result a)) (k_threads s) |}
      | Some WOtherAsked => {| k_lock := k_lock s; k_started := k_started s; k_sent := k_sent s; k_threads := upd i (fun _ => WDone (k_result a)) (k_threads s) |}
      | _ => s
      end
  end.
Definition w_begin (calls : list wpc) : waits := {| k_lock := None; k_started := false; k_sent := []; k_threads := calls |}.
Definition w_run (calls : list wpc) (l : list wev) : waits := fold_left w_step l (w_begin calls).

(** Model: the contexts of several processes that call each other. Every process has its own tracer
    (M_Trace); a call carries the caller's context to the callee in the header of the request. *)
From Coq Require Import Strings.String.
From Verif Require Import PyBase PyDict PyInt M_RpcId M_SofaHeader M_Package M_Trace.

(** a context: the process that made it and its number there *)
Definition ctx : Type := (nat * nat)%type.

(** how a context came about: afresh (or from a carrier of unknown origin), derived from another of
    the same process, or at the callee of a request that carried another. Bookkeeping of the model,
    no step reads it. *)
Inductive made := MNew | MFrom (t : reftype) (x : ctx) | MSent (x : ctx).

Record world := { w_procs : list tstate; w_made : list (ctx * made) }.
Definition w_start (n : nat) : world := {| w_procs := repeat t_init n; w_made := [] |}.

(** the arguments of a call that reach the frame *)
Record hop := { h_interface : pystr; h_method : pystr; h_app : pystr; h_uid : pystr; h_extra : dict pystr pystr;
                h_content : pyobj; h_ptype : Z; h_timeout : pyobj; h_rid : Z }.

(** aio_client.py:75-76, 82-83, 98-99 and client.py:67-76 at the caller ([SofaHeader.build_header(spanctx, ...)],
    [BoltRequest.new_request], [to_stream]); aio_listener.py:122-138 and sock_listener.py:93-129 at the
    callee (the header of the request is the carrier). What the callee does with the body is left out,
    and so is its refusal of an empty service or method name: the model lets such a request through. *)
Definition carried (st : tstate) (c : nat) (a : hop) : res sofa_header :=
  match baggage_text st c with
  | None => Raise AttributeError
  | Some b =>
      let! h := build_header b (h_interface a) (h_method a) (h_app a) (h_uid a) (h_extra a) in
      let! p := new_request h (h_content a) (h_ptype a) (h_timeout a) (h_rid a) in
      let! bs := to_stream p in
      let! p' := from_stream BoltRequest bs in
      Ok (p_header p')
  end.

Definition set_proc (p : nat) (st : tstate) (l : list tstate) : list tstate :=
  map (fun ix => if Nat.eqb (fst ix) p then st else snd ix) (combine (seq 0 (length l)) l).

Inductive wlabel :=
| WLocal (p : nat) (o : top)                            (* process p does o on its tracer *)
| WCall (p c q : nat) (a : hop) (fresh : pystr).        (* p sends a request with its context c; q executes it once *)

Definition origin (p : nat) (o : top) : made :=
  match o with TStart _ (Some (t, c)) _ _ => MFrom t (p, c) | _ => MNew end.

(** [WLocal]: tracer.py:45-120; [WCall]: [carried], then tracer.py:106-120 at the callee. A request that
    is lost or refused is no step; one that is executed several times (sent anew, or to several
    servers) is several. *)
Definition wstep (U : tables) (w : world) (l : wlabel) : world :=
  match l with
  | WLocal p o =>
      match nth_error (w_procs w) p with
      | None => w
      | Some st =>
          let st' := tstep U st o in
          {| w_procs := set_proc p st' (w_procs w);
             w_made := w_made w ++ (if Nat.ltb (List.length (t_ctxs st)) (List.length (t_ctxs st'))
                                    then [((p, List.length (t_ctxs st)), origin p o)] else []) |}
      end
  | WCall p c q a fresh =>
      match nth_error (w_procs w) p, nth_error (w_procs w) q with
      | Some st, Some sq =>
          match carried st c a with
          | Raise _ => w
          | Ok h =>
              let '(sq', r) := extract U sq h fresh in
              {| w_procs := set_proc q sq' (w_procs w);
                 w_made := w_made w ++ match r with Ok c' => [((q, c'), MSent (p, c))] | Raise _ => [] end |}
          end
      | _, _ => w
      end
  end.
Definition wrun (U : tables) (n : nat) (ls : list wlabel) : world := fold_left (wstep U) ls (w_start n).

(** the baggage of a context as text: what [spanctx.baggage] holds, by str() *)
Definition wtext (w : world) (x : ctx) : option (dict pystr pystr) :=
  match nth_error (w_procs w) (fst x) with Some st => baggage_text st (snd x) | None => None end.

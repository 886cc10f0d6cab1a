(** Model of mytracer/span_context.py, span.py, tracer.py, helpers.py, of
    anthunder/protocol/_rpc_trace_context.py and of SofaHeader.build_header. *)
From Coq Require Import Strings.String.
From Verif Require Import PyBase PyDict PyInt M_RpcId M_SofaHeader.

(** values of a baggage: str, TraceId object (by its text), RpcId object (by reference) *)
Inductive bval := BStr (s : pystr) | BTrace (s : pystr) | BRpc (r : nat).
Definition baggage := dict pystr bval.

(** span.py:27-68 MySpan; logs and times are not modelled (nothing reads them) *)
Record span := { sp_ctx : nat; sp_name : pystr; sp_tags : dict pystr pyobj }.

(** the objects made by the tracer in one process *)
Record tstate := { t_rpcs : list rpcobj; t_ctxs : list baggage; t_spans : list span }.
Definition t_init : tstate := {| t_rpcs := []; t_ctxs := []; t_spans := [] |}.

Definition K_trace : pystr := str "sofaTraceId".
Definition K_rpc : pystr := str "sofaRpcId".

(** span_context.py:44-57 [SpanContext(reference)] for a reference: a copy of the referenced
    context's baggage with a new rpc id; kwargs are empty at the only call (tracer.py:93-94) *)
Definition context_from (U : tables) (st : tstate) (t : reftype) (c : nat) : tstate * res nat :=
  match nth_error (t_ctxs st) c with
  | None => (st, Raise AttributeError)
  | Some bag =>
      match dget K_rpc bag with
      | None => (st, Raise KeyError)
      | Some (BRpc r) =>
          let '(h, res) := new_by_reference_type U (t_rpcs st) r t in
          match res with
          | Raise e => ({| t_rpcs := h; t_ctxs := t_ctxs st; t_spans := t_spans st |}, Raise e)
          | Ok n => ({| t_rpcs := h;
                        t_ctxs := t_ctxs st ++ [dupdate [(K_rpc, BRpc n)] (ddel K_rpc bag)];
                        t_spans := t_spans st |}, Ok (length (t_ctxs st)))
          end
      | Some _ => (st, Raise AttributeError)
      end
  end.

(** span_context.py:53-57 [SpanContext(None, **kwargs)]; [fresh] is the text of the trace id that
    TraceId(None) generates when no sofaTraceId is given *)
Definition context_root (U : tables) (st : tstate) (kwargs : dict pystr pystr) (fresh : pystr) : tstate * res nat :=
  let trace := match dget K_trace kwargs with Some s => s | None => fresh end in
  let d := dset K_trace (BTrace trace) (ddel K_trace (map (fun kv => (fst kv, BStr (snd kv))) kwargs)) in
  let ids := match dget K_rpc kwargs with Some s => s | None => str "1" end in
  match mk_rpcid U (map SStr (split_dot ids)) with
  | Raise e => (st, Raise e)
  | Ok l =>
      ({| t_rpcs := t_rpcs st ++ [{| r_ids := l; r_count := 0; r_parent := None |}];
          t_ctxs := t_ctxs st ++ [dset K_rpc (BRpc (length (t_rpcs st))) (ddel K_rpc d)];
          t_spans := t_spans st |}, Ok (length (t_ctxs st)))
  end.

(** tracer.py:98-100 [for k, v in tags]: iterates over the keys and unpacks each key *)
Fixpoint apply_tags (l : list pystr) (tags : dict pystr pyobj) : res (dict pystr pyobj) :=
  match l with
  | [] => Ok tags
  | [a; b] :: r => apply_tags r (dset [a] (PStr [b]) tags)
  | _ :: _ => Raise ValueError
  end.

(** tracer.py:45-104 [start_span(name, child_of/references, tags)]; [ref] is the reference chosen by
    lines 84-91; start_time is not modelled *)
Definition start_span (U : tables) (st : tstate) (name : pystr) (ref : option (reftype * nat))
    (tags : dict pystr pyobj) (fresh : pystr) : tstate * res nat :=
  let '(st1, r) := match ref with
                   | Some (t, c) => context_from U st t c
                   | None => context_root U st [] fresh
                   end in
  match r with
  | Raise e => (st1, Raise e)
  | Ok c =>
      match apply_tags (keys tags) [] with
      | Raise e => (st1, Raise e)
      | Ok tg => ({| t_rpcs := t_rpcs st1; t_ctxs := t_ctxs st1;
                     t_spans := t_spans st1 ++ [{| sp_ctx := c; sp_name := name; sp_tags := tg |}] |},
                  Ok (length (t_spans st1)))
      end
  end.

(** helpers.py:27-39 [new_span], [child_span_of], [follows_span_from]; the span is given by index *)
Definition new_span U st name tags fresh := start_span U st name None tags fresh.
Definition span_from (U : tables) (st : tstate) (t : reftype) (s : nat) (name : option pystr)
    (tags : dict pystr pyobj) : tstate * res nat :=
  match nth_error (t_spans st) s with
  | None => (st, Raise AttributeError)
  | Some sp => start_span U st (match name with Some ((_ :: _) as n) => n | _ => sp_name sp end)
                 (Some (t, sp_ctx sp)) tags []
  end.

Definition PREFIX : pystr := str "rpc_trace_context.".

Fixpoint starts_with (p s : pystr) : bool :=
  match p, s with
  | [], _ => true
  | a :: p', b :: s' => (a =? b) && starts_with p' s'
  | _ :: _, [] => false
  end.

(** [k.split('.', 1)[1]]: what follows the first dot *)
Fixpoint after_dot (s : pystr) : pystr :=
  match s with [] => [] | c :: r => if c =? 46 then r else after_dot r end.

(** tracer.py:106-120 [extract(TEXT_MAP, carrier)]: an unexpected keyword ("self", "reference") and
    any other exception become InvalidCarrierException *)
Definition extract_args (carrier : dict pystr pystr) : dict pystr pystr :=
  dict_of (map (fun kv => (after_dot (fst kv), snd kv)) (filter (fun kv => starts_with PREFIX (fst kv)) carrier)).
Definition extract (U : tables) (st : tstate) (carrier : dict pystr pystr) (fresh : pystr) : tstate * res nat :=
  let d := extract_args carrier in
  if dmem (str "self") d || dmem (str "reference") d then (st, Raise InvalidCarrierException)
  else match context_root U st d fresh with
       | (st', Ok c) => (st', Ok c)
       | (st', Raise _) => (st', Raise InvalidCarrierException)
       end.

(** [str(v)] of a baggage value *)
Definition bval_str (h : list rpcobj) (v : bval) : pystr :=
  match v with
  | BStr s | BTrace s => s
  | BRpc r => match nth_error h r with Some o => rpcid_str (r_ids o) | None => [] end
  end.

(** the baggage of a context, values as text *)
Definition baggage_text (st : tstate) (c : nat) : option (dict pystr pystr) :=
  option_map (map (fun kv => (fst kv, bval_str (t_rpcs st) (snd kv)))) (nth_error (t_ctxs st) c).

(** tracer.py:122-135 [inject(ctx, TEXT_MAP, carrier)] for a plain dict carrier and for a SofaHeader
    carrier, whose item assignment does nothing (_sofa_header.py:94-95) *)
Definition inject_dict (st : tstate) (c : nat) (carrier : dict pystr pystr) : res (dict pystr pystr) :=
  match baggage_text st c with
  | None => Raise AttributeError
  | Some b => Ok (dupdate carrier (map (fun kv => (PREFIX ++ fst kv, snd kv)) b))
  end.
Definition inject_header (st : tstate) (c : nat) (carrier : sofa_header) : res sofa_header :=
  match baggage_text st c with None => Raise AttributeError | Some _ => Ok carrier end.

(** span.py:48-49 with span_context.py:28-30: item assignment on the baggage raises *)
Definition set_baggage_item (st : tstate) (s : nat) (k v : pystr) : tstate * res unit :=
  match nth_error (t_spans st) s with
  | None => (st, Raise AttributeError)
  | Some _ => (st, Raise TypeError)
  end.

(** span.py:54-55 *)
Definition set_tag (st : tstate) (s : nat) (k : pystr) (v : pyobj) : tstate :=
  {| t_rpcs := t_rpcs st; t_ctxs := t_ctxs st;
     t_spans := map (fun isp => if Nat.eqb (fst isp) s
                                then {| sp_ctx := sp_ctx (snd isp); sp_name := sp_name (snd isp);
                                        sp_tags := dset k v (sp_tags (snd isp)) |}
                                else snd isp)
                    (combine (seq 0 (length (t_spans st))) (t_spans st)) |}.

(** the operations of a process on its tracer *)
Inductive top :=
| TStart (name : pystr) (ref : option (reftype * nat)) (tags : dict pystr pyobj) (fresh : pystr)
| TExtract (carrier : dict pystr pystr) (fresh : pystr)
| TSetBaggage (s : nat) (k v : pystr)
| TSetTag (s : nat) (k : pystr) (v : pyobj).
Definition tstep (U : tables) (st : tstate) (o : top) : tstate :=
  match o with
  | TStart n r t f => fst (start_span U st n r t f)
  | TExtract c f => fst (extract U st c f)
  | TSetBaggage s k v => fst (set_baggage_item st s k v)
  | TSetTag s k v => set_tag st s k v
  end.
Definition trun (U : tables) (st : tstate) (ops : list top) : tstate := fold_left (tstep U) ops st.

(** _rpc_trace_context.py:30-37 [RpcTraceContext( **baggage).expand()]. Each item becomes an attribute:
    "self" clashes with the parameter; "__dict__" and "__class__" refuse a str (TypeError),
    "__weakref__" is read-only (AttributeError); "expand" hides the method (a str is not callable);
    "prefix" hides the class attribute. *)
Fixpoint set_attributes (l : list pystr) : res unit :=
  match l with
  | [] => Ok tt
  | k :: r => if pystr_eqb k (str "__dict__") then Raise TypeError
              else if pystr_eqb k (str "__class__") then Raise TypeError
              else if pystr_eqb k (str "__weakref__") then Raise AttributeError
              else set_attributes r
  end.
Definition trace_expand (b : dict pystr pystr) : res (dict pystr pystr) :=
  if dmem (str "self") b then Raise TypeError
  else let! _ := set_attributes (keys b) in
       if dmem (str "expand") b then Raise TypeError
       else let prefix := match dget (str "prefix") b with Some p => p | None => PREFIX end in
            Ok (dict_of (map (fun kv => (prefix ++ fst kv, snd kv)) b)).

(** parameter names of build_header: an extra header of that name is a TypeError at the call *)
Definition build_params : list pystr :=
  map str ["cls"%string; "spanctx"%string; "interface"%string; "method_name"%string; "target_app"%string; "uid"%string].
(** names given explicitly in the final call (lines 134-138): a repeated keyword is a TypeError *)
Definition call_params : list pystr :=
  map str ["sofa_head_target_service"%string; "sofa_head_method_name"%string;
           "sofa_head_target_app"%string; "service"%string; "uid"%string].

Definition mem_str (k : pystr) (l : list pystr) : bool := existsb (pystr_eqb k) l.

(** _sofa_header.py:115-139 [SofaHeader.build_header(spanctx, interface, method_name, target_app, uid, **extra)] *)
Definition build_header (b : dict pystr pystr) (interface method_name target_app uid : pystr)
    (extra : dict pystr pystr) : res sofa_header :=
  if existsb (fun k => mem_str k build_params) (keys extra) then Raise TypeError
  else let! e := trace_expand b in
       let kwargs := dupdate (dupdate [] extra) e in
       if existsb (fun k => mem_str k call_params) (keys kwargs) then Raise TypeError
       else Ok (dict_of [(str "sofa_head_target_service", interface);
                         (str "sofa_head_method_name", method_name);
                         (str "sofa_head_target_app", target_app);
                         (str "service", interface);
                         (str "uid", uid)] ++ kwargs).

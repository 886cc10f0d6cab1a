(** Specification of what a Bolt server finds on a connection and how requests name what they want; from the
    wire format in S_Wire only. The record types [item], [request] and [service] are those of M_AioServer. *)
From Coq Require Import Strings.String.
From Verif Require Import PyBase PyDict PyInt M_RpcId M_Trace S_Wire M_AioServer.
Open Scope Z_scope.

(** the header part starts with well-formed strings followed by one that is not UTF-8 *)
Definition bad_text (b : bytes) : Prop := exists b1 ss l payload rest,
  header_strings b1 ss /\ b = b1 ++ l ++ payload ++ rest /\ len l = 4 /\ sval l = len payload /\ ~ exists s, utf8_text s payload.

(** a frame without its content: fixed header, class name, header part *)
Definition head_layout (a : bytes) (id : Z) (hdr : bytes) : Prop := exists cls,
  22 <= len a /\ sval (field 5 4 a) = id /\ uval (field 14 2 a) = len cls /\ uval (field 16 2 a) = len hdr /\ skipn 22 a = cls ++ hdr.

Definition request_class : bytes := bytes_lit "com.alipay.sofa.rpc.core.request.SofaRequest".
Definition as_request (f : frame) (kvs : list (pystr * pystr)) : request :=
  {| q_type := fr_type f; q_id := fr_request_id f; q_header := dict_of kvs; q_body := fr_content f; q_timeout := fr_tos f |}.

(** [one a i]: the bytes [a] are one unit of the stream *)
Inductive one : bytes -> item -> Prop :=
| One_request a f kvs : request_layout a f -> header_pairs (fr_header f) kvs -> fr_cmdcode f <> 0 -> fr_cmdcode f <> 2 ->
    fr_class f = request_class -> one a (IRequest (as_request f kvs))
| One_heartbeat a f kvs : request_layout a f -> header_pairs (fr_header f) kvs -> fr_cmdcode f = 0 -> one a (IHeartbeat (fr_request_id f))
| One_wrong a f kvs : request_layout a f -> header_pairs (fr_header f) kvs -> fr_cmdcode f <> 0 -> fr_cmdcode f = 2 \/ fr_class f <> request_class ->
    one a (IBad (fr_request_id f) 8)
| One_codec a id hdr : head_layout a id hdr -> (~ exists kvs, header_pairs hdr kvs) -> ~ bad_text hdr -> one a (IBad id 9)
| One_fatal a id hdr : head_layout a id hdr -> bad_text hdr -> one a (IFatal id).

Definition fatal (i : item) : Prop := match i with IFatal _ => True | _ => False end.
(** [cuts bs l rest]: the stream [bs] consists of the units [l] and [rest]; nothing is looked at after a fatal one *)
Inductive cuts : bytes -> list item -> bytes -> Prop :=
| Cuts_nil bs : cuts bs [] bs
| Cuts_fatal a i rest : one a i -> fatal i -> cuts (a ++ rest) [i] rest
| Cuts_cons a i bs l rest : one a i -> ~ fatal i -> cuts bs l rest -> cuts (a ++ bs) (i :: l) rest.

(** the frames as they are handed on: requests and heartbeats, with their numbers *)
Fixpoint accepted (n : nat) (l : list item) : list (nat * option request) :=
  match l with
  | [] => []
  | IRequest q :: r => (n, Some q) :: accepted (S n) r
  | IHeartbeat _ :: r => (n, None) :: accepted (S n) r
  | _ :: r => accepted (S n) r
  end.

(** what a request names *)
Definition names_service (h : dict pystr pystr) (sv : pystr) : Prop := sv <> [] /\
  (dget (str "sofa_head_target_service") h = Some sv \/
   (dget (str "sofa_head_target_service") h = None \/ dget (str "sofa_head_target_service") h = Some []) /\ dget (str "service") h = Some sv).
Definition names_method (h : dict pystr pystr) (m : pystr) : Prop := m <> [] /\ dget (str "sofa_head_method_name") h = Some m.

(** what a registry offers *)
Definition offers (reg : dict pystr service) (sv m : pystr) : Prop :=
  exists x, dget sv reg = Some x /\ sv_raises x = None /\ sv_methods x m = true.
Definition unknown (reg : dict pystr service) (sv m : pystr) : Prop :=
  dget sv reg = None \/ exists x, dget sv reg = Some x /\ sv_raises x = None /\ sv_methods x m = false.
(** the service object cannot be made *)
Definition broken (reg : dict pystr service) (sv : pystr) (e : exn) : Prop :=
  exists x, dget sv reg = Some x /\ sv_raises x = Some e.

(** a well-formed response frame with the given id, command code, status and content, and no header entries *)
Definition response (bs : bytes) (id cmdcode status : Z) (content : bytes) : Prop := exists f,
  response_layout bs f /\ legal_common f /\ fr_type f = 0 /\ fr_cmdcode f = cmdcode /\ fr_request_id f = id /\ fr_tos f = status /\ fr_content f = content /\
  legal_status status /\ fr_header f = [].

(** ** What can be seen of a run *)
(** the bytes received *)
Definition fed (l : list sstep) : bytes := concat (map (fun o => match o with Feed bs => bs | _ => [] end) l).
(** the frames written in answer to the n-th unit of the stream *)
Definition answers (n : nat) (s : sst) : list bytes := map snd (filter (fun x => Nat.eqb (fst x) n) (v_out s)).
(** the connection handler waits for more input *)
Definition waiting (s : sst) : Prop :=
  match v_rd s with RFixed | RClass _ | RHead _ _ | RBody _ _ _ => True | _ => False end /\ v_eof s = false /\ v_exn s = false /\ sread s = s.
(** the coroutine answering the n-th unit *)
Definition answering (s : sst) (i n : nat) (r : option request) (p : tpc) : Prop := nth_error (v_tasks s) i = Some {| a_frame := n; a_req := r; a_pc := p |}.
(** the calls of service methods made by the executor, in order: frame, service, method, argument *)
Fixpoint executions (U : tables) (s : sst) (l : list sstep) : list (nat * pystr * pystr * bytes) :=
  match l with
  | [] => []
  | o :: r =>
      match o with
      | JobRun j =>
          match nth_error (v_jobs s) j with
          | Some b => match j_state b with JQueued => [(j_frame b, j_service b, j_method b, j_body b)] | _ => [] end
          | None => []
          end
      | _ => []
      end ++ executions U (srun_step U o s) r
  end.
(** [bs] is a response to the n-th unit *)
Definition replies (items : list item) (n : nat) (bs : bytes) : Prop := exists x cmd st c, nth_error items n = Some x /\ response bs (item_id x) cmd st c.
(** after the steps [l] the n-th unit is answered by [bs] or not yet answered, and it is answered by [bs] once coroutine i writes *)
Definition answered_by (U : tables) (reg : registry) (tr : tstate) (l : list sstep) (i n : nat) (bs : bytes) : Prop :=
  (answers n (srun U reg tr l) = [] \/ answers n (srun U reg tr l) = [bs]) /\ answers n (srun U reg tr (l ++ [Drain i true])) = [bs].
(** the trace headers of the request can be read *)
Definition traceable (U : tables) (s : sst) (q : request) (fresh : pystr) : Prop := exists tr c, extract U (v_trace s) (q_header q) fresh = (tr, Ok c).
(** coroutine i is about to run for the first time, with a request for a method that the service has *)
Definition submitted (U : tables) (s : sst) (i n : nat) (q : request) (fresh : pystr) : Prop :=
  answering s i n (Some q) TStart /\ traceable U s q fresh /\ exists sv m, names_service (q_header q) sv /\ names_method (q_header q) m /\ offers (v_reg s) sv m.
(** the method called for the n-th unit has returned or raised *)
Definition ended_with (s : sst) (n : nat) (r : res pyobj) : Prop := exists b, In b (v_jobs s) /\ j_frame b = n /\ j_state b = JEnded r.
(** the requests (Some) and heartbeats (None) handed to coroutines, in order *)
Definition handed (s : sst) : list (option request) := map a_req (v_tasks s).

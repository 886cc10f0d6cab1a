(** C148: an exception of the package says what happened, and a copy of it (copy.copy, or pickle in another process) says the same.
    [key i] is repr() of the key of pool i, [rp] repr() of a text and [pr] repr() of a pool. *)
From Coq Require Import Strings.String.
From Verif Require Import PyBase PyInt M_Package M_ErrText S_ErrText L_ErrText.

(** The errors of clients, listeners and packages say the message they were made with, after the kind of error. *)
Theorem C148_text_partial : forall key rp pr c p a s, says c = Some p -> message a s -> exists e, make key c [a] = Ok e /\ e_cls e = c /\ text key rp pr e = p ++ s.
Proof. exact said. Qed.
Print Assumptions C148_text_partial.

(** The error made of a status has its number and its name, and different statuses give different texts. The statuses are those the code has. *)
Theorem C148_status_partial : forall key rp pr c a n b n' ea eb, c = ServerE \/ c = NoProcessorE -> In (a, n) statuses_named -> In (b, n') statuses_named -> from_statuscode key c a = Ok ea -> from_statuscode key c b = Ok eb ->
  mentions (str_int a) (text key rp pr ea) /\ mentions n (text key rp pr ea) /\ (text key rp pr ea = text key rp pr eb -> a = b).
Proof. exact statuses. Qed.
Print Assumptions C148_status_partial.

(** An error of a pool has the pool as an attribute, and its text mentions the pool and the message, as a quoted text. *)
Theorem C148_pool_partial : forall key rp pr c i m, of_pool c -> exists e, make key c [APool i; AText m] = Ok e /\ e_cls e = c /\ e_pool e = Some (APool i) /\ mentions (rp (pool_text key i ++ str ": " ++ m)) (text key rp pr e).
Proof. exact pools. Qed.
Print Assumptions C148_pool_partial.

(** Errors whose class writes nothing before the message are the same after any number of copies. *)
Theorem C148_copy_partial : forall key c args e n, says c = Some [] -> make key c args = Ok e -> copies key n e = Ok e.
Proof. exact copied. Qed.
Print Assumptions C148_copy_partial.

(** The code violates it. Every copy of a server or client error says the kind of error once more, and so something else; *)
Theorem C148_prefix_refuted : forall key rp pr c p m e n, says c = Some p -> make key c [AText m] = Ok e -> exists e1, copies key n e = Ok e1 /\ e_cls e1 = c /\ text key rp pr e1 = times (S n) p ++ m.
Proof. exact server_copy. Qed.
Print Assumptions C148_prefix_refuted.
Theorem C148_server_copy_refuted : forall key rp pr c m e n e1, c = ServerE \/ c = NoProcessorE \/ c = ClientE -> make key c [AText m] = Ok e -> copies key (S n) e = Ok e1 -> text key rp pr e1 <> text key rp pr e.
Proof. exact server_changes. Qed.
Print Assumptions C148_server_copy_refuted.

(** the text of an error of a pool is never the pool and the message; *)
Theorem C148_pool_text_refuted : forall key rp pr c i m e, of_pool c -> make key c [APool i; AText m] = Ok e -> text key rp pr e <> pool_text key i ++ str ": " ++ m.
Proof. exact pool_text_wrong. Qed.
Print Assumptions C148_pool_text_refuted.

(** copies of errors of different pools with different messages are alike, and have no pool; *)
Theorem C148_pool_copy_refuted : forall key c i j m m' e e' n, of_pool c -> make key c [APool i; AText m] = Ok e -> make key c [APool j; AText m'] = Ok e' ->
  exists x, copies key (S n) e = Ok x /\ copies key (S n) e' = Ok x /\ e_pool x = Some ANone.
Proof. exact pool_copy. Qed.
Print Assumptions C148_pool_copy_refuted.

(** and an error about a key or a socket says its message, but has no attribute pool, and its copies say nothing. *)
Theorem C148_value_refuted : forall key rp pr c m, of_value c -> exists e, make key c [AText m] = Ok e /\ e_cls e = c /\ text key rp pr e = m /\ e_pool e = None /\ forall n, exists x, copies key (S n) e = Ok x /\ text key rp pr x = str "(None, None)".
Proof. exact value_errors. Qed.
Print Assumptions C148_value_refuted.

(** ** Concrete cases *)
Example C148_statuses : map fst statuses_named = RESPSTATUS. Proof. reflexivity. Qed.
Definition key0 (i : nat) : pystr := str "k".
Definition rp0 (s : pystr) : pystr := str "'" ++ s ++ str "'".
Definition pr0 (i : nat) : pystr := str "<pool>".
Definition shown (r : res eobj) : option pystr := match r with Ok e => Some (text key0 rp0 pr0 e) | Raise _ => None end.
Example C148_no_method : shown (make key0 NoProcessorE [AText (str "No such method[f]")]) = Some (str "ServerError: No such method[f]"). Proof. reflexivity. Qed.
Example C148_decode : shown (make key0 DecodeE [AOther (str "unpack requires a buffer of 4 bytes") (str "error('...')")]) = Some (str "unpack requires a buffer of 4 bytes"). Proof. reflexivity. Qed.
Example C148_busy : shown (from_statuscode key0 ServerE ST_SERVER_THREADPOOL_BUSY) = Some (str "ServerError: ServerError: RESPSTATUS=4, SERVER_THREADPOOL_BUSY"). Proof. vm_compute. reflexivity. Qed.
Example C148_closed : shown (make key0 ClosedPoolE [APool 0; AText (str "Pool is closed.")]) = Some (str "(ClosedPoolError(...), 'ConnectionPool(k): Pool is closed.')"). Proof. reflexivity. Qed.
Example C148_closed_copy : shown (let! e := make key0 ClosedPoolE [APool 0; AText (str "Pool is closed.")] in copy key0 e) = Some (str "(ClosedPoolError(...), 'None: None')"). Proof. reflexivity. Qed.
Example C148_server_copies : shown (let! e := make key0 ServerE [AText (str "RequestId not match")] in copies key0 2 e) = Some (str "ServerError: ServerError: ServerError: RequestId not match"). Proof. reflexivity. Qed.
Example C148_location : shown (make key0 LocationValueE [AText (str "No pool_key specified.")]) = Some (str "No pool_key specified."). Proof. reflexivity. Qed.
Example C148_socket : shown (make key0 SocketValueE [AText (str "SocketValueError"); AOther (str "x") (str "ValueError('x')")]) = Some (str "('SocketValueError', ValueError('x'))"). Proof. reflexivity. Qed.
Example C148_wrong_call : make key0 EmptyPoolE [AText (str "no pool")] = Raise TypeError. Proof. reflexivity. Qed.

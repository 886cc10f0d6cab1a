(** What C148 says about the exceptions of the package. *)
From Coq Require Import Strings.String.
From Verif Require Import PyBase M_ErrText.

(** the errors of clients, listeners and packages, with what is written before the message *)
Definition says (c : ecls) : option pystr :=
  match c with
  | PyboltE | ProtocolE | EncodeE | DecodeE | ParamTypeE => Some []
  | ServerE | NoProcessorE => Some (str "ServerError: ")
  | ClientE => Some (str "ClientError: ")
  | _ => None
  end.
(** errors of a pool, and errors that have no pool *)
Definition of_pool (c : ecls) : Prop := c = MysockpoolE \/ c = EmptyPoolE \/ c = ClosedPoolE.
Definition of_value (c : ecls) : Prop := c = LocationValueE \/ c = SocketValueE.
(** the text that a message says: a text itself, another exception its own text *)
Definition message (a : earg) (s : pystr) : Prop := a = AText s \/ exists r, a = AOther s r.
Definition mentions (t s : pystr) : Prop := exists a b, s = a ++ t ++ b.
Fixpoint times (n : nat) (p : pystr) : pystr := match n with O => [] | S k => p ++ times k p end.
(** the statuses of a response and their names, as the protocol has them *)
Definition statuses_named : list (Z * pystr) :=
  [(0, str "SUCCESS"); (1, str "ERROR"); (2, str "SERVER_EXCEPTION"); (3, str "UNKNOWN"); (4, str "SERVER_THREADPOOL_BUSY"); (5, str "ERROR_COMM");
   (6, str "NO_PROCESSOR"); (7, str "TIMEOUT"); (8, str "CLIENT_SEND_ERROR"); (9, str "CODEC_EXCEPTION"); (16, str "CONNECTION_CLOSED");
   (17, str "SERVER_SERIAL_EXCEPTION"); (18, str "SERVER_DESERIAL_EXCEPTION")].

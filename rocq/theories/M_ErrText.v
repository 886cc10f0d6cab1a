(** The exceptions of the package: how they are made (anthunder/exceptions.py:25-41, anthunder/protocol/exceptions.py:27-40,
    anthunder/listener/base_listener.py:116, mysockpool/exceptions.py:25-53), their text, and copies of them. What a copy is made from
    is also what pickle makes one from, in another process. *)
From Coq Require Import Strings.String.
From Verif Require Import PyBase PyInt M_Package.

Inductive ecls := PyboltE | ServerE | ClientE | NoProcessorE | ProtocolE | EncodeE | DecodeE | ParamTypeE | MysockpoolE | EmptyPoolE | ClosedPoolE | LocationValueE | SocketValueE.
(** a class that defines __init__ or __reduce__, on the way from a class to Exception *)
Inductive mro_class := Own (c : ecls) | BuiltinValueError | BuiltinException.
(** The method resolution order: ValueError comes before MysockpoolError in mysockpool/exceptions.py:47-53 *)
Definition mro (c : ecls) : list mro_class :=
  match c with
  | PyboltE => [Own PyboltE; BuiltinException]
  | ServerE => [Own ServerE; Own PyboltE; BuiltinException]
  | ClientE => [Own ClientE; Own PyboltE; BuiltinException]
  | NoProcessorE => [Own NoProcessorE; Own ServerE; Own PyboltE; BuiltinException]
  | ProtocolE => [Own ProtocolE; Own PyboltE; BuiltinException]
  | EncodeE => [Own EncodeE; Own ProtocolE; Own PyboltE; BuiltinException]
  | DecodeE => [Own DecodeE; Own ProtocolE; Own PyboltE; BuiltinException]
  | ParamTypeE => [Own ParamTypeE; Own ProtocolE; Own PyboltE; BuiltinException]
  | MysockpoolE => [Own MysockpoolE; BuiltinException]
  | EmptyPoolE => [Own EmptyPoolE; Own MysockpoolE; BuiltinException]
  | ClosedPoolE => [Own ClosedPoolE; Own MysockpoolE; BuiltinException]
  | LocationValueE => [Own LocationValueE; BuiltinValueError; Own MysockpoolE; BuiltinException]
  | SocketValueE => [Own SocketValueE; BuiltinValueError; Own MysockpoolE; BuiltinException]
  end.
(** An argument: the exception itself, a text, None, a pool, or another object with its str() and repr(). *)
Inductive earg := ASelf | AText (s : pystr) | ANone | APool (i : nat) | AOther (s r : pystr).
(** the class, the attribute args, and the attribute pool if it was set *)
Record eobj := { e_cls : ecls; e_args : list earg; e_pool : option earg }.

Definition name_of (c : ecls) : pystr :=
  match c with
  | PyboltE => str "PyboltError" | ServerE => str "ServerError" | ClientE => str "ClientError" | NoProcessorE => str "NoProcessorError"
  | ProtocolE => str "ProtocolError" | EncodeE => str "EncodeError" | DecodeE => str "DecodeError" | ParamTypeE => str "ParamTypeError"
  | MysockpoolE => str "MysockpoolError" | EmptyPoolE => str "EmptyPoolError" | ClosedPoolE => str "ClosedPoolError"
  | LocationValueE => str "LocationValueError" | SocketValueE => str "SocketValueError"
  end.
(** mysockpool/connection_pool.py:69-70: [key i] is repr() of the key of pool i *)
Definition pool_text (key : nat -> pystr) (i : nat) : pystr := str "ConnectionPool(" ++ key i ++ str ")".
(** str() and repr() of an argument; [rp] is repr() of a text, [pr] of a pool. The exception itself occurs only while its own repr() is
    being made, where CPython writes (...) for the tuple that it has begun. str(e) of an exception that has not got args yet is not needed. *)
Definition arg_str (key : nat -> pystr) (a : earg) : pystr :=
  match a with ASelf => [] | AText s => s | ANone => str "None" | APool i => pool_text key i | AOther s _ => s end.
Definition arg_repr (rp : pystr -> pystr) (pr : nat -> pystr) (c : ecls) (a : earg) : pystr :=
  match a with ASelf => name_of c ++ str "(...)" | AText s => rp s | ANone => str "None" | APool i => pr i | AOther _ r => r end.
Fixpoint commas (l : list pystr) : pystr := match l with [] => [] | [x] => x | x :: r => x ++ str ", " ++ commas r end.
(** BaseException.__str__ of CPython *)
Definition text (key : nat -> pystr) (rp : pystr -> pystr) (pr : nat -> pystr) (e : eobj) : pystr :=
  match e_args e with
  | [] => []
  | [a] => arg_str key a
  | l => str "(" ++ commas (map (arg_repr rp pr (e_cls e)) l) ++ str ")"
  end.

(** The __init__ of a class of the package, if it defines one: anthunder/exceptions.py:31-32, 40-41 and mysockpool/exceptions.py:28-30,
    which passes the exception itself on as the first argument. *)
Definition own_init (key : nat -> pystr) (at_class c : ecls) (args : list earg) : option (res eobj) :=
  match at_class with
  | ServerE => Some (match args with [m] => Ok {| e_cls := c; e_args := [AText (str "ServerError: " ++ arg_str key m)]; e_pool := None |} | _ => Raise TypeError end)
  | ClientE => Some (match args with [m] => Ok {| e_cls := c; e_args := [AText (str "ClientError: " ++ arg_str key m)]; e_pool := None |} | _ => Raise TypeError end)
  | MysockpoolE => Some (match args with
                         | [p; m] => Ok {| e_cls := c; e_args := [ASelf; AText (arg_str key p ++ str ": " ++ arg_str key m)]; e_pool := Some p |}
                         | _ => Raise TypeError
                         end)
  | _ => None
  end.
(** The call of a class: the first __init__ in the method resolution order; those of ValueError and Exception keep the arguments. *)
Fixpoint init_from (key : nat -> pystr) (l : list mro_class) (c : ecls) (args : list earg) : res eobj :=
  match l with
  | Own d :: r => match own_init key d c args with Some x => x | None => init_from key r c args end
  | _ => Ok {| e_cls := c; e_args := args; e_pool := None |}
  end.
Definition make (key : nat -> pystr) (c : ecls) (args : list earg) : res eobj := init_from key (mro c) c args.

(** The names of the statuses: anthunder/protocol/constants.py:53-66 *)
Definition status_name (st : Z) : pystr :=
  if st =? ST_SUCCESS then str "SUCCESS" else if st =? ST_ERROR then str "ERROR" else if st =? ST_SERVER_EXCEPTION then str "SERVER_EXCEPTION" else
  if st =? ST_UNKNOWN then str "UNKNOWN" else if st =? ST_SERVER_THREADPOOL_BUSY then str "SERVER_THREADPOOL_BUSY" else if st =? ST_ERROR_COMM then str "ERROR_COMM" else
  if st =? ST_NO_PROCESSOR then str "NO_PROCESSOR" else if st =? ST_TIMEOUT then str "TIMEOUT" else if st =? ST_CLIENT_SEND_ERROR then str "CLIENT_SEND_ERROR" else
  if st =? ST_CODEC_EXCEPTION then str "CODEC_EXCEPTION" else if st =? ST_CONNECTION_CLOSED then str "CONNECTION_CLOSED" else
  if st =? ST_SERVER_SERIAL_EXCEPTION then str "SERVER_SERIAL_EXCEPTION" else str "SERVER_DESERIAL_EXCEPTION".
(** ServerError.from_statuscode: anthunder/exceptions.py:34-36 *)
Definition from_statuscode (key : nat -> pystr) (c : ecls) (st : Z) : res eobj :=
  make key c [AText (str "ServerError: RESPSTATUS=" ++ str_int st ++ str ", " ++ status_name st)].

(** __reduce__: the first in the method resolution order; ValueError has none of its own. MysockpoolError, mysockpool/exceptions.py:32-34,
    gives (None, None), BaseException the attribute args; the attribute pool is set only where __reduce__ leaves it out. *)
Fixpoint reduced (l : list mro_class) (e : eobj) : list earg :=
  match l with Own MysockpoolE :: _ => [ANone; ANone] | _ :: r => reduced r e | [] => e_args e end.
(** copy.copy(e): the class is called with what __reduce__ gives. Argument [ASelf] does not get here: who has it has the __reduce__
    of MysockpoolError. *)
Definition copy (key : nat -> pystr) (e : eobj) : res eobj := make key (e_cls e) (reduced (mro (e_cls e)) e).
Fixpoint copies (key : nat -> pystr) (n : nat) (e : eobj) : res eobj :=
  match n with O => Ok e | S k => let! e1 := copies key k e in copy key e1 end.

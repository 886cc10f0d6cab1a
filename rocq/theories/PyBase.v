(** Bytes, strings, exceptions-as-values: the Python base of the model. *)
From Coq Require Export List ZArith Lia Bool.
From Coq Require Import Strings.Byte Strings.String Strings.Ascii.
Export ListNotations.
Open Scope Z_scope.

Notation byte := Coq.Init.Byte.byte.

(** Python [bytes]: a list of 8-bit values. *)
Definition bytes := list byte.

(** Python [str]: a list of code points. CPython guarantees 0 <= c <= 0x10FFFF;
    lone surrogates are possible elements. *)
Definition pystr := list Z.

(** A Python string literal (ASCII only) as a list of code points. *)
Fixpoint str (s : string) : pystr :=
  match s with
  | EmptyString => []
  | String a s' => Z.of_nat (nat_of_ascii a) :: str s'
  end.

(** [int(b)] of one byte, and the byte of an integer modulo 256. *)
Definition Z_of_byte (b : byte) : Z := Z.of_N (Byte.to_N b).
Definition byte_of_Z (z : Z) : byte :=
  match Byte.of_N (Z.to_N (z mod 256)) with Some b => b | None => Byte.x00 end.

(** A bytes literal (ASCII only), e.g. [b"..."]. *)
Fixpoint bytes_lit (s : string) : bytes :=
  match s with
  | EmptyString => []
  | String a s' => byte_of_Z (Z.of_nat (nat_of_ascii a)) :: bytes_lit s'
  end.

(** [len(x)] *)
Definition len {A} (l : list A) : Z := Z.of_nat (List.length l).

(** The exception classes that the modelled code raises or distinguishes.
    The class hierarchy used by [except] clauses is given by the predicates below. *)
Inductive exn :=
| DecodeError | EncodeError | ParamTypeError        (* ProtocolError, anthunder/protocol/exceptions.py:27-40 *)
| ServerError | NoProcessorError | ClientError | PyboltError (* anthunder/exceptions.py:26-41, base_listener.py:116 *)
| UnicodeDecodeError | UnicodeEncodeError | ValueError
| TypeError | KeyError | AttributeError | AssertionError | NameError
| StructError                                        (* struct.error *)
| IncompleteReadError                                (* asyncio, a subclass of EOFError *)
| ConnectionResetError | OSError                     (* OS level *)
| TimeoutError | CancelledError
| EmptyPoolError | ClosedPoolError | LocationValueError | SocketValueError (* mysockpool/exceptions.py *)
| InvalidCarrierException | UnsupportedFormatException   (* opentracing *)
| MeshConnectionError                                (* requests.ConnectionError *)
| NotImplementedError
| OtherError.                                        (* any other Exception, e.g. raised by user code *)

(** anthunder/protocol/exceptions.py:27-40 : subclasses of ProtocolError *)
Definition is_ProtocolError (e : exn) : bool :=
  match e with DecodeError | EncodeError | ParamTypeError => true | _ => false end.

(** anthunder/exceptions.py:26-41 : subclasses of PyboltError *)
Definition is_PyboltError (e : exn) : bool :=
  match e with
  | DecodeError | EncodeError | ParamTypeError
  | ServerError | NoProcessorError | ClientError | PyboltError => true
  | _ => false end.

Inductive res (A : Type) := Ok (a : A) | Raise (e : exn).
Arguments Ok {A} a.
Arguments Raise {A} e.

Definition bind {A B} (r : res A) (f : A -> res B) : res B :=
  match r with Ok a => f a | Raise e => Raise e end.
Notation "'let!' x := r 'in' k" := (bind r (fun x => k))
  (at level 200, x pattern, r at level 100, k at level 200, right associativity).

(** Dynamically typed values where the code inspects types at run time
    ([isinstance] checks of [validate], [struct.pack] argument checks). *)
Inductive pyobj :=
| PNone
| PBool (b : bool)
| PInt (z : Z)
| PFloat (num : Z) (den : positive)     (* a finite float, as the rational it denotes *)
| PStr (s : pystr)
| PBytes (b : bytes)
| POther (tag : Z) (truthy : bool).     (* any other object; [truthy] is its truth value *)

(** Python truth value of an object. *)
Definition truthy (o : pyobj) : bool :=
  match o with
  | PNone => false
  | PBool b => b
  | PInt z => negb (z =? 0)
  | PFloat n _ => negb (n =? 0)
  | PStr s => match s with [] => false | _ => true end
  | PBytes b => match b with [] => false | _ => true end
  | POther _ t => t
  end.

(** [isinstance(o, int)]: bool is a subclass of int. *)
Definition is_int (o : pyobj) : bool :=
  match o with PInt _ | PBool _ => true | _ => false end.
Definition is_bytes (o : pyobj) : bool :=
  match o with PBytes _ => true | _ => false end.
(** the integer value of an object with [is_int] (and of IntEnum members) *)
Definition int_value (o : pyobj) : option Z :=
  match o with PInt z => Some z | PBool b => Some (if b then 1 else 0) | _ => None end.

(** Python [a or b] on objects. *)
Definition py_or (a b : pyobj) : pyobj := if truthy a then a else b.

(** String equality. *)
Definition pystr_eq_dec (a b : pystr) : {a = b} + {a <> b} := list_eq_dec Z.eq_dec a b.
Definition pystr_eqb (a b : pystr) : bool := if pystr_eq_dec a b then true else false.
Definition bytes_eq_dec (a b : bytes) : {a = b} + {a <> b} := list_eq_dec Byte.byte_eq_dec a b.
Definition bytes_eqb (a b : bytes) : bool := if bytes_eq_dec a b then true else false.

(** Python slicing with non-negative bounds: [b[:n]] and [b[n:]]. *)
Definition py_take {A} (n : Z) (l : list A) : list A :=
  if len l <=? n then l else firstn (Z.to_nat n) l.
Definition py_drop {A} (n : Z) (l : list A) : list A :=
  if len l <=? n then [] else skipn (Z.to_nat n) l.

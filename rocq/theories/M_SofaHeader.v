(** Model of anthunder/protocol/_sofa_header.py (lines 31-113): string and header-map codec.
    Simplification: header keys and values are [str] (the code asserts it, line 50). *)
From Verif Require Import PyBase PyDict Utf8 Struct.

(** SofaHeader: a dict of str to str. _sofa_header.py:89 *)
Definition sofa_header := dict pystr pystr.

(** _sofa_header.py:31-32 [_int2bytes_be] : struct.pack('>i', i) *)
Definition int2bytes_be (i : Z) : res bytes :=
  match pack [F_i] [PInt i] with Some b => Ok b | None => Raise StructError end.

(** _sofa_header.py:35-37 [_bytes2int_be] : struct.unpack('>i', bs) *)
Definition bytes2int_be (b : bytes) : res Z :=
  match unpack [F_i] b with
  | Some [PInt i] => Ok i
  | _ => Raise StructError
  end.

(** _sofa_header.py:40-52 [_str_to_bytes_with_len] *)
Definition str_to_bytes_with_len (s : pystr) : res bytes :=
  match utf8_encode s with
  | None => Raise UnicodeEncodeError
  | Some b => let! l := int2bytes_be (len b) in Ok (l ++ b)
  end.

(** One iteration of the while loop of [_bytes_to_str], _sofa_header.py:69-84,
    for a non-empty [b]: the decoded string and the rest. *)
Definition bytes_to_str_step (b : bytes) : res (pystr * bytes) :=
  if len b <? 4 then Raise DecodeError                                 (* 69-70 *)
  else
    let! l := bytes2int_be (py_take 4 b) in                            (* 71 *)
    let l := if l =? -1 then 0 else l in                               (* 72-75 *)
    if l <? 0 then Raise DecodeError                                   (* 76-78 *)
    else
      let n := 4 + l in                                                (* 79 *)
      if len b <? n then Raise DecodeError                             (* 80-82 *)
      else
        match utf8_decode (py_drop 4 (py_take n b)) with               (* 83 : b[4:n].decode *)
        | Some s => Ok (s, py_drop n b)                                (* 84 : b = b[n:] *)
        | None => Raise UnicodeDecodeError
        end.

(** The loop _sofa_header.py:67-86 with an iteration budget; [None]: still running. *)
Fixpoint bytes_to_str_loop (fuel : nat) (b : bytes) (ret : list pystr) : option (res (list pystr)) :=
  match b with
  | [] => Some (Ok ret)
  | _ :: _ =>
      match fuel with
      | O => None
      | S fuel' =>
          match bytes_to_str_step b with
          | Raise e => Some (Raise e)
          | Ok (s, b') => bytes_to_str_loop fuel' b' (ret ++ [s])
          end
      end
  end.

(** [_bytes_to_str]; [length b] iterations always suffice (proved: the default is unreachable). *)
Definition bytes_to_str (b : bytes) : res (list pystr) :=
  match bytes_to_str_loop (length b) b [] with
  | Some r => r
  | None => Raise OtherError
  end.

(** [ss[::2]] ; [ss[1::2]] is [stride2 (tl ss)] *)
Fixpoint stride2 {A} (l : list A) : list A :=
  match l with
  | x :: _ :: r => x :: stride2 r
  | [x] => [x]
  | [] => []
  end.

(** _sofa_header.py:97-104 [SofaHeader.from_bytes] *)
Definition from_bytes (b : bytes) : res sofa_header :=
  let! ss := bytes_to_str b in
  let ks := stride2 ss in
  let vs := stride2 (tl ss) in
  if negb (len ks =? len vs) then Raise DecodeError
  else Ok (dict_of (combine ks vs)).

(** _sofa_header.py:106-110 [SofaHeader.to_bytes] (only AttributeError is translated) *)
Fixpoint to_bytes (h : sofa_header) : res bytes :=
  match h with
  | [] => Ok []
  | (k, v) :: h' =>
      let! kb := str_to_bytes_with_len k in
      let! vb := str_to_bytes_with_len v in
      let! r := to_bytes h' in
      Ok (kb ++ vb ++ r)
  end.

(** _sofa_header.py:112-113 [__len__] *)
Definition header_len (h : sofa_header) : res Z := let! b := to_bytes h in Ok (len b).

(** _sofa_header.py:94-95 [__setitem__]: does nothing *)
Definition header_setitem (k v : pystr) (h : sofa_header) : sofa_header := h.

(** _sofa_header.py:142 *)
Definition empty_header : sofa_header := [].

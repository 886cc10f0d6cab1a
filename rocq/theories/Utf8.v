(** Strict UTF-8, as performed by [str.encode('utf-8')] and [bytes.decode('utf-8')].
    (Python language behaviour used by anthunder/protocol/_sofa_header.py:51,83.) *)
From Verif Require Import PyBase.

Definition is_surrogate (c : Z) : bool := (0xD800 <=? c) && (c <=? 0xDFFF).

(** One code point; [None] is UnicodeEncodeError (surrogates; out-of-range integers are
    not elements of any Python str). *)
Definition utf8_enc1 (c : Z) : option bytes :=
  if (c <? 0) || (0x10FFFF <? c) || is_surrogate c then None
  else if c <? 0x80 then Some [byte_of_Z c]
  else if c <? 0x800 then Some [byte_of_Z (0xC0 + c / 64); byte_of_Z (0x80 + c mod 64)]
  else if c <? 0x10000 then
    Some [byte_of_Z (0xE0 + c / 4096); byte_of_Z (0x80 + (c / 64) mod 64); byte_of_Z (0x80 + c mod 64)]
  else
    Some [byte_of_Z (0xF0 + c / 262144); byte_of_Z (0x80 + (c / 4096) mod 64);
          byte_of_Z (0x80 + (c / 64) mod 64); byte_of_Z (0x80 + c mod 64)].

Fixpoint utf8_encode (s : pystr) : option bytes :=
  match s with
  | [] => Some []
  | c :: s' =>
      match utf8_enc1 c, utf8_encode s' with
      | Some b, Some bs => Some (b ++ bs)
      | _, _ => None
      end
  end.

(** continuation byte 10xxxxxx: its 6 payload bits *)
Definition cont (b : byte) : option Z :=
  let z := Z_of_byte b in if (0x80 <=? z) && (z <=? 0xBF) then Some (z - 0x80) else None.

(** The decoder consumes 1-4 bytes per code point; [None] is UnicodeDecodeError.
    Minimal-length and surrogate checks are CPython's (Objects/stringlib/codecs.h). *)
Fixpoint utf8_decode (b : bytes) : option pystr :=
  match b with
  | [] => Some []
  | b0 :: r0 =>
      let z := Z_of_byte b0 in
      if z <? 0x80 then option_map (cons z) (utf8_decode r0)
      else if z <? 0xC2 then None
      else if z <? 0xE0 then
        match r0 with
        | b1 :: r1 =>
            match cont b1 with
            | Some c1 => option_map (cons ((z - 0xC0) * 64 + c1)) (utf8_decode r1)
            | None => None
            end
        | _ => None
        end
      else if z <? 0xF0 then
        match r0 with
        | b1 :: b2 :: r2 =>
            match cont b1, cont b2 with
            | Some c1, Some c2 =>
                let c := (z - 0xE0) * 4096 + c1 * 64 + c2 in
                if (c <? 0x800) || is_surrogate c then None
                else option_map (cons c) (utf8_decode r2)
            | _, _ => None
            end
        | _ => None
        end
      else if z <? 0xF5 then
        match r0 with
        | b1 :: b2 :: b3 :: r3 =>
            match cont b1, cont b2, cont b3 with
            | Some c1, Some c2, Some c3 =>
                let c := (z - 0xF0) * 262144 + c1 * 4096 + c2 * 64 + c3 in
                if (c <? 0x10000) || (0x10FFFF <? c) then None
                else option_map (cons c) (utf8_decode r3)
            | _, _, _ => None
            end
        | _ => None
        end
      else None
  end.

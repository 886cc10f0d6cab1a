(** Independent description of the Bolt wire format, from the diagram in
    anthunder/protocol/__init__.py:30-75 and the UTF-8 / java writeInt conventions.
    Uses only bytes, lists and arithmetic; none of the codec model. *)
From Verif Require Import PyBase.

(** value of a byte string, most significant byte first *)
Fixpoint uval (bs : bytes) : Z :=
  match bs with [] => 0 | b :: r => Z_of_byte b * 256 ^ len r + uval r end.
(** two's complement *)
Definition sval (bs : bytes) : Z :=
  if 2 * uval bs <? 256 ^ len bs then uval bs else uval bs - 256 ^ len bs.
(** the [n] bytes at offset [off] *)
Definition field (off n : nat) (bs : bytes) : bytes := firstn n (skipn off bs).

Record frame := {
  fr_proto : Z; fr_type : Z; fr_cmdcode : Z; fr_ver2 : Z; fr_request_id : Z; fr_codec : Z;
  fr_tos : Z;                       (* timeout of a request / status of a response *)
  fr_class : bytes; fr_header : bytes; fr_content : bytes
}.

(** bytes 0..9, common to both diagrams *)
Definition common_layout (bs : bytes) (f : frame) : Prop :=
  sval (field 0 1 bs) = fr_proto f /\ sval (field 1 1 bs) = fr_type f /\
  sval (field 2 2 bs) = fr_cmdcode f /\ sval (field 4 1 bs) = fr_ver2 f /\
  sval (field 5 4 bs) = fr_request_id f /\ sval (field 9 1 bs) = fr_codec f.

Definition request_layout (bs : bytes) (f : frame) : Prop :=
  22 <= len bs /\ common_layout bs f /\
  sval (field 10 4 bs) = fr_tos f /\
  uval (field 14 2 bs) = len (fr_class f) /\
  uval (field 16 2 bs) = len (fr_header f) /\
  uval (field 18 4 bs) = len (fr_content f) /\
  skipn 22 bs = fr_class f ++ fr_header f ++ fr_content f.

Definition response_layout (bs : bytes) (f : frame) : Prop :=
  20 <= len bs /\ common_layout bs f /\
  sval (field 10 2 bs) = fr_tos f /\
  uval (field 12 2 bs) = len (fr_class f) /\
  uval (field 14 2 bs) = len (fr_header f) /\
  uval (field 16 4 bs) = len (fr_content f) /\
  skipn 20 bs = fr_class f ++ fr_header f ++ fr_content f.

(** legal codes *)
Definition legal_common (f : frame) : Prop :=
  fr_proto f = 1 /\ In (fr_type f) [0; 1; 2] /\ In (fr_cmdcode f) [0; 1; 2] /\
  fr_ver2 f = 1 /\ In (fr_codec f) [1; 2; 11].
Definition legal_status (s : Z) : Prop := (0 <= s <= 9) \/ (16 <= s <= 18).

(** ** UTF-8 (RFC 3629) *)
Definition scalar (c : Z) : Prop := (0 <= c < 0xD800) \/ (0xDFFF < c <= 0x10FFFF).

Inductive utf8_char : Z -> list Z -> Prop :=
| U1 c : 0 <= c < 0x80 -> utf8_char c [c]
| U2 a b : 0 <= b < 64 -> 0x80 <= a * 64 + b < 0x800 ->
    utf8_char (a * 64 + b) [0xC0 + a; 0x80 + b]
| U3 a b d : 0 <= b < 64 -> 0 <= d < 64 -> 0x800 <= a * 4096 + b * 64 + d < 0x10000 ->
    scalar (a * 4096 + b * 64 + d) ->
    utf8_char (a * 4096 + b * 64 + d) [0xE0 + a; 0x80 + b; 0x80 + d]
| U4 a b d e : 0 <= b < 64 -> 0 <= d < 64 -> 0 <= e < 64 ->
    0x10000 <= a * 262144 + b * 4096 + d * 64 + e <= 0x10FFFF ->
    utf8_char (a * 262144 + b * 4096 + d * 64 + e) [0xF0 + a; 0x80 + b; 0x80 + d; 0x80 + e].

(** [utf8_text s bs]: [bs] is the UTF-8 form of the string [s] *)
Inductive utf8_text : pystr -> bytes -> Prop :=
| UT_nil : utf8_text [] []
| UT_cons c s cb bs : utf8_char c (map Z_of_byte cb) -> utf8_text s bs -> utf8_text (c :: s) (cb ++ bs).

(** ** Header part: a sequence of length-prefixed strings, length -1 standing for null (empty) *)
Inductive header_strings : bytes -> list pystr -> Prop :=
| HS_nil : header_strings [] []
| HS_str l payload rest s ss :
    len l = 4 -> sval l = len payload -> utf8_text s payload -> header_strings rest ss ->
    header_strings (l ++ payload ++ rest) (s :: ss)
| HS_null l rest ss :
    len l = 4 -> sval l = -1 -> header_strings rest ss ->
    header_strings (l ++ rest) ([] :: ss).

(** the strings alternate keys and values *)
Fixpoint flatten_pairs (kvs : list (pystr * pystr)) : list pystr :=
  match kvs with [] => [] | (k, v) :: r => k :: v :: flatten_pairs r end.

Definition header_pairs (bs : bytes) (kvs : list (pystr * pystr)) : Prop :=
  header_strings bs (flatten_pairs kvs).

(** [map_of kvs h]: the map [h] (an association list with distinct keys) has, for each key of
    [kvs], the last value given for it, and lists the keys in the order of first appearance. *)
Inductive last_value : pystr -> list (pystr * pystr) -> pystr -> Prop :=
| LV_here k v r : ~ In k (map fst r) -> last_value k ((k, v) :: r) v
| LV_later k k' v' r v : last_value k r v -> last_value k ((k', v') :: r) v.

Definition first_occurrences (ks : list pystr) : list pystr :=
  fold_left (fun acc k => if in_dec pystr_eq_dec k acc then acc else acc ++ [k]) ks [].

Definition map_of (kvs h : list (pystr * pystr)) : Prop :=
  map fst h = first_occurrences (map fst kvs) /\
  forall k v, In (k, v) h -> last_value k kvs v.

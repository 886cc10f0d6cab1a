(** The [struct] module for the formats used in the code, network (big-endian) order,
    standard sizes, no padding: '!bbhblblHHL', '!bbhblbhHHL', '>i', '%ds'. *)
From Verif Require Import PyBase.

Inductive fmtc := F_b | F_h | F_i | F_l | F_H | F_L | F_s (n : Z).

Definition fsize (f : fmtc) : Z :=
  match f with F_b => 1 | F_h => 2 | F_i => 4 | F_l => 4 | F_H => 2 | F_L => 4 | F_s n => n end.

(** [struct.calcsize] *)
Definition calcsize (fmt : list fmtc) : Z := fold_right (fun f n => fsize f + n) 0 fmt.

(** [k] bytes, most significant first; negative numbers in two's complement *)
Fixpoint be_bytes (k : nat) (z : Z) : bytes :=
  match k with
  | O => []
  | S k' => byte_of_Z (z / 256 ^ Z.of_nat k') :: be_bytes k' z
  end.

Definition be_uint (b : bytes) : Z := fold_left (fun acc x => acc * 256 + Z_of_byte x) b 0.
Definition be_sint (b : bytes) : Z :=
  let u := be_uint b in
  let m := 256 ^ len b in
  if u <? m / 2 then u else u - m.

Definition pack_int (lo hi : Z) (k : nat) (v : pyobj) : option bytes :=
  match int_value v with
  | Some z => if (lo <=? z) && (z <=? hi) then Some (be_bytes k z) else None
  | None => None                           (* "required argument is not an integer" *)
  end.

(** one item; [None] is struct.error *)
Definition pack1 (f : fmtc) (v : pyobj) : option bytes :=
  match f with
  | F_b => pack_int (-128) 127 1 v
  | F_h => pack_int (-32768) 32767 2 v
  | F_i | F_l => pack_int (-2147483648) 2147483647 4 v
  | F_H => pack_int 0 65535 2 v
  | F_L => pack_int 0 4294967295 4 v
  | F_s n =>
      match v with
      | PBytes b =>                        (* truncated or zero-padded to n bytes *)
          if n <=? len b then Some (py_take n b)
          else Some (b ++ repeat Byte.x00 (Z.to_nat (n - len b)))
      | _ => None
      end
  end.

(** [struct.pack(fmt, *vals)] *)
Fixpoint pack (fmt : list fmtc) (vals : list pyobj) : option bytes :=
  match fmt, vals with
  | [], [] => Some []
  | f :: fmt', v :: vals' =>
      match pack1 f v, pack fmt' vals' with
      | Some b, Some bs => Some (b ++ bs)
      | _, _ => None
      end
  | _, _ => None
  end.

Definition unpack1 (f : fmtc) (b : bytes) : pyobj :=
  match f with
  | F_b | F_h | F_i | F_l => PInt (be_sint b)
  | F_H | F_L => PInt (be_uint b)
  | F_s _ => PBytes b
  end.

Fixpoint unpack_items (fmt : list fmtc) (b : bytes) : list pyobj :=
  match fmt with
  | [] => []
  | f :: fmt' => unpack1 f (py_take (fsize f) b) :: unpack_items fmt' (py_drop (fsize f) b)
  end.

(** [struct.unpack(fmt, b)]: requires a buffer of exactly [calcsize fmt] bytes *)
Definition unpack (fmt : list fmtc) (b : bytes) : option (list pyobj) :=
  if len b =? calcsize fmt then Some (unpack_items fmt b) else None.

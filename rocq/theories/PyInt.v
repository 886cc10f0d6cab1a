(** Textual forms of integers: [str(n)], [format(n, 'x')] and [int(s)]. *)
From Verif Require Import PyBase.

(** the character of a digit 0..15 ('0'-'9', 'a'-'f') *)
Definition digit_char (d : Z) : Z := if d <? 10 then 48 + d else 87 + d.

(** the digits of n >= 0 in base b, most significant first; 1 + log2 n steps always suffice *)
Fixpoint nat_digits (fuel : nat) (b n : Z) (acc : pystr) : pystr :=
  match fuel with
  | O => acc
  | S f => if n <? b then digit_char n :: acc else nat_digits f b (n / b) (digit_char (n mod b) :: acc)
  end.
Definition nat_text (b n : Z) : pystr := nat_digits (S (Z.to_nat (Z.log2 n))) b n [].

(** [str(z)]. Not modelled: the limit on the number of digits of newer CPython versions. *)
Definition str_int (z : Z) : pystr := if z <? 0 then 45 :: nat_text 10 (- z) else nat_text 10 z.

(** ["{:0>8x}".format(n)] for n >= 0 *)
Definition hex8 (n : Z) : pystr := let s := nat_text 16 n in repeat 48 (8 - length s)%nat ++ s.

(** The character tables used by [int(str)]: the decimal value of a character, and whether it counts
    as white space (in an all-ASCII string, CPython applies a smaller table). The theorems hold for
    all tables that satisfy [tables_ok], hence for every version of the Unicode database. *)
Record tables := { u_digit : Z -> option Z; u_space : bool -> Z -> bool }.
Definition tables_ok (U : tables) : Prop :=
  (forall c, 48 <= c <= 57 -> u_digit U c = Some (c - 48)) /\
  (forall c d, u_digit U c = Some d -> 0 <= d <= 9) /\
  u_digit U 43 = None /\ u_digit U 45 = None /\ u_digit U 95 = None /\ u_digit U 46 = None /\
  (forall a c, u_digit U c <> None -> u_space U a c = false) /\
  (forall a, u_space U a 43 = false /\ u_space U a 45 = false /\ u_space U a 95 = false).

Definition is_ascii (s : pystr) : bool := forallb (fun c => c <? 128) s.

Fixpoint lstrip (sp : Z -> bool) (s : pystr) : pystr :=
  match s with c :: r => if sp c then lstrip sp r else s | [] => [] end.

(** after at least one digit: digits, single underscores between digits, trailing white space *)
Fixpoint int_digits (U : tables) (sp : Z -> bool) (acc : Z) (prev_underscore : bool) (s : pystr) : option Z :=
  match s with
  | [] => if prev_underscore then None else Some acc
  | c :: r =>
      match u_digit U c with
      | Some d => int_digits U sp (acc * 10 + d) false r
      | None => if prev_underscore then None
                else if c =? 95 then int_digits U sp acc true r
                else if forallb sp s then Some acc else None
      end
  end.

Definition int_unsigned (U : tables) (sp : Z -> bool) (s : pystr) : option Z :=
  match s with
  | c :: r => match u_digit U c with Some d => int_digits U sp d false r | None => None end
  | [] => None
  end.

(** [int(s)] of a str; [None] is ValueError *)
Definition parse_int (U : tables) (s : pystr) : option Z :=
  let sp := u_space U (is_ascii s) in
  match lstrip sp s with
  | c :: r => if c =? 45 then option_map Z.opp (int_unsigned U sp r)
              else if c =? 43 then int_unsigned U sp r
              else int_unsigned U sp (c :: r)
  | [] => None
  end.

(** the ASCII part of CPython's tables *)
Definition ascii_tables : tables :=
  {| u_digit := fun c => if (48 <=? c) && (c <=? 57) then Some (c - 48) else None;
     u_space := fun a c => ((9 <=? c) && (c <=? 13)) || (c =? 32) || (negb a && (28 <=? c) && (c <=? 31)) |}.

(** [s.split('.')] *)
Fixpoint split_dot (s : pystr) : list pystr :=
  match s with
  | [] => [[]]
  | c :: r => if c =? 46 then [] :: split_dot r
              else match split_dot r with x :: l => (c :: x) :: l | [] => [[c]] end
  end.

(** ['.'.join(l)] *)
Fixpoint join_dot (l : list pystr) : pystr :=
  match l with
  | [] => []
  | [x] => x
  | x :: r => x ++ 46 :: join_dot r
  end.

(** Independent specification of numerals and rpc ids, used by the statements of C15-C17. *)
From Verif Require Import PyBase.

Definition hex_digit (c d : Z) : Prop := 0 <= d <= 9 /\ c = 48 + d \/ 10 <= d <= 15 /\ c = 87 + d.

(** [s] is the numeral of n in base b without superfluous leading zeros *)
Inductive numeral (b : Z) : pystr -> Z -> Prop :=
| num_one c d : hex_digit c d -> d < b -> numeral b [c] d
| num_snoc s n c d : numeral b s n -> 0 < n -> hex_digit c d -> d < b -> numeral b (s ++ [c]) (n * b + d).

(** [s] is a string of exactly k base-b digits with value n (leading zeros allowed) *)
Inductive fixed_numeral (b : Z) : nat -> pystr -> Z -> Prop :=
| fix_nil : fixed_numeral b 0 [] 0
| fix_snoc k s n c d : fixed_numeral b k s n -> hex_digit c d -> d < b -> fixed_numeral b (S k) (s ++ [c]) (n * b + d).

(** canonical decimal text of an integer: 0, 17, -3 but not 007, +3, -0, 1_000 *)
Definition canonical_int (s : pystr) (z : Z) : Prop :=
  0 <= z /\ numeral 10 s z \/ z < 0 /\ exists t, s = 45 :: t /\ numeral 10 t (- z).

(** the texts accepted by int(): white space, sign, digits with single underscores between, white space *)
Section IntText.
  Variable digit : Z -> option Z.
  Variable space : Z -> bool.
  Inductive digit_run : pystr -> Z -> Prop :=
  | dr_one c d : digit c = Some d -> digit_run [c] d
  | dr_digit s n c d : digit_run s n -> digit c = Some d -> digit_run (s ++ [c]) (n * 10 + d)
  | dr_underscore s n c d : digit_run s n -> digit c = Some d -> digit_run (s ++ [95; c]) (n * 10 + d).
  Definition int_text (s : pystr) (z : Z) : Prop :=
    exists l sign body r n, s = l ++ sign ++ body ++ r /\
      Forall (fun c => space c = true) l /\ Forall (fun c => space c = true) r /\ digit_run body n /\
      (sign = [] /\ z = n \/ sign = [43] /\ z = n \/ sign = [45] /\ z = - n).
End IntText.

(** [parts] are the dot-separated parts of [s] *)
Inductive dot_parts : pystr -> list pystr -> Prop :=
| dp_one s : ~ In 46 s -> dot_parts s [s]
| dp_cons s r l : ~ In 46 s -> dot_parts r l -> dot_parts (s ++ 46 :: r) (s :: l).

(** Derivation histories: span 0 is the root, the n-th operation (counting from 0) makes span n + 1.
    [true] is child-of, [false] is follows-from. The follow-up of a span has the same parent. *)
Fixpoint parents_from (acc : list (option nat)) (ops : list (bool * nat)) : list (option nat) :=
  match ops with
  | [] => acc
  | (k, c) :: r => parents_from (acc ++ [if k then Some c else nth c acc None]) r
  end.
Definition parents (ops : list (bool * nat)) : list (option nat) := parents_from [None] ops.

(** every follows-from refers to the most recently made span with the same parent *)
Definition follows_latest (ops : list (bool * nat)) : Prop :=
  forall pre c post, ops = pre ++ (false, c) :: post ->
  forall i, (c < i <= length pre)%nat -> nth i (parents pre) None <> nth c (parents pre) None.
Definition refers_to_existing (ops : list (bool * nat)) : Prop :=
  forall pre k c post, ops = pre ++ (k, c) :: post -> (c <= length pre)%nat.

(** Specification of the text of a number. *)
From Verif Require Import Base Value_Model SUtil_Spec.

(** The finite double [v] has the integer value [n]. *)
Inductive whole : Z -> Z -> Prop :=
| W_zero v s : d_dec v = S754_zero s -> whole v 0
| W_up v s m e n : d_dec v = S754_finite s m e -> 0 <= e -> n = Z.pos m * 2 ^ e -> whole v (if s then - n else n)
| W_down v s m e n : d_dec v = S754_finite s m e -> e < 0 -> n * 2 ^ (- e) = Z.pos m -> whole v (if s then - n else n).
(** [k] is an integer nearest to [num / den], the even one of two. *)
Definition nearest (k num den : Z) : Prop :=
  2 * Z.abs (k * den - num) <= den /\ (2 * Z.abs (k * den - num) = den -> Z.even k = true).
(** Exactly six digits. *)
Definition six (k : Z) (f : list Z) : Prop :=
  length f = 6%nat /\ Forall (is_digit_in 10) f /\ num_value 10 0 f = k.

(** Integers are printed exactly, other numbers as the nearest multiple of 1/1000000. *)
Inductive num_shows : Z -> list Z -> Prop :=
| NS_whole v n t : whole v n -> - 2 ^ 63 <= n < 2 ^ 63 -> int_text 10 n false 0 t -> num_shows v t
| NS_frac v s m e k i f : d_dec v = S754_finite s m e -> e < 0 -> Z.pos m mod 2 ^ (- e) <> 0 ->
    nearest k (Z.pos m * 1000000) (2 ^ (- e)) -> numeral 10 (k / 1000000) i -> six (k mod 1000000) f ->
    num_shows v ((if s then [45] else []) ++ i ++ 46 :: f)
| NS_nan v : d_dec v = S754_nan -> num_shows v [45; 110; 97; 110].

(** Numbers that can be printed at all: not infinite, and below 2^63 when integral. *)
Definition printable (v : Z) : Prop :=
  (forall s, d_dec v <> S754_infinity s) /\ (forall n, whole v n -> - 2 ^ 63 <= n < 2 ^ 63).

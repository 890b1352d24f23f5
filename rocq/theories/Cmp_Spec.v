(** The order of texts. *)
From Verif Require Import Base.

Inductive lex_lt : list Z -> list Z -> Prop :=
| ll_nil y b : lex_lt [] (y :: b)
| ll_head x y a b : x < y -> lex_lt (x :: a) (y :: b)
| ll_tail x a b : lex_lt a b -> lex_lt (x :: a) (x :: b).
(** [n] tells how [a] and [b] compare if each byte is replaced by its key. *)
Definition compares (key : Z -> Z) (a b : list Z) (n : Z) : Prop :=
  (n = 0 <-> map key a = map key b) /\ (n < 0 <-> lex_lt (map key a) (map key b)) /\ (0 < n <-> lex_lt (map key b) (map key a)).
Definition unsigned_key (c : Z) : Z := c.
Definition signed_key (c : Z) : Z := if 127 <? c then c - 256 else c.
(** Upper case letters count as lower case letters. *)
Definition case_key (c : Z) : Z := if (64 <? c) && (c <? 91) then c + 32 else c.
Definition ascii (s : list Z) : Prop := Forall (fun c => 0 <= c < 128) s.
Definition blank (c : Z) : Prop := In c [9; 10; 11; 12; 13; 32].
(** [t] is [s] without the blanks around it. *)
Definition stripped (s t : list Z) : Prop :=
  exists a b, s = a ++ t ++ b /\ Forall blank a /\ Forall blank b /\ (t = [] -> b = []) /\
    (forall c r, t = c :: r -> ~ blank c) /\ (forall r c, t = r ++ [c] -> ~ blank c).

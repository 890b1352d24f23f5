(** Patterns of file names. *)
From Verif Require Import Base.

Definition same_letter (c d : Z) : Prop := c = d \/ (65 <= c <= 90 /\ d = c + 32) \/ (65 <= d <= 90 /\ c = d + 32).
(** The pattern matches [t], followed by [r]: ? is any byte, * any bytes but slashes, ** any bytes, $ at the end of the
    pattern the end of the text; other bytes are themselves, in upper or lower case. *)
Inductive glob : list Z -> list Z -> list Z -> Prop :=
| gl_nil r : glob [] [] r
| gl_end : glob [36] [] []
| gl_any p c t r : glob p t r -> glob (63 :: p) (c :: t) r
| gl_star p u t r : ~ In 47 u -> glob p t r -> glob (42 :: p) (u ++ t) r
| gl_stars p u t r : glob p t r -> glob (42 :: 42 :: p) (u ++ t) r
| gl_byte p c d t r : c <> 63 -> c <> 42 -> same_letter c d -> glob p t r -> glob (c :: p) (d :: t) r.
(** The alternatives of a pattern are separated by bars and commas. *)
Definition sep (c : Z) : Prop := c = 124 \/ c = 44.
Definition alternative (p a : list Z) : Prop :=
  Forall (fun c => ~ sep c) a /\ exists x y, p = x ++ a ++ y /\
    (x = [] \/ exists x' c, x = x' ++ [c] /\ sep c) /\ (y = [] \/ exists c y', y = c :: y' /\ sep c).
(** $ stands only at the end, and not after a star. *)
Fixpoint dollar_ok (p : list Z) : Prop :=
  match p with
  | [] => True
  | c :: p' => (c = 36 -> p' = []) /\ (c = 42 -> hd 0 p' <> 36) /\ dollar_ok p'
  end.
(** As the header documents it (str_util.h:168-177): ? is any byte but a slash, and $ is a byte like others. *)
Inductive glob_doc : list Z -> list Z -> Prop :=
| gd_nil : glob_doc [] []
| gd_any p c t : c <> 47 -> glob_doc p t -> glob_doc (63 :: p) (c :: t)
| gd_star p u t : ~ In 47 u -> glob_doc p t -> glob_doc (42 :: p) (u ++ t)
| gd_stars p u t : glob_doc p t -> glob_doc (42 :: 42 :: p) (u ++ t)
| gd_byte p c d t : c <> 63 -> c <> 42 -> same_letter c d -> glob_doc p t -> glob_doc (c :: p) (d :: t).
(** The matches the code can find: stars are paired from the left, and what follows a star matches some bytes, or the star
    is the last byte of the pattern and there is text left for it. *)
Inductive glob_found : list Z -> list Z -> list Z -> Prop :=
| gf_nil r : glob_found [] [] r
| gf_end : glob_found [36] [] []
| gf_any p c t r : glob_found p t r -> glob_found (63 :: p) (c :: t) r
| gf_star p u t r : ~ In 47 u -> hd 0 p <> 42 -> t <> [] \/ (p = [] /\ u ++ r <> []) -> glob_found p t r -> glob_found (42 :: p) (u ++ t) r
| gf_stars p u t r : t <> [] \/ (p = [] /\ u ++ r <> []) -> glob_found p t r -> glob_found (42 :: 42 :: p) (u ++ t) r
| gf_byte p c d t r : c <> 63 -> c <> 42 -> same_letter c d -> glob_found p t r -> glob_found (c :: p) (d :: t) r.

(** Texts that can be inside a JSON string. *)
From Verif Require Import Base.

(** The bytes after the first one of a character: as many as the first byte tells *)
Definition group (c : Z) (k : list Z) : Prop :=
  Forall (fun d => 128 <= d < 192) k /\
  ((192 <= c < 224 /\ zlen k = 1) \/ (224 <= c < 240 /\ zlen k = 2) \/ (240 <= c < 256 /\ zlen k = 3)).
(** Characters of one byte, and whole characters of more *)
Inductive utf8_text (P : Z -> Prop) : list Z -> Prop :=
| ut_nil : utf8_text P []
| ut_byte c s : 0 <= c < 128 -> P c -> utf8_text P s -> utf8_text P (c :: s)
| ut_group c k s : group c k -> utf8_text P s -> utf8_text P (c :: k ++ s).
(** All but the vertical tab, the codes 15 to 31, and 127 *)
Definition spared (c : Z) : Prop := c <> 11 /\ ~ 15 <= c < 32 /\ c <> 127.
(** No quotation mark ends the string: each comes after a backslash that is not itself escaped. *)
Inductive body : list Z -> Prop :=
| bd_nil : body []
| bd_byte c t : c <> 34 -> c <> 92 -> body t -> body (c :: t)
| bd_esc c t : body t -> body (92 :: c :: t).
(** The short forms of RFC 8259, and that of the vertical tab, which is not in it *)
Inductive short : Z -> Z -> Prop :=
| sh_quote : short 34 34 | sh_backslash : short 92 92 | sh_b : short 8 98 | sh_t : short 9 116 | sh_n : short 10 110
| sh_v : short 11 118 | sh_f : short 12 102 | sh_r : short 13 114.

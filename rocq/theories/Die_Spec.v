(** What a user sees of the text of an error. *)
From Verif Require Import Base TokNum_Model Txt_Model.

(** The part of a text before its first NUL *)
Definition visible (s v : list Z) : Prop := Forall (fun c => c <> 0) v /\ (s = v \/ exists r, s = v ++ 0 :: r).
(** The names of the codes *)
Inductive code_name : Z -> list Z -> Prop :=
| N0 : code_name 0 (bs "NO_ERROR") | N1 : code_name 1 (bs "SYNTAX_ERROR") | N2 : code_name 2 (bs "REFERENCE_ERROR")
| N3 : code_name 3 (bs "TYPE_ERROR") | N4 : code_name 4 (bs "OUT_OF_MEMORY") | N5 : code_name 5 (bs "INTERNAL_ERROR")
| N6 : code_name 6 (bs "NOT_IMPLEMENTED") | N7 : code_name 7 (bs "FILE_OPEN_ERROR") | N8 : code_name 8 (bs "BAD_ARGUMENTS").
(** The text after the first colon: the visible part, then an earlier message; a name if there is nothing to show *)
Inductive reported (v : list Z) : option (list Z) -> Z -> list Z -> Prop :=
| Earlier o c : reported v (Some o) c (v ++ bs ": " ++ o)
| Text c : v <> [] -> reported v None c v
| Name c n : v = [] -> code_name c n -> reported v None c n.

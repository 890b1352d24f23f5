(** Specification of error reports: only what follows the last mjs_set_errorf matters; the
    code is the first non-zero one, the message is the texts, newest first, joined by ": ". *)
From Verif Require Import Base Err_Model.

Fixpoint join (l : list (list Z)) : list Z :=
  match l with
  | [] => []
  | [t] => t
  | t :: l => t ++ [58; 32] ++ join l
  end.
(** Texts of the reports, oldest first: the initial one (if any) and the prepended ones. *)
Definition outward (t0 : option (list Z)) (ps : list (Z * list Z)) : option (list Z) :=
  let ts := rev (map snd ps) ++ match t0 with Some t => [t] | None => [] end in
  match ts with [] => None | _ => Some (join ts) end.
Definition first_code (c0 : Z) (ps : list (Z * list Z)) : Z :=
  if c0 =? 0 then match ps with [] => 0 | (c, _) :: _ => c end else c0.

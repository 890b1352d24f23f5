(** Pieces of a text that were stored. *)
From Verif Require Import Base.

(** [kept] are the pieces for which there was memory, in their order *)
Inductive stored : (nat -> bool) -> list (list Z) -> list (list Z) -> Prop :=
| st_nil oks : stored oks [] []
| st_keep oks p ps kept : oks O = true -> stored (fun k => oks (S k)) ps kept -> stored oks (p :: ps) (p :: kept)
| st_drop oks p ps kept : oks O = false -> stored (fun k => oks (S k)) ps kept -> stored oks (p :: ps) kept.
(** No block if nothing was stored, and otherwise a block of just the text and its NUL *)
Definition result (kept : list (list Z)) (buf : option (list Z)) : Prop :=
  match kept with [] => buf = None | _ => buf = Some (concat kept ++ [0]) end.
Definition no_nuls (p : list Z) : Prop := Forall (fun c => c <> 0) p.

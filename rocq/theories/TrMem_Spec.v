(** The lines of a trace that are in memory. *)
From Verif Require Import Base Avp_Spec ErrMem_Model TrMem_Model.

Fixpoint texts (lines : list (option (list Z))) : list (list Z) :=
  match lines with [] => [] | None :: ls => texts ls | Some t :: ls => t :: texts ls end.
(** The trace is the lines [kept], in one block, the only one in use *)
Definition shows (s : trmem) (kept : list (list Z)) : Prop :=
  match t_trace s with
  | None => kept = [] /\ t_live s = 0
  | Some b => kept <> [] /\ holds b (concat kept) /\ t_live s = 1
  end.
Definition clean (t : list Z) : Prop := Forall (fun c => c <> 0) t.

(** A message in memory. *)
From Verif Require Import Base Avp_Model Avp_Spec Err_Model ErrMem_Model.

(** The block holds the message, and it is the only block in use. *)
Definition keeps (m : errmem) (code : Z) (msg : option (list Z)) : Prop :=
  m_code m = code /\
  match msg with
  | None => m_msg m = None /\ m_live m = 0
  | Some t => (exists b, m_msg m = Some b /\ holds b t) /\ m_live m = 1
  end.
Definition report_text (r : report) : list Z := match r with SetErr _ (Some t) => t | SetErr _ None => [] | Prepend _ t => t end.
Definition no_nul (r : report) : Prop := Forall (fun c => c <> 0) (report_text r).
(** Texts with room for a colon and a blank between them *)
Fixpoint total (rs : list report) : Z := match rs with [] => 0 | r :: rs => 2 + zlen (report_text r) + total rs end.
Definition enough (h : heap) : Prop := forall n, 0 <= n < 2 ^ 31 -> malloc h n = true.

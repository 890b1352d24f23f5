(** Model of mjs_set_errorf and mjs_prepend_errorf (src/mjs_core.c:116-155) with the blocks of the messages.
    Simplifications: format and arguments are the text they make, without NUL in the theorems that need it; the arguments do
    not point into the old message, which mjs_set_errorf frees before it formats; vsnprintf is a conforming one (the others
    are in [Avp_Model]). *)
From Verif Require Import Base Str_Model Txt_Model Avp_Model Err_Model.

(** mjs->error, mjs->error_msg, and the number of blocks allocated and not freed *)
Record errmem := { m_code : Z; m_msg : option (list Z); m_live : Z }.
Definition errmem0 : errmem := {| m_code := E_OK; m_msg := None; m_live := 0 |}.
(** The bytes before the NUL, as the two %s of mjs_core.c:148 read them *)
Fixpoint read_cstr (b : list Z) : R (list Z) :=
  match b with [] => UB | c :: r => if c =? 0 then OK [] else t <- read_cstr r ;; OK (c :: t) end.
(** mg_avprintf(&p, 0, ...) with p NULL and a conforming vsnprintf: p afterwards and the blocks it allocated
    (mjs_core.c:123, 144, 148; no buffer of the caller, so no doubling) *)
Definition format (h : heap) (t : list Z) : R (option (list Z) * Z) :=
  '(_, b, l) <- mg_avprintf 1 h Conforming t [] 0 ;;
  match b with New b => OK (Some b, l) | Null => OK (None, l) | Callers _ => OK (None, l) end.
(** free(p), mjs_core.c:119, 149, 150: the number of blocks it gives back (none for NULL) *)
Definition freed (p : option (list Z)) : Z := match p with Some _ => 1 | None => 0 end.
(** mjs_core.c:116-127 mjs_set_errorf; a NULL format leaves no message *)
Definition set_errorf_mem (h : heap) (m : errmem) (err : Z) (text : option (list Z)) : R errmem :=
  let live := m_live m - freed (m_msg m) in
  match text with
  | None => OK {| m_code := err; m_msg := None; m_live := live |}
  | Some t => '(p, l) <- format h t ;; OK {| m_code := err; m_msg := p; m_live := live + l |}
  end.
(** mjs_core.c:129-155 mjs_prepend_errorf; %s of a null pointer is undefined in C (some libraries print a placeholder). *)
Definition prepend_errorf_mem (h h2 : heap) (m : errmem) (err : Z) (text : list Z) : R errmem :=
  if err =? E_OK then Abort
  else
    let code := if m_code m =? E_OK then err else m_code m in
    '(new, l) <- format h text ;;
    match m_msg m with
    | Some old =>
      match new with
      | None => UB
      | Some n =>
        tn <- read_cstr n ;; told <- read_cstr old ;;
        '(p, l2) <- format h2 (tn ++ [58; 32] ++ told) ;;
        OK {| m_code := code; m_msg := p; m_live := m_live m + l + l2 - freed new - freed (Some old) |}
      end
    | None => OK {| m_code := code; m_msg := new; m_live := m_live m + l |}
    end.
(** A history of reports, as [run_reports]. What malloc answers may change with time: every formatting, which calls malloc
    once, has a heap of its own. *)
Fixpoint run_reports_mem (hs : nat -> heap) (m : errmem) (rs : list report) : R errmem :=
  let next := fun k => hs (S (S k)) in
  match rs with
  | [] => OK m
  | SetErr c t :: rs => m' <- set_errorf_mem (hs O) m c t ;; run_reports_mem next m' rs
  | Prepend c t :: rs => m' <- prepend_errorf_mem (hs O) (hs 1%nat) m c t ;; run_reports_mem next m' rs
  end.

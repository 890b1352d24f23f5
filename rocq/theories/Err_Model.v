(** Model of the error state of an instance: src/mjs_core.c mjs_set_errorf,
    mjs_prepend_errorf, mjs_strerror. Messages are the text produced by the formatting
    (bytes without NUL); allocation succeeds. *)
From Verif Require Import Base Str_Model Txt_Model.

Record errst := { e_code : Z; e_msg : option (list Z) }.
Definition err0 : errst := {| e_code := E_OK; e_msg := None |}.

(** mjs_core.c:116-127 mjs_set_errorf; a NULL format leaves no message *)
Definition set_errorf (e : errst) (err : Z) (text : option (list Z)) : errst :=
  {| e_code := err; e_msg := text |}.

(** mjs_core.c:129-155 mjs_prepend_errorf *)
Definition prepend_errorf (e : errst) (err : Z) (text : list Z) : R errst :=
  if err =? E_OK then Abort
  else OK {| e_code := if e_code e =? E_OK then err else e_code e;
             e_msg := Some (match e_msg e with
                            | Some old => text ++ [58; 32] ++ old
                            | None => text
                            end) |}.

(** mjs_core.c:189-196 mjs_strerror: the message if there is one, else the name of the code *)
Definition err_names : list (list Z) :=
  map bs ["NO_ERROR"; "SYNTAX_ERROR"; "REFERENCE_ERROR"; "TYPE_ERROR"; "OUT_OF_MEMORY";
          "INTERNAL_ERROR"; "NOT_IMPLEMENTED"; "FILE_OPEN_ERROR"; "BAD_ARGUMENTS"]%string.
Definition mjs_strerror (e : errst) (err : Z) : R (list Z) :=
  let name := if err <? 0 then UB
              else match nth_error err_names (Z.to_nat err) with Some n => OK n | None => UB end in
  match e_msg e with
  | None | Some [] => name
  | Some m => OK m
  end.

(** A history of reports. *)
Inductive report := SetErr (err : Z) (text : option (list Z)) | Prepend (err : Z) (text : list Z).
Fixpoint run_reports (e : errst) (rs : list report) : R errst :=
  match rs with
  | [] => OK e
  | SetErr c t :: rs => run_reports (set_errorf e c t) rs
  | Prepend c t :: rs => e' <- prepend_errorf e c t ;; run_reports e' rs
  end.

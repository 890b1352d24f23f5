(** Model of mjs_die on a string (src/mjs_core.c:170-187) and of mjs_print_error (src/mjs_core.c:157-168).
    Simplifications: the check that the argument is a string, and which bytes mjs_get_string finds, are in other models; here are
    the bytes [mem] from the first one of the string on, [len] of them in the string. Allocation succeeds (see [ErrMem_Model]). *)
From Verif Require Import Base Str_Model SUtil_Model TokNum_Model Txt_Model Err_Model ErrMem_Model.

(** %.*s of vsnprintf with a precision that is not negative: as many bytes, or those before a NUL *)
Fixpoint read_most (n : nat) (mem : list Z) : R (list Z) :=
  match n with
  | O => OK []
  | S n => match mem with [] => UB | c :: r => if c =? 0 then OK [] else t <- read_most n r ;; OK (c :: t) end
  end.
(** (int) msg_len, mjs_core.c:183 *)
Definition to_int (n : Z) : Z := let w := n mod 2 ^ 32 in if w <? 2 ^ 31 then w else w - 2 ^ 32.
(** The text of mjs_core.c:183; a negative precision is taken as none. *)
Definition die_text (mem : list Z) (len : Z) : R (list Z) :=
  let p := to_int len in if p <? 0 then read_cstr mem else read_most (Z.to_nat p) mem.
Definition mjs_die (e : errst) (mem : list Z) (len : Z) : R errst :=
  t <- die_text mem len ;; prepend_errorf e E_TYPE t.
(** mjs_core.c:157-168: what is written to the file *)
Definition print_error (e : errst) (trace : option (list Z)) (msg : option (list Z)) (with_trace : bool) : R (list Z) :=
  let before := if with_trace then match trace with Some t => t | None => [] end else [] in
  s <- mjs_strerror e (e_code e) ;;
  OK (before ++ match msg with Some m => m | None => bs "MJS error" end ++ [58; 32] ++ s ++ [10]).

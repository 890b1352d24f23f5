(** Model of the blocks of the stack trace: mjs_append_stack_trace_line as mjs_gen_stack_trace calls it
    (src/mjs_core.c:239-282) and the emptying of the trace by mjs_execute (src/mjs_exec.c:569-570).
    Simplifications: a line is its text (which text it is, is in [Trace_Model]); vsnprintf is a conforming one; the message on
    stderr about a wrong offset is not kept. *)
From Verif Require Import Base Avp_Model ErrMem_Model.

(** mjs->stack_trace, and the number of blocks allocated and not freed *)
Record trmem := { t_trace : option (list Z); t_live : Z }.
Definition trmem0 : trmem := {| t_trace := None; t_live := 0 |}.
(** mjs_exec.c:569-570 *)
Definition empty_trace (s : trmem) : trmem := {| t_trace := None; t_live := t_live s - freed (t_trace s) |}.
(** mjs_core.c:251-260; [h] is the heap of line 251 and [h2] that of line 255. mg_asprintf is given the trace both as the block
    of the caller, with size 0, and as an argument: it writes nothing there, so that the argument is still the old text. %s of a
    null pointer is undefined in C. *)
Definition append_line (h h2 : heap) (s : trmem) (line : list Z) : R trmem :=
  '(new, l) <- format h line ;;
  match t_trace s with
  | Some old =>
    match new with
    | None => UB
    | Some n =>
      told <- read_cstr old ;; tn <- read_cstr n ;;
      '(p, l2) <- format h2 (told ++ tn) ;;
      OK {| t_trace := p; t_live := t_live s + l + l2 - freed (Some old) - freed new |}
    end
  | None => OK {| t_trace := new; t_live := t_live s + l |}
  end.
(** mjs_core.c:264-282: the lines in the order of the calls, [None] for MJS_BCODE_OFFSET_EXIT (line 240). What malloc answers
    may change with time: every formatting, which calls malloc once, has a heap of its own. *)
Fixpoint append_lines (hs : nat -> heap) (s : trmem) (lines : list (option (list Z))) : R trmem :=
  match lines with
  | [] => OK s
  | None :: ls => append_lines hs s ls
  | Some t :: ls => s' <- append_line (hs O) (hs 1%nat) s t ;; append_lines (fun k => hs (S (S k))) s' ls
  end.

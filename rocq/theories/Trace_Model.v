(** Model of stack traces (src/mjs_core.c:239-282) and of code offsets by number of call
    (src/mjs_util.c:416-431). *)
From Verif Require Import Base Value_Model Str_Model SUtil_Model Conv_Model TokNum_Model Txt_Model Bcode_Model Vm_Model.

Definition s32 (z : Z) : Z := let w := z mod 2 ^ 32 in if w <? 2 ^ 31 then w else w - 2 ^ 32.

(** mjs_core.c:239-262 mjs_append_stack_trace_line: the text appended for an offset (a size_t; the
    two functions that take it apart have an int parameter). The %s and %d of mg_asprintf are
    the C library's; allocation succeeds. The message on stderr about a wrong offset is not kept. *)
Definition trace_line (c : code) (off : Z) : R (list Z) :=
  if off =? EXIT_ADDR then OK []
  else
    f <- filename_by_offset c (s32 off) ;;
    n <- lineno_by_offset c (s32 off) ;;
    t <- signed_text n ;;
    OK (bs "  at " ++ match f with Some f => f | None => bs "<unknown-filename>" end ++ bs ":" ++ t ++ [10]).

(** mjs_core.c:264-282 mjs_gen_stack_trace: the text appended; [calls] is the call stack, top
    first, of which complete frames of five items are popped ([Vm_Model.pop_frames] is the effect
    on the stack). *)
Fixpoint frame_lines (c : code) (calls : list Z) : R (list Z) :=
  match calls with
  | _ :: _ :: _ :: a :: _ :: rest =>
    n <- get_int a ;;
    t <- trace_line c (u64 n) ;;
    ts <- frame_lines c rest ;;
    OK (t ++ ts)
  | _ => OK []
  end.
Definition gen_stack_trace (c : code) (calls : list Z) (off : Z) : R (list Z) :=
  t <- trace_line c off ;; ts <- frame_lines c calls ;; OK (t ++ ts).

(** mjs_exec.c:971-972: what a round of the loop adds to the trace *)
Definition step_trace (w : host) (exec : vm -> Z -> R (vm * Z)) (k : nat) (c : conf) : R (list Z) :=
  if negb (k_i c <? zlen (bp_data (k_bp c))) then OK []
  else
  match nthz (bp_data (k_bp c)) (k_i c) with
  | None => UB
  | Some op =>
    r <- instr w exec k (set_off (k_m c) (k_i c)) (k_bp c) (k_i c) op (k_op c) ;;
    match r with
    | Done m => OK []
    | Go m bp i =>
      if negb (m_err m =? E_OK) then gen_stack_trace (m_code m) (sk_live (m_call m)) (u64 (bp_start bp + i - 1))
      else OK []
    end
  end.
(** mjs_exec.c:566-979: what mjs_execute itself adds to the trace, which it has emptied on entry.
    Simplification: lines that a failed mjs_execute below it has left (every one empties the
    trace on entry, so these are those of the last one) stand before these and are not kept. *)
Fixpoint run_trace (fuel : nat) (w : host) (sv : saved) (c : conf) : R (list Z) :=
  match fuel with
  | O => NoFuel
  | S f =>
    let exec m off := c <- enter m off ;; run f w (save m) off c in
    r <- step w exec f sv c ;;
    match r with
    | inl c => run_trace f w sv c
    | inr _ => step_trace w exec f c
    end
  end.
Definition execute_trace (fuel : nat) (w : host) (m : vm) (off : Z) : R (list Z) :=
  c <- enter m off ;; run_trace fuel w (save m) c.

(** mjs_util.c:416-431 mjs_get_offset_by_call_frame_num; [n] is an int. *)
Definition offset_by_frame (m : vm) (n : Z) : R Z :=
  if n =? 0 then OK (s32 (m_off m))
  else if (0 <? n) && (u64 (8 * 5 * n) <=? 8 * sk_size (m_call m)) then
    v <- sk_get (m_call m) (-1 - (3 + 5 * (n - 1))) ;; get_int v
  else OK (-1).

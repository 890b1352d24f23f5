(** Model of the disassembler (src/mjs_util.c:114-275, compiled if MJS_ENABLE_DEBUG is set). *)
From Verif Require Import Base Varint_Model Bcode_Model.

(** The results of cs_varint_decode at an index; if it failed they would be uninitialised. *)
Definition num_at (c : list Z) (i : Z) : R (Z * Z) := varint_decode_unsafe (skipn (Z.to_nat i) c).
(** mjs_util.c:114-251 mjs_disasm_single: by how much the index grows. [c] is the readable memory at
    the pointer. What is printed (at the most verbose level of the log only) is left out. *)
Definition disasm_single (c : list Z) (i : Z) : R Z :=
  match nthz c i with
  | None => UB
  | Some op =>
    if existsb (Z.eqb op) [OP_PUSH_FUNC; OP_PUSH_INT; OP_JMP; OP_JMP_TRUE; OP_JMP_NEUTRAL_TRUE; OP_JMP_FALSE; OP_JMP_NEUTRAL_FALSE] then
      '(_, l) <- num_at c (i + 1) ;; OK l
    else if op =? OP_SET_ARG then
      '(_, l1) <- num_at c (i + 1) ;; '(n, l2) <- num_at c (i + l1 + 1) ;; OK (u64 (l1 + l2 + n))
    else if existsb (Z.eqb op) [OP_PUSH_STR; OP_PUSH_DBL] then
      '(n, l) <- num_at c (i + 1) ;; OK (u64 (l + n))
    else if op =? OP_LOOP then
      '(_, l1) <- num_at c (i + 1) ;; '(_, l2) <- num_at c (i + l1 + 1) ;; OK (l1 + l2)
    else if op =? OP_EXPR then
      match nthz c (i + 1) with None => UB | Some _ => OK 1 end
    else if op =? OP_BCODE_HEADER then
      _ <- read_u32 c (i + 1) ;; _ <- read_u32 c (i + 9) ;;
      s <- c_str (skipn (Z.to_nat (i + 13)) c) ;; OK (12 + zlen s + 1)
    else OK 0
  end.
(** mjs_util.c:253-275 mjs_disasm: the indices at which it prints an instruction. The loop need not end
    for arbitrary bytes, [f] bounds it. *)
Fixpoint disasm_loop (f : nat) (c : list Z) (len i start map_offset total_size : Z) : R (list Z) :=
  match f with
  | O => NoFuel
  | S f' =>
    if i <? len then
      delta <- disasm_single c i ;;
      '(start, map_offset, total_size) <-
        (match nthz c i with
         | None => UB
         | Some op =>
           if op =? OP_BCODE_HEADER then t <- read_u32 c (i + 1) ;; m <- read_u32 c (i + 9) ;; OK (i, m, t)
           else OK (start, map_offset, total_size)
         end) ;;
      let j := u64 (i + delta) in
      let j := if (0 <? map_offset) && (j =? u64 (start + map_offset)) then u64 (start + total_size - 1) else j in
      r <- disasm_loop f' c len (u64 (j + 1)) start map_offset total_size ;; OK (i :: r)
    else OK []
  end.
Definition mjs_disasm (f : nat) (c : list Z) (len : Z) : R (list Z) := disasm_loop f c len 0 0 0 0.

(** Model of printing values: mjs_jprintf, mjs_sprintf, mjs_fprintf (src/mjs_util.c:47-94), the
    parts of json_printf they use (src/frozen/frozen.c:466-482, 557-742), and mjs_print
    (src/mjs_builtin.c:18-26). *)
From Verif Require Import Base Value_Model Str_Model SUtil_Model Conv_Model TokNum_Model Txt_Model Vm_Model.

(** The formats %s, %c, %02x, %lx, %d and %ld are handed to the C library one by one
    (frozen.c:628-717); every conversion is one call of the printer, and so is every string of
    digits of "\x%02x". %lx of a 64-bit word: *)
Definition hex_text (n : Z) : R (list Z) := ds <- itoa_digits 64 n 16 ;; OK (rev ds).
(** isprint in the C locale *)
Definition isprint (c : Z) : bool := (32 <=? c) && (c <=? 126).
Definition char_pieces (c : Z) : list (list Z) :=
  if isprint c then [[c]] else [bs "\x"; [digit_char (c / 16); digit_char (c mod 16)]].
Definition s32 (z : Z) : Z := let w := z mod 2 ^ 32 in if w <? 2 ^ 31 then w else w - 2 ^ 32.

(** mjs_util.c:47-84 mjs_jprintf: the texts given to the printer, in order. *)
Definition jprintf (st : strs) (ext : extmem) (v : Z) : R (list (list Z)) :=
  if is_number v then t <- num_text v ;; OK [t]
  else if is_boolean v then OK [if get_bool v then bs "true" else bs "false"]
  else if is_string v then d <- str_bytes st ext v ;; OK (concat (map char_pieces d))
  else if is_array v then OK [bs "<array>"]
  else if is_object v then OK [bs "<object>"]
  else if is_foreign v then t <- hex_text (get_ptr v) ;; OK [bs "<foreign_ptr@"; t; bs ">"]
  else if is_function v then t <- signed_text (s32 (get_func_addr v)) ;; OK [bs "<function@"; t; bs ">"]
  else if is_null v then OK [bs "null"]
  else if is_undefined v then OK [bs "undefined"]
  else t <- signed_text (s64 v) ;; OK [bs "<???"; t; bs ">"].

(** struct json_out with a buffer: the memory from [buf] on, the size and the length *)
Record obuf := { o_mem : list Z; o_size : Z; o_len : Z }.
(** memcpy to offset [off] of the memory *)
Definition wr (mem : list Z) (off : Z) (d : list Z) : R (list Z) :=
  if (0 <=? off) && (off + zlen d <=? zlen mem) then
    OK (firstn (Z.to_nat off) mem ++ d ++ skipn (Z.to_nat (off + zlen d)) mem)
  else UB.
(** frozen.c:467-478 json_printer_buf *)
Definition printer_buf (o : obuf) (p : list Z) : R obuf :=
  let avail := o_size o - o_len o in
  let n := if zlen p <? avail then zlen p else avail in
  mem <- wr (o_mem o) (o_len o) (firstn (Z.to_nat n) p) ;;
  let len := o_len o + n in
  mem <- (if o_size o >? 0 then
            let idx := if len >=? o_size o then o_size o - 1 else len in wr mem idx [0]
          else OK mem) ;;
  OK {| o_mem := mem; o_size := o_size o; o_len := len |}.
Fixpoint print_all (o : obuf) (ps : list (list Z)) : R obuf :=
  match ps with [] => OK o | p :: ps => o <- printer_buf o p ;; print_all o ps end.

(** mjs_util.c:86-89 mjs_sprintf: the memory at [buf] afterwards *)
Definition sprintf (st : strs) (ext : extmem) (v : Z) (mem : list Z) (n : Z) : R (list Z) :=
  ps <- jprintf st ext v ;;
  o <- print_all {| o_mem := mem; o_size := n; o_len := 0 |} ps ;; OK (o_mem o).
(** mjs_util.c:91-94 mjs_fprintf: what is written to the file. Simplification: fwrite succeeds. *)
Definition fprintf (st : strs) (ext : extmem) (v : Z) : R (list Z) := ps <- jprintf st ext v ;; OK (concat ps).

(** mjs_builtin.c:18-26 mjs_print: the state and what is written to stdout *)
Fixpoint print_args (st : strs) (ext : extmem) (vs : list Z) : R (list Z) :=
  match vs with
  | [] => OK [10]
  | v :: vs => t <- fprintf st ext v ;; r <- print_args st ext vs ;; OK (t ++ 32 :: r)
  end.
Definition print (m : vm) : R (vm * list Z) :=
  vs <- args m ;; t <- print_args (m_st m) (m_ext m) vs ;; m <- return_v m V_UNDEFINED ;; OK (m, t).

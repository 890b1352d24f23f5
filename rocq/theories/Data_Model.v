(** Model of src/mjs_dataview.c: raw memory access offered to scripts. Memory maps an
    address to its byte, or to None where the process has nothing mapped. *)
From Verif Require Import Base Value_Model.

Definition rawmem := Z -> option Z.
Definition rset (m : rawmem) (a b : Z) : rawmem := fun x => if x =? a then Some b else m x.

(** mjs_dataview.c:12-18 mjs_mem_to_ptr, mjs_mem_get_ptr *)
Definition mem_to_ptr (val : Z) : Z := u32 val.
Definition mem_get_ptr (base offset : Z) : Z := base + offset.

(** *p, an access of one byte *)
Definition rd (m : rawmem) (p : Z) : R Z := match m p with Some b => OK b | None => UB end.
Definition wr (m : rawmem) (p b : Z) : R rawmem := match m p with Some _ => OK (rset m p b) | None => UB end.

(** mjs_dataview.c:43-46: res <<= 8, res |= *p on an unsigned int. *)
Fixpoint get_uint_loop (n : nat) (m : rawmem) (p inc res : Z) : R Z :=
  match n with
  | O => OK res
  | S n' => b <- rd m p ;; get_uint_loop n' m (p + inc) inc (Z.lor (u32 (Z.shiftl res 8)) b)
  end.
(** mjs_dataview.c:38-48 mjs_mem_get_uint *)
Definition mem_get_uint (m : rawmem) (ptr size : Z) (be : bool) : R Z :=
  n <- get_uint_loop (Z.to_nat size) m (ptr + (if be then 0 else size - 1)) (if be then 1 else -1) 0 ;;
  OK (d_of_Z n).

(** mjs_dataview.c:60-63: the same on an int. A left shift that overflows an int wraps, as
    gcc and clang define it. *)
Fixpoint get_int_loop (n : nat) (m : rawmem) (p inc res : Z) : R Z :=
  match n with
  | O => OK res
  | S n' => b <- rd m p ;; get_int_loop n' m (p + inc) inc (Z.lor (s32 (Z.shiftl res 8)) b)
  end.
(** mjs_dataview.c:66-70 the sign extension: [extra] shifts left, then right. *)
Fixpoint shl_loop (n : nat) (res : Z) : Z :=
  match n with O => res | S n' => shl_loop n' (s32 (Z.shiftl res 8)) end.
Fixpoint shr_loop (n : nat) (res : Z) : Z :=
  match n with O => res | S n' => shr_loop n' (Z.shiftr res 8) end.
(** mjs_dataview.c:54-73 mjs_mem_get_int *)
Definition mem_get_int (m : rawmem) (ptr size : Z) (be : bool) : R Z :=
  n <- get_int_loop (Z.to_nat size) m (ptr + (if be then 0 else size - 1)) (if be then 1 else -1) 0 ;;
  let extra := Z.to_nat (4 - size) in
  OK (d_of_Z (shr_loop extra (shl_loop extra n))).

(** mjs_dataview.c:78-81 *)
Fixpoint set_loop (n : nat) (m : rawmem) (p inc val : Z) : R rawmem :=
  match n with
  | O => OK m
  | S n' => m1 <- wr m p (Z.land val 255) ;; set_loop n' m1 (p + inc) inc (Z.shiftr val 8)
  end.
(** mjs_dataview.c:75-86 mjs_mem_set_uint, mjs_mem_set_int; the value is converted to
    unsigned int when passed. *)
Definition mem_set_uint (m : rawmem) (ptr val size : Z) (be : bool) : R rawmem :=
  set_loop (Z.to_nat size) m (ptr + (if be then size - 1 else 0)) (if be then -1 else 1) (u32 val).
Definition mem_set_int (m : rawmem) (ptr val size : Z) (be : bool) : R rawmem :=
  mem_set_uint m ptr val size be.

(** memcpy between a double or pointer and memory: mjs_dataview.c:20-32 *)
Fixpoint rd_n (n : nat) (m : rawmem) (p : Z) : R (list Z) :=
  match n with O => OK [] | S n' => b <- rd m p ;; r <- rd_n n' m (p + 1) ;; OK (b :: r) end.
Fixpoint wr_n (m : rawmem) (p : Z) (bs : list Z) : R rawmem :=
  match bs with [] => OK m | b :: r => m1 <- wr m p b ;; wr_n m1 (p + 1) r end.
Definition mem_set_ptr (m : rawmem) (ptr val : Z) : R rawmem := wr_n m ptr (le_bytes 8 val).
Definition mem_get_dbl (m : rawmem) (ptr : Z) : R Z := bs <- rd_n 8 m ptr ;; OK (le_val bs).
Definition mem_set_dbl (m : rawmem) (ptr val : Z) : R rawmem := wr_n m ptr (le_bytes 8 val).

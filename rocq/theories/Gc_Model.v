(** Model of src/mjs_gc.c: cell arenas, the mark phase with pointer threading of
    strings, string compaction and sweeping.

    Memory is modelled at the level of 64-bit words: [mem] maps a byte address to the
    word stored there ([None]: not allocated). Only multiples of 8 are accessed; any
    other access, and any access to unallocated memory, is [UB]. *)
From Verif Require Import Base Varint_Model Value_Model Str_Model.

Definition mem := Z -> option Z.
Definition upd (m : mem) (a v : Z) : mem := fun x => if x =? a then Some v else m x.
(** calloc / free / memset of a range of bytes *)
Definition setr (m : mem) (a n : Z) (v : option Z) : mem :=
  fun x => if (a <=? x) && (x <? a + n) then v else m x.
Definition ld (m : mem) (a : Z) : R Z :=
  if a mod 8 =? 0 then match m a with Some v => OK v | None => UB end else UB.
Definition sto (m : mem) (a v : Z) : R mem :=
  if a mod 8 =? 0 then match m a with Some _ => OK (upd m a v) | None => UB end else UB.

(** mjs_mm.h:19-38 struct gc_block (base, size in cells) and struct gc_arena. The block
    list is the C linked list; [a_dtor]: the destructor is mjs_ffi_sig_destructor.
    Not modelled: the MJS_MEMORY_STATS counters. *)
Record arena := { a_blocks : list (Z * Z); a_free : Z; a_cs : Z; a_inc : Z; a_dtor : bool }.
Definition set_free (a : arena) (f : Z) : arena :=
  {| a_blocks := a_blocks a; a_free := f; a_cs := a_cs a; a_inc := a_inc a; a_dtor := a_dtor a |}.
Definition set_blocks (a : arena) (bs : list (Z * Z)) : arena :=
  {| a_blocks := bs; a_free := a_free a; a_cs := a_cs a; a_inc := a_inc a; a_dtor := a_dtor a |}.

(** mjs_gc.c:22-33 MARK, UNMARK, MARKED (bit 0) and MARK_FREE.. (bit 1) *)
Definition or_word (m : mem) (p k : Z) : R mem := w <- ld m p ;; sto m p (Z.lor w k).
Definition clear_word (m : mem) (p k : Z) : R mem := w <- ld m p ;; sto m p (Z.land w (Z.lnot k)).
Definition test_word (m : mem) (p k : Z) : R bool := w <- ld m p ;; OK (negb (Z.land w k =? 0)).

(** mjs_gc.c:86-105 gc_new_block: calloc returns [base] (the caller of the model picks
    it; failing allocations call abort() and are not modelled), then every cell is
    pushed on the free list in address order. *)
Fixpoint nb_loop (n : nat) (m : mem) (free cur cs : Z) : R (mem * Z) :=
  match n with
  | O => OK (m, free)
  | S n' => m1 <- sto m cur free ;; nb_loop n' m1 cur (cur + cs) cs
  end.
Definition gc_new_block (m : mem) (a : arena) (size base : Z) : R (mem * Z) :=
  nb_loop (Z.to_nat size) (setr m base (a_cs a * size) (Some 0)) (a_free a) base (a_cs a).

(** mjs_gc.c:57-65 gc_arena_init *)
Definition gc_arena_init (m : mem) (cs initial inc : Z) (dtor : bool) (base : Z) : R (mem * arena) :=
  if cs <? 8 then Abort
  else
    let a := {| a_blocks := []; a_free := 0; a_cs := cs; a_inc := inc; a_dtor := dtor |} in
    '(m1, f) <- gc_new_block m a initial base ;;
    OK (m1, set_blocks (set_free a f) [(base, initial)]).

(** mjs_gc.c:111-122 gc_arena_is_gc_needed: [n] more cells are looked at *)
Fixpoint gc_needed_loop (n : nat) (m : mem) (r : Z) : R bool :=
  match n with
  | O => OK false
  | S n' => if r =? 0 then OK true else r' <- ld m r ;; gc_needed_loop n' m r'
  end.
Definition gc_arena_is_gc_needed (m : mem) (a : arena) : R bool := gc_needed_loop 3 m (a_free a).

(** mjs_gc.c:129-159 gc_alloc_cell; [base] is what calloc returns if a block is needed.
    Result: memory, arena, whether need_gc was set, the cell. *)
Definition gc_alloc_cell (m : mem) (a : arena) (base : Z) : R (mem * arena * bool * Z) :=
  '(m1, a1) <-
    (if a_free a =? 0 then
       '(m1, f) <- gc_new_block m a (a_inc a) base ;;
       OK (m1, set_blocks (set_free a f) ((base, a_inc a) :: a_blocks a))
     else OK (m, a)) ;;
  let r := a_free a1 in
  m2 <- clear_word m1 r 1 ;;
  nx <- ld m2 r ;;
  let a2 := set_free a1 nx in
  need <- gc_arena_is_gc_needed m2 a2 ;;
  OK (setr m2 r (a_cs a2) (Some 0), a2, need, r).

(** mjs_gc.c:179-185: flag the free cells. [f] bounds the walk (a cyclic free list would
    loop forever). *)
Fixpoint mark_free_loop (f : nat) (m : mem) (cur : Z) : R mem :=
  match f with
  | O => NoFuel
  | S f' =>
    if cur =? 0 then OK m
    else next <- ld m cur ;; m1 <- or_word m cur 2 ;; mark_free_loop f' m1 next
  end.

(** mjs_gc.c:201-238: one block of a sweep, [n] cells from [cur]. [log] collects the
    cb_sig blocks released by the destructor (mjs_ffi.c:1017-1022, 631-634). *)
Fixpoint sweep_cells (n : nat) (m : mem) (free cnt cur cs : Z) (dtor : bool) (log : list Z)
  : R (mem * Z * Z * list Z) :=
  match n with
  | O => OK (m, free, cnt, log)
  | S n' =>
    mk <- test_word m cur 1 ;;
    if (mk : bool) then
      m1 <- clear_word m cur 1 ;; sweep_cells n' m1 free cnt (cur + cs) cs dtor log
    else
      fr <- test_word m cur 2 ;;
      '(m1, log1) <-
        (if (fr : bool) then m1 <- clear_word m cur 2 ;; OK (m1, log)
         else
           w <- ld m cur ;;
           OK (setr m cur cs (Some 0), if dtor && negb (w =? 0) then log ++ [w] else log)) ;;
      m2 <- sto m1 cur free ;;
      sweep_cells n' m2 cur (cnt + 1) (cur + cs) cs dtor log1
  end.

(** mjs_gc.c:192-255: all blocks; a block that is all garbage is released unless it is
    the last of the list. Result: kept blocks, memory, free list head, log. *)
Fixpoint sweep_blocks (bs : list (Z * Z)) (m : mem) (free cs : Z) (dtor : bool) (log : list Z)
  : R (list (Z * Z) * mem * Z * list Z) :=
  match bs with
  | [] => OK ([], m, free, log)
  | (base, size) :: rest =>
    '(m1, free1, cnt, log1) <- sweep_cells (Z.to_nat size) m free 0 base cs dtor log ;;
    if (match rest with [] => false | _ => true end) && (cnt =? size) then
      sweep_blocks rest (setr m1 base (cs * size) None) free cs dtor log1
    else
      '(bs', m2, free2, log2) <- sweep_blocks rest m1 free1 cs dtor log1 ;;
      OK ((base, size) :: bs', m2, free2, log2)
  end.

(** mjs_gc.c:167-256 gc_sweep with start = 0 (its only use) *)
Definition gc_sweep (f : nat) (m : mem) (a : arena) (log : list Z) : R (mem * arena * list Z) :=
  m1 <- mark_free_loop f m (a_free a) ;;
  '(bs, m2, fr, log') <- sweep_blocks (a_blocks a) m1 0 (a_cs a) (a_dtor a) log ;;
  OK (m2, set_blocks (set_free a fr) bs, log').

(** mjs_gc.c:529-538 gc_check_ptr *)
Definition gc_check_ptr (a : arena) (p : Z) : bool :=
  existsb (fun b => (fst b <=? p) && (p <? fst b + a_cs a * snd b)) (a_blocks a).

(** mjs_gc.c:322-367 gc_mark_string on the value at address [v]; [b] is the contents of
    owned_strings. The first 6 bytes of the string and the word at [v] are exchanged. *)
Definition gc_mark_string (m : mem) (b : list Z) (v : Z) : R (mem * list Z) :=
  w <- ld m v ;;
  let off := val_to_offset w in
  if zlen b <=? off then Abort
  else match nthz b (off - 1) with
       | None => UB
       | Some k =>
         if off + 6 <=? zlen b then
           let six := le_val (sub b off 6) in
           let tmp := Z.lor six (if k =? 0 then TAG_STRING_C else TAG_FOREIGN) in
           let b' := blit (blit b (off - 1) [1]) off (le_bytes 6 v) in
           m' <- sto m v tmp ;; OK (m', b')
         else UB
       end.

(** mjs_gc.c:259-277, 280-319, 369-379 gc_mark_ffi_sig, gc_mark_object, gc_mark. The
    recursion of the C code is unbounded; [f] bounds it here. The size of the machine
    stack is not modelled. *)
Fixpoint gc_mark (f : nat) (ao ap asg : arena) (m : mem) (b : list Z) (v : Z) {struct f}
  : R (mem * list Z) :=
  match f with
  | O => NoFuel
  | S f' =>
    w <- ld m v ;;
    '(m1, b1) <- (if is_object w then gc_mark_object f' ao ap asg m b w else OK (m, b)) ;;
    w1 <- ld m1 v ;;
    m2 <- (if is_ffi_sig w1 then
             let p := get_ptr_raw w1 in
             if gc_check_ptr asg p then or_word m1 p 1 else Abort
           else OK m1) ;;
    w2 <- ld m2 v ;;
    if Z.land w2 TAG_MASK =? TAG_STRING_O then gc_mark_string m2 b1 v else OK (m2, b1)
  end
with gc_mark_object (f : nat) (ao ap asg : arena) (m : mem) (b : list Z) (w : Z) {struct f}
  : R (mem * list Z) :=
  match f with
  | O => NoFuel
  | S f' =>
    o <- get_object_struct w ;;
    if gc_check_ptr ao o then
      mk <- test_word m o 1 ;;
      if (mk : bool) then OK (m, b)
      else prop <- ld m o ;; m1 <- or_word m o 1 ;; gc_mark_props f' ao ap asg m1 b prop
    else Abort
  end
with gc_mark_props (f : nat) (ao ap asg : arena) (m : mem) (b : list Z) (prop : Z) {struct f}
  : R (mem * list Z) :=
  match f with
  | O => NoFuel
  | S f' =>
    if prop =? 0 then OK (m, b)
    else if gc_check_ptr ap prop then
      '(m1, b1) <- gc_mark f' ao ap asg m b (prop + 8) ;;
      '(m2, b2) <- gc_mark f' ao ap asg m1 b1 (prop + 16) ;;
      next <- ld m2 prop ;;
      m3 <- or_word m2 prop 1 ;;
      gc_mark_props f' ao ap asg m3 b2 next
    else Abort
  end.

(** mjs_gc.c:404-413: rewrite every slot threaded on a string, recovering the 6 bytes *)
Fixpoint unthread (f : nat) (m : mem) (h head : Z) : R (mem * Z) :=
  match f with
  | O => NoFuel
  | S f' =>
    if Z.land h TAG_MASK =? TAG_STRING_C then OK (m, untag h)
    else
      let h1 := untag h in
      next <- ld m h1 ;;
      m1 <- sto m h1 (val_from_offset head) ;;
      unthread f' m1 next head
  end.

(** mjs_gc.c:389-442 gc_compact_strings. [p], [head]: offsets in the buffer. memmove is
    [blit] of the old bytes; accesses past the contents are [UB]. *)
Fixpoint compact_loop (f : nat) (m : mem) (b : list Z) (p head : Z) : R (mem * list Z) :=
  match f with
  | O => NoFuel
  | S f' =>
    if p <? zlen b then
      match nthz b (p - 1) with
      | None => UB
      | Some k =>
        if k =? 1 then
          if p + 6 <=? zlen b then
            '(m1, six) <- unthread f m (le_val (sub b p 6)) head ;;
            '(n, llen) <- varint_decode_unsafe (le_bytes 8 six) ;;
            let len := s32 n + llen + 1 in
            let b1 := blit b p (le_bytes 6 six) in
            if p + len <=? zlen b then
              let b2 := blit b1 head (sub b1 p len) in
              let b3 := blit b2 (head - 1) [0] in
              compact_loop f' m1 b3 (p + len) (head + len)
            else UB
          else UB
        else
          '(n, llen) <- varint_decode_unsafe (skipn (Z.to_nat p) b) ;;
          compact_loop f' m b (p + (s32 n + llen + 1)) head
      end
    else OK (m, firstn (Z.to_nat head) b)
  end.
Definition gc_compact_strings (f : nat) (m : mem) (b : list Z) : R (mem * list Z) :=
  compact_loop f m b 1 1.

(** The parts of struct mjs (mjs_core.h:100-139) that the collector uses. [g_vals]: the
    address of mjs->vals (three values); [g_owned]: the pointers in owned_values; a value
    mbuf is (address of its buffer, number of values); [g_cbs]: the addresses of the func
    and userdata fields along the ffi_cb_args list. [g_args] is arg_stack, which the
    collector does not look at. [g_log]: heap blocks released by destructors. *)
Record gstate := {
  g_mem : mem; g_str : list Z; g_obj : arena; g_prop : arena; g_sig : arena;
  g_vals : Z; g_owned : list Z; g_scopes : Z * Z; g_stack : Z * Z; g_call : Z * Z;
  g_cbs : list Z; g_args : Z * Z; g_log : list Z }.

(** Addresses of the values in a value mbuf (mjs_gc.c:455-461, 475-478) *)
Definition val_array (bl : Z * Z) : list Z :=
  map (fun i => fst bl + 8 * Z.of_nat i) (seq 0 (Z.to_nat (snd bl))).

(** mjs_gc.c:489-499: the slots marked by mjs_gc, in order *)
Definition gc_slots (g : gstate) : list Z :=
  val_array (g_vals g, 3) ++ g_owned g ++ val_array (g_scopes g) ++ val_array (g_stack g) ++
  val_array (g_call g) ++ g_cbs g.

Fixpoint mark_all (f : nat) (ao ap asg : arena) (m : mem) (b : list Z) (vs : list Z)
  : R (mem * list Z) :=
  match vs with
  | [] => OK (m, b)
  | v :: r => '(m1, b1) <- gc_mark f ao ap asg m b v ;; mark_all f ao ap asg m1 b1 r
  end.

(** mjs_gc.c:489-517 mjs_gc. The trimming of the string buffer's capacity in a full
    collection (mbuf_resize, Mbuf_Model) does not change its contents and is left out. *)
Definition mjs_gc (f : nat) (g : gstate) : R gstate :=
  '(m1, b1) <- mark_all f (g_obj g) (g_prop g) (g_sig g) (g_mem g) (g_str g) (gc_slots g) ;;
  '(m2, b2) <- gc_compact_strings f m1 b1 ;;
  '(m3, ao, l1) <- gc_sweep f m2 (g_obj g) (g_log g) ;;
  '(m4, ap, l2) <- gc_sweep f m3 (g_prop g) l1 ;;
  '(m5, asg, l3) <- gc_sweep f m4 (g_sig g) l2 ;;
  OK {| g_mem := m5; g_str := b2; g_obj := ao; g_prop := ap; g_sig := asg;
        g_vals := g_vals g; g_owned := g_owned g; g_scopes := g_scopes g; g_stack := g_stack g;
        g_call := g_call g; g_cbs := g_cbs g; g_args := g_args g; g_log := l3 |}.

(** mjs_gc.c:444-450 maybe_gc *)
Definition maybe_gc (f : nat) (inhibit : bool) (g : gstate) : R (gstate * Z) :=
  if inhibit then OK (g, 0) else g' <- mjs_gc f g ;; OK (g', 1).

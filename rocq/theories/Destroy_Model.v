(** Model of the part of mjs_destroy that concerns the cell arenas. *)
From Verif Require Import Base Value_Model Gc_Model.

(** mjs_gc.c:81-84 gc_free_block: free of the cells. Freeing what is not allocated is [UB]. The
    struct gc_block itself is not in the model's memory. *)
Definition gc_free_block (m : mem) (cs : Z) (bl : Z * Z) : R mem :=
  match m (fst bl) with Some _ => OK (setr m (fst bl) (cs * snd bl) None) | None => UB end.
(** mjs_gc.c:71-76: the loop of gc_arena_destroy *)
Fixpoint free_blocks (m : mem) (cs : Z) (bs : list (Z * Z)) : R mem :=
  match bs with
  | [] => OK m
  | bl :: r => m1 <- gc_free_block m cs bl ;; free_blocks m1 cs r
  end.
(** mjs_gc.c:67-78 gc_arena_destroy *)
Definition gc_arena_destroy (f : nat) (m : mem) (a : arena) (log : list Z) : R (mem * list Z) :=
  match a_blocks a with
  | [] => OK (m, log)
  | _ => '(m1, a1, l1) <- gc_sweep f m a log ;; m2 <- free_blocks m1 (a_cs a1) (a_blocks a1) ;; OK (m2, l1)
  end.
(** mjs_core.c:66-68, the end of mjs_destroy. Not modelled: the buffers, the code and the texts that
    it frees before (mjs_core.c:41-65). *)
Definition mjs_destroy (f : nat) (g : gstate) : R (mem * list Z) :=
  '(m1, l1) <- gc_arena_destroy f (g_mem g) (g_obj g) (g_log g) ;;
  '(m2, l2) <- gc_arena_destroy f m1 (g_prop g) l1 ;;
  gc_arena_destroy f m2 (g_sig g) l2.

(** Specification of cell arenas and of garbage collection, independent of the
    collector: which cells exist, what is reachable, what a well-formed heap is. *)
From Verif Require Import Base Varint_Model Value_Model Value_Spec Gc_Model.

(** The cells of a block (base, number of cells) and of a list of blocks. *)
Definition block_cells (cs : Z) (bl : Z * Z) : list Z :=
  map (fun i => fst bl + cs * Z.of_nat i) (seq 0 (Z.to_nat (snd bl))).
Definition cells (cs : Z) (bs : list (Z * Z)) : list Z := flat_map (block_cells cs) bs.
Definition acells (a : arena) : list Z := cells (a_cs a) (a_blocks a).

(** Address [x] lies in a block. *)
Definition in_block (cs : Z) (bl : Z * Z) (x : Z) : Prop := fst bl <= x < fst bl + cs * snd bl.
Definition in_blocks (cs : Z) (bs : list (Z * Z)) (x : Z) : Prop :=
  exists bl, In bl bs /\ in_block cs bl x.
Definition in_arena (a : arena) (x : Z) : Prop := in_blocks (a_cs a) (a_blocks a) x.
Definition disjoint_blocks (cs : Z) (b1 b2 : Z * Z) : Prop :=
  forall x, in_block cs b1 x -> in_block cs b2 x -> False.

(** [l] is the linked list of cells starting at [h]. *)
Inductive flist (m : mem) : Z -> list Z -> Prop :=
| fl_nil : flist m 0 []
| fl_cons c nx l : c <> 0 -> m c = Some nx -> flist m nx l -> flist m c (c :: l).

Definition block_ok (cs : Z) (m : mem) (bl : Z * Z) : Prop :=
  0 < fst bl /\ fst bl mod 8 = 0 /\ 0 < snd bl /\ fst bl + cs * snd bl <= 2 ^ 48 /\
  (forall x, in_block cs bl x -> m x <> None).

(** A well-formed arena with free cells [fl]. *)
Record arena_ok (m : mem) (a : arena) (fl : list Z) : Prop := {
  ok_cs : 8 <= a_cs a /\ a_cs a mod 8 = 0;
  ok_inc : 0 < a_inc a;
  ok_blocks : Forall (block_ok (a_cs a) m) (a_blocks a);
  ok_disj : ForallOrdPairs (disjoint_blocks (a_cs a)) (a_blocks a);
  ok_free : flist m (a_free a) fl;
  ok_fl_nodup : NoDup fl;
  ok_fl_cells : incl fl (acells a) }.

(** Mark bits of every cell in use are clear (its first word is a pointer). *)
Definition tidy (m : mem) (a : arena) (fl : list Z) : Prop :=
  forall c, In c (acells a) -> ~ In c fl -> exists w, m c = Some w /\ 0 <= w /\ w mod 4 = 0.

(** What calloc may return for a new block of [n] cells: fresh, aligned, mappable memory. *)
Definition fresh_block (cs : Z) (m : mem) (base n : Z) : Prop :=
  0 < base /\ base mod 8 = 0 /\ base + cs * n <= 2 ^ 48 /\
  (forall x, in_block cs (base, n) x -> m x = None).

(** Histories of one arena: initialisation, allocations, writes by the owners of live
    cells (the first word is a pointer) and collections that keep the cells in [keep]. *)
Inductive ahist : mem -> arena -> list Z -> Prop :=
| ah_init m cs n inc dtor base m' a :
    8 <= cs -> cs mod 8 = 0 -> 0 < n -> 0 < inc -> fresh_block cs m base n ->
    gc_arena_init m cs n inc dtor base = OK (m', a) ->
    ahist m' a []
| ah_alloc m a live base m' a' need c :
    ahist m a live -> fresh_block (a_cs a) m base (a_inc a) ->
    gc_alloc_cell m a base = OK (m', a', need, c) ->
    ahist m' a' (c :: live)
| ah_write m a live c k v :
    ahist m a live -> In c live -> 0 <= k < a_cs a -> k mod 8 = 0 ->
    0 <= v -> (k = 0 -> v mod 4 = 0) ->
    ahist (upd m (c + k) v) a live
| ah_other m a live x v :
    ahist m a live -> ~ in_arena a x ->
    ahist (fun y => if y =? x then v else m y) a live
| ah_collect m a live (keep : Z -> bool) m1 f log m' a' log' :
    ahist m a live ->
    (forall x, m1 x = if existsb (Z.eqb x) (filter keep live)
                      then option_map (fun w => Z.lor w 1) (m x) else m x) ->
    gc_sweep f m1 a log = OK (m', a', log') ->
    ahist m' a' (filter keep live).

(** * Reachability

    Places of the heap: a value slot, an object, a property or an FFI signature at an
    address. [reach m roots] is the least set containing the root slots and closed under
    following values, the property list of an object and the two slots of a property. *)
Inductive place := Slot (a : Z) | Obj (a : Z) | Prop_ (a : Z) | Sig (a : Z).
Definition objlike (v : Z) : Prop := kind_of v = KObject \/ kind_of v = KArray.
Definition is_str_o (v : Z) : Prop := v / 2 ^ 48 = 65528.
Definition addr (v : Z) : Z := v mod 2 ^ 48.

Inductive reach (m : mem) (roots : list Z) : place -> Prop :=
| r_root a : In a roots -> reach m roots (Slot a)
| r_obj a v : reach m roots (Slot a) -> m a = Some v -> objlike v -> reach m roots (Obj (addr v))
| r_sig a v : reach m roots (Slot a) -> m a = Some v -> kind_of v = KFfi -> reach m roots (Sig (addr v))
| r_first o p : reach m roots (Obj o) -> m o = Some p -> p <> 0 -> reach m roots (Prop_ p)
| r_next p q : reach m roots (Prop_ p) -> m p = Some q -> q <> 0 -> reach m roots (Prop_ q)
| r_name p : reach m roots (Prop_ p) -> reach m roots (Slot (p + 8))
| r_val p : reach m roots (Prop_ p) -> reach m roots (Slot (p + 16)).

(** * The string heap: entries (length, bytes, NUL) after a leading NUL. Written as
    chunks (NUL, length, bytes) followed by a final NUL. *)
Definition entry (d : list Z) : list Z := varint_bytes (zlen d) ++ d.
Definition chunks (ds : list (list Z)) : list Z := flat_map (fun d => 0 :: entry d) ds.
Definition str_heap (ds : list (list Z)) : list Z := chunks ds ++ [0].
(** The string [d] starts at offset [o] of the string heap holding [ds]. *)
Definition str_at (ds : list (list Z)) (o : Z) (d : list Z) : Prop :=
  exists ds1 ds2, ds = ds1 ++ d :: ds2 /\ o = zlen (chunks ds1) + 1.

(** * Well-formed heaps. Only what is reachable is constrained, except for the mark bits. *)
Definition val_ok (ao asg : arena) (flo fls : list Z) (ds : list (list Z)) (v : Z) : Prop :=
  (objlike v -> In (addr v) (acells ao) /\ ~ In (addr v) flo) /\
  (kind_of v = KFfi -> In (addr v) (acells asg) /\ ~ In (addr v) fls) /\
  (is_str_o v -> exists d, str_at ds (addr v) d).

Record heap_ok (g : gstate) (ds : list (list Z)) (flo flp fls : list Z) : Prop := {
  h_obj : arena_ok (g_mem g) (g_obj g) flo;
  h_prop : arena_ok (g_mem g) (g_prop g) flp;
  h_sig : arena_ok (g_mem g) (g_sig g) fls;
  h_cs : a_cs (g_obj g) = 8 /\ a_cs (g_prop g) = 24 /\ a_cs (g_sig g) = 32;
  h_tidy : tidy (g_mem g) (g_obj g) flo /\ tidy (g_mem g) (g_prop g) flp /\ tidy (g_mem g) (g_sig g) fls;
  h_sep : forall x, (in_arena (g_obj g) x -> in_arena (g_prop g) x -> False) /\
                    (in_arena (g_obj g) x -> in_arena (g_sig g) x -> False) /\
                    (in_arena (g_prop g) x -> in_arena (g_sig g) x -> False);
  h_str : g_str g = str_heap ds;
  h_strs : Forall (fun d => bytes_ok d /\ 6 <= zlen d) ds;
  h_strlen : zlen (g_str g) < 2 ^ 31;
  h_roots : forall a, In a (gc_slots g) -> a mod 8 = 0 /\ 0 < a < 2 ^ 48 /\
              ~ in_arena (g_obj g) a /\ ~ in_arena (g_prop g) a /\ ~ in_arena (g_sig g) a;
  h_slot : forall a, reach (g_mem g) (gc_slots g) (Slot a) ->
              exists v, g_mem g a = Some v /\ is_u64 v /\ val_ok (g_obj g) (g_sig g) flo fls ds v;
  h_props : exists props : Z -> list Z,
      (forall o, reach (g_mem g) (gc_slots g) (Obj o) ->
         exists p, g_mem g o = Some p /\ flist (g_mem g) p (props o) /\
           forall q, In q (props o) -> In q (acells (g_prop g)) /\ ~ In q flp) /\
      (forall o1 o2 q, reach (g_mem g) (gc_slots g) (Obj o1) -> reach (g_mem g) (gc_slots g) (Obj o2) ->
         In q (props o1) -> In q (props o2) -> o1 = o2) }.

(** * The roots: where the engine and the host keep values. The three values of the engine, every
    value registered by the host, every element of the scopes, of the data stack and of the
    call stack, and the function and user data of every ffi callback. *)
Inductive root (g : gstate) : Z -> Prop :=
| rt_val i : 0 <= i < 3 -> root g (g_vals g + 8 * i)
| rt_owned a : In a (g_owned g) -> root g a
| rt_scope i : 0 <= i < snd (g_scopes g) -> root g (fst (g_scopes g) + 8 * i)
| rt_stack i : 0 <= i < snd (g_stack g) -> root g (fst (g_stack g) + 8 * i)
| rt_call i : 0 <= i < snd (g_call g) -> root g (fst (g_call g) + 8 * i)
| rt_cb a : In a (g_cbs g) -> root g a.

(** * What a collection must do to a heap [g], giving [g'] *)
Definition reachable (g : gstate) : place -> Prop := reach (g_mem g) (gc_slots g).

(** Everything reachable stays allocated with the same contents; string values may move. *)
Definition keeps_reachable (g g' : gstate) (mv : Z -> Z) : Prop :=
  (forall o, reachable g (Obj o) -> In o (acells (g_obj g')) /\ g_mem g' o = g_mem g o) /\
  (forall p, reachable g (Prop_ p) -> In p (acells (g_prop g')) /\ g_mem g' p = g_mem g p) /\
  (forall s, reachable g (Sig s) -> In s (acells (g_sig g')) /\
     forall k, 0 <= k < 32 -> g_mem g' (s + k) = g_mem g (s + k)) /\
  (forall a v, reachable g (Slot a) -> g_mem g a = Some v ->
     (is_str_o v -> g_mem g' a = Some (65528 * 2 ^ 48 + mv (addr v))) /\
     (~ is_str_o v -> g_mem g' a = Some v)).

(** Free cells are exactly the unreachable ones of the remaining blocks; other blocks
    have been given back. *)
Definition frees_unreachable (g g' : gstate) (flo flp fls : list Z) : Prop :=
  (forall c, In c flo <-> In c (acells (g_obj g')) /\ ~ reachable g (Obj c)) /\
  (forall c, In c flp <-> In c (acells (g_prop g')) /\ ~ reachable g (Prop_ c)) /\
  (forall c, In c fls <-> In c (acells (g_sig g')) /\ ~ reachable g (Sig c)) /\
  incl (a_blocks (g_obj g')) (a_blocks (g_obj g)) /\
  incl (a_blocks (g_prop g')) (a_blocks (g_prop g)) /\
  incl (a_blocks (g_sig g')) (a_blocks (g_sig g)) /\
  (forall x, in_arena (g_obj g) x -> ~ in_arena (g_obj g') x -> g_mem g' x = None) /\
  (forall x, in_arena (g_prop g) x -> ~ in_arena (g_prop g') x -> g_mem g' x = None) /\
  (forall x, in_arena (g_sig g) x -> ~ in_arena (g_sig g') x -> g_mem g' x = None).

(** The string heap is exactly the strings referenced by reachable slots, each moved to
    [mv o], keeping their order. *)
Definition compacts (g g' : gstate) (ds ds' : list (list Z)) (mv : Z -> Z) : Prop :=
  (forall a v d, reachable g (Slot a) -> g_mem g a = Some v -> is_str_o v ->
     str_at ds (addr v) d -> str_at ds' (mv (addr v)) d) /\
  (forall o' d, str_at ds' o' d -> exists a v, reachable g (Slot a) /\ g_mem g a = Some v /\
     is_str_o v /\ mv (addr v) = o' /\ str_at ds (addr v) d) /\
  (forall a1 v1 a2 v2, reachable g (Slot a1) -> g_mem g a1 = Some v1 -> is_str_o v1 ->
     reachable g (Slot a2) -> g_mem g a2 = Some v2 -> is_str_o v2 ->
     addr v1 < addr v2 -> mv (addr v1) < mv (addr v2)) /\
  zlen (g_str g') <= zlen (g_str g).

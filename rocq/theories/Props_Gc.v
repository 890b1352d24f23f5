(** Theorems about the allocator and the garbage collector: C22 - C26. *)
From Verif Require Import Base BaseFacts Varint_Model Varint_Spec Varint_Proofs Value_Model Value_Spec Value_Proofs
  Str_Model Str_Spec Str_Proofs Gc_Model Gc_Spec Gc_Proofs Gc_Proofs2 Gc_Proofs3 Gc_Proofs4 Gc_Proofs5.
Ltac Zify.zify_post_hook ::= Z.div_mod_to_equations.

(** * C22 *)
Theorem free_list_never_contains_live_cells : forall m a live, ahist m a live ->
  exists fl, flist m (a_free a) fl /\ NoDup fl /\ NoDup live /\ incl fl (acells a) /\ incl live (acells a) /\
    (forall c, In c live -> ~ In c fl) /\ (forall c, In c (acells a) -> In c fl \/ In c live).
Proof.
  intros m a live H. destruct (ahist_invariant m a live H) as (fl & Hok & _ & Hnd & Hall). exists fl.
  destruct (nodup_app_inv _ _ Hnd) as (N1 & N2 & N3).
  split; [exact (ok_free _ _ _ Hok)|]. split; [exact N1|]. split; [exact N2|].
  split; [exact (ok_fl_cells _ _ _ Hok)|]. split; [intros c Hc; apply Hall; right; exact Hc|].
  split; [intros c H1 H2; exact (N3 c H2 H1)|]. intros c Hc. apply Hall. exact Hc.
Qed.

Theorem allocation_returns_a_fresh_zeroed_cell : forall m a live base, ahist m a live ->
  fresh_block (a_cs a) m base (a_inc a) ->
  exists m' a' need c, gc_alloc_cell m a base = OK (m', a', need, c) /\
    ~ In c live /\ In c (acells a') /\
    (forall k, 0 <= k < a_cs a -> m' (c + k) = Some 0) /\
    (forall d k, In d live -> 0 <= k < a_cs a -> m' (d + k) = m (d + k)) /\
    (forall fl', flist m' (a_free a') fl' -> ~ In c fl' /\ forall d, In d live -> ~ In d fl').
Proof.
  intros m a live base H Hf. destruct (ahist_invariant m a live H) as (fl & Hi).
  destruct (alloc_inv m a live fl base Hi Hf) as (m' & a' & need & c & fl' & E & (Hok & _ & Hnd & Hall) & _ & _ & Hz & Hk).
  exists m', a', need, c. split; [exact E|]. destruct (nodup_app_inv _ _ Hnd) as (N1 & N2 & N3).
  inversion N2 as [|? ? Hni _]; subst. split; [exact Hni|]. split; [apply Hall; right; left; reflexivity|].
  split; [exact Hz|]. split; [exact Hk|]. intros fl2 F2.
  assert (fl2 = fl') by exact (flist_fun _ _ _ _ F2 (ok_free _ _ _ Hok)). subst fl2.
  split; [intros Hin; exact (N3 c Hin (or_introl eq_refl))|]. intros d Hd Hin. exact (N3 d Hin (or_intror Hd)).
Qed.

Theorem sweep_keeps_marked_cells : forall m a live (keep : Z -> bool) m1 log, ahist m a live ->
  (forall x, m1 x = if existsb (Z.eqb x) (filter keep live) then option_map (fun w => Z.lor w 1) (m x) else m x) ->
  exists F, forall f, (F <= f)%nat -> exists m' a' log', gc_sweep f m1 a log = OK (m', a', log') /\
    (forall d k, In d (filter keep live) -> 0 <= k < a_cs a -> m' (d + k) = m (d + k)) /\
    (forall fl', flist m' (a_free a') fl' -> forall c, In c fl' <-> In c (acells a') /\ ~ In c (filter keep live)).
Proof.
  intros m a live keep m1 log H Hm. destruct (ahist_invariant m a live H) as (fl & Hi).
  exists (S (length fl)). intros f Hf.
  destruct (collect_inv m a live fl keep m1 f log Hi Hf Hm) as (m' & a' & log' & fl' & E & (Hok & _ & Hnd & Hall) & _ & _ & Hk).
  exists m', a', log'. split; [exact E|]. split; [exact Hk|]. intros fl2 F2 c.
  assert (fl2 = fl') by exact (flist_fun _ _ _ _ F2 (ok_free _ _ _ Hok)). subst fl2.
  destruct (nodup_app_inv _ _ Hnd) as (N1 & N2 & N3). split.
  - intros Hin. split; [apply Hall; left; exact Hin|]. intros Hl. exact (N3 c Hin Hl).
  - intros [Hc Hn]. apply Hall in Hc. destruct Hc as [Hc|Hc]; [exact Hc|contradiction].
Qed.

(** A history: initialise an arena of two cells, allocate both, then a third (which
    needs a new block), and collect keeping only the second. *)
Definition ex_m0 : mem := fun _ => None.
Definition ex_view (m : mem) (l : list Z) : list (option Z) := map m l.
Definition ex_ok {A} (d : A) (r : R A) : A := match r with OK a => a | _ => d end.
Definition ex_a0 : arena := {| a_blocks := []; a_free := 0; a_cs := 8; a_inc := 2; a_dtor := false |}.
Definition ex_s1 : mem * arena := ex_ok (ex_m0, ex_a0) (gc_arena_init ex_m0 8 2 2 false 8000).
Definition ex_alloc (s : mem * arena) : mem * arena :=
  fst (fst (ex_ok (s, false, 0) (gc_alloc_cell (fst s) (snd s) 9000))).
Definition ex_s2 := ex_alloc ex_s1.
Definition ex_s3 := ex_alloc ex_s2.
Definition ex_s4 := ex_alloc ex_s3.
Definition ex_s5 : mem * arena * list Z := ex_ok (ex_s4, []) (gc_sweep 10 (upd (fst ex_s4) 8000 1) (snd ex_s4) []).
Lemma ex_fresh m : forallb (fun k => match m (9000 + Z.of_nat k) with None => true | _ => false end) (seq 0 16) = true ->
  fresh_block 8 m 9000 2.
Proof.
  intros H. split; [lia|]. split; [reflexivity|]. split; [lia|]. intros x Hx. unfold in_block in Hx. cbn [fst snd] in Hx.
  rewrite forallb_forall in H. specialize (H (Z.to_nat (x - 9000))).
  replace (9000 + Z.of_nat (Z.to_nat (x - 9000))) with x in H by lia.
  destruct (m x); [|reflexivity]. discriminate H. apply in_seq. lia.
Qed.
Example arena_example :
  gc_arena_init ex_m0 8 2 2 false 8000 = OK ex_s1 /\
  gc_alloc_cell (fst ex_s3) (snd ex_s3) 9000 = OK (ex_s4, true, 9008) /\
  a_blocks (snd ex_s4) = [(9000, 2); (8000, 2)] /\
  ahist (fst ex_s4) (snd ex_s4) [9008; 8000; 8008] /\
  gc_sweep 10 (upd (fst ex_s4) 8000 1) (snd ex_s4) [] = OK ex_s5 /\
  a_blocks (snd (fst ex_s5)) = [(8000, 2)] /\ a_free (snd (fst ex_s5)) = 8008 /\
  ex_view (fst (fst ex_s5)) [8000; 8008; 9000] = [Some 0; Some 0; None].
Proof.
  split; [vm_compute; reflexivity|]. split; [vm_compute; reflexivity|]. split; [vm_compute; reflexivity|]. split.
  - assert (H1 : ahist (fst ex_s1) (snd ex_s1) []).
    { apply (ah_init ex_m0 8 2 2 false 8000); try lia; [|vm_compute; reflexivity].
      split; [lia|]. split; [reflexivity|]. split; [lia|]. intros; reflexivity. }
    assert (H2 : ahist (fst ex_s2) (snd ex_s2) [8008]).
    { apply (ah_alloc (fst ex_s1) (snd ex_s1) [] 9000 _ _ true); [exact H1| |vm_compute; reflexivity].
      apply ex_fresh. vm_compute. reflexivity. }
    assert (H3 : ahist (fst ex_s3) (snd ex_s3) [8000; 8008]).
    { apply (ah_alloc (fst ex_s2) (snd ex_s2) [8008] 9000 _ _ true); [exact H2| |vm_compute; reflexivity].
      apply ex_fresh. vm_compute. reflexivity. }
    apply (ah_alloc (fst ex_s3) (snd ex_s3) [8000; 8008] 9000 _ _ true); [exact H3| |vm_compute; reflexivity].
    apply ex_fresh. vm_compute. reflexivity.
  - split; [vm_compute; reflexivity|]. split; [vm_compute; reflexivity|]. split; vm_compute; reflexivity.
Qed.

(** * C23, C24, C25: whole collections *)
(** The slots that reachability starts from are the roots. *)
Lemma in_val_array bl a : In a (val_array bl) <-> exists i, 0 <= i < snd bl /\ a = fst bl + 8 * i.
Proof.
  unfold val_array. rewrite in_map_iff. split.
  - intros (n & <- & H). apply in_seq in H. exists (Z.of_nat n). lia.
  - intros (i & H & ->). exists (Z.to_nat i). split; [lia|]. apply in_seq. lia.
Qed.
Theorem roots_are_marked g a : root g a <-> In a (gc_slots g).
Proof.
  unfold gc_slots. rewrite !in_app_iff, !in_val_array. cbn [fst snd]. split.
  - intros [i H|b H|i H|i H|i H|b H]; eauto 10.
  - intros [(i & H & ->)|[H|[(i & H & ->)|[(i & H & ->)|[(i & H & ->)|H]]]]]; [apply rt_val|apply rt_owned|apply rt_scope|apply rt_stack|apply rt_call|apply rt_cb]; exact H.
Qed.
Print Assumptions roots_are_marked.
(** So an object held by a root survives, with its contents. *)
Theorem rooted_object_survives g ds flo flp fls a v : heap_ok g ds flo flp fls -> root g a -> g_mem g a = Some v -> objlike v ->
  exists F, forall f, (F <= f)%nat -> exists g', mjs_gc f g = OK g' /\ g_mem g' a = Some v /\ In (addr v) (acells (g_obj g')) /\ g_mem g' (addr v) = g_mem g (addr v).
Proof.
  intros H R E O. destruct (collect_spec g ds flo flp fls H) as (F & HF). exists F. intros f Hf.
  destruct (HF f Hf) as (g' & ds' & mv & flo' & flp' & fls' & E1 & _ & (K1 & K2 & K3 & K4) & _). exists g'. split; [exact E1|].
  apply roots_are_marked in R. apply (r_root (g_mem g)) in R. split.
  - apply (K4 a v R E). intros S. unfold is_str_o in S. destruct O as [O|O]; unfold kind_of in O; rewrite S in O; vm_compute in O; discriminate O.
  - apply K1. eapply r_obj; eassumption.
Qed.
Print Assumptions rooted_object_survives.
Theorem collection_keeps_reachable : forall g ds flo flp fls, heap_ok g ds flo flp fls ->
  exists F, forall f, (F <= f)%nat -> exists g' ds' mv flo' flp' fls', mjs_gc f g = OK g' /\
    heap_ok g' ds' flo' flp' fls' /\ keeps_reachable g g' mv /\
    gc_slots g' = gc_slots g /\ (forall pl, reachable g' pl <-> reachable g pl).
Proof.
  intros g ds flo flp fls H. destruct (collect_spec g ds flo flp fls H) as (F & HF). exists F. intros f Hf.
  destruct (HF f Hf) as (g' & ds' & mv & flo' & flp' & fls' & E & H1 & H2 & _ & _ & H3 & H4).
  exists g', ds', mv, flo', flp', fls'. auto.
Qed.

Theorem collection_frees_unreachable : forall g ds flo flp fls, heap_ok g ds flo flp fls ->
  exists F, forall f, (F <= f)%nat -> exists g' ds' flo' flp' fls', mjs_gc f g = OK g' /\
    heap_ok g' ds' flo' flp' fls' /\ frees_unreachable g g' flo' flp' fls' /\
    (forall o w, reachable g (Obj o) -> g_mem g' o = Some w -> w mod 4 = 0).
Proof.
  intros g ds flo flp fls H. destruct (collect_spec g ds flo flp fls H) as (F & HF). exists F. intros f Hf.
  destruct (HF f Hf) as (g' & ds' & mv & flo' & flp' & fls' & E & H1 & H2 & H3 & _ & _ & _).
  exists g', ds', flo', flp', fls'. split; [exact E|]. split; [exact H1|]. split; [exact H3|].
  intros o w Ho Hw. destruct (proj1 H2 o Ho) as [Hc _]. destruct (proj1 (h_tidy _ _ _ _ _ H1) o Hc) as (w' & Hw' & _ & H4).
  - intros Hin. apply (proj1 H3) in Hin. exact (proj2 Hin Ho).
  - congruence.
Qed.

(** Reading a string value of the heap with mjs_get_string (foreign strings aside). *)
Definition strs_of (g : gstate) : strs := {| so := g_str g; so_size := zlen (g_str g); sf := []; s_need_gc := false |}.
Lemma str_reads g ds flo flp fls o d ext : heap_ok g ds flo flp fls -> str_at ds o d ->
  holds (strs_of g) ext (65528 * 2 ^ 48 + o) d /\ nul_terminated (strs_of g) ext (65528 * 2 ^ 48 + o) d.
Proof.
  intros H (ds1 & ds2 & E & Eo).
  pose proof (h_strlen _ _ _ _ _ H) as L. pose proof (h_str _ _ _ _ _ H) as ES. rewrite ES in L. unfold str_heap in L, ES.
  assert (Hh : exists post, chunks ds2 ++ [0] = 0 :: post).
  { destruct ds2; cbn [chunks flat_map app]; eexists; reflexivity. }
  destruct Hh as (post & Hpost).
  assert (Hso : so (strs_of g) = (chunks ds1 ++ [0]) ++ varint_bytes (zlen d) ++ d ++ [0] ++ post).
  { cbn [so strs_of]. rewrite ES, E, chunks_app. cbn [chunks flat_map]. fold (chunks ds2). unfold entry.
    cbn [app]. rewrite <- !app_assoc. cbn [app]. rewrite <- !app_assoc. rewrite Hpost. reflexivity. }
  assert (Hl : zlen (so (strs_of g)) < 2 ^ 31) by (cbn [so strs_of]; rewrite ES; exact L).
  rewrite Hso in Hl. rewrite !zlen_app in Hl. change (zlen [0]) with 1 in Hl.
  pose proof (zlen_nonneg (chunks ds1)). pose proof (zlen_nonneg d). pose proof (zlen_nonneg post).
  pose proof (zlen_nonneg (varint_bytes (zlen d))).
  destruct (heap_holds (strs_of g) ext _ d post Hso) as [A B].
  - rewrite zlen_app. change (zlen [0]) with 1. lia.
  - lia.
  - replace (65528 * 2 ^ 48 + o) with (zlen (chunks ds1 ++ [0]) + 65528 * 2 ^ 48); [auto|].
    rewrite zlen_app. change (zlen [0]) with 1. lia.
Qed.

Theorem compaction_preserves_strings : forall g ds flo flp fls ext, heap_ok g ds flo flp fls ->
  exists F, forall f, (F <= f)%nat -> exists g' ds', mjs_gc f g = OK g' /\
    (* every reachable heap string reads the same, NUL terminated *)
    (forall a v, reachable g (Slot a) -> g_mem g a = Some v -> is_str_o v ->
       exists v' d, g_mem g' a = Some v' /\ holds (strs_of g) ext v d /\
         holds (strs_of g') ext v' d /\ nul_terminated (strs_of g') ext v' d) /\
    (* values sharing a string still share it, and distinct strings stay distinct *)
    (forall a1 a2 v1 v2, reachable g (Slot a1) -> reachable g (Slot a2) -> g_mem g a1 = Some v1 -> g_mem g a2 = Some v2 ->
       is_str_o v1 -> is_str_o v2 -> (g_mem g' a1 = g_mem g' a2 <-> v1 = v2)) /\
    (* the heap is exactly the strings referenced by reachable slots *)
    g_str g' = str_heap ds' /\
    (forall d, In d ds' -> exists a v, reachable g (Slot a) /\ g_mem g a = Some v /\ is_str_o v /\ holds (strs_of g) ext v d) /\
    zlen (g_str g') <= zlen (g_str g).
Proof.
  intros g ds flo flp fls ext H. destruct (collect_spec g ds flo flp fls H) as (F & HF). exists F. intros f Hf.
  destruct (HF f Hf) as (g' & ds' & mv & flo' & flp' & fls' & E & H1 & H2 & _ & (C1 & C2 & C3 & C4) & _ & _).
  destruct H2 as (_ & _ & _ & HS).
  assert (Hat : forall a v, reachable g (Slot a) -> g_mem g a = Some v -> is_str_o v -> exists d, str_at ds (addr v) d).
  { intros a v Ha Hv Hs. destruct (h_slot _ _ _ _ _ H a Ha) as (v' & Hv' & _ & (_ & _ & V)). replace v with v' in * by congruence. auto. }
  exists g', ds'. split; [exact E|]. split; [|split; [|split; [|split]]].
  - intros a v Ha Hv Hs. destruct (Hat a v Ha Hv Hs) as (d & Hd). exists (65528 * 2 ^ 48 + mv (addr v)), d.
    split; [exact (proj1 (HS a v Ha Hv) Hs)|]. split.
    + rewrite (str_o_val v Hs). exact (proj1 (str_reads g ds flo flp fls (addr v) d ext H Hd)).
    + exact (str_reads g' ds' flo' flp' fls' (mv (addr v)) d ext H1 (C1 a v d Ha Hv Hs Hd)).
  - intros a1 a2 v1 v2 A1 A2 V1 V2 S1 S2. rewrite (proj1 (HS a1 v1 A1 V1) S1), (proj1 (HS a2 v2 A2 V2) S2). split.
    + intros Ee. apply some_inj in Ee. assert (addr v1 = addr v2).
      { destruct (Z.lt_trichotomy (addr v1) (addr v2)) as [L|[L|L]]; [|exact L|].
        - pose proof (C3 a1 v1 a2 v2 A1 V1 S1 A2 V2 S2 L). lia.
        - pose proof (C3 a2 v2 a1 v1 A2 V2 S2 A1 V1 S1 L). lia. }
      rewrite (str_o_val v1 S1), (str_o_val v2 S2). congruence.
    + intros ->. reflexivity.
  - exact (h_str _ _ _ _ _ H1).
  - intros d Hd. apply in_split in Hd. destruct Hd as (x1 & x2 & Ed).
    destruct (C2 (zlen (chunks x1) + 1) d) as (a & v & Ha & Hv & Hs & _ & Hd); [exists x1, x2; auto|].
    exists a, v. split; [exact Ha|]. split; [exact Hv|]. split; [exact Hs|].
    rewrite (str_o_val v Hs). exact (proj1 (str_reads g ds flo flp fls (addr v) d ext H Hd)).
  - exact C4.
Qed.

Lemma ok_inj {A} (a b : A) : OK a = OK b -> a = b.
Proof. congruence. Qed.

(** The string heap that mjs_mk_string builds has the shape assumed of it: chunks of at
    least 6 bytes, whatever strings are created. *)
Theorem string_heap_shape : forall st ds d st' v, so st = str_heap ds ->
  bytes_ok d -> zlen d < 2 ^ 31 -> zlen (so st) < 2 ^ 31 -> mk_string st d = OK (st', v) ->
  so st' = str_heap ds /\ ~ is_str_o v \/
  6 <= zlen d /\ so st' = str_heap (ds ++ [d]) /\ v = 65528 * 2 ^ 48 + (zlen (chunks ds) + 1).
Proof.
  intros st ds d st' v Hso Hb Hd Hl E. pose proof (zlen_nonneg d) as Hn. pose proof (zlen_nonneg (so st)) as Hn'.
  destruct (Z.le_gt_cases (zlen d) 4) as [H4|H4]; [|destruct (Z.eq_dec (zlen d) 5) as [H5|H5]].
  - left. rewrite (mk_inline4 st d Hb H4) in E. apply ok_inj in E. apply pair_equal_spec in E. destruct E as [<- <-]. split; [exact Hso|].
    pose proof (inline_val_bound (zlen d) d Hb eq_refl H4). unfold is_str_o. lia.
  - left. rewrite (mk_inline5 st d Hb H5) in E. apply ok_inj in E. apply pair_equal_spec in E. destruct E as [<- <-]. split; [exact Hso|].
    pose proof (inline5_val_bound d Hb H5). unfold is_str_o. lia.
  - right. split; [lia|].
    destruct (mk_heap_src st (Some d) (zlen d) eq_refl ltac:(lia) ltac:(lia)) as (st2 & E2 & Es & _).
    unfold mk_string in E. rewrite E2 in E. apply ok_inj in E. assert (st2 = st' /\ zlen (so st) + 65528 * 2 ^ 48 = v) as [-> <-] by (split; congruence).
    rewrite Es, Hso. unfold str_heap, embed_bytes. rewrite chunks_app. cbn [chunks flat_map]. rewrite app_nil_r. unfold entry.
    rewrite <- !app_assoc. cbn [app]. rewrite <- !app_assoc. split; [reflexivity|].
    rewrite zlen_app. change (zlen [0]) with 1. lia.
Qed.
Example string_heap_shape_example :
  so strs_init = str_heap [] /\
  exists st v, mk_string strs_init [104; 101; 108; 108; 111; 33; 33] = OK (st, v) /\
    so st = str_heap [[104; 101; 108; 108; 111; 33; 33]] /\ v = 65528 * 2 ^ 48 + 1.
Proof. split; [reflexivity|]. do 2 eexists. split; [vm_compute; reflexivity|]. split; vm_compute; reflexivity. Qed.

(** * A heap. Object 8000 (a root) has properties 9000 (name: heap string, value: the
    object itself) and 9024 (name: an inline string, value: the same heap string). Object
    8008 is held only by the argument stack at 13000. The first heap string is dead. *)
Definition ex_garbage : list Z := [103; 97; 114; 98; 97; 103; 101].
Definition ex_hello : list Z := [104; 101; 108; 108; 111; 33; 33].
Definition ex_ds : list (list Z) := [ex_garbage; ex_hello].
Definition ex_obj (a : Z) : Z := a + 65521 * 2 ^ 48.
Definition ex_str (o : Z) : Z := o + 65528 * 2 ^ 48.
Definition ex_k : Z := 1 + 107 * 256 + 65526 * 2 ^ 48.
Definition ex_words : list (Z * Z) :=
  [(8000, 9000); (8008, 0); (9000, 9024); (9008, ex_str 10); (9016, ex_obj 8000);
   (9024, 0); (9032, ex_k); (9040, ex_str 10); (10000, 0);
   (12000, ex_obj 8000); (12008, V_UNDEFINED); (12016, 4607182418800017408); (13000, ex_obj 8008)].
Fixpoint ex_get (l : list (Z * Z)) (x : Z) : Z :=
  match l with [] => 0 | (a, w) :: r => if x =? a then w else ex_get r x end.
Definition ex_mem : mem := fun x =>
  if ((8000 <=? x) && (x <? 8016)) || ((9000 <=? x) && (x <? 9048)) || ((10000 <=? x) && (x <? 10032)) ||
     ((12000 <=? x) && (x <? 12024)) || ((13000 <=? x) && (x <? 13008))
  then Some (ex_get ex_words x) else None.
Definition ex_arena (base n cs free : Z) : arena :=
  {| a_blocks := [(base, n)]; a_free := free; a_cs := cs; a_inc := 10; a_dtor := false |}.
Definition ex_g : gstate :=
  {| g_mem := ex_mem; g_str := str_heap ex_ds; g_obj := ex_arena 8000 2 8 0; g_prop := ex_arena 9000 2 24 0;
     g_sig := ex_arena 10000 1 32 10000; g_vals := 12000; g_owned := []; g_scopes := (0, 0); g_stack := (0, 0);
     g_call := (0, 0); g_cbs := []; g_args := (13000, 1); g_log := [] |}.
Definition ex_places : list place :=
  [Slot 12000; Slot 12008; Slot 12016; Obj 8000; Prop_ 9000; Prop_ 9024; Slot 9008; Slot 9016; Slot 9032; Slot 9040].

Ltac each H := repeat (destruct H as [H|H]; [try discriminate H; try (injection H as <-)|]); try destruct H.
Lemma ex_kinds : kind_of (ex_obj 8000) = KObject /\ kind_of (ex_str 10) = KString /\ kind_of ex_k = KString /\
  kind_of V_UNDEFINED = KUndefined /\ kind_of 4607182418800017408 = KNumber.
Proof. vm_compute. repeat split. Qed.
Lemma ex_reach pl : reach ex_mem (gc_slots ex_g) pl -> In pl ex_places.
Proof.
  destruct ex_kinds as (K1 & K2 & K3 & K4 & K5).
  assert (G : forall a v, In (Slot a) ex_places -> ex_mem a = Some v ->
            v = ex_obj 8000 \/ v = ex_str 10 \/ v = ex_k \/ v = V_UNDEFINED \/ v = 4607182418800017408).
  { intros a v Ha Hv. unfold ex_places in Ha. cbn [In] in Ha.
    each Ha; vm_compute in Hv; injection Hv as <-; vm_compute; auto 10. }
  induction 1 as [a Ha|a v Ha IH Hm Hk|a v Ha IH Hm Hk|o p Ho IH Hm Hp|p q Hp IH Hm Hq|p Hp IH|p Hp IH].
  - vm_compute in Ha. unfold ex_places. cbn [In]. each Ha; auto 10.
  - destruct (G a v IH Hm) as [->|[->|[->|[->| ->]]]]; unfold objlike in Hk; rewrite ?K1, ?K2, ?K3, ?K4, ?K5 in Hk;
      try (destruct Hk as [Hk|Hk]; discriminate Hk).
    change (addr (ex_obj 8000)) with 8000. unfold ex_places. cbn [In]. auto 10.
  - destruct (G a v IH Hm) as [->|[->|[->|[->| ->]]]]; rewrite ?K1, ?K2, ?K3, ?K4, ?K5 in Hk; discriminate Hk.
  - unfold ex_places in IH. cbn [In] in IH. each IH. vm_compute in Hm. injection Hm as <-. unfold ex_places. cbn [In]. auto 10.
  - unfold ex_places in IH. cbn [In] in IH. each IH; vm_compute in Hm; injection Hm as <-; [|congruence].
    unfold ex_places. cbn [In]. auto 10.
  - unfold ex_places in IH. cbn [In] in IH. each IH; unfold ex_places; cbn [In]; auto 12.
  - unfold ex_places in IH. cbn [In] in IH. each IH; unfold ex_places; cbn [In]; auto 12.
Qed.
Lemma ex_in_arena base n cs free x : in_arena (ex_arena base n cs free) x <-> base <= x < base + cs * n.
Proof.
  split.
  - intros (bl & [<-|[]] & H). exact H.
  - intros H. exists (base, n). split; [left; reflexivity|exact H].
Qed.
Lemma ex_mapped x : (8000 <= x < 8016 \/ 9000 <= x < 9048 \/ 10000 <= x < 10032) -> ex_mem x <> None.
Proof.
  intros H. unfold ex_mem.
  replace (((8000 <=? x) && (x <? 8016)) || ((9000 <=? x) && (x <? 9048)) || ((10000 <=? x) && (x <? 10032)) ||
     ((12000 <=? x) && (x <? 12024)) || ((13000 <=? x) && (x <? 13008))) with true by lia. discriminate.
Qed.
Lemma ex_arena_ok base n cs free fl : 8 <= cs -> cs mod 8 = 0 -> 0 < n -> 0 < base -> base mod 8 = 0 -> base + cs * n <= 2 ^ 48 ->
  (forall x, base <= x < base + cs * n -> ex_mem x <> None) ->
  flist ex_mem free fl -> incl fl (block_cells cs (base, n)) -> arena_ok ex_mem (ex_arena base n cs free) fl.
Proof.
  intros H1 H2 H3 H4 H5 H6 H7 F Hi. constructor; cbn [a_cs a_inc a_blocks a_free ex_arena]; auto.
  - lia.
  - apply Forall_cons; [|apply Forall_nil]. repeat split; auto.
  - apply FOP_cons; [apply Forall_nil|apply FOP_nil].
  - exact (flist_nodup _ _ _ F).
  - intros c Hc. unfold acells, cells. cbn [a_cs a_blocks ex_arena flat_map]. rewrite app_nil_r. exact (Hi c Hc).
Qed.
Example heap_ok_example : heap_ok ex_g ex_ds [] [] [10000].
Proof.
  destruct ex_kinds as (K1 & K2 & K3 & K4 & K5).
  constructor; cbn [g_mem g_obj g_prop g_sig g_str ex_g].
  - apply ex_arena_ok; try lia; try (vm_compute; discriminate).
    + intros x Hx. apply ex_mapped. lia.
    + constructor.
    + intros c [].
  - apply ex_arena_ok; try lia; try (vm_compute; discriminate).
    + intros x Hx. apply ex_mapped. lia.
    + constructor.
    + intros c [].
  - apply ex_arena_ok; try lia; try (vm_compute; discriminate).
    + intros x Hx. apply ex_mapped. lia.
    + econstructor; [discriminate|vm_compute; reflexivity|constructor].
    + intros c [<-|[]]. left. reflexivity.
  - repeat split.
  - split; [|split]; intros c Hc Hn; vm_compute in Hc; each Hc; try (eexists; split; [vm_compute; reflexivity|split; [lia|reflexivity]]).
  - intros x. rewrite !ex_in_arena. lia.
  - reflexivity.
  - apply Forall_cons; [|apply Forall_cons; [|apply Forall_nil]]; (split; [|vm_compute; discriminate]);
      unfold bytes_ok, ex_garbage, ex_hello; repeat apply Forall_cons; try apply Forall_nil; unfold is_byte; lia.
  - vm_compute. reflexivity.
  - intros a Ha. vm_compute in Ha. rewrite !ex_in_arena. each Ha; repeat split; try lia.
  - intros a Ha. apply ex_reach in Ha.
    assert (S10 : str_at ex_ds 10 ex_hello) by (exists [ex_garbage], []; split; reflexivity).
    assert (O : val_ok (ex_arena 8000 2 8 0) (ex_arena 10000 1 32 10000) [] [10000] ex_ds (ex_obj 8000)).
    { split; [|split].
      - intros _. split; [left; reflexivity|intros []].
      - intros H. rewrite K1 in H. discriminate H.
      - intros H. vm_compute in H. discriminate H. }
    assert (S : val_ok (ex_arena 8000 2 8 0) (ex_arena 10000 1 32 10000) [] [10000] ex_ds (ex_str 10)).
    { split; [|split].
      - intros [H|H]; rewrite K2 in H; discriminate H.
      - intros H. rewrite K2 in H. discriminate H.
      - intros _. exists ex_hello. exact S10. }
    assert (N : forall v, kind_of v = KString \/ kind_of v = KUndefined \/ kind_of v = KNumber -> v / 2 ^ 48 <> 65528 ->
              val_ok (ex_arena 8000 2 8 0) (ex_arena 10000 1 32 10000) [] [10000] ex_ds v).
    { intros v Hk Hs. split; [|split].
      - intros [H|H]; rewrite H in Hk; destruct Hk as [X|[X|X]]; discriminate X.
      - intros H; rewrite H in Hk; destruct Hk as [X|[X|X]]; discriminate X.
      - intros H. contradiction. }
    unfold ex_places in Ha. cbn [In] in Ha.
    each Ha; (eexists; split; [vm_compute; reflexivity|]); (split; [unfold is_u64; lia|]);
      first [exact O|exact S|apply N; [auto; fail|vm_compute; discriminate]].
  - exists (fun o => if o =? 8000 then [9000; 9024] else []). split.
    + intros o Ho. apply ex_reach in Ho. unfold ex_places in Ho. cbn [In] in Ho. each Ho.
      exists 9000. split; [vm_compute; reflexivity|]. cbn [Z.eqb Pos.eqb]. split.
      * econstructor; [discriminate|vm_compute; reflexivity|]. econstructor; [discriminate|vm_compute; reflexivity|]. constructor.
      * intros q [<-|[<-|[]]]; (split; [vm_compute; auto|intros []]).
    + intros o1 o2 q H1 H2 _ _. apply ex_reach in H1, H2. unfold ex_places in H1, H2. cbn [In] in H1, H2. each H1. each H2. reflexivity.
Qed.

Definition alloc_of (r : R (mem * arena * bool * Z)) : Z := match r with OK (_, _, _, p) => p | _ => -1 end.
Lemma alloc_of_ok r p : 0 < p -> alloc_of r = p -> exists m a n, r = OK (m, a, n, p).
Proof. destruct r as [[[[m a] n] q]| | |]; cbn [alloc_of]; intros P H; subst; try lia. eauto. Qed.
Definition is_OK {A} (r : R A) : bool := match r with OK _ => true | _ => false end.
Lemma ex_ok_eq {A} (d : A) r : is_OK r = true -> r = OK (ex_ok d r).
Proof. destruct r; cbn; intro H; try discriminate H; reflexivity. Qed.

Definition ex_g' := ex_ok ex_g (mjs_gc 60 ex_g).
Lemma ex_g'_run : mjs_gc 60 ex_g = OK ex_g'.
Proof. apply ex_ok_eq. vm_compute. reflexivity. Qed.

(** The collection of that heap: object 8008 is freed, the dead string is dropped and the
    three references to the other one are relocated. *)
Example collection_example : exists g', mjs_gc 60 ex_g = OK g' /\
  g_str g' = str_heap [ex_hello] /\
  ex_view (g_mem g') [8000; 9000; 9008; 9016; 9024; 9032; 9040; 12000] =
    [Some 9000; Some 9024; Some (ex_str 1); Some (ex_obj 8000); Some 0; Some ex_k; Some (ex_str 1); Some (ex_obj 8000)] /\
  a_free (g_obj g') = 8008.
Proof. exists ex_g'. split; [exact ex_g'_run|]. split; [vm_compute; reflexivity|]. split; vm_compute; reflexivity. Qed.

Lemma ex_g'_args : g_mem ex_g' 13000 = Some (ex_obj 8008).
Proof. vm_compute. reflexivity. Qed.
Lemma ex_g'_alloc : alloc_of (gc_alloc_cell (g_mem ex_g') (g_obj ex_g') 0) = addr (ex_obj 8008).
Proof. vm_compute. reflexivity. Qed.
Lemma ex_obj_addr : 0 < addr (ex_obj 8008).
Proof. vm_compute. reflexivity. Qed.
Lemma ex_g_args : In 13000 (val_array (g_args ex_g)) /\ g_mem ex_g 13000 = Some (ex_obj 8008) /\
  objlike (ex_obj 8008) /\ In (addr (ex_obj 8008)) (acells (g_obj ex_g)).
Proof. split; [vm_compute; auto|]. split; [vm_compute; reflexivity|]. split; [left; vm_compute; reflexivity|]. vm_compute. auto. Qed.

(** * C26: a value held only by arg_stack is freed, and its cell handed out again *)
Theorem arg_stack_values_survive_refuted : exists g ds flo flp fls a v f g',
  heap_ok g ds flo flp fls /\
  (* [v], held by the argument stack, is an allocated object *)
  In a (val_array (g_args g)) /\ g_mem g a = Some v /\ objlike v /\
  In (addr v) (acells (g_obj g)) /\ ~ In (addr v) flo /\
  (* after the collection the argument stack still holds it but the next object
     allocated is the same cell *)
  mjs_gc f g = OK g' /\ g_mem g' a = Some v /\
  exists m'' a'' need, gc_alloc_cell (g_mem g') (g_obj g') 0 = OK (m'', a'', need, addr v).
Proof.
  destruct ex_g_args as (A & B & C & D).
  exists ex_g, ex_ds, [], [], [10000], 13000, (ex_obj 8008), 60%nat, ex_g'.
  split; [exact heap_ok_example|]. split; [exact A|]. split; [exact B|]. split; [exact C|]. split; [exact D|].
  split; [intros []|]. split; [exact ex_g'_run|]. split; [exact ex_g'_args|].
  exact (alloc_of_ok _ _ ex_obj_addr ex_g'_alloc).
Qed.

Print Assumptions free_list_never_contains_live_cells.
Print Assumptions allocation_returns_a_fresh_zeroed_cell.
Print Assumptions sweep_keeps_marked_cells.
Print Assumptions collection_keeps_reachable.
Print Assumptions collection_frees_unreachable.
Print Assumptions compaction_preserves_strings.
Print Assumptions string_heap_shape.
Print Assumptions arg_stack_values_survive_refuted.

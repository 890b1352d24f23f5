(** Proofs about cell arenas: allocation and sweeping. *)
From Coq Require Import FinFun.
From Verif Require Import Base BaseFacts Value_Model Value_Proofs Gc_Model Gc_Spec.
Ltac Zify.zify_post_hook ::= Z.div_mod_to_equations.

(** Bits of the first word of a cell *)
Ltac low_bits w := destruct w as [|[[?p|?p|]|[?p|?p|]|]|?p]; cbn; try lia.
Lemma lor1_even w : 0 <= w -> w mod 2 = 0 -> Z.lor w 1 = w + 1.
Proof. low_bits w. Qed.
Lemma lor2 w : 0 <= w -> w mod 4 = 0 -> Z.lor w 2 = w + 2.
Proof. low_bits w. Qed.
Lemma land1 w : 0 <= w -> Z.land w 1 = w mod 2.
Proof. intros. change 1 with (2 ^ 1 - 1). rewrite land_ones_mod by lia. reflexivity. Qed.
Lemma land2_zero w : 0 <= w -> (Z.land w 2 =? 0) = (w mod 4 <? 2).
Proof. low_bits w. Qed.
Lemma clear_sub w k : Z.land w (Z.lnot k) = w - Z.land w k.
Proof.
  rewrite <- Z.ldiff_land.
  assert (E : Z.ldiff w k + Z.land w k = w); [|lia].
  rewrite Z.add_nocarry_lxor.
  - rewrite Z.lxor_lor; [apply Z.lor_ldiff_and|].
    apply Z.bits_inj'. intros n Hn. rewrite Z.land_spec, Z.ldiff_spec, Z.land_spec, Z.bits_0.
    destruct (Z.testbit w n), (Z.testbit k n); reflexivity.
  - apply Z.bits_inj'. intros n Hn. rewrite Z.land_spec, Z.ldiff_spec, Z.land_spec, Z.bits_0.
    destruct (Z.testbit w n), (Z.testbit k n); reflexivity.
Qed.
Lemma clear1 w : 0 <= w -> Z.land w (Z.lnot 1) = w - w mod 2.
Proof. intros H. rewrite clear_sub, land1 by lia. reflexivity. Qed.
Lemma land2_two w : 0 <= w -> w mod 4 = 2 -> Z.land w 2 = 2.
Proof. low_bits w. Qed.
Lemma clear2 w : 0 <= w -> w mod 4 = 2 -> Z.land w (Z.lnot 2) = w - 2.
Proof. intros H E. rewrite clear_sub, land2_two by lia. reflexivity. Qed.

(** Loads and stores *)
Lemma ld_ok m a v : a mod 8 = 0 -> m a = Some v -> ld m a = OK v.
Proof. intros Ha Hm. unfold ld. rewrite Ha, Hm. reflexivity. Qed.
Lemma sto_ok m a v : a mod 8 = 0 -> m a <> None -> sto m a v = OK (upd m a v).
Proof. intros Ha Hm. unfold sto. rewrite Ha. cbn. destruct (m a); congruence. Qed.
Lemma upd_same m a v : upd m a v a = Some v.
Proof. unfold upd. rewrite Z.eqb_refl. reflexivity. Qed.
Lemma upd_other m a v x : x <> a -> upd m a v x = m x.
Proof. intros H. unfold upd. destruct (Z.eqb_spec x a); congruence. Qed.
Lemma setr_in m a n v x : a <= x < a + n -> setr m a n v x = v.
Proof. intros H. unfold setr. replace ((a <=? x) && (x <? a + n)) with true by lia. reflexivity. Qed.
Lemma setr_out m a n v x : ~ (a <= x < a + n) -> setr m a n v x = m x.
Proof. intros H. unfold setr. replace ((a <=? x) && (x <? a + n)) with false by lia. reflexivity. Qed.

Lemma or_word_ok m p k w : p mod 8 = 0 -> m p = Some w -> or_word m p k = OK (upd m p (Z.lor w k)).
Proof.
  intros Hp Hm. unfold or_word. rewrite (ld_ok _ _ _ Hp Hm). cbn [bind].
  apply sto_ok; congruence.
Qed.
Lemma clear_word_ok m p k w : p mod 8 = 0 -> m p = Some w ->
  clear_word m p k = OK (upd m p (Z.land w (Z.lnot k))).
Proof.
  intros Hp Hm. unfold clear_word. rewrite (ld_ok _ _ _ Hp Hm). cbn [bind].
  apply sto_ok; congruence.
Qed.
Lemma test1_ok m p w : p mod 8 = 0 -> m p = Some w -> 0 <= w ->
  test_word m p 1 = OK (negb (w mod 2 =? 0)).
Proof. intros Hp Hm Hw. unfold test_word. rewrite (ld_ok _ _ _ Hp Hm). cbn [bind]. rewrite land1 by lia. reflexivity. Qed.
Lemma test2_ok m p w : p mod 8 = 0 -> m p = Some w -> 0 <= w ->
  test_word m p 2 = OK (negb (w mod 4 <? 2)).
Proof. intros Hp Hm Hw. unfold test_word. rewrite (ld_ok _ _ _ Hp Hm). cbn [bind]. rewrite land2_zero by lia. reflexivity. Qed.

(** Linked lists *)
Lemma flist_frame m m' h l : flist m h l -> (forall c, In c l -> m' c = m c) -> flist m' h l.
Proof.
  induction 1 as [|c nx l Hc Hm Hl IH]; intros H; [constructor|].
  econstructor; [exact Hc| |apply IH; intros; apply H; right; assumption].
  rewrite H by (left; reflexivity). exact Hm.
Qed.
Lemma flist_fun m h l l' : flist m h l -> flist m h l' -> l = l'.
Proof.
  intros H. revert l'. induction H as [|c nx l Hc Hm Hl IH]; intros l' H'; inversion H'; subst; try congruence.
  f_equal. apply IH. congruence.
Qed.
Lemma flist_zero m l : flist m 0 l -> l = [].
Proof. inversion 1; congruence. Qed.
Lemma flist_nonzero m h l : flist m h l -> h <> 0 -> exists l', l = h :: l' /\ exists nx, m h = Some nx /\ flist m nx l'.
Proof. inversion 1; subst; [congruence|]. intros _. eauto. Qed.

(** Cells *)
Lemma block_cells_in cs bl c : In c (block_cells cs bl) <->
  exists i, 0 <= i < snd bl /\ c = fst bl + cs * i.
Proof.
  unfold block_cells. rewrite in_map_iff. split.
  - intros (i & <- & Hi%in_seq). exists (Z.of_nat i). lia.
  - intros (i & Hi & ->). exists (Z.to_nat i). split; [f_equal; f_equal; lia|]. apply in_seq. lia.
Qed.
Lemma cells_in cs bs c : In c (cells cs bs) <-> exists bl, In bl bs /\ In c (block_cells cs bl).
Proof. unfold cells. apply in_flat_map. Qed.
Lemma cell_word cs bl c k : 8 <= cs -> In c (block_cells cs bl) -> 0 <= k < cs -> in_block cs bl (c + k).
Proof. intros Hcs (i & Hi & ->)%block_cells_in Hk. unfold in_block. nia. Qed.
Lemma cell_in_block cs bl c : 8 <= cs -> In c (block_cells cs bl) -> in_block cs bl c.
Proof. intros Hcs H. replace c with (c + 0) by lia. apply cell_word; [exact Hcs|exact H|lia]. Qed.
Lemma cells_in_blocks cs bs c : 8 <= cs -> In c (cells cs bs) -> in_blocks cs bs c.
Proof. intros Hcs (bl & Hb & Hc)%cells_in. exists bl. split; [exact Hb|apply cell_in_block; assumption]. Qed.
Lemma cell_sep cs bl c c' k k' : 8 <= cs -> In c (block_cells cs bl) -> In c' (block_cells cs bl) ->
  0 <= k < cs -> 0 <= k' < cs -> c + k = c' + k' -> c = c'.
Proof. intros Hcs (i & Hi & ->)%block_cells_in (j & Hj & ->)%block_cells_in Hk Hk' E.
  assert (Hij : i = j); [|rewrite Hij; reflexivity].
  destruct (Z.lt_trichotomy i j) as [L|[L|L]]; [exfalso|exact L|exfalso].
  - assert (cs * (i + 1) <= cs * j) by (apply Z.mul_le_mono_nonneg_l; lia). lia.
  - assert (cs * (j + 1) <= cs * i) by (apply Z.mul_le_mono_nonneg_l; lia). lia.
Qed.
Lemma block_cells_nodup cs bl : 8 <= cs -> NoDup (block_cells cs bl).
Proof.
  intros Hcs. unfold block_cells. apply FinFun.Injective_map_NoDup; [|apply seq_NoDup].
  intros i j E. nia.
Qed.

Lemma ordpairs_in {A} (P : A -> A -> Prop) l x y : (forall a b, P a b -> P b a) ->
  ForallOrdPairs P l -> In x l -> In y l -> x = y \/ P x y.
Proof.
  intros Hs. induction 1 as [|a l Ha Hl IH]; [intros []|].
  rewrite Forall_forall in Ha. intros [<-|Hx] [<-|Hy]; auto.
Qed.
Lemma disjoint_sym cs b1 b2 : disjoint_blocks cs b1 b2 -> disjoint_blocks cs b2 b1.
Proof. intros H x H1 H2. exact (H x H2 H1). Qed.

Lemma cells_sep cs bs c c' k k' : 8 <= cs -> ForallOrdPairs (disjoint_blocks cs) bs ->
  In c (cells cs bs) -> In c' (cells cs bs) -> 0 <= k < cs -> 0 <= k' < cs -> c + k = c' + k' -> c = c'.
Proof.
  intros Hcs Hd (bl & Hb & Hc)%cells_in (bl' & Hb' & Hc')%cells_in Hk Hk' E.
  destruct (ordpairs_in _ _ _ _ (disjoint_sym cs) Hd Hb Hb') as [<-|Hdis].
  - exact (cell_sep cs bl c c' k k' Hcs Hc Hc' Hk Hk' E).
  - exfalso. apply (Hdis (c + k)); [apply cell_word; assumption|]. rewrite E. apply cell_word; assumption.
Qed.

Lemma nodup_app {A} (l1 l2 : list A) : NoDup l1 -> NoDup l2 -> (forall x, In x l1 -> In x l2 -> False) ->
  NoDup (l1 ++ l2).
Proof.
  intros H1 H2 H. induction H1 as [|x l Hx Hl IH]; [exact H2|]. cbn. constructor.
  - intros [?|?]%in_app_or; [auto|]. apply (H x); [left; reflexivity|assumption].
  - apply IH. intros y Hy. apply H. right. exact Hy.
Qed.
Lemma nodup_app_inv {A} (l1 l2 : list A) : NoDup (l1 ++ l2) ->
  NoDup l1 /\ NoDup l2 /\ (forall x, In x l1 -> In x l2 -> False).
Proof.
  induction l1 as [|a l1 IH]; cbn; intros H; [repeat split; [constructor|exact H|intros x []]|].
  inversion H as [|? ? Hn Hd]; subst. destruct (IH Hd) as (H1 & H2 & H3).
  repeat split; [constructor; [intros Hc; apply Hn; apply in_or_app; auto|exact H1]|exact H2|].
  intros x [<-|Hx] Hy; [apply Hn; apply in_or_app; auto|exact (H3 x Hx Hy)].
Qed.

Lemma cells_nodup cs bs : 8 <= cs -> ForallOrdPairs (disjoint_blocks cs) bs -> NoDup (cells cs bs).
Proof.
  intros Hcs. induction 1 as [|bl bs Hbl Hd IH]; [constructor|]. unfold cells. cbn [flat_map].
  apply nodup_app; [apply block_cells_nodup; exact Hcs|exact IH|].
  intros x Hx (bl' & Hb' & Hx')%in_flat_map. rewrite Forall_forall in Hbl.
  apply (Hbl bl' Hb' x); apply cell_in_block; assumption.
Qed.

Lemma cell_facts m a fl c : arena_ok m a fl -> In c (acells a) ->
  c mod 8 = 0 /\ 0 < c < 2 ^ 48 /\ (forall k, 0 <= k < a_cs a -> m (c + k) <> None) /\ c + a_cs a <= 2 ^ 48.
Proof.
  intros H (bl & Hb & Hc)%cells_in. destruct (ok_cs _ _ _ H) as [Hcs Hcm].
  pose proof (ok_blocks _ _ _ H) as HB. rewrite Forall_forall in HB. destruct (HB _ Hb) as (H1 & H2 & H3 & H4 & H5).
  pose proof Hc as (i & Hi & ->)%block_cells_in.
  assert (Hcs8 : exists q, a_cs a = 8 * q) by (exists (a_cs a / 8); lia). destruct Hcs8 as [q Hq].
  repeat split.
  - rewrite Hq. rewrite Z.add_mod, H2 by lia. rewrite <- Z.mul_assoc, Z.mul_comm, Z.mod_mul by lia. reflexivity.
  - nia.
  - nia.
  - intros k Hk. apply H5. apply cell_word; assumption.
  - nia.
Qed.

(** gc_new_block *)
Lemma nb_loop_spec cs : 8 <= cs -> cs mod 8 = 0 -> forall n m free cur fl0,
  0 < cur -> cur mod 8 = 0 ->
  (forall x, cur <= x < cur + cs * Z.of_nat n -> m x <> None) ->
  flist m free fl0 -> (forall c, In c fl0 -> ~ (cur <= c < cur + cs * Z.of_nat n)) ->
  exists m' free', nb_loop n m free cur cs = OK (m', free') /\
    flist m' free' (rev (block_cells cs (cur, Z.of_nat n)) ++ fl0) /\
    (forall x, ~ (cur <= x < cur + cs * Z.of_nat n) -> m' x = m x) /\
    (forall x, m x <> None -> m' x <> None).
Proof.
  intros Hcs Hcm. induction n as [|n IH]; intros m free cur fl0 Hc Ha Hm Hf Ho.
  - exists m, free. repeat split; auto.
  - cbn [nb_loop]. rewrite sto_ok; [|exact Ha|apply Hm; nia]. cbn [bind].
    assert (Ha' : (cur + cs) mod 8 = 0) by (rewrite Z.add_mod, Ha, Hcm by lia; reflexivity).
    destruct (IH (upd m cur free) cur (cur + cs) (cur :: fl0)) as (m' & free' & E & F & O & N).
    + lia.
    + exact Ha'.
    + intros x Hx. rewrite upd_other by lia. apply Hm. nia.
    + econstructor; [lia|apply upd_same|]. apply (flist_frame m); [exact Hf|].
      intros c Hin. apply upd_other. intros ->. apply (Ho cur Hin). nia.
    + intros c [<-|Hin] Hx; [nia|]. apply (Ho c Hin). nia.
    + exists m', free'. split; [exact E|]. split.
      * replace (rev (block_cells cs (cur, Z.of_nat (S n))) ++ fl0)
          with (rev (block_cells cs (cur + cs, Z.of_nat n)) ++ cur :: fl0); [exact F|].
        unfold block_cells. cbn [fst snd]. rewrite !Nat2Z.id. cbn [seq map rev].
        rewrite <- app_assoc. cbn [app]. f_equal; [|f_equal; lia].
        f_equal. rewrite <- seq_shift, map_map. apply map_ext. intros i. nia.
      * split; [intros x Hx; rewrite O by nia; apply upd_other; nia|].
        intros x Hx. apply N. destruct (Z.eq_dec x cur) as [->|]; [rewrite upd_same; discriminate|].
        rewrite upd_other by assumption. exact Hx.
Qed.

Lemma new_block_spec m a size base fl0 : 8 <= a_cs a -> a_cs a mod 8 = 0 -> 0 < size ->
  fresh_block (a_cs a) m base size -> flist m (a_free a) fl0 -> (forall c, In c fl0 -> m c <> None) ->
  exists m' f, gc_new_block m a size base = OK (m', f) /\
    flist m' f (rev (block_cells (a_cs a) (base, size)) ++ fl0) /\
    (forall x, ~ in_block (a_cs a) (base, size) x -> m' x = m x) /\
    (forall x, in_block (a_cs a) (base, size) x -> m' x <> None).
Proof.
  intros Hcs Hcm Hs (H1 & H2 & H3 & H4) Hf Hn. unfold gc_new_block, in_block in *. cbn [fst snd] in *.
  assert (Hout : forall c, In c fl0 -> ~ (base <= c < base + a_cs a * size)).
  { intros c Hc Hx. apply (Hn c Hc). apply H4. exact Hx. }
  destruct (nb_loop_spec (a_cs a) Hcs Hcm (Z.to_nat size) (setr m base (a_cs a * size) (Some 0))
              (a_free a) base fl0) as (m' & f & E & F & O & N); try assumption.
  - intros x Hx. rewrite setr_in by lia. discriminate.
  - apply (flist_frame m); [exact Hf|]. intros c Hc. apply setr_out. exact (Hout c Hc).
  - intros c Hc. rewrite Z2Nat.id by lia. exact (Hout c Hc).
  - exists m', f. rewrite Z2Nat.id in * by lia. split; [exact E|]. split; [exact F|]. split.
    + intros x Hx. rewrite O by exact Hx. apply setr_out. exact Hx.
    + intros x Hx. apply N. rewrite setr_in by lia. discriminate.
Qed.

(** Looking at the next three free cells *)
Lemma gc_needed_ok n : forall m r l, flist m r l -> (forall c, In c l -> c mod 8 = 0) ->
  gc_needed_loop n m r = OK (Nat.ltb (length l) n).
Proof.
  induction n as [|n IH]; intros m r l H Ha; cbn [gc_needed_loop]; [destruct l; reflexivity|].
  inversion H as [|c nx l' Hc Hm Hl]; subst; [reflexivity|].
  destruct (Z.eqb_spec r 0); [contradiction|].
  rewrite (ld_ok _ _ _ (Ha r (or_introl eq_refl)) Hm). cbn [bind].
  rewrite (IH _ _ _ Hl) by (intros; apply Ha; right; assumption). reflexivity.
Qed.

Lemma acells_cons a base n f : acells (set_blocks (set_free a f) ((base, n) :: a_blocks a)) =
  block_cells (a_cs a) (base, n) ++ acells a.
Proof. reflexivity. Qed.

(** Adding a block to a well-formed arena *)
Lemma grow_spec m a base : arena_ok m a [] -> fresh_block (a_cs a) m base (a_inc a) ->
  exists m' f, gc_new_block m a (a_inc a) base = OK (m', f) /\
    let a' := set_blocks (set_free a f) ((base, a_inc a) :: a_blocks a) in
    arena_ok m' a' (rev (block_cells (a_cs a) (base, a_inc a))) /\
    (forall x, ~ in_block (a_cs a) (base, a_inc a) x -> m' x = m x).
Proof.
  intros H Hfr. destruct (ok_cs _ _ _ H) as [Hcs Hcm]. pose proof (ok_inc _ _ _ H) as Hinc.
  destruct (new_block_spec m a (a_inc a) base [] Hcs Hcm Hinc Hfr (ok_free _ _ _ H)) as (m' & f & E & F & O & N).
  { intros c []. }
  rewrite app_nil_r in F. exists m', f. split; [exact E|]. cbn zeta. split; [|exact O].
  destruct Hfr as (H1 & H2 & H3 & H4).
  assert (Hdis : Forall (disjoint_blocks (a_cs a) (base, a_inc a)) (a_blocks a)).
  { apply Forall_forall. intros bl Hb x Hx Hx'. pose proof (ok_blocks _ _ _ H) as HB.
    rewrite Forall_forall in HB. destruct (HB bl Hb) as (_ & _ & _ & _ & Hmap).
    apply (Hmap x Hx'). apply H4. exact Hx. }
  constructor; cbn [set_blocks set_free a_cs a_inc a_blocks a_free].
  - split; assumption.
  - exact Hinc.
  - constructor.
    + repeat split; cbn [fst snd]; auto.
    + pose proof (ok_blocks _ _ _ H) as HB. rewrite Forall_forall in *. intros bl Hb.
      destruct (HB bl Hb) as (B1 & B2 & B3 & B4 & B5). repeat split; auto.
      intros x Hx. rewrite O; [apply B5; exact Hx|]. intros Hx'. exact (Hdis bl Hb x Hx' Hx).
  - constructor; [exact Hdis|exact (ok_disj _ _ _ H)].
  - exact F.
  - apply NoDup_rev. apply block_cells_nodup. exact Hcs.
  - intros c Hc. rewrite <- in_rev in Hc. rewrite acells_cons. apply in_or_app. left. exact Hc.
Qed.

(** Popping the first free cell *)
Lemma pop_spec m a r fl : arena_ok m a (r :: fl) ->
  exists nx, a_free a = r /\ ld m r = OK nx /\ m r = Some nx /\ flist m nx fl /\ 0 <= nx /\ nx mod 8 = 0.
Proof.
  intros H. pose proof (ok_free _ _ _ H) as F. inversion F as [|c nx l Hc Hm Hl E1 E2]; subst.
  destruct (cell_facts _ _ _ (a_free a) H (ok_fl_cells _ _ _ H _ (or_introl eq_refl))) as (Ha & _).
  exists nx. split; [reflexivity|]. split; [apply ld_ok; assumption|]. split; [exact Hm|]. split; [exact Hl|].
  inversion Hl as [|c' nx' l' Hc' Hm' Hl' E1 E2]; subst; [lia|].
  destruct (cell_facts _ _ _ nx H (ok_fl_cells _ _ _ H _ (or_intror (or_introl eq_refl)))) as (Ha' & Hp & _). lia.
Qed.

Lemma alloc_pop m a r fl : arena_ok m a (r :: fl) ->
  exists m' need, (m2 <- clear_word m (a_free a) 1 ;; nx <- ld m2 (a_free a) ;;
     need <- gc_arena_is_gc_needed m2 (set_free a nx) ;;
     OK (setr m2 (a_free a) (a_cs (set_free a nx)) (Some 0), set_free a nx, need, a_free a)) =
    OK (m', match m r with Some nx => set_free a nx | None => a end, need, r) /\
    need = Nat.ltb (length fl) 3 /\
    (forall x, ~ (r <= x < r + a_cs a) -> m' x = m x) /\
    (forall x, r <= x < r + a_cs a -> m' x = Some 0) /\
    (forall nx, m r = Some nx -> arena_ok m' (set_free a nx) fl).
Proof.
  intros H. destruct (pop_spec _ _ _ _ H) as (nx & Hr & Hld & Hm & Hl & Hnx & Hna).
  destruct (cell_facts _ _ _ r H (ok_fl_cells _ _ _ H _ (or_introl eq_refl))) as (Ha & Hp & _ & _).
  destruct (ok_cs _ _ _ H) as [Hcs Hcm].
  rewrite Hr. rewrite (clear_word_ok _ _ _ _ Ha Hm). cbn [bind].
  rewrite clear1 by lia. replace (nx - nx mod 2) with nx by lia.
  rewrite (ld_ok _ _ nx Ha) by (apply upd_same). cbn [bind].
  pose proof (ok_fl_nodup _ _ _ H) as Hnd. inversion Hnd as [|? ? Hni Hnd']; subst.
  assert (Hl2 : flist (upd m (a_free a) nx) nx fl).
  { apply (flist_frame m); [exact Hl|]. intros c Hc. apply upd_other. intros ->. contradiction. }
  unfold gc_arena_is_gc_needed. cbn [set_free a_free].
  rewrite (gc_needed_ok 3 _ _ fl Hl2).
  2:{ intros c Hc. destruct (cell_facts _ _ _ c H (ok_fl_cells _ _ _ H _ (or_intror Hc))) as (Hca & _). exact Hca. }
  cbn [bind]. rewrite Hm. eexists _, _. split; [reflexivity|]. split; [reflexivity|].
  cbn [set_free a_cs].
  assert (Ho : forall x, ~ (a_free a <= x < a_free a + a_cs a) ->
     setr (upd m (a_free a) nx) (a_free a) (a_cs a) (Some 0) x = m x).
  { intros x Hx. rewrite setr_out by exact Hx. apply upd_other. lia. }
  split; [exact Ho|]. split; [intros x Hx; apply setr_in; exact Hx|].
  intros nx0 E. injection E as <-.
  assert (Hall : forall x, m x <> None -> setr (upd m (a_free a) nx) (a_free a) (a_cs a) (Some 0) x <> None).
  { intros x Hx. destruct (Z_le_gt_dec (a_free a) x); [destruct (Z_lt_ge_dec x (a_free a + a_cs a))|].
    - rewrite setr_in by lia. discriminate.
    - rewrite Ho by lia. exact Hx.
    - rewrite Ho by lia. exact Hx. }
  constructor; cbn [set_free a_cs a_inc a_blocks a_free].
  - split; assumption.
  - exact (ok_inc _ _ _ H).
  - pose proof (ok_blocks _ _ _ H) as HB. rewrite Forall_forall in *. intros bl Hb.
    destruct (HB bl Hb) as (B1 & B2 & B3 & B4 & B5). repeat split; auto.
  - exact (ok_disj _ _ _ H).
  - apply (flist_frame m); [exact Hl|]. intros c Hc. apply Ho. intros Hx.
    assert (c = a_free a); [|subst; contradiction].
    apply (cells_sep (a_cs a) (a_blocks a) c (a_free a) 0 (c - a_free a)); try lia.
    + exact (ok_disj _ _ _ H).
    + apply (ok_fl_cells _ _ _ H). right. exact Hc.
    + apply (ok_fl_cells _ _ _ H). left. reflexivity.
  - exact Hnd'.
  - intros c Hc. apply (ok_fl_cells _ _ _ H). right. exact Hc.
Qed.

Lemma block_cells_nonempty cs base n : 0 < n -> rev (block_cells cs (base, n)) <> [].
Proof.
  intros Hn E. assert (In base (block_cells cs (base, n))).
  { apply block_cells_in. exists 0. cbn. lia. }
  rewrite in_rev, E in H. exact H.
Qed.

(** gc_alloc_cell succeeds and returns a zeroed cell taken from the free list. *)
Lemma alloc_spec m a fl base : arena_ok m a fl -> fresh_block (a_cs a) m base (a_inc a) ->
  exists m' a' need c fl', gc_alloc_cell m a base = OK (m', a', need, c) /\
    arena_ok m' a' fl' /\
    ((fl = c :: fl' /\ acells a' = acells a /\ a_blocks a' = a_blocks a) \/
     (fl = [] /\ c :: fl' = rev (block_cells (a_cs a) (base, a_inc a)) /\
      a_blocks a' = (base, a_inc a) :: a_blocks a)) /\
    a_cs a' = a_cs a /\ a_inc a' = a_inc a /\ a_dtor a' = a_dtor a /\
    need = Nat.ltb (length fl') 3 /\
    (forall k, 0 <= k < a_cs a -> m' (c + k) = Some 0) /\
    (forall x, ~ (c <= x < c + a_cs a) ->
       m' x = m x \/ (in_block (a_cs a) (base, a_inc a) x /\ fl = [])).
Proof.
  intros H Hfr. unfold gc_alloc_cell. destruct fl as [|r fl].
  - assert (Hz : a_free a = 0) by (pose proof (ok_free _ _ _ H) as F; inversion F; reflexivity).
    rewrite Hz. cbn [Z.eqb].
    destruct (grow_spec m a base H Hfr) as (m1 & f & E & Hok & Ho). rewrite E. cbn [bind]. cbn zeta in Hok.
    set (a1 := set_blocks (set_free a f) ((base, a_inc a) :: a_blocks a)) in *.
    destruct (rev (block_cells (a_cs a) (base, a_inc a))) as [|r fl] eqn:Er.
    { exfalso. exact (block_cells_nonempty _ _ _ (ok_inc _ _ _ H) Er). }
    destruct (alloc_pop m1 a1 r fl Hok) as (m' & need & E2 & Hneed & Hout & Hin & Hok').
    destruct (pop_spec _ _ _ _ Hok) as (nx & _ & _ & Hm & _). rewrite Hm in E2.
    exists m', (set_free a1 nx), need, r, fl. split; [exact E2|]. split; [exact (Hok' nx Hm)|].
    split; [right; split; [reflexivity|split; reflexivity]|].
    split; [reflexivity|]. split; [reflexivity|]. split; [reflexivity|]. split; [exact Hneed|].
    split; [intros k Hk; apply Hin; cbn; lia|].
    intros x Hx. rewrite Hout by exact Hx.
    destruct (Z_le_gt_dec base x); [destruct (Z_lt_ge_dec x (base + a_cs a * a_inc a))|].
    + right. split; [unfold in_block; cbn; lia|reflexivity].
    + left. apply Ho. unfold in_block; cbn; lia.
    + left. apply Ho. unfold in_block; cbn; lia.
  - destruct (pop_spec _ _ _ _ H) as (nx & Hr & _ & Hm & _).
    destruct (cell_facts _ _ _ r H (ok_fl_cells _ _ _ H _ (or_introl eq_refl))) as (Ha & Hp & _ & _).
    destruct (Z.eqb_spec (a_free a) 0); [lia|]. cbn [bind].
    destruct (alloc_pop m a r fl H) as (m' & need & E2 & Hneed & Hout & Hin & Hok').
    rewrite Hm in E2. exists m', (set_free a nx), need, r, fl.
    split; [exact E2|]. split; [exact (Hok' nx Hm)|].
    split; [left; repeat split|]. split; [reflexivity|]. split; [reflexivity|]. split; [reflexivity|].
    split; [exact Hneed|]. split; [intros k Hk; apply Hin; lia|].
    intros x Hx. left. apply Hout. exact Hx.
Qed.

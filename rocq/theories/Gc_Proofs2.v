(** Proofs about sweeping and about histories of an arena. *)
From Coq Require Import Permutation.
From Verif Require Import Base BaseFacts Value_Model Value_Proofs Gc_Model Gc_Spec Gc_Proofs.
Ltac Zify.zify_post_hook ::= Z.div_mod_to_equations.

(** Flagging the free cells *)
Lemma mark_free_spec : forall l f m h, flist m h l -> NoDup l -> (length l < f)%nat ->
  (forall c, In c l -> c mod 8 = 0) ->
  exists m', mark_free_loop f m h = OK m' /\
    (forall c w, In c l -> m c = Some w -> m' c = Some (Z.lor w 2)) /\
    (forall x, ~ In x l -> m' x = m x).
Proof.
  induction l as [|c l IH]; intros f m h H Hnd Hf Ha.
  - inversion H; subst. destruct f; [cbn in Hf; lia|]. cbn. exists m. split; [reflexivity|].
    split; [intros c w []|reflexivity].
  - inversion H as [|? nx ? Hc Hm Hl]; subst. inversion Hnd as [|? ? Hni Hnd']; subst.
    destruct f as [|f]; [cbn in Hf; lia|]. cbn [mark_free_loop]. destruct (Z.eqb_spec c 0); [contradiction|].
    pose proof (Ha c (or_introl eq_refl)) as Hh.
    rewrite (ld_ok _ _ _ Hh Hm). cbn [bind]. rewrite (or_word_ok _ _ _ _ Hh Hm). cbn [bind].
    destruct (IH f (upd m c (Z.lor nx 2)) nx) as (m' & E & I & O).
    + apply (flist_frame m); [exact Hl|]. intros c' Hin. apply upd_other. intros ->. contradiction.
    + exact Hnd'.
    + cbn in Hf. lia.
    + intros c' Hin. apply Ha. right. exact Hin.
    + exists m'. split; [exact E|]. split.
      * intros c' w [<-|Hin] Hw.
        -- rewrite O by exact Hni. rewrite upd_same. congruence.
        -- apply I; [exact Hin|]. rewrite upd_other; [exact Hw|]. intros ->. contradiction.
      * intros x Hx. rewrite O by (intros Hin; apply Hx; right; exact Hin).
        apply upd_other. intros ->. apply Hx. left. reflexivity.
Qed.

Lemma mark_free_short : forall f l m h, flist m h l -> NoDup l -> (forall c, In c l -> c mod 8 = 0) ->
  (f <= length l)%nat -> mark_free_loop f m h = NoFuel.
Proof.
  induction f as [|f IH]; intros l m h H Hnd Ha Hf; [reflexivity|].
  inversion H as [|c nx l' Hc Hm Hl]; subst; [cbn in Hf; lia|]. inversion Hnd as [|? ? Hni Hnd']; subst.
  cbn [mark_free_loop]. destruct (Z.eqb_spec h 0); [contradiction|].
  pose proof (Ha h (or_introl eq_refl)) as Hh.
  rewrite (ld_ok _ _ _ Hh Hm). cbn [bind]. rewrite (or_word_ok _ _ _ _ Hh Hm). cbn [bind].
  apply (IH l').
  - apply (flist_frame m); [exact Hl|]. intros c Hin. apply upd_other. intros ->. contradiction.
  - exact Hnd'.
  - intros c Hin. apply Ha. right. exact Hin.
  - cbn in Hf. lia.
Qed.

(** State of a cell when the sweep gets to it: marked and in use, flagged free, or
    garbage. *)
Definition swept_ok (mk : Z -> bool) (m : mem) (c : Z) : Prop :=
  exists w, m c = Some w /\ 0 <= w /\
    (if mk c then w mod 4 = 1 else w mod 4 = 0 \/ w mod 4 = 2).

Lemma block_cells_S cs cur n : block_cells cs (cur, Z.of_nat (S n)) =
  cur :: block_cells cs (cur + cs, Z.of_nat n).
Proof.
  unfold block_cells. cbn [fst snd]. rewrite !Nat2Z.id. cbn [seq map].
  f_equal; [lia|]. rewrite <- seq_shift, map_map. apply map_ext. intros i. nia.
Qed.

Definition dead (mk : Z -> bool) (l : list Z) : list Z := filter (fun c => negb (mk c)) l.

Lemma sweep_cells_spec mk cs dtor : 8 <= cs -> cs mod 8 = 0 -> forall n m free cnt cur log fl0,
  0 < cur -> cur mod 8 = 0 ->
  (forall x, cur <= x < cur + cs * Z.of_nat n -> m x <> None) ->
  (forall c, In c (block_cells cs (cur, Z.of_nat n)) -> swept_ok mk m c) ->
  flist m free fl0 -> (forall c, In c fl0 -> ~ (cur <= c < cur + cs * Z.of_nat n)) ->
  exists m' free' log', sweep_cells n m free cnt cur cs dtor log =
      OK (m', free', cnt + zlen (dead mk (block_cells cs (cur, Z.of_nat n))), log') /\
    flist m' free' (rev (dead mk (block_cells cs (cur, Z.of_nat n))) ++ fl0) /\
    (forall x, ~ (cur <= x < cur + cs * Z.of_nat n) -> m' x = m x) /\
    (forall x, m x <> None -> m' x <> None) /\
    (forall c w, In c (block_cells cs (cur, Z.of_nat n)) -> mk c = true -> m c = Some w ->
       m' c = Some (w - 1) /\ forall k, 0 < k < cs -> m' (c + k) = m (c + k)).
Proof.
  intros Hcs Hcm. induction n as [|n IH]; intros m free cnt cur log fl0 Hc Ha Hm Hs Hf Ho.
  - exists m, free, log. cbn. rewrite Z.add_0_r. repeat split; auto; contradiction.
  - rewrite block_cells_S in *.
    assert (Ha' : (cur + cs) mod 8 = 0) by (rewrite Z.add_mod, Ha, Hcm by lia; reflexivity).
    assert (Hlater : forall c, In c (block_cells cs (cur + cs, Z.of_nat n)) -> cur + cs <= c < cur + cs * Z.of_nat (S n)).
    { intros c (i & Hi & ->)%block_cells_in. cbn [fst snd] in *. nia. }
    destruct (Hs cur (or_introl eq_refl)) as (w & Hw & Hw0 & Hmk).
    cbn [sweep_cells]. rewrite (test1_ok _ _ _ Ha Hw Hw0). cbn [bind].
    cbn [dead filter]. destruct (mk cur) eqn:Emk; cbn [negb].
    + replace (w mod 2 =? 0) with false by lia. cbn [negb].
      rewrite (clear_word_ok _ _ _ _ Ha Hw). cbn [bind]. rewrite clear1 by lia.
      replace (w - w mod 2) with (w - 1) by lia.
      destruct (IH (upd m cur (w - 1)) free cnt (cur + cs) log fl0) as (m' & free' & log' & E & F & O & N & K).
      * lia.
      * exact Ha'.
      * intros x Hx. rewrite upd_other by lia. apply Hm. nia.
      * intros c Hin. pose proof (Hlater c Hin). destruct (Hs c (or_intror Hin)) as (w' & Hw' & R).
        exists w'. rewrite upd_other by lia. split; [exact Hw'|exact R].
      * apply (flist_frame m); [exact Hf|]. intros c Hin. apply upd_other. intros ->. apply (Ho cur Hin). nia.
      * intros c Hin Hx. apply (Ho c Hin). nia.
      * exists m', free', log'. split; [exact E|]. split; [exact F|]. split.
        { intros x Hx. rewrite O by nia. apply upd_other. nia. }
        split.
        { intros x Hx. apply N. destruct (Z.eq_dec x cur) as [->|]; [rewrite upd_same; discriminate|].
          rewrite upd_other by assumption. exact Hx. }
        intros c w' [<-|Hin] Hmkc Hwc.
        -- split.
           ++ rewrite O by lia. rewrite upd_same. congruence.
           ++ intros k Hk. rewrite O by lia. apply upd_other. lia.
        -- pose proof (Hlater c Hin). destruct (K c w' Hin Hmkc) as [K1 K2].
           { rewrite upd_other by lia. exact Hwc. }
           split; [exact K1|]. intros k Hk. rewrite K2 by exact Hk. apply upd_other. lia.
    + replace (w mod 2 =? 0) with true by lia. cbn [negb].
      rewrite (test2_ok _ _ _ Ha Hw Hw0). cbn [bind].
      (* the memory of the cell before it is linked *)
      assert (Hpre : exists m1 log1,
        (if negb (w mod 4 <? 2) then m1 <- clear_word m cur 2 ;; OK (m1, log)
         else w0 <- ld m cur ;; OK (setr m cur cs (Some 0), if dtor && negb (w0 =? 0) then log ++ [w0] else log))
         = OK (m1, log1) /\ (forall x, ~ (cur <= x < cur + cs) -> m1 x = m x) /\
        (forall x, m x <> None -> m1 x <> None)).
      { destruct (w mod 4 <? 2); cbn [negb].
        - rewrite (ld_ok _ _ _ Ha Hw). cbn [bind]. eexists _, _. split; [reflexivity|]. split.
          + intros x Hx. apply setr_out. exact Hx.
          + intros x Hx. destruct (Z_le_gt_dec cur x); [destruct (Z_lt_ge_dec x (cur + cs))|].
            * rewrite setr_in by lia. discriminate.
            * rewrite setr_out by lia. exact Hx.
            * rewrite setr_out by lia. exact Hx.
        - rewrite (clear_word_ok _ _ _ _ Ha Hw). cbn [bind]. eexists _, _. split; [reflexivity|]. split.
          + intros x Hx. apply upd_other. lia.
          + intros x Hx. destruct (Z.eq_dec x cur) as [->|]; [rewrite upd_same; discriminate|].
            rewrite upd_other by assumption. exact Hx. }
      destruct Hpre as (m1 & log1 & E1 & O1 & N1).
      assert (E1' : (if negb (w mod 4 <? 2) return R (mem * list Z) then m1 <- clear_word m cur 2 ;; OK (m1, log)
         else w0 <- ld m cur ;; OK (setr m cur cs (Some 0), if dtor && negb (w0 =? 0) then log ++ [w0] else log))
         = OK (m1, log1)) by exact E1.
      rewrite E1'. cbn [bind]. rewrite sto_ok; [|exact Ha|apply N1; congruence]. cbn [bind].
      destruct (IH (upd m1 cur free) cur (cnt + 1) (cur + cs) log1 (cur :: fl0)) as (m' & free' & log' & E & F & O & N & K).
      * lia.
      * exact Ha'.
      * intros x Hx. rewrite upd_other by lia. apply N1. apply Hm. nia.
      * intros c Hin. pose proof (Hlater c Hin). destruct (Hs c (or_intror Hin)) as (w' & Hw' & R).
        exists w'. rewrite upd_other by lia. rewrite O1 by lia. split; [exact Hw'|exact R].
      * econstructor; [lia|apply upd_same|]. apply (flist_frame m); [exact Hf|].
        intros c Hin. pose proof (Ho c Hin) as Hoc. rewrite upd_other by nia. apply O1. nia.
      * intros c [<-|Hin] Hx; [nia|]. apply (Ho c Hin). nia.
      * exists m', free', log'. split.
        { rewrite E. rewrite zlen_cons. unfold dead. rewrite Z.add_assoc. reflexivity. }
        split. { cbn [rev]. rewrite <- app_assoc. exact F. }
        split. { intros x Hx. rewrite O by nia. rewrite upd_other by nia. apply O1. nia. }
        split.
        { intros x Hx. apply N. destruct (Z.eq_dec x cur) as [->|]; [rewrite upd_same; discriminate|].
          rewrite upd_other by assumption. apply N1. exact Hx. }
        intros c w' [<-|Hin] Hmkc Hwc; [congruence|].
        pose proof (Hlater c Hin). destruct (K c w' Hin Hmkc) as [K1 K2].
        { rewrite upd_other by lia. rewrite O1 by lia. exact Hwc. }
        split; [exact K1|]. intros k Hk. rewrite K2 by exact Hk. rewrite upd_other by lia. apply O1. lia.
Qed.

(** Blocks that survive a sweep *)
Fixpoint kept (mk : Z -> bool) (cs : Z) (bs : list (Z * Z)) : list (Z * Z) :=
  match bs with
  | [] => []
  | bl :: rest =>
    if (match rest with [] => false | _ => true end) &&
       forallb (fun c => negb (mk c)) (block_cells cs bl)
    then kept mk cs rest else bl :: kept mk cs rest
  end.

Lemma kept_incl mk cs bs : incl (kept mk cs bs) bs.
Proof.
  induction bs as [|bl bs IH]; [intros ? []|]. cbn [kept]. destruct (_ && _).
  - intros x Hx. right. apply IH. exact Hx.
  - intros x [<-|Hx]; [left; reflexivity|right; apply IH; exact Hx].
Qed.
Lemma kept_marked mk cs bs c : In c (cells cs bs) -> mk c = true -> In c (cells cs (kept mk cs bs)).
Proof.
  induction bs as [|bl bs IH]; [intros []|]. unfold cells in *. cbn [flat_map kept].
  intros [H|H]%in_app_or Hm.
  - destruct (forallb _ _) eqn:E.
    + rewrite forallb_forall in E. specialize (E c H). rewrite Hm in E. discriminate.
    + rewrite andb_false_r. cbn [flat_map]. apply in_or_app. left. exact H.
  - specialize (IH H Hm). destruct (_ && _); [exact IH|]. cbn [flat_map]. apply in_or_app. right. exact IH.
Qed.
Lemma zlen_dead_all mk l : (zlen (dead mk l) =? zlen l) = forallb (fun c => negb (mk c)) l.
Proof.
  assert (H : forall l, zlen (dead mk l) <= zlen l).
  { induction l0 as [|x l0 IH0]; [cbn; lia|]. cbn [dead filter]. destruct (negb (mk x)); rewrite ?zlen_cons in *;
    unfold dead in IH0; lia. }
  induction l as [|x l IH]; [reflexivity|]. cbn [dead filter forallb]. specialize (H l).
  destruct (negb (mk x)); cbn [andb]; rewrite !zlen_cons; unfold dead in *; [rewrite <- IH|]; lia.
Qed.
Lemma zlen_block_cells cs b n : 0 <= n -> zlen (block_cells cs (b, n)) = n.
Proof. intros H. unfold zlen, block_cells. rewrite map_length, seq_length. cbn. lia. Qed.
Lemma ordpairs_incl {A} (P : A -> A -> Prop) l : forall l', (forall a b, P a b -> P b a) -> ForallOrdPairs P l ->
  (exists f, l' = filter f l) -> ForallOrdPairs P l'.
Proof.
  intros l' Hs H. revert l'. induction H as [|a l Ha Hl IH]; intros l' [f ->]; [constructor|]. cbn.
  destruct (f a); [|apply IH; eauto]. constructor; [|apply IH; eauto].
  rewrite Forall_forall in *. intros x (Hx & _)%filter_In. auto.
Qed.
Lemma kept_ordpairs (P : Z * Z -> Z * Z -> Prop) mk cs bs : ForallOrdPairs P bs -> ForallOrdPairs P (kept mk cs bs).
Proof.
  induction 1 as [|a l Ha Hl IH]; [constructor|]. cbn [kept]. destruct (_ && _); [exact IH|].
  constructor; [|exact IH]. rewrite Forall_forall in *. intros x Hx. apply Ha. apply (kept_incl _ _ _ _ Hx).
Qed.

Lemma sweep_blocks_spec mk cs dtor : 8 <= cs -> cs mod 8 = 0 -> forall bs m free log fl0,
  Forall (block_ok cs m) bs -> ForallOrdPairs (disjoint_blocks cs) bs ->
  (forall c, In c (cells cs bs) -> swept_ok mk m c) ->
  flist m free fl0 -> NoDup fl0 -> (forall c, In c fl0 -> ~ in_blocks cs bs c) ->
  exists m' free' log' fl', sweep_blocks bs m free cs dtor log = OK (kept mk cs bs, m', free', log') /\
    flist m' free' fl' /\ NoDup fl' /\
    (forall c, In c fl' <-> In c fl0 \/ (In c (cells cs (kept mk cs bs)) /\ mk c = false)) /\
    (forall x, ~ in_blocks cs bs x -> m' x = m x) /\
    (forall x, in_blocks cs (kept mk cs bs) x -> m' x <> None) /\
    (forall x, in_blocks cs bs x -> ~ in_blocks cs (kept mk cs bs) x -> m' x = None) /\
    (forall c w, In c (cells cs bs) -> mk c = true -> m c = Some w ->
       m' c = Some (w - 1) /\ forall k, 0 < k < cs -> m' (c + k) = m (c + k)).
Proof.
  intros Hcs Hcm. induction bs as [|[base size] bs IH]; intros m free log fl0 HB HD HS HF Hnd Hout.
  - exists m, free, log, fl0. cbn. split; [reflexivity|]. split; [exact HF|]. split; [exact Hnd|].
    split; [intros c; tauto|]. split; [reflexivity|].
    split; [intros x (bl & [] & _)|]. split; [intros x (bl & [] & _)|]. intros c w [].
  - inversion HB as [|? ? HB1 HB2]; subst. inversion HD as [|? ? HD1 HD2]; subst.
    destruct HB1 as (B1 & B2 & B3 & B4 & B5). cbn [fst snd] in *.
    assert (HSZ : Z.of_nat (Z.to_nat size) = size) by lia.
    assert (Hrng : forall x, (base <= x < base + cs * size) <-> in_block cs (base, size) x)
      by (intros x; unfold in_block; cbn; tauto).
    assert (Hcell : forall c, In c (block_cells cs (base, size)) -> In c (cells cs ((base, size) :: bs)))
      by (intros c Hc; unfold cells; cbn [flat_map]; apply in_or_app; auto).
    assert (Hcell2 : forall c, In c (cells cs bs) -> In c (cells cs ((base, size) :: bs)))
      by (intros c Hc; unfold cells; cbn [flat_map]; apply in_or_app; auto).
    assert (Hdis : forall x, in_blocks cs bs x -> ~ in_block cs (base, size) x).
    { intros x (bl & Hb & Hx) Hx'. rewrite Forall_forall in HD1. exact (HD1 bl Hb x Hx' Hx). }
    cbn [sweep_blocks].
    destruct (sweep_cells_spec mk cs dtor Hcs Hcm (Z.to_nat size) m free 0 base log fl0)
      as (m1 & free1 & log1 & E & F & O & N & K); rewrite ?HSZ in *; try assumption.
    { intros c Hc. apply HS. apply Hcell. exact Hc. }
    { intros c Hc Hx. apply (Hout c Hc). exists (base, size). split; [left; reflexivity|]. apply Hrng. exact Hx. }
    rewrite E. cbn [bind]. rewrite Z.add_0_l.
    assert (HSm1 : forall m2, (forall x, in_blocks cs bs x -> m2 x = m1 x) ->
        forall c, In c (cells cs bs) -> swept_ok mk m2 c).
    { intros m2 Hm2 c Hc. destruct (HS c (Hcell2 c Hc)) as (w & Hw & R).
      pose proof (cells_in_blocks cs bs c Hcs Hc) as Hib.
      exists w. rewrite (Hm2 c Hib). rewrite O; [split; [exact Hw|exact R]|].
      rewrite Hrng. apply Hdis. exact Hib. }
    assert (HBm1 : forall m2, (forall x, in_blocks cs bs x -> m2 x = m1 x) -> Forall (block_ok cs m2) bs).
    { intros m2 Hm2. rewrite Forall_forall in *. intros bl Hb. destruct (HB2 bl Hb) as (C1 & C2 & C3 & C4 & C5).
      repeat split; auto. intros x Hx. assert (Hib : in_blocks cs bs x) by (exists bl; auto).
      rewrite Hm2 by exact Hib. rewrite O; [apply C5; exact Hx|]. rewrite Hrng. apply Hdis. exact Hib. }
    pose proof (zlen_dead_all mk (block_cells cs (base, size))) as Hall.
    rewrite zlen_block_cells in Hall by lia. rewrite Hall. cbn [kept].
    destruct ((match bs with [] => false | _ => true end) && forallb (fun c => negb (mk c)) (block_cells cs (base, size))) eqn:Erel.
    + (* released *)
      apply andb_prop in Erel. destruct Erel as [_ Erel].
      set (m2 := setr m1 base (cs * size) None).
      assert (Hm2 : forall x, ~ in_block cs (base, size) x -> m2 x = m1 x).
      { intros x Hx. unfold m2. apply setr_out. rewrite Hrng. exact Hx. }
      destruct (IH m2 free log1 fl0) as (m' & free' & log' & fl' & E2 & F2 & ND2 & M2 & O2 & X2 & R2 & K2).
      * apply HBm1. intros x Hx. apply Hm2. apply Hdis. exact Hx.
      * exact HD2.
      * apply HSm1. intros x Hx. apply Hm2. apply Hdis. exact Hx.
      * apply (flist_frame m); [exact HF|]. intros c Hc.
        assert (Hnb : ~ in_block cs (base, size) c).
        { intros Hx. apply (Hout c Hc). exists (base, size). split; [left; reflexivity|exact Hx]. }
        rewrite Hm2 by exact Hnb. apply O. rewrite Hrng. exact Hnb.
      * exact Hnd.
      * intros c Hc (bl & Hb & Hx). apply (Hout c Hc). exists bl. split; [right; exact Hb|exact Hx].
      * exists m', free', log', fl'. split; [exact E2|]. split; [exact F2|]. split; [exact ND2|].
        split; [exact M2|]. split.
        { intros x Hx. rewrite O2.
          - rewrite Hm2, O; [reflexivity| |].
            + rewrite Hrng. intros Hx'. apply Hx. exists (base, size). split; [left; reflexivity|exact Hx'].
            + intros Hx'. apply Hx. exists (base, size). split; [left; reflexivity|exact Hx'].
          - intros (bl & Hb & Hx'). apply Hx. exists bl. split; [right; exact Hb|exact Hx']. }
        split; [exact X2|]. split.
        { intros x (bl & [<-|Hb] & Hx) Hk.
          - rewrite O2; [unfold m2; apply setr_in; rewrite Hrng; exact Hx|].
            intros Hx'. exact (Hdis x Hx' Hx).
          - apply R2; [exists bl; auto|exact Hk]. }
        intros c w Hc Hmk Hw. unfold cells in Hc. cbn [flat_map] in Hc. apply in_app_or in Hc. destruct Hc as [Hc|Hc].
        { exfalso. rewrite forallb_forall in Erel. specialize (Erel c Hc). rewrite Hmk in Erel. discriminate. }
        pose proof Hc as (bl & Hb & Hcb)%cells_in.
        assert (Hkk : forall k, 0 <= k < cs -> m2 (c + k) = m (c + k)).
        { intros k Hk. assert (Hib : in_blocks cs bs (c + k)) by (exists bl; split; [exact Hb|apply cell_word; assumption]).
          rewrite Hm2 by (apply Hdis; exact Hib). apply O. rewrite Hrng. apply Hdis. exact Hib. }
        assert (Hw2 : m2 c = Some w) by (replace c with (c + 0) by lia; rewrite Hkk by lia; replace (c + 0) with c by lia; exact Hw).
        destruct (K2 c w Hc Hmk Hw2) as [K3 K4].
        split; [exact K3|]. intros k Hk. rewrite K4 by exact Hk. apply Hkk. lia.
    + (* kept *)
      destruct (IH m1 free1 log1 (rev (dead mk (block_cells cs (base, size))) ++ fl0))
        as (m' & free' & log' & fl' & E2 & F2 & ND2 & M2 & O2 & X2 & R2 & K2).
      * apply HBm1. reflexivity.
      * exact HD2.
      * apply HSm1. reflexivity.
      * exact F.
      * apply nodup_app; [apply NoDup_rev; apply NoDup_filter; apply block_cells_nodup; exact Hcs|exact Hnd|].
        intros c Hc Hc'. rewrite <- in_rev in Hc. apply filter_In in Hc. destruct Hc as [Hc _].
        apply (Hout c Hc'). exists (base, size). split; [left; reflexivity|]. apply cell_in_block; assumption.
      * intros c Hc Hib. apply in_app_or in Hc. destruct Hc as [Hc|Hc].
        -- rewrite <- in_rev in Hc. apply filter_In in Hc. destruct Hc as [Hc _].
           apply (Hdis c Hib). apply cell_in_block; assumption.
        -- destruct Hib as (bl & Hb & Hx). apply (Hout c Hc). exists bl. split; [right; exact Hb|exact Hx].
      * rewrite E2. cbn [bind]. exists m', free', log', fl'. split; [reflexivity|]. split; [exact F2|]. split; [exact ND2|].
        split.
        { intros c. rewrite M2. unfold cells. cbn [flat_map]. rewrite !in_app_iff, <- in_rev.
          unfold dead. rewrite filter_In. destruct (mk c); cbn [negb]; intuition congruence. }
        split.
        { intros x Hx. rewrite O2.
          - apply O. rewrite Hrng. intros Hx'. apply Hx. exists (base, size). split; [left; reflexivity|exact Hx'].
          - intros (bl & Hb & Hx'). apply Hx. exists bl. split; [right; exact Hb|exact Hx']. }
        split.
        { intros x (bl & [<-|Hb] & Hx).
          - rewrite O2; [apply N; apply B5; exact Hx|]. intros Hx'. exact (Hdis x Hx' Hx).
          - apply X2. exists bl. auto. }
        split.
        { intros x (bl & [<-|Hb] & Hx) Hk.
          - exfalso. apply Hk. exists (base, size). split; [left; reflexivity|exact Hx].
          - apply R2; [exists bl; auto|]. intros (bl' & Hb' & Hx'). apply Hk. exists bl'. split; [right; exact Hb'|exact Hx']. }
        intros c w Hc Hmk Hw. unfold cells in Hc. cbn [flat_map] in Hc. apply in_app_or in Hc. destruct Hc as [Hc|Hc].
        { destruct (K c w Hc Hmk Hw) as [K3 K4]. split.
          - rewrite O2; [exact K3|]. intros Hib. apply (Hdis c Hib). apply cell_in_block; assumption.
          - intros k Hk. rewrite O2; [apply K4; exact Hk|]. intros Hib. apply (Hdis _ Hib). apply cell_word; [exact Hcs|exact Hc|lia]. }
        pose proof Hc as (bl & Hb & Hcb)%cells_in.
        assert (Hkk : forall k, 0 <= k < cs -> m1 (c + k) = m (c + k)).
        { intros k Hk. assert (Hib : in_blocks cs bs (c + k)) by (exists bl; split; [exact Hb|apply cell_word; assumption]).
          apply O. rewrite Hrng. apply Hdis. exact Hib. }
        assert (Hw2 : m1 c = Some w) by (replace c with (c + 0) by lia; rewrite Hkk by lia; replace (c + 0) with c by lia; exact Hw).
        destruct (K2 c w Hc Hmk Hw2) as [K3 K4].
        split; [exact K3|]. intros k Hk. rewrite K4 by exact Hk. apply Hkk. lia.
Qed.

Lemma flist_links m h l c : flist m h l -> In c l -> exists nx, m c = Some nx /\ (nx = 0 \/ In nx l).
Proof.
  induction 1 as [|c0 nx l Hc0 Hm Hl IH]; [intros []|]. intros [<-|Hin].
  - exists nx. split; [exact Hm|]. inversion Hl; subst; [left; reflexivity|right; right; left; reflexivity].
  - destruct (IH Hin) as (nx' & H1 & [H2|H2]); exists nx'; split; auto. right. right. exact H2.
Qed.
Lemma sweep_spec m a fl (mk : Z -> bool) f log : arena_ok m a fl -> (length fl < f)%nat ->
  (forall c, In c (acells a) -> ~ In c fl ->
     exists w, m c = Some w /\ 0 <= w /\ w mod 4 = (if mk c then 1 else 0)) ->
  (forall c, In c fl -> mk c = false) ->
  exists m' a' log' fl', gc_sweep f m a log = OK (m', a', log') /\
    arena_ok m' a' fl' /\
    a_cs a' = a_cs a /\ a_inc a' = a_inc a /\ a_dtor a' = a_dtor a /\
    a_blocks a' = kept mk (a_cs a) (a_blocks a) /\
    (forall c, In c fl' <-> In c (acells a') /\ mk c = false) /\
    (forall c, In c (acells a) -> mk c = true -> In c (acells a')) /\
    (forall x, ~ in_arena a x -> m' x = m x) /\
    (forall x, in_arena a x -> ~ in_arena a' x -> m' x = None) /\
    (forall c w, In c (acells a) -> mk c = true -> m c = Some w ->
       m' c = Some (w - 1) /\ forall k, 0 < k < a_cs a -> m' (c + k) = m (c + k)).
Proof.
  intros H Hf Hc Hfl. destruct (ok_cs _ _ _ H) as [Hcs Hcm].
  assert (Hfa : forall c, In c fl -> In c (acells a) /\ c mod 8 = 0 /\ exists w, m c = Some w /\ 0 <= w /\ w mod 8 = 0).
  { intros c Hin. pose proof (ok_fl_cells _ _ _ H c Hin) as Hca.
    split; [exact Hca|]. destruct (cell_facts _ _ _ _ H Hca) as (Ha & Hp & _). split; [exact Ha|].
    destruct (flist_links _ _ _ c (ok_free _ _ _ H) Hin) as (nx & Hm & Hnx).
    exists nx. split; [exact Hm|]. destruct Hnx as [->|Hnx]; [lia|].
    destruct (cell_facts _ _ _ nx H (ok_fl_cells _ _ _ H nx Hnx)) as (Ha' & Hp' & _). lia. }
  unfold gc_sweep.
  destruct (mark_free_spec fl f m (a_free a) (ok_free _ _ _ H) (ok_fl_nodup _ _ _ H) Hf) as (m1 & E1 & I1 & O1).
  { intros c Hin. apply Hfa. exact Hin. }
  rewrite E1. cbn [bind].
  assert (Hnn : forall x, m x <> None -> m1 x <> None).
  { intros x Hx. destruct (in_dec Z.eq_dec x fl) as [Hin|Hni].
    - destruct (Hfa x Hin) as (_ & _ & w & Hw & _). rewrite (I1 x w Hin Hw). discriminate.
    - rewrite O1 by exact Hni. exact Hx. }
  destruct (sweep_blocks_spec mk (a_cs a) (a_dtor a) Hcs Hcm (a_blocks a) m1 0 log []) as
    (m' & free' & log' & fl' & E2 & F2 & ND2 & M2 & O2 & X2 & R2 & K2).
  - pose proof (ok_blocks _ _ _ H) as HB. rewrite Forall_forall in *. intros bl Hb.
    destruct (HB bl Hb) as (B1 & B2 & B3 & B4 & B5). repeat split; auto.
  - exact (ok_disj _ _ _ H).
  - intros c Hin. destruct (in_dec Z.eq_dec c fl) as [Hi|Hni].
    + destruct (Hfa c Hi) as (_ & _ & w & Hw & Hw0 & Hw8). exists (w + 2).
      rewrite (I1 c w Hi Hw). rewrite lor2 by lia. split; [reflexivity|]. split; [lia|].
      rewrite (Hfl c Hi). right. lia.
    + destruct (Hc c Hin Hni) as (w & Hw & Hw0 & Hwm). exists w. rewrite O1 by exact Hni.
      split; [exact Hw|]. split; [exact Hw0|]. destruct (mk c); [exact Hwm|left; exact Hwm].
  - constructor.
  - constructor.
  - intros c [].
  - rewrite E2. cbn [bind].
    exists m', (set_blocks (set_free a free') (kept mk (a_cs a) (a_blocks a))), log', fl'.
    split; [reflexivity|].
    assert (Hfl' : forall c, In c fl' <-> In c (cells (a_cs a) (kept mk (a_cs a) (a_blocks a))) /\ mk c = false).
    { intros c. rewrite M2. cbn. tauto. }
    split.
    { constructor; cbn [set_blocks set_free a_cs a_inc a_blocks a_free].
      - split; assumption.
      - exact (ok_inc _ _ _ H).
      - pose proof (ok_blocks _ _ _ H) as HB. rewrite Forall_forall in *. intros bl Hb.
        destruct (HB bl (kept_incl _ _ _ _ Hb)) as (B1 & B2 & B3 & B4 & B5). repeat split; auto.
        intros x Hx. apply X2. exists bl. auto.
      - apply kept_ordpairs. exact (ok_disj _ _ _ H).
      - exact F2.
      - exact ND2.
      - intros c Hin. apply Hfl' in Hin. apply Hin. }
    repeat split; try reflexivity.
    + apply Hfl'. assumption.
    + apply Hfl'. assumption.
    + apply Hfl'.
    + intros c Hin Hmk. apply kept_marked; assumption.
    + intros x Hx. rewrite O2 by exact Hx. apply O1. intros Hin. apply Hx.
      apply cells_in_blocks; [exact Hcs|]. apply Hfa. exact Hin.
    + exact R2.
    + assert (Hni : ~ In c fl) by (intros Hin; rewrite (Hfl c Hin) in H1; discriminate).
      destruct (K2 c w H0 H1) as [K3 K4]; [rewrite O1 by exact Hni; exact H2|]. exact K3.
    + intros k Hk. assert (Hni : ~ In c fl) by (intros Hin; rewrite (Hfl c Hin) in H1; discriminate).
      destruct (K2 c w H0 H1) as [K3 K4]; [rewrite O1 by exact Hni; exact H2|].
      rewrite K4 by exact Hk. apply O1. intros Hin. assert (E : c = c + k); [|lia].
      apply (cells_sep (a_cs a) (a_blocks a) c (c + k) k 0); try lia; [exact (ok_disj _ _ _ H)|exact H0|].
      apply (ok_fl_cells _ _ _ H). exact Hin.
Qed.

(** Arenas only depend on the memory inside their blocks. *)
Lemma arena_ok_frame m m' a fl : arena_ok m a fl -> (forall x, in_arena a x -> m' x = m x) -> arena_ok m' a fl.
Proof.
  intros H E. destruct (ok_cs _ _ _ H) as [Hcs Hcm]. constructor.
  - exact (ok_cs _ _ _ H).
  - exact (ok_inc _ _ _ H).
  - pose proof (ok_blocks _ _ _ H) as HB. rewrite Forall_forall in *. intros bl Hb.
    destruct (HB bl Hb) as (B1 & B2 & B3 & B4 & B5). repeat split; auto.
    intros x Hx. rewrite E; [apply B5; exact Hx|exists bl; auto].
  - exact (ok_disj _ _ _ H).
  - apply (flist_frame m); [exact (ok_free _ _ _ H)|]. intros c Hc. apply E.
    apply cells_in_blocks; [exact Hcs|]. apply (ok_fl_cells _ _ _ H). exact Hc.
  - exact (ok_fl_nodup _ _ _ H).
  - exact (ok_fl_cells _ _ _ H).
Qed.
(** Writing a cell that is not free keeps the arena well-formed. *)
Lemma arena_ok_write m m' a fl : arena_ok m a fl ->
  (forall c, In c fl -> m' c = m c) -> (forall x, m x <> None -> m' x <> None) -> arena_ok m' a fl.
Proof.
  intros H E N. constructor.
  - exact (ok_cs _ _ _ H).
  - exact (ok_inc _ _ _ H).
  - pose proof (ok_blocks _ _ _ H) as HB. rewrite Forall_forall in *. intros bl Hb.
    destruct (HB bl Hb) as (B1 & B2 & B3 & B4 & B5). repeat split; auto.
  - exact (ok_disj _ _ _ H).
  - apply (flist_frame m); [exact (ok_free _ _ _ H)|]. exact E.
  - exact (ok_fl_nodup _ _ _ H).
  - exact (ok_fl_cells _ _ _ H).
Qed.

(** Histories *)
Definition ahist_inv (m : mem) (a : arena) (live fl : list Z) : Prop :=
  arena_ok m a fl /\ tidy m a fl /\ NoDup (fl ++ live) /\
  (forall c, In c (acells a) <-> In c fl \/ In c live).

Lemma alloc_inv m a live fl base : ahist_inv m a live fl -> fresh_block (a_cs a) m base (a_inc a) ->
  exists m' a' need c fl', gc_alloc_cell m a base = OK (m', a', need, c) /\
    ahist_inv m' a' (c :: live) fl' /\ a_cs a' = a_cs a /\ a_inc a' = a_inc a /\
    (forall k, 0 <= k < a_cs a -> m' (c + k) = Some 0) /\
    (forall d k, In d live -> 0 <= k < a_cs a -> m' (d + k) = m (d + k)).
Proof.
  intros (H & Ht & Hnd & Hall) Hfr.
  destruct (alloc_spec m a fl base H Hfr) as (m' & a' & need & c & fl' & E & Hok & Hcase & E1 & E2 & E3 & E4 & Hz & Ho).
  destruct (ok_cs _ _ _ H) as [Hcs Hcm]. pose proof (ok_inc _ _ _ H) as Hinc.
  assert (Hc_new : In c (acells a') /\ (In c (acells a) -> In c fl)).
  { destruct Hcase as [(-> & Ec & _)|(-> & Er & Eb)].
    - rewrite Ec. split; [apply (ok_fl_cells _ _ _ H); left; reflexivity|intros _; left; reflexivity].
    - assert (Hin : In c (block_cells (a_cs a) (base, a_inc a))) by (rewrite in_rev, <- Er; left; reflexivity).
      split; [unfold acells; rewrite E1, Eb; unfold cells; cbn [flat_map]; apply in_or_app; left; exact Hin|].
      intros Hca. exfalso. destruct (cell_facts _ _ _ _ H Hca) as (_ & _ & Hm & _).
      apply (Hm 0); [lia|]. replace (c + 0) with c by lia. apply Hfr. apply cell_in_block; assumption. }
  destruct Hc_new as [Hca' Hca].
  assert (Hclive : ~ In c live).
  { intros Hin. destruct (nodup_app_inv _ _ Hnd) as (_ & _ & Hd).
    apply (Hd c); [|exact Hin]. apply Hca. apply Hall. right. exact Hin. }
  assert (Hall' : forall d, In d (acells a') <-> In d fl' \/ In d (c :: live)).
  { intros d. destruct Hcase as [(-> & Ec & _)|(-> & Er & Eb)].
    - rewrite Ec, Hall. cbn. tauto.
    - unfold acells. rewrite E1, Eb. unfold cells. cbn [flat_map]. rewrite in_app_iff.
      change (flat_map (block_cells (a_cs a)) (a_blocks a)) with (acells a). rewrite Hall.
      rewrite (in_rev (block_cells _ _)), <- Er. cbn. tauto. }
  assert (Hndl : NoDup (fl' ++ c :: live)).
  { destruct (nodup_app_inv _ _ Hnd) as (N1 & N2 & N3). apply nodup_app.
    - exact (ok_fl_nodup _ _ _ Hok).
    - constructor; assumption.
    - intros d Hd [<-|Hl].
      + destruct Hcase as [(-> & _)|(-> & Er & _)].
        * inversion N1; contradiction.
        * pose proof (block_cells_nodup (a_cs a) (base, a_inc a) Hcs) as Nb. apply NoDup_rev in Nb. rewrite <- Er in Nb.
          inversion Nb; contradiction.
      + destruct Hcase as [(-> & _)|(-> & Er & _)].
        * apply (N3 d); [right; exact Hd|exact Hl].
        * assert (Hdb : In d (block_cells (a_cs a) (base, a_inc a))) by (rewrite in_rev, <- Er; right; exact Hd).
          assert (Hda : In d (acells a)) by (apply Hall; right; exact Hl).
          destruct (cell_facts _ _ _ _ H Hda) as (_ & _ & Hm & _).
          apply (Hm 0); [lia|]. replace (d + 0) with d by lia. apply Hfr. apply cell_in_block; assumption. }
  assert (Hlive : forall d k, In d live -> 0 <= k < a_cs a -> m' (d + k) = m (d + k)).
  { intros d k Hd Hk. assert (Hda : In d (acells a)) by (apply Hall; right; exact Hd).
    destruct (Ho (d + k)) as [Heq|[Hib _]].
    - intros Hx. assert (d = c); [|subst; contradiction].
      apply (cells_sep (a_cs a') (a_blocks a') d c k (d + k - c)); rewrite ?E1; try lia.
      + rewrite <- E1. exact (ok_disj _ _ _ Hok).
      + rewrite <- E1. apply Hall'. right. right. exact Hd.
      + rewrite <- E1. exact Hca'.
    - exact Heq.
    - exfalso. destruct (cell_facts _ _ _ _ H Hda) as (_ & _ & Hm & _). apply (Hm k Hk). apply Hfr. exact Hib. }
  exists m', a', need, c, fl'. split; [exact E|]. split; [|split; [exact E1|split; [exact E2|split; [exact Hz|exact Hlive]]]].
  split; [exact Hok|]. split; [|split; [exact Hndl|exact Hall']].
  intros d Hd Hnf. apply Hall' in Hd. destruct Hd as [Hd|[<-|Hd]]; [contradiction| |].
  - exists 0. split; [|split; [lia|reflexivity]]. replace c with (c + 0) by lia. apply Hz. lia.
  - destruct (Ht d) as (w & Hw & R).
    + apply Hall. right. exact Hd.
    + intros Hf. destruct (nodup_app_inv _ _ Hnd) as (_ & _ & N3). exact (N3 d Hf Hd).
    + exists w. split; [|exact R]. replace d with (d + 0) by lia. rewrite Hlive by (assumption || lia).
      replace (d + 0) with d by lia. exact Hw.
Qed.

Lemma existsb_In x l : existsb (Z.eqb x) l = true <-> In x l.
Proof.
  rewrite existsb_exists. split; [intros (y & Hy & E); apply Z.eqb_eq in E; subst; exact Hy|].
  intros H. exists x. split; [exact H|apply Z.eqb_refl].
Qed.

Lemma collect_inv m a live fl keep m1 f log : ahist_inv m a live fl -> (length fl < f)%nat ->
  (forall x, m1 x = if existsb (Z.eqb x) (filter keep live) then option_map (fun w => Z.lor w 1) (m x) else m x) ->
  exists m' a' log' fl', gc_sweep f m1 a log = OK (m', a', log') /\
    ahist_inv m' a' (filter keep live) fl' /\ a_cs a' = a_cs a /\ a_inc a' = a_inc a /\
    (forall d k, In d (filter keep live) -> 0 <= k < a_cs a -> m' (d + k) = m (d + k)).
Proof.
  intros (H & Ht & Hnd & Hall) Hf Hm1. destruct (ok_cs _ _ _ H) as [Hcs Hcm].
  destruct (nodup_app_inv _ _ Hnd) as (N1 & N2 & N3).
  set (mk := fun c => existsb (Z.eqb c) (filter keep live)).
  assert (Hmk : forall c, mk c = true <-> In c (filter keep live)) by (intros; apply existsb_In).
  assert (Hmk_live : forall c, mk c = true -> In c live) by (intros c Hc; apply Hmk, filter_In in Hc; apply Hc).
  assert (Hflmk : forall c, In c fl -> mk c = false).
  { intros c Hc. destruct (mk c) eqn:E; [|reflexivity]. exfalso. exact (N3 c Hc (Hmk_live c E)). }
  assert (Hwm : forall c, mk c = true -> exists w, m c = Some w /\ 0 <= w /\ w mod 4 = 0 /\ m1 c = Some (w + 1)).
  { intros c Hc. destruct (Ht c) as (w & Hw & Hw0 & Hw4).
    - apply Hall. right. exact (Hmk_live c Hc).
    - intros Hcf. rewrite (Hflmk c Hcf) in Hc. discriminate.
    - exists w. repeat split; try assumption. rewrite Hm1. fold (mk c). rewrite Hc, Hw. cbn. rewrite lor1_even by lia. reflexivity. }
  assert (Hsame : forall x, mk x = false -> m1 x = m x) by (intros x Hx; rewrite Hm1; fold (mk x); rewrite Hx; reflexivity).
  assert (H1 : arena_ok m1 a fl).
  { apply (arena_ok_write m); [exact H|intros c Hc; apply Hsame; apply Hflmk; exact Hc|].
    intros x Hx. destruct (mk x) eqn:E; [|rewrite Hsame by exact E; exact Hx].
    destruct (Hwm x E) as (w & _ & _ & _ & Hw1). congruence. }
  destruct (sweep_spec m1 a fl mk f log H1 Hf) as
    (m' & a' & log' & fl' & E & Hok & A1 & A2 & A3 & A4 & Hfl' & Hkept & Ho & Hr & Hk).
  { intros c Hc Hni. destruct (mk c) eqn:Ec.
    - destruct (Hwm c Ec) as (w & _ & Hw0 & Hw4 & Hw1). exists (w + 1). rewrite Hw1. repeat split; lia.
    - destruct (Ht c Hc Hni) as (w & Hw & R). exists w. rewrite Hsame by exact Ec. split; [exact Hw|exact R]. }
  { exact Hflmk. }
  assert (Hcont : forall d k, In d (filter keep live) -> 0 <= k < a_cs a -> m' (d + k) = m (d + k)).
  { intros d k Hd Hkk. apply Hmk in Hd. destruct (Hwm d Hd) as (w & Hw & Hw0 & Hw4 & Hw1).
    assert (Hda : In d (acells a)) by (apply Hall; right; exact (Hmk_live d Hd)).
    destruct (Hk d (w + 1) Hda Hd Hw1) as [K1 K2].
    destruct (Z.eq_dec k 0) as [->|Hk0].
    - replace (d + 0) with d by lia. rewrite K1, Hw. f_equal. lia.
    - rewrite K2 by lia. apply Hsame. destruct (mk (d + k)) eqn:Ex; [|reflexivity]. exfalso.
      assert (d = d + k); [|lia].
      apply (cells_sep (a_cs a) (a_blocks a) d (d + k) k 0); try lia; [exact (ok_disj _ _ _ H)|exact Hda|].
      apply Hall. right. exact (Hmk_live _ Ex). }
  exists m', a', log', fl'. split; [exact E|]. split; [|auto].
  split; [exact Hok|]. split; [|split].
  - intros c Hc Hni. destruct (mk c) eqn:Ec.
    + destruct (Hwm c Ec) as (w & Hw & Hw0 & Hw4 & Hw1). exists w.
      assert (Hca : In c (acells a)) by (apply Hall; right; exact (Hmk_live c Ec)).
      destruct (Hk c (w + 1) Hca Ec Hw1) as [K1 _]. rewrite K1. split; [f_equal; lia|]. split; assumption.
    + exfalso. apply Hni. apply Hfl'. split; assumption.
  - apply nodup_app; [exact (ok_fl_nodup _ _ _ Hok)|apply NoDup_filter; exact N2|].
    intros c Hc Hc'. apply Hfl' in Hc. apply Hmk in Hc'. destruct Hc. congruence.
  - intros c. rewrite Hfl', <- Hmk. destruct (mk c) eqn:Ec.
    + split; [intros _; right; reflexivity|]. intros _. apply Hkept; [|exact Ec]. apply Hall. right. exact (Hmk_live c Ec).
    + split; [intros Hc; left; split; [exact Hc|reflexivity]|]. intros [[Hc _]|Hc]; [exact Hc|discriminate].
Qed.

Lemma ahist_invariant m a live : ahist m a live -> exists fl, ahist_inv m a live fl.
Proof.
  induction 1 as [m cs n inc dtor base m' a Hcs Hcm Hn Hinc Hfr E
                 |m a live base m' a' need c Hh [fl IH] Hfr E
                 |m a live c k v Hh [fl (H & Ht & Hnd & Hall)] Hc Hk Hk8 Hv Hv4
                 |m a live x v Hh [fl (H & Ht & Hnd & Hall)] Hx
                 |m a live keep m1 f log m' a' log' Hh [fl IH] Hm1 E].
  - unfold gc_arena_init in E. destruct (Z.ltb_spec cs 8); [lia|]. cbn zeta in E.
    set (a0 := {| a_blocks := []; a_free := 0; a_cs := cs; a_inc := inc; a_dtor := dtor |}) in *.
    destruct (new_block_spec m a0 n base [] Hcs Hcm Hn Hfr) as (m1 & f & E1 & F & O & N).
    { constructor. } { intros c []. }
    rewrite E1 in E. cbn [bind] in E. injection E as <- <-. rewrite app_nil_r in F.
    exists (rev (block_cells cs (base, n))). cbn [a_cs a0] in *.
    assert (Hcells : acells (set_blocks (set_free a0 f) [(base, n)]) = block_cells cs (base, n))
      by (unfold acells, cells; cbn; apply app_nil_r).
    destruct Hfr as (H1 & H2 & H3 & H4). split; [|split; [|split]].
    + constructor; cbn [set_blocks set_free a_cs a_inc a_blocks a_free a0].
      * split; assumption.
      * exact Hinc.
      * constructor; [|constructor]. repeat split; cbn; auto.
      * constructor; [constructor|constructor].
      * exact F.
      * apply NoDup_rev. apply block_cells_nodup. exact Hcs.
      * intros c Hc. rewrite <- in_rev in Hc. rewrite Hcells. exact Hc.
    + intros c Hc Hni. exfalso. apply Hni. rewrite Hcells in Hc. rewrite <- in_rev. exact Hc.
    + rewrite app_nil_r. apply NoDup_rev. apply block_cells_nodup. exact Hcs.
    + intros c. rewrite Hcells, <- in_rev. cbn. tauto.
  - destruct (alloc_inv m a live fl base IH Hfr) as (m2 & a2 & need2 & c2 & fl' & E2 & Hinv & _).
    rewrite E in E2. injection E2 as <- <- <- <-. exists fl'. exact Hinv.
  - exists fl. destruct (nodup_app_inv _ _ Hnd) as (N1 & N2 & N3).
    assert (Hca : In c (acells a)) by (apply Hall; right; exact Hc).
    assert (Hne : forall d, In d (acells a) -> d <> c -> upd m (c + k) v d = m d).
    { intros d Hd Hdc. apply upd_other. intros Edc. apply Hdc.
      destruct (ok_cs _ _ _ H) as [Hcs Hcm].
      apply (cells_sep (a_cs a) (a_blocks a) d c 0 k); try lia; [exact (ok_disj _ _ _ H)|exact Hd|exact Hca]. }
    split; [|split; [|split; assumption]].
    + apply (arena_ok_write m); [exact H| |].
      * intros d Hd. apply Hne; [apply (ok_fl_cells _ _ _ H); exact Hd|]. intros ->. exact (N3 c Hd Hc).
      * intros x Hx. destruct (Z.eq_dec x (c + k)) as [->|]; [rewrite upd_same; discriminate|].
        rewrite upd_other by assumption. exact Hx.
    + intros d Hd Hni. destruct (Z.eq_dec d c) as [->|Hdc].
      * destruct (Z.eq_dec k 0) as [->|Hk0].
        -- replace (c + 0) with c by lia. exists v. rewrite upd_same. repeat split; auto.
        -- rewrite upd_other by lia. apply Ht; assumption.
      * rewrite Hne by assumption. apply Ht; assumption.
  - exists fl. assert (Hsame : forall y, in_arena a y -> (if y =? x then v else m y) = m y).
    { intros y Hy. destruct (Z.eqb_spec y x) as [->|]; [contradiction|reflexivity]. }
    split; [|split; [|split; assumption]].
    + apply (arena_ok_frame m); [exact H|exact Hsame].
    + intros d Hd Hni. rewrite Hsame; [apply Ht; assumption|].
      destruct (ok_cs _ _ _ H) as [Hcs Hcm]. apply cells_in_blocks; [exact Hcs|exact Hd].
  - destruct (Nat.lt_ge_cases (length fl) f) as [Hf|Hf].
    + destruct (collect_inv m a live fl keep m1 f log IH Hf Hm1) as (m2 & a2 & log2 & fl' & E2 & Hinv & _).
      rewrite E in E2. injection E2 as <- <- <-. exists fl'. exact Hinv.
    + (* not enough fuel: the sweep cannot have succeeded; use a larger fuel *)
      exfalso. unfold gc_sweep in E. rewrite mark_free_short with (l := fl) in E; [discriminate E| | | |exact Hf].
      * apply (flist_frame m); [apply IH|]. intros c Hc. rewrite Hm1.
        destruct (existsb (Z.eqb c) (filter keep live)) eqn:Ex; [|reflexivity]. exfalso.
        apply existsb_In, filter_In in Ex. destruct IH as (_ & _ & Hnd & _).
        destruct (nodup_app_inv _ _ Hnd) as (_ & _ & N3). exact (N3 c Hc (proj1 Ex)).
      * apply (ok_fl_nodup _ _ _ (proj1 IH)).
      * intros c Hc. destruct IH as (H & _). destruct (cell_facts _ _ _ c H (ok_fl_cells _ _ _ H c Hc)) as (Ha & _). exact Ha.
Qed.

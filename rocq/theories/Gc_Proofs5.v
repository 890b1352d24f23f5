(** Proofs about whole collections. *)
From Verif Require Import Base BaseFacts Value_Model Value_Spec Value_Proofs
  Str_Model Gc_Model Gc_Spec Gc_Proofs Gc_Proofs2 Gc_Proofs3 Gc_Proofs4.
Ltac Zify.zify_post_hook ::= Z.div_mod_to_equations.

Lemma in_arena_kept a a' mk x : a_cs a' = a_cs a -> a_blocks a' = kept mk (a_cs a) (a_blocks a) ->
  in_arena a' x -> in_arena a x.
Proof.
  intros E1 E2 (bl & Hb & Hin). rewrite E1 in Hin. rewrite E2 in Hb. exists bl. split; [|exact Hin].
  exact (kept_incl _ _ _ _ Hb).
Qed.
Lemma acells_kept a a' mk c : a_cs a' = a_cs a -> a_blocks a' = kept mk (a_cs a) (a_blocks a) ->
  In c (acells a') -> In c (acells a).
Proof.
  intros E1 E2 H. unfold acells, cells in *. rewrite E1, E2 in H. apply in_flat_map in H. destruct H as (bl & Hb & Hc).
  apply in_flat_map. exists bl. split; [exact (kept_incl _ _ _ _ Hb)|exact Hc].
Qed.
Lemma u64_str o : 0 <= o < 2 ^ 48 -> is_u64 (65528 * 2 ^ 48 + o).
Proof. unfold is_u64. lia. Qed.
Lemma str_hi o : 0 <= o < 2 ^ 48 -> is_str_o (65528 * 2 ^ 48 + o) /\ addr (65528 * 2 ^ 48 + o) = o.
Proof. unfold is_str_o, addr. lia. Qed.

Lemma odd4 w : w mod 4 = 0 -> Z.odd (w + 1) = true.
Proof. intros H. rewrite odd_mod. lia. Qed.

Section Collect.
  Context (g : gstate) (ds : list (list Z)) (flo flp fls : list Z) (props : Z -> list Z).
  Context (HK : heap_ok g ds flo flp fls).
  Let m0 := g_mem g.
  Let roots := gc_slots g.
  Let ao := g_obj g.
  Let ap := g_prop g.
  Let asg := g_sig g.
  Context (HP1 : forall o, reach m0 roots (Obj o) ->
         exists p, m0 o = Some p /\ flist m0 p (props o) /\
           forall q, In q (props o) -> In q (acells ap) /\ ~ In q flp).
  Context (HP2 : forall o1 o2 q, reach m0 roots (Obj o1) -> reach m0 roots (Obj o2) ->
         In q (props o1) -> In q (props o2) -> o1 = o2).
  Context (T : threads) (m1 m2 : mem) (b1 : list Z).
  Context (HI : Inv g ds props T m1 b1) (HC : complete g m1 T).
  Let mv := moved T 1 1 ds.
  Context (HM1 : forall o d a, at_ 1 ds o d -> In a (T o) -> m2 a = Some (65528 * 2 ^ 48 + mv o)).
  Context (HM2 : forall x, (forall o d, at_ 1 ds o d -> ~ In x (T o)) -> m2 x = m1 x).
  Notation hdr := (hdr g). Notation RS := (RS g). Notation RO := (RO g). Notation RP := (RP g). Notation RG := (RG g).

  Lemma not_slot_m2 x : ~ RS x -> m2 x = m1 x.
  Proof. intros H. apply HM2. intros o d _ Hin. apply H. exact (proj1 (i_T _ _ _ _ _ _ HI _ _ Hin)). Qed.
  Lemma m2_str a v : RS a -> m0 a = Some v -> is_str_o v -> m2 a = Some (65528 * 2 ^ 48 + mv (addr v)).
  Proof.
    intros Ha Hv Hs. destruct (slot_val _ _ _ _ _ HK a Ha) as (v' & Hv' & _ & (_ & _ & V3)).
    assert (v' = v) by (unfold m0 in *; congruence). subst v'. destruct (V3 Hs) as (d & Hd).
    apply (HM1 _ d a); [exact Hd|]. exact (proj2 HC a v Ha Hv Hs).
  Qed.
  Lemma m2_hdr x : hdr x -> m2 x = option_map Z.succ (m0 x).
  Proof.
    intros Hx. rewrite not_slot_m2 by (intros Hs; exact (slot_not_hdr _ _ _ _ _ _ HK HP1 HP2 x Hs Hx)).
    destruct (hdr_cur _ _ _ _ _ _ HK HP1 HP2 T m1 b1 x HI Hx) as (w & Hw & _ & _ & [[_ Hf]|[E _]]).
    - rewrite (proj1 HC x Hx) in Hf. discriminate Hf.
    - unfold m0. rewrite Hw, E. reflexivity.
  Qed.
  Lemma m2_other x : ~ hdr x -> (forall v, RS x -> m0 x = Some v -> ~ is_str_o v) -> m2 x = m0 x.
  Proof.
    intros Hh Hs. rewrite HM2.
    - destruct (i_chg _ _ _ _ _ _ HI x) as [E|[[H _]|(v & H1 & H2 & H3 & _)]]; [exact E|contradiction|].
      exfalso. exact (Hs v H1 H2 H3).
    - intros o d _ Hin. destruct (i_T _ _ _ _ _ _ HI _ _ Hin) as (H1 & H2 & H3).
      apply (Hs _ H1 H2). apply (str_hi o H3).
  Qed.
  Lemma m2_mapped x : m0 x <> None -> m2 x <> None.
  Proof.
    intros Hx. destruct (in_dec Z.eq_dec x (T (match m0 x with Some v => addr v | None => 0 end))) as [Hin|Hni].
    - destruct (i_T _ _ _ _ _ _ HI _ _ Hin) as (H1 & H2 & H3).
      rewrite (m2_str x _ H1 H2); [discriminate|]. apply (str_hi _ H3).
    - assert (E : m2 x = m1 x).
      { apply HM2. intros o d _ Hin. destruct (i_T _ _ _ _ _ _ HI _ _ Hin) as (H1 & H2 & H3).
        apply Hni. unfold m0. rewrite H2, (proj2 (str_hi o H3)). exact Hin. }
      rewrite E. destruct (i_chg _ _ _ _ _ _ HI x) as [E1|[[_ E1]|(v & H1 & H2 & H3 & H4)]].
      + rewrite E1. exact Hx.
      + rewrite E1. fold m0. destruct (m0 x); [discriminate|congruence].
      + exfalso. apply Hni. unfold m0. rewrite H2. exact H4.
  Qed.

  (** Preconditions of the three sweeps *)
  Lemma sweep_ready a fl (Rc : Z -> Prop) : arena_ok m0 a fl -> tidy m0 a fl ->
    (forall c, In c (acells a) -> ~ RS c) ->
    (forall c, In c (acells a) -> hdr c -> Rc c) ->
    (forall c, Rc c -> hdr c /\ In c (acells a) /\ ~ In c fl) ->
    arena_ok m2 a fl /\
    (forall c, In c (acells a) -> ~ In c fl -> exists w, m2 c = Some w /\ 0 <= w /\ w mod 4 = (if mkb m2 c then 1 else 0)) /\
    (forall c, In c fl -> mkb m2 c = false) /\
    (forall c, In c (acells a) -> (mkb m2 c = true <-> Rc c)).
  Proof.
    intros Hok Ht Hs Hh Hr.
    assert (Hflw : forall c, In c fl -> m2 c = m0 c /\ exists nx, m0 c = Some nx /\ nx mod 2 = 0).
    { intros c Hin. pose proof (ok_fl_cells _ _ _ Hok c Hin) as Hca. split.
      - apply m2_other.
        + intros H. exact (proj2 (proj2 (Hr c (Hh c Hca H))) Hin).
        + intros v H. destruct (Hs c Hca H).
      - destruct (flist_links _ _ _ c (ok_free _ _ _ Hok) Hin) as (nx & Hm & Hnx). exists nx. split; [exact Hm|].
        destruct Hnx as [->|Hnx]; [reflexivity|].
        destruct (cell_facts _ _ _ nx Hok (ok_fl_cells _ _ _ Hok nx Hnx)) as (A & _). lia. }
    assert (Hff : forall c, In c fl -> mkb m2 c = false).
    { intros c Hin. destruct (Hflw c Hin) as (E & nx & Hnx & Hev). unfold mkb. rewrite E, Hnx, odd_mod. lia. }
    assert (Hcell : forall c, In c (acells a) -> ~ In c fl ->
              (hdr c /\ exists w, m2 c = Some (w + 1) /\ 0 <= w /\ w mod 4 = 0) \/ (exists w, m2 c = Some w /\ 0 <= w /\ w mod 4 = 0)).
    { intros c Hca Hni. destruct (Ht c Hca Hni) as (w & Hw & H0 & H4).
      assert (E : m2 c = m1 c) by (apply not_slot_m2, Hs; exact Hca).
      destruct (i_chg _ _ _ _ _ _ HI c) as [E1|[[Hc E1]|(v & H1 & _)]].
      - right. exists w. rewrite E, E1. auto.
      - left. split; [exact Hc|]. exists w. rewrite E, E1. fold m0. rewrite Hw. auto.
      - destruct (Hs c Hca H1). }
    split; [|split; [|split]].
    - constructor.
      + exact (ok_cs _ _ _ Hok).
      + exact (ok_inc _ _ _ Hok).
      + pose proof (ok_blocks _ _ _ Hok) as HB. rewrite Forall_forall in *. intros bl Hb.
        destruct (HB bl Hb) as (B1 & B2 & B3 & B4 & B5). repeat split; auto. intros x Hx. apply m2_mapped, B5, Hx.
      + exact (ok_disj _ _ _ Hok).
      + apply (flist_frame m0); [exact (ok_free _ _ _ Hok)|]. intros c Hc. exact (proj1 (Hflw c Hc)).
      + exact (ok_fl_nodup _ _ _ Hok).
      + exact (ok_fl_cells _ _ _ Hok).
    - intros c Hca Hni. destruct (Hcell c Hca Hni) as [(_ & w & E & H0 & H4)|(w & E & H0 & H4)].
      + exists (w + 1). split; [exact E|]. split; [lia|]. unfold mkb. rewrite E, (odd4 w H4). lia.
      + exists w. split; [exact E|]. split; [exact H0|]. unfold mkb. rewrite E, odd_mod.
        replace (negb (w mod 2 =? 0)) with false by lia. exact H4.
    - exact Hff.
    - intros c Hca. split.
      + intros Hm. destruct (in_dec Z.eq_dec c fl) as [Hin|Hni]; [rewrite (Hff c Hin) in Hm; discriminate Hm|].
        destruct (Hcell c Hca Hni) as [(Hc & _)|(w & E & H0 & H4)]; [exact (Hh c Hca Hc)|].
        unfold mkb in Hm. rewrite E, odd_mod in Hm. lia.
      + intros HR. destruct (Hr c HR) as (Hc & _ & Hni).
        destruct (hdr_word _ _ _ _ _ _ HK HP1 c Hc) as (w & Hw & H0 & H4). unfold mkb. rewrite (m2_hdr c Hc).
        unfold m0. rewrite Hw. cbn [option_map]. exact (odd4 w H4).
  Qed.

  Lemma ready_obj : arena_ok m2 ao flo /\
    (forall c, In c (acells ao) -> ~ In c flo -> exists w, m2 c = Some w /\ 0 <= w /\ w mod 4 = (if mkb m2 c then 1 else 0)) /\
    (forall c, In c flo -> mkb m2 c = false) /\ (forall c, In c (acells ao) -> (mkb m2 c = true <-> RO c)).
  Proof.
    apply sweep_ready.
    - exact (h_obj _ _ _ _ _ HK).
    - exact (proj1 (h_tidy _ _ _ _ _ HK)).
    - intros c Hc Hs. exact (slot_not_cell _ _ _ _ _ _ HK HP1 HP2 c Hs (or_introl Hc)).
    - intros c Hc [H|[H|H]]; [exact H| |]; exfalso.
      + exact (sepop _ _ _ _ _ HK c (ocell_arena _ _ _ _ _ _ HK HP1 HP2 c Hc) (pcell_arena _ _ _ _ _ _ HK HP1 HP2 c (proj1 (prop_cell _ _ _ HP1 c H)))).
      + exact (sepog _ _ _ _ _ HK c (ocell_arena _ _ _ _ _ _ HK HP1 HP2 c Hc) (gcell_arena _ _ _ _ _ _ HK HP1 HP2 c (proj1 (sig_cell _ _ _ _ _ HK c H)))).
    - intros c H. split; [left; exact H|exact (obj_cell _ _ _ _ _ HK c H)].
  Qed.
  Lemma ready_prop : arena_ok m2 ap flp /\
    (forall c, In c (acells ap) -> ~ In c flp -> exists w, m2 c = Some w /\ 0 <= w /\ w mod 4 = (if mkb m2 c then 1 else 0)) /\
    (forall c, In c flp -> mkb m2 c = false) /\ (forall c, In c (acells ap) -> (mkb m2 c = true <-> RP c)).
  Proof.
    apply sweep_ready.
    - exact (h_prop _ _ _ _ _ HK).
    - exact (proj1 (proj2 (h_tidy _ _ _ _ _ HK))).
    - intros c Hc Hs. exact (slot_not_cell _ _ _ _ _ _ HK HP1 HP2 c Hs (or_intror (or_introl Hc))).
    - intros c Hc [H|[H|H]]; [|exact H|]; exfalso.
      + exact (sepop _ _ _ _ _ HK c (ocell_arena _ _ _ _ _ _ HK HP1 HP2 c (proj1 (obj_cell _ _ _ _ _ HK c H))) (pcell_arena _ _ _ _ _ _ HK HP1 HP2 c Hc)).
      + exact (seppg _ _ _ _ _ HK c (pcell_arena _ _ _ _ _ _ HK HP1 HP2 c Hc) (gcell_arena _ _ _ _ _ _ HK HP1 HP2 c (proj1 (sig_cell _ _ _ _ _ HK c H)))).
    - intros c H. split; [right; left; exact H|exact (prop_cell _ _ _ HP1 c H)].
  Qed.
  Lemma ready_sig : arena_ok m2 asg fls /\
    (forall c, In c (acells asg) -> ~ In c fls -> exists w, m2 c = Some w /\ 0 <= w /\ w mod 4 = (if mkb m2 c then 1 else 0)) /\
    (forall c, In c fls -> mkb m2 c = false) /\ (forall c, In c (acells asg) -> (mkb m2 c = true <-> RG c)).
  Proof.
    apply sweep_ready.
    - exact (h_sig _ _ _ _ _ HK).
    - exact (proj2 (proj2 (h_tidy _ _ _ _ _ HK))).
    - intros c Hc Hs. exact (slot_not_cell _ _ _ _ _ _ HK HP1 HP2 c Hs (or_intror (or_intror Hc))).
    - intros c Hc [H|[H|H]]; [| |exact H]; exfalso.
      + exact (sepog _ _ _ _ _ HK c (ocell_arena _ _ _ _ _ _ HK HP1 HP2 c (proj1 (obj_cell _ _ _ _ _ HK c H))) (gcell_arena _ _ _ _ _ _ HK HP1 HP2 c Hc)).
      + exact (seppg _ _ _ _ _ HK c (pcell_arena _ _ _ _ _ _ HK HP1 HP2 c (proj1 (prop_cell _ _ _ HP1 c H))) (gcell_arena _ _ _ _ _ _ HK HP1 HP2 c Hc)).
    - intros c H. split; [right; right; exact H|exact (sig_cell _ _ _ _ _ HK c H)].
  Qed.

  Lemma restored x w : hdr x -> m2 x = Some w -> Some (w - 1) = m0 x.
  Proof.
    intros Hx E. rewrite (m2_hdr x Hx) in E. destruct (m0 x) as [u|]; [|discriminate E]. cbn [option_map] in E.
    injection E as <-. f_equal. lia.
  Qed.
  Lemma hdr_m2 x : hdr x -> exists w, m2 x = Some w.
  Proof.
    intros Hx. rewrite (m2_hdr x Hx). destruct (hdr_word _ _ _ _ _ _ HK HP1 x Hx) as (w & Hw & _).
    unfold m0. rewrite Hw. eexists. reflexivity.
  Qed.

  Definition swept (g' : gstate) (flo' flp' fls' : list Z) : Prop :=
    let m5 := g_mem g' in
    (arena_ok m5 (g_obj g') flo' /\ arena_ok m5 (g_prop g') flp' /\ arena_ok m5 (g_sig g') fls') /\
    (a_cs (g_obj g') = a_cs ao /\ a_cs (g_prop g') = a_cs ap /\ a_cs (g_sig g') = a_cs asg) /\
    (incl (a_blocks (g_obj g')) (a_blocks ao) /\ incl (a_blocks (g_prop g')) (a_blocks ap) /\
     incl (a_blocks (g_sig g')) (a_blocks asg)) /\
    ((forall c, In c flo' <-> In c (acells (g_obj g')) /\ ~ RO c) /\
     (forall c, In c flp' <-> In c (acells (g_prop g')) /\ ~ RP c) /\
     (forall c, In c fls' <-> In c (acells (g_sig g')) /\ ~ RG c)) /\
    ((forall c, RO c -> In c (acells (g_obj g')) /\ m5 c = m0 c) /\
     (forall c, RP c -> In c (acells (g_prop g')) /\ m5 c = m0 c) /\
     (forall c, RG c -> In c (acells (g_sig g')) /\ forall k, 0 <= k < 32 -> m5 (c + k) = m0 (c + k))) /\
    (forall a, RS a -> m5 a = m2 a) /\
    ((forall x, in_arena ao x -> ~ in_arena (g_obj g') x -> m5 x = None) /\
     (forall x, in_arena ap x -> ~ in_arena (g_prop g') x -> m5 x = None) /\
     (forall x, in_arena asg x -> ~ in_arena (g_sig g') x -> m5 x = None)).

  Lemma fl_iff a a' mk fl' (Rc : Z -> Prop) : a_cs a' = a_cs a -> a_blocks a' = kept mk (a_cs a) (a_blocks a) ->
    (forall c, In c fl' <-> In c (acells a') /\ mk c = false) ->
    (forall c, In c (acells a) -> (mk c = true <-> Rc c)) ->
    forall c, In c fl' <-> In c (acells a') /\ ~ Rc c.
  Proof.
    intros E1 E2 H1 H2 c. rewrite H1. split; intros [Hc H]; (split; [exact Hc|]);
      pose proof (H2 c (acells_kept a a' mk c E1 E2 Hc)) as X.
    - intros HR. apply X in HR. congruence.
    - destruct (mk c); [|reflexivity]. exfalso. apply H, X. reflexivity.
  Qed.

  Lemma sweeps_spec f log : (length flo < f)%nat -> (length flp < f)%nat -> (length fls < f)%nat ->
    exists m3 m4 m5 ao' ap' asg' l1 l2 l3 flo' flp' fls',
      gc_sweep f m2 ao log = OK (m3, ao', l1) /\ gc_sweep f m3 ap l1 = OK (m4, ap', l2) /\
      gc_sweep f m4 asg l2 = OK (m5, asg', l3) /\
      forall b', swept {| g_mem := m5; g_str := b'; g_obj := ao'; g_prop := ap'; g_sig := asg';
        g_vals := g_vals g; g_owned := g_owned g; g_scopes := g_scopes g; g_stack := g_stack g;
        g_call := g_call g; g_cbs := g_cbs g; g_args := g_args g; g_log := l3 |} flo' flp' fls'.
  Proof.
    intros Fo Fp Fg.
    destruct ready_obj as (RA1 & RA2 & RA3 & RA4).
    destruct ready_prop as (RB1 & RB2 & RB3 & RB4).
    destruct ready_sig as (RC1 & RC2 & RC3 & RC4).
    pose proof (fun x => sepop _ _ _ _ _ HK x) as Sop. pose proof (fun x => sepog _ _ _ _ _ HK x) as Sog.
    pose proof (fun x => seppg _ _ _ _ _ HK x) as Spg. fold ao ap asg in Sop, Sog, Spg.
    pose proof (ocell_arena _ _ _ _ _ _ HK HP1 HP2) as Oa. pose proof (pcell_arena _ _ _ _ _ _ HK HP1 HP2) as Pa.
    pose proof (gcell_arena _ _ _ _ _ _ HK HP1 HP2) as Ga. fold ao ap asg in Oa, Pa, Ga.
    destruct (h_cs _ _ _ _ _ HK) as (cso & csp & csg). fold ao ap asg in cso, csp, csg.
    (* objects *)
    destruct (sweep_spec m2 ao flo (mkb m2) f log RA1 Fo RA2 RA3) as
      (m3 & ao' & l1 & flo' & E1 & A1 & A2 & A3 & A4 & A5 & A6 & A7 & A8 & A9 & A10).
    (* properties *)
    assert (M3p : forall x, in_arena ap x -> m3 x = m2 x) by (intros x Hx; apply A8; intros Hy; exact (Sop x Hy Hx)).
    assert (M3g : forall x, in_arena asg x -> m3 x = m2 x) by (intros x Hx; apply A8; intros Hy; exact (Sog x Hy Hx)).
    destruct (sweep_spec m3 ap flp (mkb m2) f l1) as
      (m4 & ap' & l2 & flp' & E2 & B1 & B2 & B3 & B4 & B5 & B6 & B7 & B8 & B9 & B10).
    { apply (arena_ok_frame m2); [exact RB1|exact M3p]. }
    { exact Fp. }
    { intros c Hc Hni. rewrite M3p by (apply Pa; exact Hc). exact (RB2 c Hc Hni). }
    { exact RB3. }
    (* signatures *)
    assert (M4g : forall x, in_arena asg x -> m4 x = m2 x).
    { intros x Hx. rewrite B8 by (intros Hy; exact (Spg x Hy Hx)). exact (M3g x Hx). }
    destruct (sweep_spec m4 asg fls (mkb m2) f l2) as
      (m5 & asg' & l3 & fls' & E3 & C1 & C2 & C3 & C4 & C5 & C6 & C7 & C8 & C9 & C10).
    { apply (arena_ok_frame m2); [exact RC1|exact M4g]. }
    { exact Fg. }
    { intros c Hc Hni. rewrite M4g by (apply Ga; exact Hc). exact (RC2 c Hc Hni). }
    { exact RC3. }
    exists m3, m4, m5, ao', ap', asg', l1, l2, l3, flo', flp', fls'.
    split; [exact E1|]. split; [exact E2|]. split; [exact E3|]. intros b'.
    assert (M5o : forall x, in_arena ao x -> m5 x = m3 x).
    { intros x Hx. rewrite C8 by (intros Hy; exact (Sog x Hx Hy)). apply B8. intros Hy. exact (Sop x Hx Hy). }
    assert (M5p : forall x, in_arena ap x -> m5 x = m4 x).
    { intros x Hx. apply C8. intros Hy. exact (Spg x Hx Hy). }
    assert (Iao : forall x, in_arena ao' x -> in_arena ao x) by (intros x; exact (in_arena_kept ao ao' _ x A2 A5)).
    assert (Iap : forall x, in_arena ap' x -> in_arena ap x) by (intros x; exact (in_arena_kept ap ap' _ x B2 B5)).
    assert (Iag : forall x, in_arena asg' x -> in_arena asg x) by (intros x; exact (in_arena_kept asg asg' _ x C2 C5)).
    unfold swept. cbn [g_mem g_obj g_prop g_sig]. split; [|split; [|split; [|split; [|split; [|split]]]]].
    - split; [|split].
      + apply (arena_ok_frame m3); [exact A1|]. intros x Hx. apply M5o, Iao, Hx.
      + apply (arena_ok_frame m4); [exact B1|]. intros x Hx. apply M5p, Iap, Hx.
      + exact C1.
    - auto.
    - rewrite A5, B5, C5. split; [|split]; apply kept_incl.
    - split; [|split].
      + exact (fl_iff ao ao' (mkb m2) flo' RO A2 A5 A6 RA4).
      + exact (fl_iff ap ap' (mkb m2) flp' RP B2 B5 B6 RB4).
      + exact (fl_iff asg asg' (mkb m2) fls' RG C2 C5 C6 RC4).
    - split; [|split].
      + intros c HR. destruct (obj_cell _ _ _ _ _ HK c HR) as [Hc _]. fold ao in Hc.
        pose proof (proj2 (RA4 c Hc) HR) as Hmk. split; [exact (A7 c Hc Hmk)|].
        assert (Hh : hdr c) by (left; exact HR). destruct (hdr_m2 c Hh) as (w & Hw).
        rewrite (M5o c (Oa c Hc)). rewrite (proj1 (A10 c w Hc Hmk Hw)). exact (restored c w Hh Hw).
      + intros c HR. destruct (prop_cell _ _ _ HP1 c HR) as [Hc _].
        pose proof (proj2 (RB4 c Hc) HR) as Hmk. split; [exact (B7 c Hc Hmk)|].
        assert (Hh : hdr c) by (right; left; exact HR). destruct (hdr_m2 c Hh) as (w & Hw).
        rewrite (M5p c (Pa c Hc)). rewrite (proj1 (B10 c w Hc Hmk (eq_trans (M3p c (Pa c Hc)) Hw))). exact (restored c w Hh Hw).
      + intros c HR. destruct (sig_cell _ _ _ _ _ HK c HR) as [Hc _]. fold asg in Hc.
        pose proof (proj2 (RC4 c Hc) HR) as Hmk. split; [exact (C7 c Hc Hmk)|].
        assert (Hh : hdr c) by (right; right; exact HR). destruct (hdr_m2 c Hh) as (w & Hw).
        destruct (C10 c w Hc Hmk (eq_trans (M4g c (Ga c Hc)) Hw)) as [D1 D2].
        intros k Hk. destruct (Z.eq_dec k 0) as [->|Hk0].
        * rewrite Z.add_0_r, D1. exact (restored c w Hh Hw).
        * assert (Hina : in_arena asg (c + k)).
          { pose proof Hc as (bl & Hb & Hcb)%cells_in. exists bl. split; [exact Hb|]. apply cell_word; [rewrite csg; lia|exact Hcb|rewrite csg; lia]. }
          rewrite D2 by (rewrite csg; lia). rewrite (M4g _ Hina). apply m2_other.
          -- intros [H|[H|H]].
             ++ exact (Sog _ (Oa _ (proj1 (obj_cell _ _ _ _ _ HK _ H))) Hina).
             ++ exact (Spg _ (Pa _ (proj1 (prop_cell _ _ _ HP1 _ H))) Hina).
             ++ destruct (sig_cell _ _ _ _ _ HK _ H) as [Hc' _]. fold asg in Hc'.
                assert (c + k = c); [|lia].
                apply (cells_sep (a_cs asg) (a_blocks asg) (c + k) c 0 k); try (rewrite csg; lia); try lia; auto.
                exact (ok_disj _ _ _ RC1).
          -- intros v Hs _ _. destruct (slot_where _ _ Hs) as [Hr|(p & Hp & Ha)].
             ++ destruct (h_roots _ _ _ _ _ HK _ Hr) as (_ & _ & _ & _ & N). exact (N Hina).
             ++ destruct (prop_cell _ _ _ HP1 p Hp) as [Hpc _].
                apply (Spg (c + k)); [|exact Hina].
                destruct Ha as [->| ->]; apply (pword_arena _ _ _ _ _ _ HK HP1 HP2); auto; lia.
    - intros a Ha. destruct (slot_where _ _ Ha) as [Hr|(p & Hp & Hap)].
      + destruct (h_roots _ _ _ _ _ HK _ Hr) as (_ & _ & N1 & N2 & N3).
        rewrite C8 by exact N3. rewrite B8 by exact N2. apply A8. exact N1.
      + destruct (prop_cell _ _ _ HP1 p Hp) as [Hc _]. fold ap in Hc.
        pose proof (proj2 (RB4 p Hc) Hp) as Hmk.
        assert (Hh : hdr p) by (right; left; exact Hp). destruct (hdr_m2 p Hh) as (w & Hw).
        destruct (B10 p w Hc Hmk (eq_trans (M3p p (Pa p Hc)) Hw)) as [_ D2].
        assert (Hk : exists k, 0 < k < 24 /\ a = p + k) by (destruct Hap; subst; [exists 8|exists 16]; lia).
        destruct Hk as (k & Hk & ->).
        assert (Hina : in_arena ap (p + k)) by (apply (pword_arena _ _ _ _ _ _ HK HP1 HP2); [exact Hc|lia]).
        rewrite (M5p _ Hina). rewrite D2 by (rewrite csp; lia). exact (M3p _ Hina).
    - split; [|split].
      + intros x H1 H2. rewrite (M5o x H1). exact (A9 x H1 H2).
      + intros x H1 H2. rewrite (M5p x H1). exact (B9 x H1 H2).
      + exact C9.
  Qed.
End Collect.

Lemma kind_str_o v : is_u64 v -> is_str_o v -> ~ objlike v /\ kind_of v <> KFfi.
Proof.
  intros Hu Hs. unfold is_str_o in Hs. split.
  - intros H. apply objlike_hi in H; [lia|exact Hu].
  - intros H. apply ffi_kind_hi in H; [lia|exact Hu].
Qed.
Lemma str_o_em v : is_str_o v \/ ~ is_str_o v.
Proof. unfold is_str_o. lia. Qed.

Lemma collect_spec_dec g ds flo flp fls : heap_ok g ds flo flp fls ->
  exists F, forall f, (F <= f)%nat ->
  exists g' ds' mv flo' flp' fls', mjs_gc f g = OK g' /\ heap_ok g' ds' flo' flp' fls' /\
    keeps_reachable g g' mv /\ frees_unreachable g g' flo' flp' fls' /\ compacts g g' ds ds' mv /\
    (forall pl, reachable g' pl <-> reachable g pl) /\ gc_slots g' = gc_slots g /\
    (forall c, In c (acells (g_obj g)) -> reachable g (Obj c) \/ ~ reachable g (Obj c)) /\
    (forall c, In c (acells (g_prop g)) -> reachable g (Prop_ c) \/ ~ reachable g (Prop_ c)).
Proof.
  intros HK. destruct (h_props _ _ _ _ _ HK) as (props & HP1 & HP2).
  set (slots := gc_slots g ++ map (fun p => p + 8) (acells (g_prop g)) ++ map (fun p => p + 16) (acells (g_prop g))).
  exists (work g props (g_mem g) + 2 + (length slots + length ds + 1) + S (length flo + length flp + length fls))%nat.
  intros f Hf.
  destruct (mark_phase g ds flo flp fls props HK HP1 HP2 f) as (m1 & b1 & T & E1 & HI & HC); [lia|].
  pose proof (h_strs _ _ _ _ _ HK) as Hds.
  assert (HTlen : forall o, (length (T o) <= length slots)%nat).
  { intros o. apply NoDup_incl_length; [exact (i_nodup _ _ _ _ _ _ HI o)|].
    intros a Ha. destruct (i_T _ _ _ _ _ _ HI _ _ Ha) as (Hs & _). unfold slots.
    destruct (slot_where _ _ Hs) as [Hr|(p & Hp & Hap)]; [apply in_or_app; left; exact Hr|].
    destruct (prop_cell _ _ _ HP1 p Hp) as [Hc _]. apply in_or_app. right. apply in_or_app.
    destruct Hap as [->| ->]; [left|right]; apply in_map_iff; exists p; auto. }
  assert (Lds : zlen (chunks ds) + 1 < 2 ^ 31).
  { pose proof (h_strlen _ _ _ _ _ HK) as L. rewrite (h_str _ _ _ _ _ HK) in L. unfold str_heap in L.
    rewrite zlen_app in L. exact L. }
  destruct (compact_spec T ds) with (f := f) (m := m1) (P := @nil Z) (J := @nil Z) (p := 1) (head := 1)
    as (m2 & E2 & HM1 & HM2); auto.
  { exact (i_nodup _ _ _ _ _ _ HI). }
  { intros o a Ha. destruct (i_T _ _ _ _ _ _ HI _ _ Ha) as (Hs & _). exact (slot_aligned _ _ _ _ _ _ HK HP1 HP2 a Hs). }
  { intros o o' a Ha Ha'. destruct (i_T _ _ _ _ _ _ HI _ _ Ha) as (_ & H1 & _).
    destruct (i_T _ _ _ _ _ _ HI _ _ Ha') as (_ & H2 & _). rewrite H1 in H2. apply some_inj in H2. lia. }
  { lia. }
  { intros o d Hd. exact (i_chain _ _ _ _ _ _ HI o d Hd). }
  { intros o. pose proof (HTlen o). lia. }
  cbn [app] in E2. rewrite <- (i_str _ _ _ _ _ _ HI) in E2. fold (str_heap (live T 1 ds)) in E2.
  set (ds' := live T 1 ds) in *. set (mv := moved T 1 1 ds) in *.
  destruct (sweeps_spec g ds flo flp fls props HK HP1 HP2 T m1 m2 b1 HI HC HM1 HM2 f (g_log g)) as
    (m3 & m4 & m5 & ao' & ap' & asg' & l1 & l2 & l3 & flo' & flp' & fls' & E3 & E4 & E5 & SW); [lia|lia|lia|].
  specialize (SW (str_heap ds')).
  set (g' := {| g_mem := m5; g_str := _ |}) in SW.
  exists g', ds', mv, flo', flp', fls'.
  assert (EG : mjs_gc f g = OK g').
  { unfold mjs_gc. rewrite E1. cbn [bind]. unfold gc_compact_strings. rewrite E2. cbn [bind].
    rewrite E3. cbn [bind]. rewrite E4. cbn [bind]. rewrite E5. reflexivity. }
  split; [exact EG|].
  destruct SW as ((AO & AP & AG) & (Co & Cp & Cg) & (Io & Ip & Ig) & (Fo & Fp & Fg) & (Ko & Kp & Kg) & KS & (No & Np & Ng)).
  assert (Hslots : gc_slots g' = gc_slots g) by reflexivity.
  (* slots *)
  assert (Hmv : forall a v, RS g a -> g_mem g a = Some v -> is_str_o v ->
            exists d, str_at ds (addr v) d /\ str_at ds' (mv (addr v)) d /\ 0 <= mv (addr v) < 2 ^ 48 /\ T (addr v) <> []).
  { intros a v Ha Hv Hs. destruct (slot_val _ _ _ _ _ HK a Ha) as (v' & Hv' & _ & (_ & _ & V3)).
    assert (v' = v) by congruence. subst v'. destruct (V3 Hs) as (d & Hd). exists d. split; [exact Hd|].
    assert (HT : T (addr v) <> []).
    { pose proof (proj2 HC a v Ha Hv Hs) as Hin. intros E. rewrite E in Hin. destruct Hin. }
    pose proof (moved_at T ds 1 1 (addr v) d Hd HT) as Hat. split; [exact Hat|]. split; [|exact HT].
    destruct Hat as (x1 & x2 & Ex & Eo). fold ds' in Ex. fold mv in Eo.
    pose proof (live_len T ds 1) as L. fold ds' in L. rewrite Ex in L. rewrite chunks_app, zlen_app in L.
    pose proof (zlen_nonneg (chunks x1)). pose proof (zlen_nonneg (chunks (d :: x2))). lia. }
  assert (Hstr : forall a v, RS g a -> g_mem g a = Some v -> is_str_o v -> m5 a = Some (65528 * 2 ^ 48 + mv (addr v))).
  { intros a v Ha Hv Hs. pose proof (KS a Ha) as E. cbn [g_mem g'] in E. rewrite E.
    exact (m2_str _ _ _ _ _ HK T m1 m2 HC HM1 a v Ha Hv Hs). }
  assert (Hnstr : forall a v, RS g a -> g_mem g a = Some v -> ~ is_str_o v -> m5 a = Some v).
  { intros a v Ha Hv Hs. pose proof (KS a Ha) as E. cbn [g_mem g'] in E. rewrite E.
    rewrite (m2_other _ _ _ T m1 m2 b1 HI HM2 a); [exact Hv| |].
    - intros Hh. exact (slot_not_hdr _ _ _ _ _ _ HK HP1 HP2 a Ha Hh).
    - intros u _ Hu. congruence. }
  (* reachability *)
  assert (Hsame : forall pl, reach m5 (gc_slots g) pl <-> reach (g_mem g) (gc_slots g) pl).
  { intros pl. split; intros H.
    - induction H as [a Ha|a v Ha IH Hm Hk|a v Ha IH Hm Hk|o p Ho IH Hm Hp|p q Hp IH Hm Hq|p Hp IH|p Hp IH].
      + apply r_root. exact Ha.
      + destruct (slot_val _ _ _ _ _ HK a IH) as (v0 & Hv0 & Hu & _). destruct (str_o_em v0) as [Hs|Hs].
        * rewrite (Hstr a v0 IH Hv0 Hs) in Hm. apply some_inj in Hm. subst v.
          destruct (Hmv a v0 IH Hv0 Hs) as (d & _ & _ & Hr & _).
          exfalso. exact (proj1 (kind_str_o _ (u64_str _ Hr) (proj1 (str_hi _ Hr))) Hk).
        * rewrite (Hnstr a v0 IH Hv0 Hs) in Hm. apply some_inj in Hm. subst v. exact (r_obj _ _ a v0 IH Hv0 Hk).
      + destruct (slot_val _ _ _ _ _ HK a IH) as (v0 & Hv0 & Hu & _). destruct (str_o_em v0) as [Hs|Hs].
        * rewrite (Hstr a v0 IH Hv0 Hs) in Hm. apply some_inj in Hm. subst v.
          destruct (Hmv a v0 IH Hv0 Hs) as (d & _ & _ & Hr & _).
          exfalso. exact (proj2 (kind_str_o _ (u64_str _ Hr) (proj1 (str_hi _ Hr))) Hk).
        * rewrite (Hnstr a v0 IH Hv0 Hs) in Hm. apply some_inj in Hm. subst v. exact (r_sig _ _ a v0 IH Hv0 Hk).
      + destruct (Ko o IH) as [_ E]. cbn [g_mem g'] in E. rewrite E in Hm. exact (r_first _ _ o p IH Hm Hp).
      + destruct (Kp p IH) as [_ E]. cbn [g_mem g'] in E. rewrite E in Hm. exact (r_next _ _ p q IH Hm Hq).
      + apply r_name. exact IH.
      + apply r_val. exact IH.
    - induction H as [a Ha|a v Ha IH Hm Hk|a v Ha IH Hm Hk|o p Ho IH Hm Hp|p q Hp IH Hm Hq|p Hp IH|p Hp IH].
      + apply r_root. exact Ha.
      + destruct (slot_val _ _ _ _ _ HK a Ha) as (v0 & Hv0 & Hu & _). assert (v0 = v) by congruence. subst v0.
        destruct (str_o_em v) as [Hs|Hs]; [exfalso; exact (proj1 (kind_str_o v Hu Hs) Hk)|].
        exact (r_obj _ _ a v IH (Hnstr a v Ha Hm Hs) Hk).
      + destruct (slot_val _ _ _ _ _ HK a Ha) as (v0 & Hv0 & Hu & _). assert (v0 = v) by congruence. subst v0.
        destruct (str_o_em v) as [Hs|Hs]; [exfalso; exact (proj2 (kind_str_o v Hu Hs) Hk)|].
        exact (r_sig _ _ a v IH (Hnstr a v Ha Hm Hs) Hk).
      + destruct (Ko o Ho) as [_ E]. cbn [g_mem g'] in E. rewrite <- E in Hm. exact (r_first _ _ o p IH Hm Hp).
      + destruct (Kp p Hp) as [_ E]. cbn [g_mem g'] in E. rewrite <- E in Hm. exact (r_next _ _ p q IH Hm Hq).
      + apply r_name. exact IH.
      + apply r_val. exact IH. }
  assert (Ino : forall x, in_arena (g_obj g') x -> in_arena (g_obj g) x).
  { intros x (bl & Hb & Hx). rewrite Co in Hx. exists bl. split; [exact (Io bl Hb)|exact Hx]. }
  assert (Inp : forall x, in_arena (g_prop g') x -> in_arena (g_prop g) x).
  { intros x (bl & Hb & Hx). rewrite Cp in Hx. exists bl. split; [exact (Ip bl Hb)|exact Hx]. }
  assert (Ing : forall x, in_arena (g_sig g') x -> in_arena (g_sig g) x).
  { intros x (bl & Hb & Hx). rewrite Cg in Hx. exists bl. split; [exact (Ig bl Hb)|exact Hx]. }
  assert (Ntidy : forall a a0 fl0 fl (Rc : Z -> Prop), arena_ok m5 a fl -> incl (a_blocks a) (a_blocks a0) -> a_cs a = a_cs a0 ->
            tidy (g_mem g) a0 fl0 -> (forall c, In c fl <-> In c (acells a) /\ ~ Rc c) ->
            (forall c, In c (acells a0) -> Rc c \/ ~ Rc c) ->
            (forall c, Rc c -> ~ In c fl0 /\ m5 c = g_mem g c) -> tidy m5 a fl).
  { intros a a0 fl0 fl Rc Hok Hinc Hcs Ht Hfl Hem HR c Hc Hni.
    assert (Hc0 : In c (acells a0)).
    { unfold acells, cells in *. rewrite Hcs in Hc. apply in_flat_map in Hc. destruct Hc as (bl & Hb & Hcb).
      apply in_flat_map. exists bl. split; [exact (Hinc bl Hb)|exact Hcb]. }
    destruct (Hem c Hc0) as [HRc|HRn].
    - destruct (HR c HRc) as [Hnf E]. rewrite E. exact (Ht c Hc0 Hnf).
    - exfalso. apply Hni, Hfl. auto. }
  assert (Eo : forall c, In c (acells (g_obj g)) -> RO g c \/ ~ RO g c).
  { intros c Hc. pose proof (proj2 (proj2 (proj2 (ready_obj g ds flo flp fls props HK HP1 HP2 T m1 m2 b1 HI HC HM1 HM2))) c Hc) as X.
    destruct (mkb m2 c); [left; apply X; reflexivity|right; intros H; apply X in H; discriminate H]. }
  assert (Ep : forall c, In c (acells (g_prop g)) -> RP g c \/ ~ RP g c).
  { intros c Hc. pose proof (proj2 (proj2 (proj2 (ready_prop g ds flo flp fls props HK HP1 HP2 T m1 m2 b1 HI HC HM1 HM2))) c Hc) as X.
    destruct (mkb m2 c); [left; apply X; reflexivity|right; intros H; apply X in H; discriminate H]. }
  assert (Eg : forall c, In c (acells (g_sig g)) -> RG g c \/ ~ RG g c).
  { intros c Hc. pose proof (proj2 (proj2 (proj2 (ready_sig g ds flo flp fls props HK HP1 HP2 T m1 m2 b1 HI HC HM1 HM2))) c Hc) as X.
    destruct (mkb m2 c); [left; apply X; reflexivity|right; intros H; apply X in H; discriminate H]. }
  destruct (h_tidy _ _ _ _ _ HK) as (To & Tp & Tg). destruct (h_cs _ _ _ _ _ HK) as (cso & csp & csg).
  split; [|split; [|split; [|split; [|split; [|split; [|split; [exact Eo|exact Ep]]]]]]].
  - constructor.
    + exact AO.
    + exact AP.
    + exact AG.
    + rewrite Co, Cp, Cg. auto.
    + split; [|split].
      * apply (Ntidy _ (g_obj g) flo _ (RO g) AO Io Co To Fo Eo).
        intros c HR. split; [exact (proj2 (obj_cell _ _ _ _ _ HK c HR))|exact (proj2 (Ko c HR))].
      * apply (Ntidy _ (g_prop g) flp _ (RP g) AP Ip Cp Tp Fp Ep).
        intros c HR. split; [exact (proj2 (prop_cell _ _ _ HP1 c HR))|exact (proj2 (Kp c HR))].
      * apply (Ntidy _ (g_sig g) fls _ (RG g) AG Ig Cg Tg Fg Eg).
        intros c HR. split; [exact (proj2 (sig_cell _ _ _ _ _ HK c HR))|].
        pose proof (proj2 (Kg c HR) 0 ltac:(lia)) as E. rewrite Z.add_0_r in E. exact E.
    + intros x. destruct (h_sep _ _ _ _ _ HK x) as (S1 & S2 & S3). split; [|split]; auto.
    + reflexivity.
    + rewrite Forall_forall in *. intros d Hd. apply Hds. exact (live_incl T ds 1 d Hd).
    + change (g_str g') with (str_heap ds'). unfold str_heap. rewrite zlen_app. change (zlen [0]) with 1.
      pose proof (live_len T ds 1) as L. fold ds' in L. lia.
    + intros a Ha. rewrite Hslots in Ha. destruct (h_roots _ _ _ _ _ HK a Ha) as (R1 & R2 & R3 & R4 & R5).
      split; [exact R1|]. split; [exact R2|]. split; [|split]; intros Hx; auto.
    + intros a Ha. change (reach m5 (gc_slots g) (Slot a)) in Ha. apply Hsame in Ha.
      destruct (slot_val _ _ _ _ _ HK a Ha) as (v & Hv & Hu & (V1 & V2 & V3)). destruct (str_o_em v) as [Hs|Hs].
      * destruct (Hmv a v Ha Hv Hs) as (d & D1 & D2 & Hr & _).
        exists (65528 * 2 ^ 48 + mv (addr v)). split; [exact (Hstr a v Ha Hv Hs)|]. split; [exact (u64_str _ Hr)|].
        destruct (str_hi _ Hr) as [K1 K2]. destruct (kind_str_o _ (u64_str _ Hr) K1) as [K3 K4].
        split; [contradiction|]. split; [contradiction|]. intros _. exists d. rewrite K2. exact D2.
      * exists v. split; [exact (Hnstr a v Ha Hv Hs)|]. split; [exact Hu|]. split; [|split].
        -- intros H. pose proof (r_obj _ _ a v Ha Hv H) as HR. destruct (Ko _ HR) as [K1 K2]. split; [exact K1|].
           intros X. apply Fo in X. exact (proj2 X HR).
        -- intros H. pose proof (r_sig _ _ a v Ha Hv H) as HR. destruct (Kg _ HR) as [K1 K2]. split; [exact K1|].
           intros X. apply Fg in X. exact (proj2 X HR).
        -- contradiction.
    + exists props. split.
      * intros o Ho. change (reach m5 (gc_slots g) (Obj o)) in Ho. apply Hsame in Ho.
        destruct (HP1 o Ho) as (p & Hp & F & Hq). exists p.
        assert (HRp : forall q, In q (props o) -> RP g q) by (intros q Hin; exact (props_reach _ _ _ HP1 o q Ho Hin)).
        split; [exact (eq_trans (proj2 (Ko o Ho)) Hp)|]. split.
        -- apply (flist_frame (g_mem g)); [exact F|]. intros q Hin. exact (proj2 (Kp q (HRp q Hin))).
        -- intros q Hin. split; [exact (proj1 (Kp q (HRp q Hin)))|]. intros X. apply Fp in X. exact (proj2 X (HRp q Hin)).
      * intros o1 o2 q H1 H2. change (reach m5 (gc_slots g) (Obj o1)) in H1. change (reach m5 (gc_slots g) (Obj o2)) in H2.
        apply Hsame in H1, H2. exact (HP2 o1 o2 q H1 H2).
  - split; [exact Ko|]. split; [exact Kp|]. split; [exact Kg|]. intros a v Ha Hv. split; intros Hs.
    + exact (Hstr a v Ha Hv Hs).
    + exact (Hnstr a v Ha Hv Hs).
  - split; [exact Fo|]. split; [exact Fp|]. split; [exact Fg|]. split; [exact Io|]. split; [exact Ip|].
    split; [exact Ig|]. split; [exact No|]. split; [exact Np|exact Ng].
  - split; [|split; [|split]].
    + intros a v d Ha Hv Hs Hd. apply (moved_at T ds 1 1 (addr v) d Hd).
      destruct (Hmv a v Ha Hv Hs) as (_ & _ & _ & _ & HT). exact HT.
    + intros o' d Hd. destruct (moved_from T ds 1 1 o' d Hd) as (o & HT & Hat & Hm).
      destruct (T o) as [|a l] eqn:ET; [contradiction|].
      assert (Hin : In a (T o)) by (rewrite ET; left; reflexivity).
      destruct (i_T _ _ _ _ _ _ HI _ _ Hin) as (Hs & Hv & Ho). destruct (str_hi o Ho) as [K1 K2].
      exists a, (65528 * 2 ^ 48 + o). rewrite K2. auto.
    + intros a1 v1 a2 v2 H1 V1 S1 H2 V2 S2 Hlt.
      destruct (Hmv a1 v1 H1 V1 S1) as (d1 & D1 & _ & _ & T1). destruct (Hmv a2 v2 H2 V2 S2) as (d2 & D2 & _ & _ & T2).
      exact (moved_mono T ds 1 1 _ d1 _ d2 D1 D2 T1 T2 Hlt).
    + rewrite (h_str _ _ _ _ _ HK). change (g_str g') with (str_heap ds'). unfold str_heap. rewrite !zlen_app.
      pose proof (live_len T ds 1) as L. fold ds' in L. lia.
  - exact Hsame.
  - exact Hslots.
Qed.
Lemma collect_spec g ds flo flp fls : heap_ok g ds flo flp fls ->
  exists F, forall f, (F <= f)%nat ->
  exists g' ds' mv flo' flp' fls', mjs_gc f g = OK g' /\ heap_ok g' ds' flo' flp' fls' /\
    keeps_reachable g g' mv /\ frees_unreachable g g' flo' flp' fls' /\ compacts g g' ds ds' mv /\
    (forall pl, reachable g' pl <-> reachable g pl) /\ gc_slots g' = gc_slots g.
Proof.
  intros HK. destruct (collect_spec_dec g ds flo flp fls HK) as (F & HF). exists F. intros f Hf.
  destruct (HF f Hf) as (g' & ds' & mv & flo' & flp' & fls' & H1 & H2 & H3 & H4 & H5 & H6 & H7 & _).
  exists g', ds', mv, flo', flp', fls'. auto 10.
Qed.

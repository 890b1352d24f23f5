From Verif Require Import Base BaseFacts Value_Model Value_Spec Str_Model Gc_Model Gc_Spec Gc_Proofs Gc_Proofs2 Gc_Proofs3 Gc_Proofs4 Gc_Proofs5 Gc_Log Gc_Fuel Destroy_Model Destroy_Spec.
From Coq Require Import ZifyBool.
Ltac Zify.zify_post_hook ::= Z.div_mod_to_equations.

Lemma land1_mod w : 0 <= w -> (Z.land w 1 =? 0) = (w mod 2 =? 0).
Proof. intros H. rewrite land1 by exact H. reflexivity. Qed.
Lemma left_list m fl (mk : Z -> bool) l : NoDup l ->
  (forall c, In c l -> ~ In c fl -> exists w, m c = Some w /\ 0 <= w /\ w mod 4 = (if mk c then 1 else 0)) ->
  exists cs, NoDup cs /\ (forall c, In c cs <-> In c l /\ ~ In c fl /\ mk c = false /\ m c <> Some 0) /\
    Forall2 (fun c w => m c = Some w) cs (flat_map (fun c => if in_dec Z.eq_dec c fl then [] else left_by true m c) l).
Proof.
  induction 1 as [|c l Hn Hd IH]; intros H; [exists []; split; [constructor|split; [cbn; tauto|constructor]]|].
  destruct IH as (cs & C1 & C2 & C3); [intros x Hx; apply H; right; exact Hx|]. cbn [flat_map].
  destruct (in_dec Z.eq_dec c fl) as [Hi|Hni].
  { exists cs. split; [exact C1|]. split; [|exact C3]. intros x. rewrite C2. cbn [In]. split; [tauto|]. intros ([<-|A] & B); tauto. }
  destruct (H c (or_introl eq_refl) Hni) as (w & Hw & H0 & Hm).
  destruct (negb (mk c) && negb (w =? 0)) eqn:K.
  - assert (L : left_by true m c = [w]).
    { unfold left_by. rewrite Hw, land1_mod, land2_zero by lia. destruct (mk c); [discriminate K|]. cbn [negb andb] in K.
      replace (w mod 2 =? 0) with true by lia. replace (w mod 4 <? 2) with true by lia. cbn [negb orb]. destruct (w =? 0); [discriminate K|reflexivity]. }
    rewrite L. exists (c :: cs). split; [constructor; [|exact C1]; rewrite C2; tauto|]. split; [|constructor; [exact Hw|exact C3]].
    intros x. cbn [In]. rewrite C2. split.
    + intros [<-|X]; [|tauto]. split; [left; reflexivity|]. split; [exact Hni|]. destruct (mk c); [discriminate K|]. split; [reflexivity|]. rewrite Hw. intros [= ->]. discriminate K.
    + intros ([<-|X] & Y); [left; reflexivity|right; tauto].
  - assert (L : left_by true m c = []).
    { unfold left_by. rewrite Hw, land1_mod, land2_zero by lia. destruct (mk c); cbn [negb andb] in K.
      - replace (w mod 2 =? 0) with false by lia. reflexivity.
      - destruct (w =? 0); [|discriminate K]. rewrite !orb_true_r. reflexivity. }
    rewrite L. exists cs. split; [exact C1|]. split; [|exact C3]. intros x. rewrite C2. cbn [In]. split; [tauto|].
    intros ([<-|A] & B & C & D); [|tauto]. exfalso. rewrite C in K. cbn [negb andb] in K. apply D. rewrite Hw. f_equal. destruct (w =? 0) eqn:Z0; [lia|discriminate K].
Qed.
Lemma flat_nil {A B} (f : A -> list B) l : (forall x, f x = []) -> flat_map f l = [].
Proof. intros H. induction l as [|x l IH]; [reflexivity|]. cbn [flat_map]. rewrite H, IH. reflexivity. Qed.
Lemma left_none m c : left_by false m c = [].
Proof. unfold left_by. destruct (m c); [|reflexivity]. cbn [negb]. rewrite orb_true_r. reflexivity. Qed.
Lemma sweep_log_none m a fl f log m' a' log' : arena_ok m a fl -> (length fl < f)%nat -> a_dtor a = false -> gc_sweep f m a log = OK (m', a', log') -> log' = log.
Proof.
  intros H1 H2 H3 H. rewrite (sweep_log _ _ _ _ _ _ _ _ H1 H2 H), H3. rewrite flat_nil; [apply app_nil_r|]. intros c. rewrite left_none. destruct (in_dec _ _ _); reflexivity.
Qed.
Lemma acells_nodup m a fl : arena_ok m a fl -> NoDup (acells a).
Proof. intros H. apply cells_nodup; [apply (ok_cs _ _ _ H)|apply (ok_disj _ _ _ H)]. Qed.

Lemma unmapped m a fl x : arena_ok m a fl -> m x = None -> ~ in_arena a x.
Proof. intros H E (b & Hb & Hx). pose proof (ok_blocks _ _ _ H) as B. rewrite Forall_forall in B. destruct (B b Hb) as (_ & _ & _ & _ & X). exact (X x Hx E). Qed.

(** * Collections *)
Lemma collection_log g ds flo flp fls : heap_ok g ds flo flp fls -> dtors g -> exists F, forall f, (F <= f)%nat -> exists g' ws ds' mv flo' flp' fls',
  mjs_gc f g = OK g' /\ g_log g' = g_log g ++ ws /\ blocks_of (g_mem g) (fun c => in_use g fls c /\ ~ reachable g (Sig c)) ws /\
  heap_ok g' ds' flo' flp' fls' /\ keeps_reachable g g' mv /\ frees_unreachable g g' flo' flp' fls' /\ dtors g' /\
  (forall c, In c (acells (g_sig g)) -> reachable g (Sig c) \/ ~ reachable g (Sig c)) /\
  (forall x, g_mem g x = None -> g_mem g' x = None).
Proof.
  intros HK (Do & Dp & Dg). destruct (collect_spec_dec g ds flo flp fls HK) as (F0 & HF0). destruct (h_props _ _ _ _ _ HK) as (props & HP1 & HP2).
  set (slots := gc_slots g ++ map (fun p => p + 8) (acells (g_prop g)) ++ map (fun p => p + 16) (acells (g_prop g))).
  exists (F0 + (work g props (g_mem g) + 2 + (length slots + length ds + 1) + S (length flo + length flp + length fls)))%nat.
  intros f Hf. destruct (HF0 f ltac:(lia)) as (g' & ds' & mv & flo' & flp' & fls' & EG & G1 & G2 & G3 & _). clear HF0.
  destruct (mark_phase g ds flo flp fls props HK HP1 HP2 f) as (m1 & b1 & T & E1 & HI & HC); [lia|].
  pose proof (h_strs _ _ _ _ _ HK) as Hds.
  assert (HTlen : forall o, (length (T o) <= length slots)%nat).
  { intros o. apply NoDup_incl_length; [exact (i_nodup _ _ _ _ _ _ HI o)|].
    intros a Ha. destruct (i_T _ _ _ _ _ _ HI _ _ Ha) as (Hs & _). unfold slots.
    destruct (slot_where _ _ Hs) as [Hr|(p & Hp & Hap)]; [apply in_or_app; left; exact Hr|].
    destruct (prop_cell _ _ _ HP1 p Hp) as [Hc _]. apply in_or_app. right. apply in_or_app.
    destruct Hap as [->| ->]; [left|right]; apply in_map_iff; exists p; auto. }
  assert (Lds : zlen (chunks ds) + 1 < 2 ^ 31).
  { pose proof (h_strlen _ _ _ _ _ HK) as L. rewrite (h_str _ _ _ _ _ HK) in L. unfold str_heap in L.
    rewrite zlen_app in L. exact L. }
  destruct (compact_spec T ds) with (f := f) (m := m1) (P := @nil Z) (J := @nil Z) (p := 1) (head := 1)
    as (m2 & E2 & HM1 & HM2); auto.
  { exact (i_nodup _ _ _ _ _ _ HI). }
  { intros o a Ha. destruct (i_T _ _ _ _ _ _ HI _ _ Ha) as (Hs & _). exact (slot_aligned _ _ _ _ _ _ HK HP1 HP2 a Hs). }
  { intros o o' a Ha Ha'. destruct (i_T _ _ _ _ _ _ HI _ _ Ha) as (_ & H1 & _).
    destruct (i_T _ _ _ _ _ _ HI _ _ Ha') as (_ & H2 & _). rewrite H1 in H2. apply some_inj in H2. lia. }
  { lia. }
  { intros o d Hd. exact (i_chain _ _ _ _ _ _ HI o d Hd). }
  { intros o. pose proof (HTlen o). lia. }
  cbn [app] in E2. rewrite <- (i_str _ _ _ _ _ _ HI) in E2. fold (str_heap (live T 1 ds)) in E2.
  destruct (ready_obj g ds flo flp fls props HK HP1 HP2 T m1 m2 b1 HI HC HM1 HM2) as (RA1 & RA2 & RA3 & RA4).
  destruct (ready_prop g ds flo flp fls props HK HP1 HP2 T m1 m2 b1 HI HC HM1 HM2) as (RB1 & RB2 & RB3 & RB4).
  destruct (ready_sig g ds flo flp fls props HK HP1 HP2 T m1 m2 b1 HI HC HM1 HM2) as (RC1 & RC2 & RC3 & RC4).
  pose proof (fun x => sepop _ _ _ _ _ HK x) as Sop. pose proof (fun x => sepog _ _ _ _ _ HK x) as Sog. pose proof (fun x => seppg _ _ _ _ _ HK x) as Spg.
  pose proof (pcell_arena _ _ _ _ _ _ HK HP1 HP2) as Pa. pose proof (gcell_arena _ _ _ _ _ _ HK HP1 HP2) as Ga.
  destruct (sweep_spec m2 (g_obj g) flo (mkb m2) f (g_log g) RA1 ltac:(lia) RA2 RA3) as (m3 & ao' & l1 & flo1 & S1 & A1 & A2 & A3 & A4 & A5 & A6 & A7 & A8 & A9 & A10).
  assert (M3p : forall x, in_arena (g_prop g) x -> m3 x = m2 x) by (intros x Hx; apply A8; intros Hy; exact (Sop x Hy Hx)).
  assert (M3g : forall x, in_arena (g_sig g) x -> m3 x = m2 x) by (intros x Hx; apply A8; intros Hy; exact (Sog x Hy Hx)).
  assert (OP : arena_ok m3 (g_prop g) flp) by (apply (arena_ok_frame m2); [exact RB1|exact M3p]).
  destruct (sweep_spec m3 (g_prop g) flp (mkb m2) f l1 OP ltac:(lia)) as (m4 & ap' & l2 & flp1 & S2 & B1 & B2 & B3 & B4 & B5 & B6 & B7 & B8 & B9 & B10); [|exact RB3|].
  { intros c Hc Hni. rewrite M3p by (apply Pa; exact Hc). exact (RB2 c Hc Hni). }
  assert (M4g : forall x, in_arena (g_sig g) x -> m4 x = m2 x).
  { intros x Hx. rewrite B8 by (intros Hy; exact (Spg x Hy Hx)). exact (M3g x Hx). }
  assert (OG : arena_ok m4 (g_sig g) fls) by (apply (arena_ok_frame m2); [exact RC1|exact M4g]).
  unfold mjs_gc in EG. rewrite E1 in EG. cbn [bind] in EG. unfold gc_compact_strings in EG. rewrite E2 in EG. cbn [bind] in EG. rewrite S1 in EG. cbn [bind] in EG.
  rewrite S2 in EG. cbn [bind] in EG. destruct (sweep_spec m4 (g_sig g) fls (mkb m2) f l2 OG ltac:(lia)) as (m5 & asg' & l3 & fls1 & S3 & _ & _ & _ & D4 & _ & _ & _ & D8 & _); [|exact RC3|].
  { intros c Hc Hni. rewrite M4g by (apply Ga; exact Hc). exact (RC2 c Hc Hni). }
  rewrite S3 in EG. cbn [bind] in EG. injection EG as <-.
  assert (N1 : (length flo < f)%nat) by lia. assert (N2 : (length flp < f)%nat) by lia. assert (N3 : (length fls < f)%nat) by lia.
  pose proof (sweep_log_none _ _ _ _ _ _ _ _ RA1 N1 Do S1) as L1. pose proof (sweep_log_none _ _ _ _ _ _ _ _ OP N2 Dp S2) as L2.
  pose proof (sweep_log _ _ _ _ _ _ _ _ OG N3 S3) as L3. rewrite Dg in L3. subst l1 l2.
  destruct (left_list m4 fls (mkb m2) (acells (g_sig g)) (acells_nodup _ _ _ OG)) as (cs & C1 & C2 & C3).
  { intros c Hc Hni. rewrite M4g by (apply Ga; exact Hc). exact (RC2 c Hc Hni). }
  eexists. eexists. exists ds', mv, flo', flp', fls'. split; [unfold mjs_gc; rewrite E1; cbn [bind]; unfold gc_compact_strings; rewrite E2; cbn [bind]; rewrite S1; cbn [bind]; rewrite S2; cbn [bind]; rewrite S3; reflexivity|].
  assert (Same : forall c, In c (acells (g_sig g)) -> ~ reachable g (Sig c) -> m4 c = g_mem g c).
  { intros c Hc Hr. rewrite M4g by (apply Ga; exact Hc). apply (m2_other g ds props T m1 m2 b1 HI HM2).
    - intros [H|[H|H]]; [| |exact (Hr H)].
      + exact (sepog _ _ _ _ _ HK c (ocell_arena _ _ _ _ _ _ HK HP1 HP2 c (proj1 (obj_cell _ _ _ _ _ HK c H))) (gcell_arena _ _ _ _ _ _ HK HP1 HP2 c Hc)).
      + exact (seppg _ _ _ _ _ HK c (pcell_arena _ _ _ _ _ _ HK HP1 HP2 c (proj1 (prop_cell _ _ _ HP1 c H))) (gcell_arena _ _ _ _ _ _ HK HP1 HP2 c Hc)).
    - intros v Hs. exfalso. exact (slot_not_cell _ _ _ _ _ _ HK HP1 HP2 c Hs (or_intror (or_intror Hc))). }
  assert (Un : forall c, In c (acells (g_sig g)) -> (mkb m2 c = false <-> ~ reachable g (Sig c))).
  { intros c Hc. specialize (RC4 c Hc). unfold RG in RC4. fold (reachable g) in RC4. destruct (mkb m2 c); split; intros X; try discriminate X.
    - exfalso. apply X, RC4. reflexivity.
    - intros Y. apply RC4 in Y. discriminate Y.
    - reflexivity. }
  assert (Non : forall x, g_mem g x = None -> m5 x = None).
  { intros x Hx.
    assert (No : ~ in_arena (g_obj g) x) by exact (unmapped _ _ _ _ (h_obj _ _ _ _ _ HK) Hx).
    assert (Np : ~ in_arena (g_prop g) x) by exact (unmapped _ _ _ _ (h_prop _ _ _ _ _ HK) Hx).
    assert (Ng : ~ in_arena (g_sig g) x) by exact (unmapped _ _ _ _ (h_sig _ _ _ _ _ HK) Hx).
    rewrite D8 by exact Ng. rewrite B8 by exact Np. rewrite A8 by exact No. rewrite <- Hx. apply (m2_other g ds props T m1 m2 b1 HI HM2).
    - intros [H|[H|H]].
      + exact (No (ocell_arena _ _ _ _ _ _ HK HP1 HP2 x (proj1 (obj_cell _ _ _ _ _ HK x H)))).
      + exact (Np (Pa x (proj1 (prop_cell _ _ _ HP1 x H)))).
      + inversion H as [| |a v Hs Hm Hk| | | |]; subst. destruct (h_slot _ _ _ _ _ HK a Hs) as (v' & Ev & _ & _ & V & _).
        rewrite Hm in Ev. injection Ev as <-. exact (Ng (Ga _ (proj1 (V Hk)))).
    - intros v Hs. exfalso. destruct (h_slot _ _ _ _ _ HK x Hs) as (v' & Ev & _). rewrite Hx in Ev. discriminate Ev. }
  split; [exact L3|]. split; [|split; [exact G1|split; [exact G2|split; [exact G3|split; [|split]]]]];
    [|split; [rewrite <- Do; exact A4|split; [rewrite <- Dp; exact B4|rewrite <- Dg; exact D4]]|
     intros c Hc; specialize (Un c Hc); specialize (RC4 c Hc); destruct (mkb m2 c); [left; apply RC4; reflexivity|right; apply Un; reflexivity]|cbn [g_mem]; exact Non].
  exists cs. split; [exact C1|]. split.
  - intros c. rewrite C2. unfold in_use. split.
    + intros (X1 & X2 & X3 & X4). apply (Un c X1) in X3. rewrite (Same c X1 X3) in X4. auto.
    + intros (((X1 & X2) & X3) & X4). rewrite (Same c X1 X3). split; [exact X1|]. split; [exact X2|]. split; [apply (Un c X1), X3|exact X4].
  - assert (Z1 : forall c, In c cs -> m4 c = g_mem g c).
    { intros c Hc. apply C2 in Hc. destruct Hc as (X1 & X2 & X3 & X4). apply Same; [exact X1|]. apply (Un c X1), X3. }
    clear -C3 Z1. induction C3 as [|c w cs ws Q C3 IH]; constructor; [rewrite <- Z1; [exact Q|left; reflexivity]|]. apply IH. intros x Hx. apply Z1. right. exact Hx.
Qed.

(** * The end *)
Lemma free_blocks_ok cs : 0 < cs -> forall bs m, Forall (block_ok cs m) bs -> ForallOrdPairs (disjoint_blocks cs) bs ->
  exists m', free_blocks m cs bs = OK m' /\ (forall x, in_blocks cs bs x -> m' x = None) /\ (forall x, ~ in_blocks cs bs x -> m' x = m x).
Proof.
  intros Hcs. induction bs as [|bl bs IH]; intros m HB HD.
  { exists m. split; [reflexivity|]. split; [intros x (b & [] & _)|auto]. }
  pose proof (Forall_inv HB) as (B1 & B2 & B3 & B4 & B5). inversion HD as [|? ? D1 D2]; subst. rewrite Forall_forall in D1.
  cbn [free_blocks]. unfold gc_free_block. assert (I0 : in_block cs bl (fst bl)) by (unfold in_block; nia).
  destruct (m (fst bl)) as [w|] eqn:E; [|exfalso; exact (B5 _ I0 E)]. cbn [bind].
  destruct (IH (setr m (fst bl) (cs * snd bl) None)) as (m' & E1 & E2 & E3).
  - apply Forall_forall. intros b Hb. pose proof (Forall_inv_tail HB) as HT. rewrite Forall_forall in HT. destruct (HT b Hb) as (X1 & X2 & X3 & X4 & X5).
    split; [exact X1|]. split; [exact X2|]. split; [exact X3|]. split; [exact X4|]. intros x Hx. rewrite setr_out; [apply X5, Hx|]. intros Y. exact (D1 b Hb x Y Hx).
  - exact D2.
  - exists m'. split; [exact E1|]. split.
    + intros x (b & [<-|Hb] & Hx).
      * rewrite E3; [apply setr_in; exact Hx|]. intros (b' & Hb' & Hx'). exact (D1 b' Hb' x Hx Hx').
      * apply E2. exists b. auto.
    + intros x Hx. rewrite E3; [apply setr_out; intros Y; apply Hx; exists bl; split; [left; reflexivity|exact Y]|]. intros (b & Hb & Y). apply Hx. exists b. split; [right; exact Hb|exact Y].
Qed.
Lemma arena_dec a x : in_arena a x \/ ~ in_arena a x.
Proof.
  unfold in_arena, in_blocks. induction (a_blocks a) as [|b l IH]; [right; intros (b & [] & _)|].
  destruct IH as [(b' & H1 & H2)|N]; [left; exists b'; split; [right; exact H1|exact H2]|].
  destruct (Z_le_dec (fst b) x), (Z_lt_dec x (fst b + a_cs a * snd b)); [left; exists b; split; [left; reflexivity|split; assumption]| | |];
    right; intros (b' & [<-|H1] & H2); try (destruct H2; contradiction); apply N; exists b'; auto.
Qed.
Lemma arena_destroy_ok f m a fl log : arena_ok m a fl -> tidy m a fl -> (length fl < f)%nat ->
  exists m', gc_arena_destroy f m a log = OK (m', log ++ flat_map (fun c => if in_dec Z.eq_dec c fl then [] else left_by (a_dtor a) m c) (acells a)) /\
    (forall x, in_arena a x -> m' x = None) /\ (forall x, ~ in_arena a x -> m' x = m x).
Proof.
  intros HA HT Hf. unfold gc_arena_destroy. destruct (a_blocks a) as [|b0 bs0] eqn:EB.
  { exists m. unfold acells, cells. rewrite EB. cbn [flat_map]. rewrite app_nil_r. split; [reflexivity|]. split; [|auto]. intros x (b & Hb & _). rewrite EB in Hb. destruct Hb. }
  clear EB b0 bs0. destruct (sweep_spec m a fl (fun _ => false) f log HA Hf) as (m1 & a1 & l1 & fl1 & E & A1 & A2 & A3 & A4 & A5 & A6 & A7 & A8 & A9 & _).
  { intros c Hc Hn. destruct (HT c Hc Hn) as (w & W1 & W2 & W3). exists w. auto. }
  { reflexivity. }
  rewrite E. cbn [bind]. pose proof (ok_cs _ _ _ HA) as [Hcs _].
  destruct (free_blocks_ok (a_cs a1) ltac:(lia) (a_blocks a1) m1 (ok_blocks _ _ _ A1) (ok_disj _ _ _ A1)) as (m2 & E2 & F1 & F2).
  rewrite E2. cbn [bind]. exists m2. split; [rewrite (sweep_log _ _ _ _ _ _ _ _ HA Hf E); reflexivity|].
  assert (Sub : forall x, in_arena a1 x -> in_arena a x).
  { intros x (b & Hb & Hx). rewrite A2 in Hx. exists b. split; [|exact Hx]. rewrite A5 in Hb. exact (kept_incl _ _ _ _ Hb). }
  split.
  - intros x Hx. destruct (arena_dec a1 x) as [H|H]; [apply F1, H|]. rewrite F2 by exact H. apply A9; assumption.
  - intros x Hx. rewrite F2 by (intros H; exact (Hx (Sub x H))). apply A8, Hx.
Qed.

Lemma acells_in_arena m a fl c : arena_ok m a fl -> In c (acells a) -> in_arena a c.
Proof. intros H. apply cells_in_blocks, (ok_cs _ _ _ H). Qed.
Lemma tidy_frame m m' a fl : arena_ok m a fl -> tidy m a fl -> (forall x, in_arena a x -> m' x = m x) -> tidy m' a fl.
Proof. intros HA H E c Hc Hn. destruct (H c Hc Hn) as (w & W). exists w. rewrite E; [exact W|]. exact (acells_in_arena _ _ _ _ HA Hc). Qed.
Lemma destroy_ok g ds flo flp fls f : heap_ok g ds flo flp fls -> dtors g -> (length flo + length flp + length fls < f)%nat ->
  exists m' ws, mjs_destroy f g = OK (m', g_log g ++ ws) /\ blocks_of (g_mem g) (in_use g fls) ws /\
    (forall x, in_any g x -> m' x = None) /\ (forall x, ~ in_any g x -> m' x = g_mem g x).
Proof.
  intros HK (Do & Dp & Dg) Hf. destruct (h_tidy _ _ _ _ _ HK) as (To & Tp & Tg).
  pose proof (h_obj _ _ _ _ _ HK) as Oo. pose proof (h_prop _ _ _ _ _ HK) as Op. pose proof (h_sig _ _ _ _ _ HK) as Og.
  pose proof (h_sep _ _ _ _ _ HK) as Sep.
  unfold mjs_destroy. destruct (arena_destroy_ok f (g_mem g) (g_obj g) flo (g_log g) Oo To ltac:(lia)) as (m1 & E1 & A1 & A2).
  rewrite E1. cbn [bind]. rewrite Do, flat_nil, app_nil_r by (intros c; rewrite left_none; destruct (in_dec _ _ _); reflexivity).
  assert (P1 : forall x, in_arena (g_prop g) x -> m1 x = g_mem g x) by (intros x Hx; apply A2; intros Y; exact (proj1 (Sep x) Y Hx)).
  assert (G1 : forall x, in_arena (g_sig g) x -> m1 x = g_mem g x) by (intros x Hx; apply A2; intros Y; exact (proj1 (proj2 (Sep x)) Y Hx)).
  destruct (arena_destroy_ok f m1 (g_prop g) flp (g_log g) (arena_ok_frame _ _ _ _ Op P1) (tidy_frame _ _ _ _ Op Tp P1) ltac:(lia)) as (m2 & E2 & B1 & B2).
  rewrite E2. cbn [bind]. rewrite Dp, flat_nil, app_nil_r by (intros c; rewrite left_none; destruct (in_dec _ _ _); reflexivity).
  assert (G2 : forall x, in_arena (g_sig g) x -> m2 x = g_mem g x).
  { intros x Hx. rewrite B2 by (intros Y; exact (proj2 (proj2 (Sep x)) Y Hx)). apply G1, Hx. }
  destruct (arena_destroy_ok f m2 (g_sig g) fls (g_log g) (arena_ok_frame _ _ _ _ Og G2) (tidy_frame _ _ _ _ Og Tg G2) ltac:(lia)) as (m3 & E3 & C1 & C2).
  rewrite E3, Dg. eexists. eexists. split; [reflexivity|].
  assert (GC : forall c, In c (acells (g_sig g)) -> m2 c = g_mem g c) by (intros c Hc; apply G2; exact (acells_in_arena _ _ _ _ Og Hc)).
  split.
  - destruct (left_list m2 fls (fun _ => false) (acells (g_sig g)) (acells_nodup _ _ _ Og)) as (cs & X1 & X2 & X3).
    { intros c Hc Hn. destruct (Tg c Hc Hn) as (w & W). exists w. rewrite GC by exact Hc. exact W. }
    exists cs. split; [exact X1|]. split.
    + intros c. rewrite X2. unfold in_use. split.
      * intros (Y1 & Y2 & _ & Y4). rewrite GC in Y4 by exact Y1. auto.
      * intros ((Y1 & Y2) & Y4). rewrite GC by exact Y1. auto.
    + assert (Z1 : forall c, In c cs -> m2 c = g_mem g c) by (intros c Hc; apply X2 in Hc; apply GC, Hc).
      clear -X3 Z1. induction X3 as [|c w cs ws Q X3 IH]; constructor; [rewrite <- Z1; [exact Q|left; reflexivity]|]. apply IH. intros x Hx. apply Z1. right. exact Hx.
  - split.
    + intros x Hx. destruct (arena_dec (g_sig g) x) as [S|S]; [apply C1, S|]. rewrite C2 by exact S.
      destruct (arena_dec (g_prop g) x) as [P|P]; [apply B1, P|]. rewrite B2 by exact P. apply A1. destruct Hx as [H|[H|H]]; [exact H|contradiction|contradiction].
    + intros x Hx. unfold in_any in Hx. rewrite C2, B2, A2 by tauto. reflexivity.
Qed.

(** * Any number of collections, then the end *)
Lemma sig_in_use g ds flo flp fls c : heap_ok g ds flo flp fls -> reachable g (Sig c) -> in_use g fls c.
Proof.
  intros HK H. inversion H as [| |a v Hs Hm Hk| | | |]; subst. destruct (h_slot _ _ _ _ _ HK a Hs) as (v' & E & _ & _ & V & _).
  rewrite Hm in E. injection E as <-. exact (V Hk).
Qed.
Lemma nodup_app {A} (l k : list A) : NoDup l -> NoDup k -> (forall x, In x l -> In x k -> False) -> NoDup (l ++ k).
Proof.
  induction 1 as [|x l Hn Hd IH]; intros K D; [exact K|]. cbn [app]. constructor.
  - intros H. apply in_app_or in H. destruct H as [H|H]; [exact (Hn H)|exact (D x (or_introl eq_refl) H)].
  - apply IH; [exact K|]. intros y Hy. apply D. right. exact Hy.
Qed.
Lemma lifetime g g' : collections g g' -> forall ds flo flp fls, heap_ok g ds flo flp fls -> dtors g ->
  exists F, forall f, (F <= f)%nat -> exists m' ws, mjs_destroy f g' = OK (m', g_log g ++ ws) /\
    blocks_of (g_mem g) (in_use g fls) ws /\ (forall x, in_any g x -> m' x = None) /\ (forall x, g_mem g x = None -> m' x = None).
Proof.
  induction 1 as [g|g f0 g1 g2 E C IH]; intros ds flo flp fls HK D.
  { exists (S (length flo + length flp + length fls)). intros f Hf. destruct (destroy_ok g ds flo flp fls f HK D ltac:(lia)) as (m' & ws & H1 & H2 & H3 & H4). exists m', ws. split; [exact H1|]. split; [exact H2|]. split; [exact H3|].
    intros x Hx. rewrite H4; [exact Hx|]. intros [Y|[Y|Y]]; [exact (unmapped _ _ _ _ (h_obj _ _ _ _ _ HK) Hx Y)|exact (unmapped _ _ _ _ (h_prop _ _ _ _ _ HK) Hx Y)|exact (unmapped _ _ _ _ (h_sig _ _ _ _ _ HK) Hx Y)]. }
  destruct (collection_log g ds flo flp fls HK D) as (F1 & H1).
  destruct (H1 (F1 + f0)%nat ltac:(lia)) as (g1' & ws1 & ds' & mv & flo' & flp' & fls' & E1 & L1 & B1 & HK1 & KR & FU & D1 & Dec & Non). clear H1.
  pose proof (gc_fuel f0 (F1 + f0) g g1 ltac:(lia) E) as E'. rewrite E1 in E'. injection E' as ->.
  destruct (IH ds' flo' flp' fls' HK1 D1) as (F2 & H2). exists F2. intros f Hf. destruct (H2 f Hf) as (m' & ws2 & X1 & X2 & X3 & X4).
  exists m', (ws1 ++ ws2). rewrite X1, L1, <- app_assoc. split; [reflexivity|].
  destruct KR as (_ & _ & KS & _). destruct FU as (_ & _ & FS & I1 & I2 & I3 & N1 & N2 & N3).
  destruct (h_cs _ _ _ _ _ HK) as (a1 & a2 & a3). destruct (h_cs _ _ _ _ _ HK1) as (b1 & b2 & b3).
  assert (U : forall c, in_use g1 fls' c <-> reachable g (Sig c)).
  { intros c. unfold in_use. split.
    - intros (Y1 & Y2). assert (Y0 : In c (acells (g_sig g))).
      { unfold acells in *. rewrite b3 in Y1. rewrite a3. unfold cells in *. apply in_flat_map in Y1. destruct Y1 as (b & Hb & Hc). apply in_flat_map. exists b. split; [apply I3, Hb|exact Hc]. }
      destruct (Dec c Y0) as [Y|Y]; [exact Y|]. exfalso. apply Y2, FS. auto.
    - intros Y. split; [apply KS, Y|]. intros Z. apply FS in Z. destruct Z as (_ & Z). exact (Z Y). }
  assert (M : forall c, reachable g (Sig c) -> g_mem g1 c = g_mem g c).
  { intros c Y. destruct (KS c Y) as (_ & K). specialize (K 0 ltac:(lia)). rewrite Z.add_0_r in K. exact K. }
  split.
  - destruct B1 as (cs1 & P1 & P2 & P3). destruct X2 as (cs2 & Q1 & Q2 & Q3). exists (cs1 ++ cs2). split; [|split].
    + apply nodup_app; [exact P1|exact Q1|]. intros c Y1 Y2. apply P2 in Y1. apply Q2 in Y2. destruct Y1 as ((_ & Y1) & _). apply Y1, U, Y2.
    + intros c. rewrite in_app_iff, P2, Q2, U. split.
      * intros [((Y1 & _) & Y2)|(Y1 & Y2)]; [auto|]. split; [exact (sig_in_use _ _ _ _ _ _ HK Y1)|]. rewrite <- (M c Y1). exact Y2.
      * intros (Y1 & Y2). destruct (Dec c (proj1 Y1)) as [Y|Y]; [right|left; auto]. rewrite (M c Y). auto.
    + apply Forall2_app; [exact P3|].
      assert (Z1 : forall c, In c cs2 -> g_mem g1 c = g_mem g c) by (intros c Hc; apply Q2 in Hc; apply M, U, Hc).
      clear -Q3 Z1. induction Q3 as [|c w cs ws Q Q3 IH]; constructor; [rewrite <- Z1; [exact Q|left; reflexivity]|]. apply IH. intros x Hx. apply Z1. right. exact Hx.
  - split; [|intros x Hx; apply X4, Non, Hx]. intros x [H|[H|H]].
    + destruct (arena_dec (g_obj g1) x) as [Y|Y]; [apply X3; left; exact Y|apply X4, N1; assumption].
    + destruct (arena_dec (g_prop g1) x) as [Y|Y]; [apply X3; right; left; exact Y|apply X4, N2; assumption].
    + destruct (arena_dec (g_sig g1) x) as [Y|Y]; [apply X3; right; right; exact Y|apply X4, N3; assumption].
Qed.

From Verif Require Import Base BaseFacts Value_Model Value_Spec Value_Proofs Str_Model Str_Spec
  Str_Proofs Str_Proofs2 SUtil_Model SUtil_Spec SUtil_Proofs SUtil_Proofs2 Conv_Model Obj_Model Arr_Model Obj_Spec
  Arr_Spec Obj_Proofs Obj_Proofs2.
Ltac Zify.zify_post_hook ::= Z.div_mod_to_equations.

(** Index texts. *)
Lemma ul_digits_split n : forall acc k, exists ds r, n = ds ++ r /\ Forall (fun c => 48 <= c <= 57) ds /\
  (match r with [] => True | c :: _ => ~ (48 <= c <= 57) end) /\
  ul_digits (n ++ [0]) acc k = Some (fold_left (fun a c => a * 10 + (c - 48)) ds acc, k + zlen ds).
Proof.
  induction n as [|x n IH]; intros acc k.
  - exists [], []. split; [reflexivity|]. split; [constructor|]. split; [exact I|].
    cbn [app ul_digits]. change (is_digit 0) with false. cbv iota. change (zlen (@nil Z)) with 0.
    cbn [fold_left]. do 2 f_equal. lia.
  - cbn [app ul_digits]. destruct (is_digit x) eqn:E; unfold is_digit in E.
    + destruct (IH (acc * 10 + (x - 48)) (k + 1)) as (ds & r & -> & H1 & H2 & H3).
      exists (x :: ds), r. split; [reflexivity|]. split; [constructor; [lia|assumption]|]. split; [assumption|].
      rewrite H3. cbn [fold_left]. rewrite zlen_cons. do 2 f_equal. lia.
    + exists [], (x :: n). split; [reflexivity|]. split; [constructor|]. split; [lia|].
      change (zlen (@nil Z)) with 0. cbn [fold_left]. do 2 f_equal. lia.
Qed.
Lemma strtoul_split n : forall k, exists sp r, n = sp ++ r /\ Forall blank sp /\
  (match r with [] => True | c :: _ => ~ blank c end) /\
  strtoul (n ++ [0]) k = ul_signed (r ++ [0]) (k + zlen sp).
Proof.
  induction n as [|x n IH]; intros k.
  - exists [], []. split; [reflexivity|]. split; [constructor|]. split; [exact I|].
    change (zlen (@nil Z)) with 0. rewrite Z.add_0_r. reflexivity.
  - cbn [app strtoul]. destruct (is_space x) eqn:E; unfold is_space in E.
    + destruct (IH (k + 1)) as (sp & r & -> & H1 & H2 & H3).
      exists (x :: sp), r. split; [reflexivity|]. split; [constructor; [unfold blank; lia|assumption]|]. split; [assumption|].
      rewrite H3, zlen_cons. f_equal. lia.
    + exists [], (x :: n). split; [reflexivity|]. split; [constructor|]. split; [unfold blank; lia|].
      change (zlen (@nil Z)) with 0. rewrite Z.add_0_r. reflexivity.
Qed.
Lemma zlen0 {A} (l : list A) : zlen l = 0 -> l = [].
Proof. destruct l; [reflexivity|]. rewrite zlen_cons. pose proof (zlen_nonneg l). lia. Qed.

Lemma cstr_index n i : cstr_to_ulong (n ++ [0]) (zlen n) = Some i <-> index_text n i.
Proof.
  unfold cstr_to_ulong. split.
  - destruct (strtoul_split n 0) as (sp & r & -> & H1 & H2 & ->). rewrite zlen_app.
    pose proof (zlen_nonneg sp) as Z1.
    assert (GO : forall (sg r' : list Z) neg, (sg = [] \/ sg = [43] \/ sg = [45]) -> neg = bytes_eqb sg [45] -> r = sg ++ r' ->
      match (match ul_digits (r' ++ [0]) 0 0 with
        | None => None
        | Some (n, d) => if d =? 0 then Some (0, 0) else Some (ul_value neg n, 0 + zlen sp + zlen sg + d)
        end) with
      | Some (v, e) => if (e =? zlen sp + zlen r) && negb (zlen sp + zlen r =? 0) then Some v else None
      | None => None end = Some i -> index_text (sp ++ r) i).
    { intros sg r' neg Hsg Hneg -> Q. destruct (ul_digits_split r' 0 0) as (ds & r2 & -> & D1 & D2 & D3).
      rewrite D3 in Q. rewrite !zlen_app in *.
      pose proof (zlen_nonneg ds). pose proof (zlen_nonneg r2). pose proof (zlen_nonneg sg).
      destruct (0 + zlen ds =? 0) eqn:E0.
      - destruct (_ && _) eqn:E in Q; [lia|discriminate].
      - destruct (_ && _) eqn:E in Q; [|discriminate]. injection Q as <-.
        assert (r2 = []) by (apply zlen0; lia). subst r2. rewrite app_nil_r.
        exists sp, sg, ds. split; [reflexivity|]. split; [assumption|]. split; [split; [intros ->; cbn in E0; lia|assumption]|].
        split; [assumption|]. unfold ul_value, u64, digits_val. rewrite Hneg. reflexivity. }
    destruct r as [|c r]; [|].
    + intros Q. apply (GO [] [] false); auto. 
    + cbn [app ul_signed]. destruct (c =? 45) eqn:E1.
      * assert (c = 45) by lia. subst c. intros Q. apply (GO [45] r true); auto.
      * destruct (c =? 43) eqn:E2.
        -- assert (c = 43) by lia. subst c. intros Q. apply (GO [43] r false); auto.
        -- intros Q. apply (GO [] (c :: r) false); auto. change (zlen (@nil Z)) with 0. rewrite Z.add_0_r. exact Q.
  - intros (sp & sg & ds & -> & H1 & (D1 & D2) & Hsg & ->).
    assert (S : forall k, strtoul ((sp ++ sg ++ ds) ++ [0]) k = ul_signed (sg ++ ds ++ [0]) (k + zlen sp)).
    { induction sp as [|x sp IH]; intros k.
      - cbn [app]. change (zlen (@nil Z)) with 0. rewrite Z.add_0_r. rewrite <- app_assoc.
        destruct ds as [|d ds]; [congruence|]. pose proof (Forall_inv D2) as Hd. cbn beta in Hd.
        destruct Hsg as [-> | [-> | ->]]; cbn [app strtoul]; [|reflexivity|reflexivity].
        unfold is_space. replace ((d =? 32) || ((9 <=? d) && (d <=? 13))) with false by lia. reflexivity.
      - cbn [app strtoul]. pose proof (Forall_inv H1) as Hx. cbn beta in Hx. unfold blank in Hx.
        unfold is_space. replace ((x =? 32) || ((9 <=? x) && (x <=? 13))) with true by lia.
        rewrite IH by (apply (Forall_inv_tail H1)). rewrite zlen_cons. f_equal. lia. }
    rewrite S. pose proof (zlen_nonneg sp). pose proof (zlen_nonneg ds).
    assert (zlen ds <> 0) by (intros Q; apply zlen0 in Q; congruence).
    assert (G : forall neg k, match ul_digits (ds ++ [0]) 0 0 with
        | None => None
        | Some (n, d) => if d =? 0 then Some (0, 0) else Some (ul_value neg n, k + d)
        end = Some (ul_value neg (digits_val ds), k + zlen ds)).
    { intros neg k. rewrite ul_digits_val by (try exact D2; reflexivity). replace (0 + zlen ds =? 0) with false by lia.
      rewrite Z.add_0_l. reflexivity. }
    destruct Hsg as [-> | [-> | ->]].
    + cbn [app]. destruct ds as [|d ds]; [congruence|]. cbn [app ul_signed].
      pose proof (Forall_inv D2) as Hd. cbn beta in Hd. replace (d =? 45) with false by lia. replace (d =? 43) with false by lia.
      change (d :: ds ++ [0]) with ((d :: ds) ++ [0]). rewrite G. rewrite zlen_app.
      replace (_ && _) with true by lia. reflexivity.
    + cbn [app ul_signed]. change (43 =? 45) with false. change (43 =? 43) with true. cbv iota. rewrite G.
      rewrite zlen_app, zlen_cons. replace (_ && _) with true by lia. reflexivity.
    + cbn [app ul_signed]. change (45 =? 45) with true. cbv iota. rewrite G.
      rewrite zlen_app, zlen_cons. replace (_ && _) with true by lia. reflexivity.
Qed.

Lemma index_text_range n i : index_text n i -> 0 <= i < 2 ^ 64.
Proof.
  intros (sp & sg & ds & _ & _ & (_ & D) & _ & ->).
  assert (0 <= digits_val ds).
  { unfold digits_val. assert (G : forall acc, 0 <= acc -> 0 <= fold_left (fun a c => a * 10 + (c - 48)) ds acc).
    { induction ds as [|d ds IH]; intros acc Ha; cbn [fold_left]; [assumption|].
      pose proof (Forall_inv D) as Hd. cbn beta in Hd. apply IH; [apply (Forall_inv_tail D)|lia]. }
    apply G. lia. }
  destruct (digits_val ds <? 2 ^ 64) eqn:E; [destruct (bytes_eqb sg [45]); lia|lia].
Qed.

Lemma numeral_digits i t : numeral 10 i t -> digits_ok t /\ digits_val t = i.
Proof.
  intros (N1 & N2 & N3 & _).
  assert (G : forall acc, num_value 10 acc t = fold_left (fun a c => a * 10 + (c - 48)) t acc /\ Forall (fun c => 48 <= c <= 57) t).
  { clear N1 N3. induction t as [|c t IH]; intros acc; [split; [reflexivity|constructor]|].
    pose proof (Forall_inv N2) as Hc. cbn beta in Hc. destruct (IH (Forall_inv_tail N2) (acc * 10 + digit_of c)) as (I1 & I2).
    unfold is_digit_in in Hc. assert (48 <= c <= 57) by (unfold digit_of in Hc; destruct (c <? 58) eqn:E; lia).
    split; [|constructor; assumption]. cbn [num_value fold_left]. rewrite I1. unfold digit_of. replace (c <? 58) with true by lia. reflexivity. }
  destruct (G 0) as (G1 & G2). split; [split; assumption|]. unfold digits_val. rewrite <- G1. exact N3.
Qed.
Lemma numeral_index i t j : numeral 10 i t -> i < 2 ^ 64 -> (index_text t j <-> j = i).
Proof.
  intros H Hi. destruct (numeral_digits i t H) as (D & V). rewrite <- cstr_index.
  rewrite cstr_to_ulong_digits by (auto; lia). rewrite V. split; [intros Q; injection Q; auto|congruence].
Qed.
Lemma numeral_name i t : numeral 10 i t -> 0 <= i < 2 ^ 63 -> name_ok t /\ zlen t <= 19.
Proof.
  intros H Hi. destruct (numeral_digits i t H) as ((D0 & D) & _). pose proof (numeral_short 10 i t H ltac:(lia) Hi).
  split; [|assumption]. split; [|split; [|lia]].
  - eapply Forall_impl; [|exact D]. intros c Hc. cbn beta in Hc. unfold is_byte. lia.
  - eapply Forall_impl; [|exact D]. intros c Hc. cbn beta in Hc. lia.
Qed.
Lemma idx_name_spec i : 0 <= i < 2 ^ 63 -> exists t, idx_name i = OK t /\ numeral 10 i t.
Proof. intros H. unfold idx_name. apply index_name_spec; [reflexivity|assumption]. Qed.

(** Length. *)
Lemma str_to_ulong_name st ext kv n : name_of st ext kv n -> str_to_ulong st ext kv = OK (cstr_to_ulong (n ++ [0]) (zlen n)).
Proof.
  intros (_ & (l & N1 & N2) & _). unfold str_to_ulong. rewrite N1. cbn [bind]. rewrite N2. reflexivity.
Qed.

Definition len_ok (m : omap) (len0 L : Z) : Prop :=
  len0 <= L /\ (forall n v j, In (n, v) m -> index_text n j -> j < 4294967295 -> j < L) /\
  (L = len0 \/ exists n v, In (n, v) m /\ index_text n (L - 1) /\ L - 1 < 4294967295).

Lemma length_walk_spec h ext : forall m cs p fuel len0,
  cells h p cs -> Forall2 (entry_rep (h_st h) ext) cs m -> (length cs <= fuel)%nat ->
  exists L, length_walk fuel h ext p len0 = OK L /\ len_ok m len0 L.
Proof.
  induction m as [|[n v] m IH]; intros cs p fuel len0 Hc F Hf.
  - inversion F; subst. cbn [cells] in Hc. subst p. exists len0.
    split; [destruct fuel; reflexivity|]. split; [lia|]. split; [intros ? ? ? []|left; reflexivity].
  - inversion F as [|[a c] e' cs' m' [R1 R2] F' E1 E2]; subst. cbn [fst snd cells] in *.
    destruct Hc as (-> & Na & Ga & Hr). destruct fuel as [|fuel]; [cbn [length] in Hf; lia|].
    cbn [length_walk]. replace (a =? 0) with false by lia. unfold prop_at. rewrite Ga. cbn [bind].
    rewrite (str_to_ulong_name _ _ _ _ R1). cbn [bind].
    set (r := cstr_to_ulong (n ++ [0]) (zlen n)).
    set (len' := match r with Some _ => _ | None => _ end).
    destruct (IH cs' (pc_next c) fuel len' Hr F' ltac:(cbn [length] in Hf; lia)) as (L & EL & L1 & L2 & L3).
    exists L. split; [exact EL|].
    assert (IDX : forall j, index_text n j -> j < 4294967295 -> j < len').
    { intros j Hj Hb. apply cstr_index in Hj. fold r in Hj. subst len'. rewrite Hj.
      destruct ((j >=? len0) && (j <? 4294967295)) eqn:E; lia. }
    assert (LE : len0 <= len' /\ (len' = len0 \/ (index_text n (len' - 1) /\ len' - 1 < 4294967295))).
    { subst len'. destruct r as [j|] eqn:Er; [|lia]. destruct ((j >=? len0) && (j <? 4294967295)) eqn:E; [|lia].
      split; [lia|]. right. replace (j + 1 - 1) with j by lia. split; [apply cstr_index; exact Er|lia]. }
    split; [lia|]. split.
    + intros n' v' j [Q|Hin] Hj Hb; [injection Q as <- <-; pose proof (IDX j Hj Hb); lia|eauto].
    + destruct L3 as [->|(n' & v' & Hin & Q1 & Q2)].
      * destruct LE as (_ & [->|(Q1 & Q2)]); [left; reflexivity|]. right. exists n, v. split; [left; reflexivity|auto].
      * right. exists n', v'. split; [right; assumption|auto].
Qed.
Lemma array_length_spec h ext M v o m :
  hrep h ext M -> M o = Some m -> refers v o ->
  exists L, array_length h ext v = OK L /\ 0 <= L /\
    (forall n w j, In (n, w) m -> index_text n j -> j < 4294967295 -> j < L) /\
    (L = 0 \/ exists n w, In (n, w) m /\ index_text n (L - 1) /\ L - 1 < 4294967295).
Proof.
  intros (C & A1 & A2 & A3 & A4 & A5) HM Hr. destruct (A2 o m HM) as ((first & G & Hc & F) & ND & NM).
  destruct (refers_object v o Hr) as (I1 & I2 & _). unfold array_length. rewrite I1, I2. cbn [negb bind].
  unfold obj_first. rewrite G. cbn [bind].
  destruct (length_walk_spec h ext m (C o) first (pfuel h) 0 Hc F (cells_length _ _ _ Hc)) as (L & E & L1 & L2 & L3).
  exists L. auto.
Qed.

(** Map facts. *)
Lemma lookup_replace m n v k : lookup (replace m n v) k = if bytes_eqb n k then (match lookup m n with Some _ => Some v | None => None end) else lookup m k.
Proof.
  induction m as [|[a w] m IH]; cbn [replace lookup]; [destruct (bytes_eqb n k); reflexivity|].
  destruct (bytes_eqb a n) eqn:E.
  - apply bytes_eqb_eq in E. subst a. cbn [lookup]. destruct (bytes_eqb n k); reflexivity.
  - cbn [lookup]. rewrite IH. destruct (bytes_eqb n k) eqn:E2.
    + apply bytes_eqb_eq in E2. subst k. rewrite E. reflexivity.
    + reflexivity.
Qed.
Lemma lookup_mput m n v k : lookup (mput m n v) k = if bytes_eqb n k then Some v else lookup m k.
Proof.
  unfold mput. destruct (lookup m n) eqn:E; [rewrite lookup_replace, E; reflexivity|reflexivity].
Qed.
Lemma in_lookup m n v : NoDup (map fst m) -> In (n, v) m -> lookup m n = Some v.
Proof.
  induction m as [|[a w] m IH]; intros ND; [intros []|]. cbn [map fst] in ND. inversion ND; subst.
  intros [Q|Hin]; cbn [lookup].
  - injection Q as -> ->. rewrite bytes_eqb_refl. reflexivity.
  - destruct (bytes_eqb a n) eqn:E; [|auto]. apply bytes_eqb_eq in E. subst a. exfalso. apply H1.
    apply in_map_iff. exists (n, v). auto.
Qed.
Lemma lookup_mremove m n k : NoDup (map fst m) -> lookup (mremove m n) k = if bytes_eqb n k then None else lookup m k.
Proof.
  induction m as [|[a w] m IH]; intros ND; cbn [mremove lookup]; [destruct (bytes_eqb n k); reflexivity|].
  cbn [map fst] in ND. inversion ND as [|? ? N1 N2]; subst. destruct (bytes_eqb a n) eqn:E.
  - apply bytes_eqb_eq in E. subst a. destruct (bytes_eqb n k) eqn:E2; [|reflexivity].
    apply bytes_eqb_eq in E2. subst k. destruct (lookup m n) eqn:E; [|reflexivity].
    exfalso. apply N1. apply lookup_in in E. apply in_map_iff. exists (n, z). auto.
  - cbn [lookup]. rewrite IH by assumption. destruct (bytes_eqb n k) eqn:E2; [|reflexivity].
    apply bytes_eqb_eq in E2. subst k. rewrite E. reflexivity.
Qed.
Lemma mput_in m n v k w : In (k, w) (mput m n v) -> k = n \/ In k (map fst m).
Proof.
  unfold mput. destruct (lookup m n).
  - intros H. right. rewrite <- (replace_names m n v). apply in_map_iff. exists (k, w). auto.
  - intros [Q|H]; [left; congruence|right; apply in_map_iff; exists (k, w); auto].
Qed.
Lemma mremove_in m n k w : In (k, w) (mremove m n) -> In (k, w) m.
Proof.
  induction m as [|[a x] m IH]; cbn [mremove]; [auto|]. destruct (bytes_eqb a n); [right; assumption|].
  intros [Q|Q]; [left; assumption|right; auto].
Qed.
Lemma in_names m k : In k (map fst m) -> exists w : Z, In (k : list Z, w) m.
Proof. intros H. apply in_map_iff in H. destruct H as ([k' w] & E & H). cbn [fst] in E. subst. eauto. Qed.

Lemma bytes_neq a b : a <> b -> bytes_eqb a b = false.
Proof. destruct (bytes_eqb a b) eqn:E; [apply bytes_eqb_eq in E; congruence|reflexivity]. Qed.

Lemma arr_put m f g i t v : arr m f g -> 0 <= i < 2 ^ 63 -> numeral 10 i t ->
  arr (mput m t v) (fupd f i (Some v)) g.
Proof.
  intros (A1 & A2 & A3) Hi Ht. split; [|split].
  - intros j u Hj Hu. rewrite lookup_mput. unfold fupd. destruct (Z.eqb_spec j i) as [->|Hne].
    + rewrite (numeral_unique 10 i t u) by (auto; lia). rewrite bytes_eqb_refl. reflexivity.
    + rewrite bytes_neq; [auto|]. intros ->. apply Hne.
      destruct Ht as (_ & _ & V1 & _). destruct Hu as (_ & _ & V2 & _). congruence.
  - intros n w j Hin Hj Hb. apply mput_in in Hin. destruct Hin as [->|Hin].
    + apply (numeral_index i t j Ht ltac:(lia)) in Hj. subst j. assumption.
    + apply in_names in Hin. destruct Hin as (w' & Hin). eauto.
  - intros n Hn. rewrite lookup_mput, bytes_neq; [auto|]. intros <-. exact (Hn i Hi Ht).
Qed.
Lemma arr_remove m f g i t : arr m f g -> NoDup (map fst m) -> 0 <= i < 2 ^ 63 -> numeral 10 i t ->
  arr (mremove m t) (fupd f i None) g.
Proof.
  intros (A1 & A2 & A3) ND Hi Ht. split; [|split].
  - intros j u Hj Hu. rewrite lookup_mremove by assumption. unfold fupd. destruct (Z.eqb_spec j i) as [->|Hne].
    + rewrite (numeral_unique 10 i t u) by (auto; lia). rewrite bytes_eqb_refl. reflexivity.
    + rewrite bytes_neq; [auto|]. intros ->. apply Hne.
      destruct Ht as (_ & _ & V1 & _). destruct Hu as (_ & _ & V2 & _). congruence.
  - intros n w j Hin Hj Hb. apply mremove_in in Hin. eauto.
  - intros n Hn. rewrite lookup_mremove by assumption. rewrite bytes_neq; [auto|]. intros <-. exact (Hn i Hi Ht).
Qed.
Lemma arr_ext m f f' g : arr m f g -> (forall i, 0 <= i < 2 ^ 63 -> f i = f' i) -> arr m f' g.
Proof. intros (A1 & A2 & A3) H. split; [|split]; auto. intros i t Hi Ht. rewrite <- H by assumption. auto. Qed.

(** Element access and update on the represented heap. *)
Lemma hrep_nodup h ext M o m : hrep h ext M -> M o = Some m -> NoDup (map fst m).
Proof. intros (C & A1 & A2 & _) HM. apply (A2 o m HM). Qed.

Lemma array_get_spec h ext M v o m f g i :
  hrep h ext M -> M o = Some m -> refers v o -> zlen (so (h_st h)) < 2 ^ 48 -> arr m f g -> 0 <= i < 2 ^ 63 ->
  array_get h ext v i = OK (match f i with Some x => x | None => V_UNDEFINED end).
Proof.
  intros Hrep HM Hr Hs HA Hi. unfold array_get, array_get2.
  destruct (refers_object v o Hr) as (I1 & _). rewrite I1.
  destruct (idx_name_spec i Hi) as (t & -> & Ht). cbn [bind].
  destruct (numeral_name i t Ht Hi) as ((N1 & N2 & N3) & _).
  destruct (own_property_spec' h ext M v o m t Hrep HM Hr N1 N3 Hs) as (a & -> & Q). cbn [bind].
  rewrite (proj1 HA i t Hi Ht) in Q. destruct (f i) as [x|].
  - destruct Q as (Q1 & c & Q2 & Q3). replace (a =? 0) with false by lia. rewrite Q2. cbn [bind]. congruence.
  - subst a. reflexivity.
Qed.
Lemma array_set_spec h ext M v o m f g i x K :
  hrep h ext M -> M o = Some m -> refers v o -> arr m f g -> 0 <= i < 2 ^ 63 -> small h (K + 100) -> 0 <= K ->
  exists h' m', array_set h ext v i x = OK (h', E_OK) /\ hrep h' ext (supd M o m') /\
    arr m' (fupd f i (Some x)) g /\ small h' K.
Proof.
  intros Hrep HM Hr HA Hi (S0 & S1 & S2) HK. unfold array_set.
  destruct (refers_object v o Hr) as (I1 & _). rewrite I1.
  destruct (idx_name_spec i Hi) as (t & -> & Ht). cbn [bind].
  destruct (numeral_name i t Ht Hi) as (Nn & Lt). pose proof (zlen_nonneg t).
  destruct (set_prop_spec h ext M v o m None t x Hrep HM Hr Nn) as (h' & E & Hrep' & G & B1 & B2 & B3);
    [unfold small; lia|discriminate|].
  exists h', (mput m t x). split; [exact E|]. split; [exact Hrep'|]. split; [apply arr_put; assumption|].
  unfold small. lia.
Qed.
Lemma array_del_spec h ext M v o m f g i :
  hrep h ext M -> M o = Some m -> refers v o -> arr m f g -> 0 <= i < 2 ^ 63 ->
  exists h' m', array_del h ext v i = OK h' /\ hrep h' ext (supd M o m') /\
    arr m' (fupd f i None) g /\ h_st h' = h_st h /\ h_next h' = h_next h.
Proof.
  intros Hrep HM Hr HA Hi. unfold array_del.
  destruct (idx_name_spec i Hi) as (t & -> & Ht). cbn [bind].
  destruct (obj_del_spec h ext M v o m t Hrep HM Hr) as (h' & E & Hrep' & B1 & B2). rewrite E. cbn [bind].
  exists h', (mremove m t). split; [reflexivity|]. split; [exact Hrep'|].
  split; [apply arr_remove; try assumption; exact (hrep_nodup h ext M o m Hrep HM)|auto].
Qed.

(** Dense arrays. *)
Lemma lf_some l i x : lf l i = Some x -> 0 <= i < zlen l.
Proof.
  unfold lf. destruct (0 <=? i) eqn:E; [|discriminate]. intros H.
  assert (nth_error l (Z.to_nat i) <> None) by congruence. apply nth_error_Some in H0. unfold zlen. lia.
Qed.
Lemma lf_in l i : 0 <= i < zlen l -> exists x, lf l i = Some x.
Proof.
  intros H. unfold lf. replace (0 <=? i) with true by lia. destruct (nth_error l (Z.to_nat i)) eqn:E; [eauto|].
  apply nth_error_None in E. unfold zlen in H. lia.
Qed.
Lemma lf_none l i : ~ (0 <= i < zlen l) -> lf l i = None.
Proof. intros H. destruct (lf l i) eqn:E; [apply lf_some in E; contradiction|reflexivity]. Qed.

Lemma dense_length h ext M v o m g l :
  hrep h ext M -> M o = Some m -> refers v o -> arr m (lf l) g -> zlen l < 4294967295 ->
  array_length h ext v = OK (zlen l).
Proof.
  intros Hrep HM Hr (A1 & A2 & A3) Hl.
  destruct (array_length_spec h ext M v o m Hrep HM Hr) as (L & -> & L0 & L1 & L2). f_equal.
  pose proof (zlen_nonneg l).
  assert (L <= zlen l).
  { destruct L2 as [->|(n & w & Hin & Hx & Hb)]; [lia|].
    pose proof (A2 n w (L - 1) Hin Hx Hb) as Hn. pose proof (index_text_range _ _ Hx) as Hr2.
    pose proof (A1 (L - 1) n ltac:(lia) Hn) as Q. rewrite (in_lookup m n w) in Q by (auto; exact (hrep_nodup h ext M o m Hrep HM)).
    symmetry in Q. apply lf_some in Q. lia. }
  destruct (Z.eq_dec (zlen l) 0); [lia|].
  destruct (idx_name_spec (zlen l - 1) ltac:(lia)) as (t & _ & Ht).
  destruct (lf_in l (zlen l - 1) ltac:(lia)) as (x & Hx).
  assert (lookup m t = Some x) by (rewrite (A1 (zlen l - 1) t) by (auto; lia); exact Hx).
  apply lookup_in in H1.
  assert (zlen l - 1 < L); [|lia]. eapply L1; [exact H1| |lia].
  apply (numeral_index (zlen l - 1) t); [assumption|lia|reflexivity].
Qed.

Lemma lf_snoc l x i : lf (l ++ [x]) i = fupd (lf l) (zlen l) (Some x) i.
Proof.
  unfold fupd. destruct (Z.eqb_spec i (zlen l)) as [->|Hne].
  - unfold lf. pose proof (zlen_nonneg l). replace (0 <=? zlen l) with true by lia.
    rewrite nth_error_app2 by (unfold zlen; lia). replace (Z.to_nat (zlen l) - length l)%nat with O by (unfold zlen; lia). reflexivity.
  - destruct (Z_lt_dec i 0); [rewrite !lf_none by lia; reflexivity|].
    destruct (Z_lt_dec i (zlen l)).
    + unfold lf. replace (0 <=? i) with true by lia. rewrite nth_error_app1 by (unfold zlen in *; lia). reflexivity.
    + rewrite !lf_none; [reflexivity|lia|]. rewrite zlen_app. change (zlen [x]) with 1. lia.
Qed.

Lemma array_push_spec h ext M v o m g l x K :
  hrep h ext M -> M o = Some m -> refers v o -> arr m (lf l) g -> zlen l < 4294967295 -> small h (K + 100) -> 0 <= K ->
  exists h' m', array_push h ext v x = OK (h', E_OK) /\ hrep h' ext (supd M o m') /\
    arr m' (lf (l ++ [x])) g /\ small h' K.
Proof.
  intros Hrep HM Hr HA Hl Hs HK. unfold array_push.
  rewrite (dense_length h ext M v o m g l Hrep HM Hr HA Hl). cbn [bind]. pose proof (zlen_nonneg l).
  destruct (array_set_spec h ext M v o m (lf l) g (zlen l) x K Hrep HM Hr HA ltac:(lia) Hs HK) as (h' & m' & E & R & A & S).
  exists h', m'. split; [exact E|]. split; [exact R|]. split; [|exact S].
  eapply arr_ext; [exact A|]. intros i _. symmetry. apply lf_snoc.
Qed.
Lemma supd_supd M o a b x : supd (supd M o a) o b x = supd M o b x.
Proof. unfold supd. destruct (x =? o); reflexivity. Qed.
Lemma hrep_ext h ext M M' : hrep h ext M -> (forall x, M x = M' x) -> hrep h ext M'.
Proof.
  intros (C & A1 & A2 & A3 & A4 & A5) H. exists C. split; [intros o; rewrite <- H; apply A1|].
  split; [intros o m Hm; rewrite <- H in Hm; auto|]. split; [|auto].
  intros o1 o2 m1 m2 a Hn H1 H2. rewrite <- H in H1, H2. eauto.
Qed.
Lemma push_all_spec ext v o g : forall xs h M m l K,
  hrep h ext M -> M o = Some m -> refers v o -> arr m (lf l) g -> zlen l + zlen xs <= 4294967295 ->
  small h (K + 100 * zlen xs) -> 0 <= K ->
  exists h' m', push_all h ext v xs = OK (h', E_OK) /\ hrep h' ext (supd M o m') /\
    arr m' (lf (l ++ xs)) g /\ small h' K.
Proof.
  induction xs as [|x xs IH]; intros h M m l K Hrep HM Hr HA Hl Hs HK.
  - exists h, m. split; [reflexivity|]. split; [|split].
    + eapply hrep_ext; [exact Hrep|]. intros y. unfold supd. destruct (Z.eqb_spec y o); congruence.
    + rewrite app_nil_r. assumption.
    + change (zlen (@nil Z)) with 0 in Hs. replace (K + 100 * 0) with K in Hs by lia. assumption.
  - rewrite zlen_cons in *. pose proof (zlen_nonneg xs). pose proof (zlen_nonneg l). cbn [push_all].
    destruct (array_push_spec h ext M v o m g l x (K + 100 * zlen xs) Hrep HM Hr HA ltac:(lia)) as (h1 & m1 & -> & R1 & B1 & S1);
      [replace (K + 100 * zlen xs + 100) with (K + 100 * (1 + zlen xs)) by lia; assumption|lia|].
    cbn [bind]. change (E_OK =? E_OK) with true. cbv iota.
    destruct (IH h1 (supd M o m1) m1 (l ++ [x]) K R1 (supd_same _ _ _) Hr B1) as (h2 & m2 & E2 & R2 & B2 & S2);
      [rewrite zlen_app; change (zlen [x]) with 1; lia|assumption|assumption|].
    exists h2, m2. split; [exact E2|]. split; [eapply hrep_ext; [exact R2|apply supd_supd]|].
    rewrite <- app_assoc in B2. auto.
Qed.

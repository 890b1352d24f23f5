From Verif Require Import Base BaseFacts Value_Model Value_Spec Value_Proofs Str_Model Str_Spec
  Str_Proofs Str_Proofs2 SUtil_Model SUtil_Spec SUtil_Proofs SUtil_Proofs2 Conv_Model Obj_Model Arr_Model Obj_Spec
  Arr_Spec Obj_Proofs Obj_Proofs2 Arr_Proofs.
Ltac Zify.zify_post_hook ::= Z.div_mod_to_equations.

Lemma ul_id i : 0 <= i < 2 ^ 63 -> ul i = i.
Proof. intros H. unfold ul, u64. apply Z.mod_small. lia. Qed.
Lemma small_le h a b : small h a -> b <= a -> small h b.
Proof. unfold small. lia. Qed.

Lemma skipn_cons_nth {A} (l : list A) : forall n x, nth_error l n = Some x -> skipn n l = x :: skipn (S n) l.
Proof.
  induction l as [|y l IH]; intros [|n] x H; try discriminate; cbn [nth_error skipn] in *; [congruence|].
  rewrite (IH n x H). reflexivity.
Qed.
Lemma nth_error_firstn' {A} (l : list A) : forall n k, (k < n)%nat -> nth_error (firstn n l) k = nth_error l k.
Proof.
  induction l as [|y l IH]; intros [|n] [|k] H; cbn [firstn nth_error]; try lia; try reflexivity. apply IH. lia.
Qed.
Lemma nth_error_skipn' {A} (l : list A) : forall n k, nth_error (skipn n l) k = nth_error l (n + k)%nat.
Proof.
  induction l as [|y l IH]; intros [|n] k; cbn [skipn nth_error Nat.add]; try reflexivity; [destruct k; reflexivity|]. apply IH.
Qed.
Lemma move_item_spec h ext M v o m f g from to x K :
  hrep h ext M -> M o = Some m -> refers v o -> arr m f g -> f from = Some x ->
  0 <= from < 2 ^ 63 -> 0 <= to < 2 ^ 63 -> small h (K + 100) -> 0 <= K ->
  exists h' m', move_item h ext v from to = OK h' /\ hrep h' ext (supd M o m') /\
    arr m' (fupd (fupd f to (Some x)) from None) g /\ small h' K.
Proof.
  intros Hrep HM Hr HA Hx Hf Ht Hs HK. unfold move_item. pose proof Hs as (S0 & S1 & S2).
  rewrite (array_get_spec h ext M v o m f g from Hrep HM Hr ltac:(lia) HA Hf), Hx. cbn [bind].
  destruct (array_set_spec h ext M v o m f g to x K Hrep HM Hr HA Ht Hs HK) as (h1 & m1 & -> & R1 & B1 & Q1).
  cbn [bind].
  destruct (array_del_spec h1 ext (supd M o m1) v o m1 _ g from R1 (supd_same _ _ _) Hr B1 Hf) as (h2 & m2 & -> & R2 & B2 & Q2 & Q3).
  exists h2, m2. split; [reflexivity|]. split; [eapply hrep_ext; [exact R2|apply supd_supd]|]. split; [exact B2|].
  unfold small in *. rewrite Q2, Q3. exact Q1.
Qed.

Section Splice.
  Context (ext : extmem) (this o : Z) (g : list Z -> option Z) (l : list Z) (s : Z).
  Context (Hr : refers this o) (Hs0 : 0 <= s <= zlen l) (Hl : zlen l < 2 ^ 31).

  (** delta < 0 *)
  Definition Fdown (d i k : Z) : option Z :=
    if k <? s then lf l k else if k <? Z.max s (i - d) then lf l (k + d) else if k <? i then None else lf l k.
  Lemma splice_down_spec delta : forall n i h M m K,
    delta < 0 -> s <= i -> i + Z.of_nat n = zlen l ->
    hrep h ext M -> M o = Some m -> arr m (Fdown (- delta) i) g -> small h (K + 100 * Z.of_nat n) -> 0 <= K ->
    exists h' m', splice_down n h ext this s delta i = OK h' /\ hrep h' ext (supd M o m') /\
      arr m' (Fdown (- delta) (zlen l)) g /\ small h' K.
  Proof.
    induction n as [|n IH]; intros i h M m K Hd Hi Hn Hrep HM HA Hsm HK.
    - exists h, m. split; [reflexivity|]. split.
      + eapply hrep_ext; [exact Hrep|]. intros y. unfold supd. destruct (Z.eqb_spec y o); congruence.
      + split; [replace (zlen l) with i by lia; assumption|]. eapply small_le; [exact Hsm|lia].
    - cbn [splice_down].
      assert (STEP : exists h1 m1, (if i >=? s - delta then move_item h ext this (ul i) (ul (i + delta)) else array_del h ext this (ul i)) = OK h1
          /\ hrep h1 ext (supd M o m1) /\ arr m1 (Fdown (- delta) (i + 1)) g /\ small h1 (K + 100 * Z.of_nat n)).
      { destruct (i >=? s - delta) eqn:E.
        - rewrite !ul_id by lia. destruct (lf_in l i ltac:(lia)) as (x & Hx).
          destruct (move_item_spec h ext M this o m (Fdown (- delta) i) g i (i + delta) x (K + 100 * Z.of_nat n) Hrep HM Hr HA) as (h1 & m1 & E1 & R1 & B1 & Q1).
          + unfold Fdown. replace (i <? s) with false by lia. replace (i <? Z.max s (i - - delta)) with false by lia.
            replace (i <? i) with false by lia. exact Hx.
          + lia.
          + lia.
          + eapply small_le; [exact Hsm|lia].
          + lia.
          + exists h1, m1. split; [exact E1|]. split; [exact R1|]. split; [|exact Q1].
            eapply arr_ext; [exact B1|]. intros k Hk. unfold fupd, Fdown.
            destruct (k =? i) eqn:K1.
            * replace (k <? s) with false by lia. replace (k <? Z.max s (i + 1 - - delta)) with false by lia.
              replace (k <? i + 1) with true by lia. reflexivity.
            * destruct (k =? i + delta) eqn:K2.
              -- replace (k <? s) with false by lia. replace (k <? Z.max s (i + 1 - - delta)) with true by lia.
                 replace (k + - delta) with i by lia. congruence.
              -- destruct (k <? s) eqn:K3; [reflexivity|].
                 destruct (k <? Z.max s (i - - delta)) eqn:K4.
                 ++ replace (k <? Z.max s (i + 1 - - delta)) with true by lia. reflexivity.
                 ++ replace (k <? Z.max s (i + 1 - - delta)) with false by lia.
                    destruct (k <? i) eqn:K5; [replace (k <? i + 1) with true by lia; reflexivity|].
                    replace (k <? i + 1) with false by lia. reflexivity.
        - rewrite ul_id by lia.
          destruct (array_del_spec h ext M this o m _ g i Hrep HM Hr HA ltac:(lia)) as (h1 & m1 & E1 & R1 & B1 & Q2 & Q3).
          exists h1, m1. split; [exact E1|]. split; [exact R1|]. split.
          + eapply arr_ext; [exact B1|]. intros k Hk. unfold fupd, Fdown.
            destruct (k =? i) eqn:K1.
            * replace (k <? s) with false by lia. replace (k <? Z.max s (i + 1 - - delta)) with false by lia.
              replace (k <? i + 1) with true by lia. reflexivity.
            * destruct (k <? s) eqn:K3; [reflexivity|].
              replace (k <? Z.max s (i + 1 - - delta)) with false by lia.
              replace (k <? Z.max s (i - - delta)) with false by lia.
              destruct (k <? i) eqn:K5; [replace (k <? i + 1) with true by lia; reflexivity|].
              replace (k <? i + 1) with false by lia. reflexivity.
          + unfold small in *. rewrite Q2, Q3. lia. }
      destruct STEP as (h1 & m1 & -> & R1 & B1 & Q1). cbn [bind].
      destruct (IH (i + 1) h1 (supd M o m1) m1 K Hd ltac:(lia) ltac:(lia) R1 (supd_same _ _ _) B1 Q1 HK) as (h2 & m2 & E2 & R2 & B2 & Q2).
      exists h2, m2. split; [exact E2|]. split; [eapply hrep_ext; [exact R2|apply supd_supd]|auto].
  Qed.

  (** delta > 0 *)
  Definition Fup (d i k : Z) : option Z :=
    if k <=? i then lf l k else if k <=? i + d then None else if k <? zlen l + d then lf l (k - d) else None.
  Lemma splice_up_spec delta : forall n i h M m K,
    0 < delta -> zlen l + delta < 2 ^ 31 -> i < zlen l -> i + 1 = s + Z.of_nat n ->
    hrep h ext M -> M o = Some m -> arr m (Fup delta i) g -> small h (K + 100 * Z.of_nat n) -> 0 <= K ->
    exists h' m', splice_up n h ext this delta i = OK h' /\ hrep h' ext (supd M o m') /\
      arr m' (Fup delta (s - 1)) g /\ small h' K.
  Proof.
    induction n as [|n IH]; intros i h M m K Hd Hb Hi Hn Hrep HM HA Hsm HK.
    - exists h, m. split; [reflexivity|]. split.
      + eapply hrep_ext; [exact Hrep|]. intros y. unfold supd. destruct (Z.eqb_spec y o); congruence.
      + split; [replace (s - 1) with i by lia; assumption|]. eapply small_le; [exact Hsm|lia].
    - cbn [splice_up]. rewrite !ul_id by lia. destruct (lf_in l i ltac:(lia)) as (x & Hx).
      destruct (move_item_spec h ext M this o m (Fup delta i) g i (i + delta) x (K + 100 * Z.of_nat n) Hrep HM Hr HA) as (h1 & m1 & E1 & R1 & B1 & Q1).
      + unfold Fup. replace (i <=? i) with true by lia. exact Hx.
      + lia.
      + lia.
      + eapply small_le; [exact Hsm|lia].
      + lia.
      + rewrite E1. cbn [bind].
        destruct (IH (i - 1) h1 (supd M o m1) m1 K Hd Hb ltac:(lia) ltac:(lia) R1 (supd_same _ _ _)) as (h2 & m2 & E2 & R2 & B2 & Q2); [|exact Q1|exact HK|].
        * eapply arr_ext; [exact B1|]. intros k Hk. unfold fupd, Fup.
          destruct (k =? i) eqn:K1.
          -- replace (k <=? i - 1) with false by lia. replace (k <=? i - 1 + delta) with true by lia. reflexivity.
          -- destruct (k =? i + delta) eqn:K2.
             ++ replace (k <=? i - 1) with false by lia. replace (k <=? i - 1 + delta) with false by lia.
                replace (k <? zlen l + delta) with true by lia. replace (k - delta) with i by lia. congruence.
             ++ destruct (k <=? i) eqn:K3.
                ** replace (k <=? i - 1) with true by lia. reflexivity.
                ** replace (k <=? i - 1) with false by lia. destruct (k <=? i + delta) eqn:K4.
                   --- replace (k <=? i - 1 + delta) with true by lia. reflexivity.
                   --- replace (k <=? i - 1 + delta) with false by lia. reflexivity.
        * exists h2, m2. split; [exact E2|]. split; [eapply hrep_ext; [exact R2|apply supd_supd]|auto].
  Qed.

  (** Writing the new items. *)
  Definition Fnew (f : Z -> option Z) (i : Z) (items : list Z) (k : Z) : option Z :=
    if (i <=? k) && (k <? i + zlen items) then lf items (k - i) else f k.
  Lemma splice_new_spec : forall items i h M m f K,
    0 <= i -> i + zlen items < 2 ^ 31 ->
    hrep h ext M -> M o = Some m -> arr m f g -> small h (K + 100 * zlen items) -> 0 <= K ->
    exists h' m', splice_new h ext this i items = OK h' /\ hrep h' ext (supd M o m') /\
      arr m' (Fnew f i items) g /\ small h' K.
  Proof.
    induction items as [|x items IH]; intros i h M m f K Hi Hb Hrep HM HA Hsm HK.
    - exists h, m. split; [reflexivity|]. change (zlen (@nil Z)) with 0 in *. split.
      + eapply hrep_ext; [exact Hrep|]. intros y. unfold supd. destruct (Z.eqb_spec y o); congruence.
      + split; [|eapply small_le; [exact Hsm|lia]]. eapply arr_ext; [exact HA|]. intros k Hk. unfold Fnew.
        change (zlen (@nil Z)) with 0. replace (_ && _) with false by lia. reflexivity.
    - rewrite zlen_cons in *. pose proof (zlen_nonneg items). cbn [splice_new]. rewrite ul_id by lia.
      destruct (array_set_spec h ext M this o m f g i x (K + 100 * zlen items) Hrep HM Hr HA ltac:(lia)) as (h1 & m1 & -> & R1 & B1 & Q1);
        [eapply small_le; [exact Hsm|lia]|lia|]. cbn [bind].
      destruct (IH (i + 1) h1 (supd M o m1) m1 _ K ltac:(lia) ltac:(lia) R1 (supd_same _ _ _) B1 Q1 HK) as (h2 & m2 & E2 & R2 & B2 & Q2).
      exists h2, m2. split; [exact E2|]. split; [eapply hrep_ext; [exact R2|apply supd_supd]|]. split; [|exact Q2].
      eapply arr_ext; [exact B2|]. intros k Hk. unfold Fnew, fupd. rewrite zlen_cons.
      destruct ((i + 1 <=? k) && (k <? i + 1 + zlen items)) eqn:K1.
      + replace (_ && _) with true by lia. unfold lf. replace (0 <=? k - (i + 1)) with true by lia. replace (0 <=? k - i) with true by lia.
        replace (Z.to_nat (k - i)) with (S (Z.to_nat (k - (i + 1)))) by lia. reflexivity.
      + destruct (k =? i) eqn:K2.
        * replace (_ && _) with true by lia. replace (k - i) with 0 by lia. reflexivity.
        * replace (_ && _) with false by lia. reflexivity.
  Qed.

  (** Copying out the removed items: [this] is only read. *)
  Lemma splice_copy_spec ret r : o <> r -> refers ret r -> forall n i h M m mr acc K,
    0 <= i -> i + Z.of_nat n <= zlen l -> zlen acc + Z.of_nat n < 2 ^ 31 ->
    hrep h ext M -> M o = Some m -> arr m (lf l) g -> M r = Some mr -> arr mr (lf acc) (fun _ => None) ->
    small h (K + 100 * Z.of_nat n) -> 0 <= K ->
    exists h' m', splice_copy n h ext this ret i = OK (h', E_OK) /\ hrep h' ext (supd M r m') /\
      arr m' (lf (acc ++ firstn n (skipn (Z.to_nat i) l))) (fun _ => None) /\ small h' K.
  Proof.
    intros Hne Hret. induction n as [|n IH]; intros i h M m mr acc K Hi Hn Hb Hrep HM HA HMr HAr Hsm HK.
    - exists h, mr. split; [reflexivity|]. split.
      + eapply hrep_ext; [exact Hrep|]. intros y. unfold supd. destruct (Z.eqb_spec y r); congruence.
      + split; [cbn [firstn]; rewrite app_nil_r; assumption|]. eapply small_le; [exact Hsm|lia].
    - cbn [splice_copy]. rewrite ul_id by lia. destruct (lf_in l i ltac:(lia)) as (x & Hx).
      rewrite (array_get_spec h ext M this o m (lf l) g i Hrep HM Hr) by (auto; unfold small in *; lia). rewrite Hx. cbn [bind].
      destruct (array_push_spec h ext M ret r mr _ acc x (K + 100 * Z.of_nat n) Hrep HMr Hret HAr ltac:(lia)) as (h1 & m1 & -> & R1 & B1 & Q1);
        [eapply small_le; [exact Hsm|lia]|lia|].
      cbn [bind]. change (E_OK =? E_OK) with true. cbv iota.
      destruct (IH (i + 1) h1 (supd M r m1) m m1 (acc ++ [x]) K ltac:(lia) ltac:(lia)) as (h2 & m2 & E2 & R2 & B2 & Q2); auto.
      + rewrite zlen_app. change (zlen [x]) with 1. lia.
      + rewrite supd_other by assumption. assumption.
      + apply supd_same.
      + exists h2, m2. split; [exact E2|]. split; [eapply hrep_ext; [exact R2|apply supd_supd]|]. split; [|exact Q2].
        rewrite <- app_assoc in B2. cbn [app] in B2.
        replace (firstn (S n) (skipn (Z.to_nat i) l)) with (x :: firstn n (skipn (Z.to_nat (i + 1)) l)); [exact B2|].
        unfold lf in Hx. replace (0 <=? i) with true in Hx by lia.
        replace (Z.to_nat (i + 1)) with (S (Z.to_nat i)) by lia.
        rewrite (skipn_cons_nth _ _ _ Hx). reflexivity.
  Qed.
End Splice.

(** The final element function is the spliced list. *)
Lemma lf_app a b k : lf (a ++ b) k = if k <? zlen a then lf a k else lf b (k - zlen a).
Proof.
  pose proof (zlen_nonneg a). destruct (Z_lt_dec k 0) as [Hk|Hk].
  - replace (k <? zlen a) with true by lia. rewrite !lf_none by lia. reflexivity.
  - unfold lf. replace (0 <=? k) with true by lia. destruct (k <? zlen a) eqn:E.
    + apply nth_error_app1. unfold zlen in E. lia.
    + replace (0 <=? k - zlen a) with true by lia. rewrite nth_error_app2 by (unfold zlen in E; lia).
      f_equal. unfold zlen. lia.
Qed.
Lemma lf_firstn n l k : 0 <= n <= zlen l -> lf (firstn (Z.to_nat n) l) k = if k <? n then lf l k else None.
Proof.
  intros Hn. destruct (Z_lt_dec k 0) as [Hk|Hk].
  - rewrite !lf_none by lia. destruct (k <? n); reflexivity.
  - destruct (k <? n) eqn:E.
    + unfold lf. replace (0 <=? k) with true by lia. rewrite nth_error_firstn' by lia. reflexivity.
    + apply lf_none. unfold zlen. rewrite firstn_length. unfold zlen in Hn. lia.
Qed.
Lemma lf_skipn n l k : 0 <= n -> 0 <= k -> lf (skipn (Z.to_nat n) l) k = lf l (k + n).
Proof.
  intros Hn Hk. unfold lf. replace (0 <=? k) with true by lia. replace (0 <=? k + n) with true by lia.
  rewrite nth_error_skipn'. f_equal. lia.
Qed.

Lemma down_is_spliced l items s d k : 0 <= s -> 0 <= d -> s + d <= zlen l -> zlen items < d -> 0 <= k ->
  Fnew (Fdown l s (d - zlen items) (zlen l)) s items k =
  lf (firstn (Z.to_nat s) l ++ items ++ skipn (Z.to_nat (s + d)) l) k.
Proof.
  intros Hs Hd Hl Hi Hk. pose proof (zlen_nonneg items).
  assert (Ls : zlen (firstn (Z.to_nat s) l) = s) by (unfold zlen in *; rewrite firstn_length; lia).
  rewrite lf_app, Ls, lf_app, lf_firstn by lia. unfold Fnew, Fdown.
  destruct (k <? s) eqn:E1.
  - replace (_ && _) with false by lia. reflexivity.
  - destruct (k - s <? zlen items) eqn:E2.
    + replace (_ && _) with true by lia. reflexivity.
    + replace (_ && _) with false by lia. rewrite lf_skipn by lia.
      destruct (k <? Z.max s (zlen l - (d - zlen items))) eqn:E3.
      * f_equal. lia.
      * symmetry. replace (if k <? zlen l then None else lf l k) with (@None Z).
        -- apply lf_none. lia.
        -- destruct (k <? zlen l) eqn:E4; [reflexivity|]. symmetry. apply lf_none. lia.
Qed.
Lemma up_is_spliced l items s d k : 0 <= s -> 0 <= d -> s + d <= zlen l -> d < zlen items -> 0 <= k ->
  Fnew (Fup l (zlen items - d) (s - 1)) s items k =
  lf (firstn (Z.to_nat s) l ++ items ++ skipn (Z.to_nat (s + d)) l) k.
Proof.
  intros Hs Hd Hl Hi Hk. pose proof (zlen_nonneg items).
  assert (Ls : zlen (firstn (Z.to_nat s) l) = s) by (unfold zlen in *; rewrite firstn_length; lia).
  rewrite lf_app, Ls, lf_app, lf_firstn by lia. unfold Fnew, Fup.
  destruct (k <? s) eqn:E1.
  - replace (_ && _) with false by lia. replace (k <=? s - 1) with true by lia. reflexivity.
  - destruct (k - s <? zlen items) eqn:E2.
    + replace (_ && _) with true by lia. reflexivity.
    + replace (_ && _) with false by lia. rewrite lf_skipn by lia.
      replace (k <=? s - 1) with false by lia. replace (k <=? s - 1 + (zlen items - d)) with false by lia.
      destruct (k <? zlen l + (zlen items - d)) eqn:E3; [f_equal; lia|]. symmetry. apply lf_none. lia.
Qed.
Lemma same_is_spliced l items s d k : 0 <= s -> 0 <= d -> s + d <= zlen l -> zlen items = d -> 0 <= k ->
  Fnew (lf l) s items k =
  lf (firstn (Z.to_nat s) l ++ items ++ skipn (Z.to_nat (s + d)) l) k.
Proof.
  intros Hs Hd Hl Hi Hk.
  assert (Ls : zlen (firstn (Z.to_nat s) l) = s) by (unfold zlen in *; rewrite firstn_length; lia).
  rewrite lf_app, Ls, lf_app, lf_firstn by lia. unfold Fnew.
  destruct (k <? s) eqn:E1.
  - replace (_ && _) with false by lia. reflexivity.
  - destruct (k - s <? zlen items) eqn:E2.
    + replace (_ && _) with true by lia. reflexivity.
    + replace (_ && _) with false by lia. rewrite lf_skipn by lia. f_equal. lia.
Qed.

Lemma refers_array_kind v o : refers v o -> v / 2 ^ 48 = 65532 -> is_u64 v /\ kind_of v = KArray.
Proof.
  intros (Ho & [-> | ->]) Q; [lia|]. split; [unfold is_u64; lia|].
  replace (65532 * 2 ^ 48 + o) with (o + 65532 * 2 ^ 48) by lia. rewrite kind_tagged by lia. reflexivity.
Qed.

Lemma mk_array_spec h ext M :
  hrep h ext M -> small h 64 ->
  exists h' v, mk_array h = OK (h', v) /\ refers v (h_next h) /\ v / 2 ^ 48 = 65532 /\ M (h_next h) = None /\
    hrep h' ext (supd M (h_next h) []) /\ h_st h' = h_st h /\ h_next h' = h_next h + 8.
Proof.
  intros Hrep Hs. destruct (mk_object_spec h ext M Hrep Hs) as (h' & v & E & (B & Rv) & T & Fr & H1 & H2 & H3).
  unfold mk_array. rewrite E. cbn [bind]. exists h', (65532 * 2 ^ 48 + h_next h).
  assert (Ev : v = h_next h + 65521 * 2 ^ 48) by lia.
  split; [|split; [split; [assumption|right; reflexivity]|split; [lia|auto]]].
  do 2 f_equal. unfold array_of_object. rewrite untag_mod, Ev, mod_tag by lia. unfold TAG_ARRAY. rewrite lor_tag by lia. lia.
Qed.

Lemma splice_core h ext M this o m g l args sv si dc items :
  hrep h ext M -> M o = Some m -> refers this o -> this / 2 ^ 48 = 65532 -> arr m (lf l) g ->
  zlen l + zlen items < 2 ^ 31 ->
  nth_error args 0 = Some sv -> is_u64 sv -> kind_of sv = KNumber -> get_int sv = OK si ->
  ((args = [sv] /\ items = [] /\ dc = zlen l) \/
   (exists dv, args = sv :: dv :: items /\ is_u64 dv /\ kind_of dv = KNumber /\ get_int dv = OK dc)) ->
  small h (64 + 100 * (2 * zlen l + zlen items)) ->
  exists h' ret r m' mr, array_splice h ext this args = OK (h', ret, E_OK) /\
    refers ret r /\ M r = None /\ hrep h' ext (supd (supd M r mr) o m') /\
    arr m' (lf (sp_result l si dc items)) g /\
    arr mr (lf (sp_removed l si dc)) (fun _ => None).
Proof.
  intros Hrep HM Hr Ht HA Hl Ha Us Ks Gs Hargs Hsm.
  pose proof (zlen_nonneg l) as Zl. pose proof (zlen_nonneg items) as Zi. assert (Hl' : zlen l < 2 ^ 31) by lia.
  unfold array_splice.
  destruct (mk_array_spec h ext M Hrep ltac:(eapply small_le; [exact Hsm|lia])) as (h0 & ret & E0 & Rr & Tr & Fr & R0 & Q1 & Q2).
  rewrite E0. cbn [bind]. set (r := h_next h) in *.
  assert (Hne : o <> r) by congruence.
  destruct (refers_array_kind this o Hr Ht) as (Ut & Kt).
  assert (C0 : check_arg this args None TyArray = OK (Some this)).
  { unfold check_arg. rewrite (get_type_agrees this TyArray Ut Kt). reflexivity. }
  rewrite C0. cbn [bind].
  assert (HM0 : supd M r [] o = Some m) by (rewrite supd_other by assumption; exact HM).
  rewrite (dense_length h0 ext _ this o m g l R0 HM0 Hr HA) by lia. cbn [bind].
  rewrite s32_id by lia.
  rewrite (check_arg_ok _ _ 0 sv TyNumber Ha Us Ks). cbn [bind]. rewrite Gs. cbn [bind].
  pose proof (get_int_range _ _ Gs) as Rs. rewrite normalize_idx_spec by lia. cbn [bind].
  fold (sp_start si (zlen l)). set (s := sp_start si (zlen l)) in *.
  assert (Bs : 0 <= s <= zlen l) by (unfold s, sp_start; lia).
  set (d := sp_del dc si (zlen l)).
  assert (Bd : 0 <= d <= zlen l - s) by (unfold d, sp_del; fold s; lia).
  assert (NI : exists dc', (if zlen args >=? 2 then
           a2 <- check_arg this args (Some 1%nat) TyNumber ;;
           match a2 with
           | None => OK None
           | Some dv => dc <- get_int dv ;; OK (Some (dc, zlen args - 2))
           end
         else OK (Some (zlen l - s, 0))) = OK (Some (dc', zlen items)) /\
      (if dc' >? zlen l - s then zlen l - s else if dc' <? 0 then 0 else dc') = d /\ skipn 2 args = items).
  { destruct Hargs as [(-> & -> & ->)|(dv & -> & U & K & G)].
    - exists (zlen l - s). split; [reflexivity|]. split; [|reflexivity]. unfold d, sp_del. fold s.
      replace (zlen l - s >? zlen l - s) with false by lia. replace (zlen l - s <? 0) with false by lia. lia.
    - exists dc. rewrite !zlen_cons. replace (1 + (1 + zlen items) >=? 2) with true by lia.
      rewrite (check_arg_ok _ (sv :: dv :: items) 1 dv TyNumber eq_refl U K). cbn [bind]. rewrite G. cbn [bind].
      replace (1 + (1 + zlen items) - 2) with (zlen items) by lia. split; [reflexivity|]. split; [|reflexivity].
      unfold d, sp_del. fold s. destruct (dc >? zlen l - s) eqn:E1; [lia|]. destruct (dc <? 0) eqn:E2; lia. }
  destruct NI as (dc' & -> & Ed & Ei). cbn [bind]. rewrite Ed, Ei.
  assert (SM0 : small h0 (100 * (2 * zlen l + zlen items))) by (unfold small in *; rewrite Q1, Q2; lia).
  assert (AE : arr [] (lf []) (fun _ => None)).
  { split; [|split]; [|intros ? ? ? []|reflexivity]. intros i t Hi _. symmetry. apply lf_none. change (zlen (@nil Z)) with 0. lia. }
  destruct (splice_copy_spec ext this o g l Hr Hl' ret r Hne Rr (Z.to_nat d) s h0 (supd M r []) m [] [] (100 * (zlen l + zlen items)))
    as (h1 & mr & E1 & R1 & B1 & S1); auto; try lia.
  { change (zlen (@nil Z)) with 0. lia. }
  { apply supd_same. }
  { eapply small_le; [exact SM0|lia]. }
  rewrite E1. cbn [bind]. change (negb (E_OK =? E_OK)) with false. cbv iota.
  assert (HM1 : supd (supd M r []) r mr o = Some m) by (rewrite supd_other by assumption; exact HM0).
  set (M1 := supd (supd M r []) r mr) in *.
  assert (MID : exists h2 m2 f2, (if zlen items - d <? 0 then splice_down (Z.to_nat (zlen l - s)) h1 ext this s (zlen items - d) s
         else if zlen items - d >? 0 then splice_up (Z.to_nat (zlen l - s)) h1 ext this (zlen items - d) (zlen l - 1)
         else OK h1) = OK h2 /\ hrep h2 ext (supd M1 o m2) /\ arr m2 f2 g /\ small h2 (100 * zlen items) /\
      forall k, 0 <= k -> Fnew f2 s items k = lf (firstn (Z.to_nat s) l ++ items ++ skipn (Z.to_nat (s + d)) l) k).
  { destruct (zlen items - d <? 0) eqn:D1; [|destruct (zlen items - d >? 0) eqn:D2].
    - destruct (splice_down_spec ext this o g l s Hr Bs Hl' (zlen items - d) (Z.to_nat (zlen l - s)) s h1 M1 m (100 * zlen items))
        as (h2 & m2 & E2 & R2 & B2 & S2); auto; try lia.
      + eapply arr_ext; [exact HA|]. intros k Hk. unfold Fdown. destruct (k <? s) eqn:K1; [reflexivity|].
        replace (k <? Z.max s (s - - (zlen items - d))) with false by lia. reflexivity.
      + eapply small_le; [exact S1|lia].
      + exists h2, m2, (Fdown l s (- (zlen items - d)) (zlen l)). split; [exact E2|]. split; [exact R2|]. split; [exact B2|].
        split; [exact S2|]. intros k Hk. replace (- (zlen items - d)) with (d - zlen items) by lia.
        apply down_is_spliced; lia.
    - destruct (splice_up_spec ext this o g l s Hr Bs (zlen items - d) (Z.to_nat (zlen l - s)) (zlen l - 1) h1 M1 m (100 * zlen items))
        as (h2 & m2 & E2 & R2 & B2 & S2); auto; try lia.
      + eapply arr_ext; [exact HA|]. intros k Hk. unfold Fup. destruct (k <=? zlen l - 1) eqn:K1; [reflexivity|].
        rewrite lf_none by lia. destruct (k <=? zlen l - 1 + (zlen items - d)) eqn:K2; [reflexivity|].
        replace (k <? zlen l + (zlen items - d)) with false by lia. reflexivity.
      + eapply small_le; [exact S1|lia].
      + exists h2, m2, (Fup l (zlen items - d) (s - 1)). split; [exact E2|]. split; [exact R2|]. split; [exact B2|].
        split; [exact S2|]. intros k Hk. apply up_is_spliced; lia.
    - exists h1, m, (lf l). split; [reflexivity|]. split; [|split; [exact HA|split]].
      + eapply hrep_ext; [exact R1|]. intros y. destruct (Z.eq_dec y o) as [->|Hy]; [rewrite supd_same; exact HM1|rewrite supd_other by assumption; reflexivity].
      + eapply small_le; [exact S1|lia].
      + intros k Hk. apply same_is_spliced; lia. }
  destruct MID as (h2 & m2 & f2 & -> & R2 & B2 & S2 & FE). cbn [bind].
  destruct (splice_new_spec ext this o g Hr items s h2 (supd M1 o m2) m2 f2 0) as (h3 & m3 & E3 & R3 & B3 & S3); auto; try lia.
  { apply supd_same. }
  rewrite E3. cbn [bind]. exists h3, ret, r, m3, mr. split; [reflexivity|]. split; [exact Rr|]. split; [exact Fr|].
  split; [|split].
  - eapply hrep_ext; [exact R3|]. intros y. unfold M1, supd. destruct (y =? o); [reflexivity|]. destruct (y =? r); reflexivity.
  - eapply arr_ext; [exact B3|]. intros k Hk. rewrite FE by lia. reflexivity.
  - exact B1.
Qed.

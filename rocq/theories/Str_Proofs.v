From Verif Require Import Base BaseFacts Varint_Model Varint_Spec Varint_Proofs Mbuf_Model
  Value_Model Value_Spec Value_Proofs Float_Proofs Str_Model Str_Spec.
Ltac Zify.zify_post_hook ::= Z.div_mod_to_equations.

Lemma le_bytes_app a b z : 0 <= z ->
  le_bytes (a + b) z = le_bytes a z ++ le_bytes b (z / 256 ^ Z.of_nat a).
Proof.
  revert z. induction a as [|a IH]; intros z Hz.
  - cbn [Nat.add le_bytes app]. rewrite Z.pow_0_r, Z.div_1_r. reflexivity.
  - cbn [Nat.add le_bytes app]. rewrite IH by (apply Z.div_pos; lia). f_equal. f_equal. f_equal.
    rewrite Z.div_div by (try apply Z.pow_pos_nonneg; lia). f_equal.
    rewrite Nat2Z.inj_succ, Z.pow_succ_r by lia. lia.
Qed.

Lemma le_bytes_mod k z : 0 <= z -> le_bytes k (z mod 256 ^ Z.of_nat k) = le_bytes k z.
Proof.
  revert z. induction k as [|k IH]; intros z Hz; [reflexivity|]. cbn [le_bytes].
  assert (P : 0 < 256 ^ Z.of_nat k) by (apply Z.pow_pos_nonneg; lia).
  rewrite Nat2Z.inj_succ, Z.pow_succ_r by lia.
  assert (H : z mod (256 * 256 ^ Z.of_nat k) = z mod 256 + 256 * ((z / 256) mod 256 ^ Z.of_nat k)).
  { apply Z.rem_mul_r; lia. }
  rewrite H. f_equal.
  - rewrite Z.mul_comm, Z.mod_add, Z.mod_mod by lia. reflexivity.
  - rewrite Z.mul_comm, Z.div_add, (Z.div_small (z mod 256)) by lia. rewrite Z.add_0_l.
    apply IH. apply Z.div_pos; lia.
Qed.

Lemma le_bytes_tagged p k : 0 <= p < 2 ^ 48 -> 0 <= k ->
  le_bytes 8 (p + k * 2 ^ 48) = le_bytes 6 p ++ le_bytes 2 k.
Proof.
  intros Hp Hk. change 8%nat with (6 + 2)%nat. rewrite le_bytes_app by lia.
  change (256 ^ Z.of_nat 6) with (2 ^ 48). rewrite div_tag by exact Hp. f_equal.
  rewrite <- (le_bytes_mod 6 (p + _)) by lia. change (256 ^ Z.of_nat 6) with (2 ^ 48).
  rewrite mod_tag by exact Hp. reflexivity.
Qed.

Lemma le_val_pad d k : bytes_ok d -> (length d <= k)%nat ->
  le_bytes k (le_val d) = d ++ repeat 0 (k - length d).
Proof.
  intros Hd Hl. apply le_val_inj.
  - apply le_bytes_ok.
  - apply Forall_app. split; [exact Hd|]. clear. induction (k - length d)%nat; cbn; constructor; [unfold is_byte; lia|assumption].
  - rewrite le_bytes_length, app_length, repeat_length. lia.
  - pose proof (le_val_bound d Hd) as B. rewrite le_val_bytes_small.
    + rewrite le_val_app. replace (le_val (repeat 0 (k - length d))) with 0; [lia|].
      clear. induction (k - length d)%nat as [|n IH]; cbn [repeat le_val]; [reflexivity|lia].
    + split; [lia|]. apply Z.lt_le_trans with (256 ^ zlen d); [lia|].
      apply Z.pow_le_mono_r; unfold zlen; lia.
Qed.

Lemma tag_land p k : 0 <= p < 2 ^ 48 -> 0 <= k < 65536 -> Z.land (p + k * 2 ^ 48) TAG_MASK = k * 2 ^ 48.
Proof. intros. rewrite land_mask by (apply tag_u64; assumption). rewrite div_tag by assumption. reflexivity. Qed.

Lemma val_to_offset_tag p k : 0 <= p < 2 ^ 48 -> val_to_offset (p + k * 2 ^ 48) = p.
Proof.
  intros. unfold val_to_offset. rewrite untag_mod, get_ptr_raw_mod, mod_tag by assumption.
  apply Z.mod_small. assumption.
Qed.

Lemma is_string_tag p k : 0 <= p < 2 ^ 48 -> 65526 <= k <= 65531 -> k <> 65530 ->
  is_string (p + k * 2 ^ 48) = true.
Proof.
  intros. rewrite is_string_hi by (apply tag_u64; lia). rewrite div_tag by assumption. lia.
Qed.

Ltac eqb_consts := repeat match goal with
  | |- context [?a * 2 ^ 48 =? ?b * 2 ^ 48] =>
    first [ change (a * 2 ^ 48 =? b * 2 ^ 48) with true | change (a * 2 ^ 48 =? b * 2 ^ 48) with false ]
  end.

(** Layouts. *)
Lemma inline_val_bound n d : bytes_ok d -> zlen d = n -> n <= 4 -> 0 <= le_val (n :: d) < 2 ^ 48.
Proof.
  intros Hd Hn Hl. pose proof (zlen_nonneg d).
  assert (bytes_ok (n :: d)) by (constructor; [unfold is_byte; lia|exact Hd]).
  pose proof (le_val_bound (n :: d) H0) as B. split; [lia|].
  apply Z.lt_le_trans with (256 ^ zlen (n :: d)); [lia|].
  change (2 ^ 48) with (256 ^ 6). apply Z.pow_le_mono_r; [lia|]. rewrite zlen_cons. lia.
Qed.
Lemma inline5_val_bound d : bytes_ok d -> zlen d = 5 -> 0 <= le_val d < 2 ^ 48.
Proof.
  intros Hd Hn. pose proof (le_val_bound d Hd) as B. split; [lia|].
  apply Z.lt_le_trans with (256 ^ zlen d); [lia|]. rewrite Hn. cbn; lia.
Qed.

Lemma mk_inline4 st d : bytes_ok d -> zlen d <= 4 ->
  mk_string st d = OK (st, le_val (zlen d :: d) + 65526 * 2 ^ 48).
Proof.
  intros Hd Hl. unfold mk_string, mk_string_src. rewrite Z.eqb_refl. cbn [negb].
  replace (zlen d <=? 4) with true by lia. do 2 f_equal.
  pose proof (inline_val_bound (zlen d) d Hd eq_refl Hl).
  rewrite untag_mod, Z.mod_small by assumption. apply lor_tag. assumption.
Qed.
Lemma mk_inline5 st d : bytes_ok d -> zlen d = 5 ->
  mk_string st d = OK (st, le_val d + 65527 * 2 ^ 48).
Proof.
  intros Hd Hl. unfold mk_string, mk_string_src. rewrite Z.eqb_refl. cbn [negb].
  replace (zlen d <=? 4) with false by lia. replace (zlen d =? 5) with true by lia. do 2 f_equal.
  pose proof (inline5_val_bound d Hd Hl).
  rewrite untag_mod, Z.mod_small by assumption. apply lor_tag. assumption.
Qed.

Lemma get_inline4 st d : bytes_ok d -> zlen d <= 4 ->
  get_string st (le_val (zlen d :: d) + 65526 * 2 ^ 48) = OK (PVal 1, zlen d).
Proof.
  intros Hd Hl. pose proof (inline_val_bound (zlen d) d Hd eq_refl Hl) as B. pose proof (zlen_nonneg d).
  unfold get_string. rewrite is_string_tag by (try exact B; lia). cbn [negb].
  rewrite tag_land by (try exact B; lia). unfold TAG_STRING_I. rewrite Z.eqb_refl.
  rewrite le_bytes_tagged by (try exact B; lia).
  rewrite le_val_pad; [|constructor; [unfold is_byte; lia|exact Hd]|unfold zlen in *; cbn [length]; lia].
  cbn [app]. unfold char_to_size. replace (zlen d <? 128) with true by lia. reflexivity.
Qed.
Lemma get_inline5 st d : bytes_ok d -> zlen d = 5 ->
  get_string st (le_val d + 65527 * 2 ^ 48) = OK (PVal 0, zlen d).
Proof.
  intros Hd Hl. pose proof (inline5_val_bound d Hd Hl) as B.
  unfold get_string. rewrite is_string_tag by (try exact B; lia). cbn [negb].
  rewrite tag_land by (try exact B; lia). unfold TAG_STRING_I, TAG_STRING_5. eqb_consts. cbv iota.
  rewrite Hl. reflexivity.
Qed.

Lemma read_inline4 st ext d : bytes_ok d -> zlen d <= 4 ->
  loc_read st ext (le_val (zlen d :: d) + 65526 * 2 ^ 48) (PVal 1) (zlen d) = OK d /\
  loc_read st ext (le_val (zlen d :: d) + 65526 * 2 ^ 48) (PVal 1) (zlen d + 1) = OK (d ++ [0]).
Proof.
  intros Hd Hl. pose proof (inline_val_bound (zlen d) d Hd eq_refl Hl) as B. pose proof (zlen_nonneg d).
  unfold loc_read. replace ((0 <=? zlen d) && (1 + zlen d <=? 8)) with true by lia.
  replace ((0 <=? zlen d + 1) && (1 + (zlen d + 1) <=? 8)) with true by lia.
  rewrite le_bytes_tagged by (try exact B; lia).
  rewrite le_val_pad; [|constructor; [unfold is_byte; lia|exact Hd]|unfold zlen in *; cbn [length]; lia].
  assert (E : exists r, repeat 0 (6 - length (zlen d :: d)) = 0 :: r).
  { cbn [length]. exists (repeat 0 (4 - length d)). unfold zlen in Hl.
    replace (6 - S (length d))%nat with (S (4 - length d))%nat by lia. reflexivity. }
  destruct E as [r E]. rewrite E. 
  change ((zlen d :: d) ++ 0 :: r) with ([zlen d] ++ d ++ 0 :: r).
  split; f_equal.
  - rewrite <- !app_assoc. rewrite sub_app_r by (cbn; lia). replace (1 - zlen [zlen d]) with 0 by (cbn; lia).
    rewrite sub_app_l by lia. apply sub_all.
  - rewrite <- !app_assoc. rewrite sub_app_r by (cbn; lia). replace (1 - zlen [zlen d]) with 0 by (cbn; lia).
    change ((0 :: r) ++ le_bytes 2 65526) with ([0] ++ r ++ le_bytes 2 65526). rewrite (app_assoc d).
    replace (zlen d + 1) with (zlen (d ++ [0])) by (rewrite zlen_app; reflexivity).
    apply sub_prefix.
Qed.
Lemma read_inline5 st ext d : bytes_ok d -> zlen d = 5 ->
  loc_read st ext (le_val d + 65527 * 2 ^ 48) (PVal 0) (zlen d) = OK d /\
  loc_read st ext (le_val d + 65527 * 2 ^ 48) (PVal 0) (zlen d + 1) = OK (d ++ [0]).
Proof.
  intros Hd Hl. pose proof (inline5_val_bound d Hd Hl) as B.
  unfold loc_read. rewrite Hl. cbn [Z.leb Z.add Z.compare Pos.compare Pos.compare_cont andb Pos.add Pos.succ].
  rewrite le_bytes_tagged by (try exact B; lia).
  rewrite le_val_pad; [|exact Hd|unfold zlen in *; lia].
  replace (6 - length d)%nat with 1%nat by (unfold zlen in *; lia). cbn [repeat].
  split; f_equal.
  - rewrite <- !app_assoc. rewrite <- Hl. rewrite sub_app_l by lia. apply sub_all.
  - replace 6 with (zlen (d ++ [0])) by (rewrite zlen_app, Hl; reflexivity).
    apply sub_prefix.
Qed.

(** Heap layout: an entry at offset [zlen pre]. *)
Lemma get_heap st pre n rest :
  so st = pre ++ varint_bytes n ++ rest -> is_u64 n -> zlen pre < 2 ^ 48 ->
  get_string st (zlen pre + 65528 * 2 ^ 48) = OK (POwn (zlen pre + zlen (varint_bytes n)), n).
Proof.
  intros Hs Hn Hp. pose proof (zlen_nonneg pre).
  unfold get_string. rewrite is_string_tag by lia. cbn [negb].
  rewrite tag_land by lia. unfold TAG_STRING_I, TAG_STRING_5, TAG_STRING_O. eqb_consts. cbv iota.
  rewrite val_to_offset_tag by lia. cbv zeta.
  destruct (varint_len_u64 n Hn) as [L1 L2].
  pose proof (zlen_nonneg rest). assert (Hlen : zlen (so st) = zlen pre + (zlen (varint_bytes n) + zlen rest)).
  { rewrite Hs, !zlen_app. reflexivity. }
  replace (zlen pre <? zlen (so st)) with true by lia.
  rewrite Hs at 1. unfold zlen at 1. rewrite Nat2Z.id, skipn_app, skipn_all, Nat.sub_diag. cbn [skipn app].
  rewrite decode_encode by (try exact Hn; lia). reflexivity.
Qed.

Lemma read_own st ext v pre d post :
  so st = pre ++ d ++ post -> loc_read st ext v (POwn (zlen pre)) (zlen d) = OK d.
Proof.
  intros Hs. pose proof (zlen_nonneg d). pose proof (zlen_nonneg post). unfold loc_read. rewrite Hs, !zlen_app.
  replace ((0 <=? zlen d) && (zlen pre + zlen d <=? zlen pre + (zlen d + zlen post))) with true by lia.
  f_equal. apply sub_app_mid.
Qed.

Lemma heap_holds st ext pre d post :
  so st = pre ++ varint_bytes (zlen d) ++ d ++ [0] ++ post -> zlen pre < 2 ^ 48 -> zlen d < 2 ^ 64 ->
  holds st ext (zlen pre + 65528 * 2 ^ 48) d /\ nul_terminated st ext (zlen pre + 65528 * 2 ^ 48) d.
Proof.
  intros Hs Hp Hd. pose proof (zlen_nonneg d). pose proof (zlen_nonneg pre).
  assert (HG : get_string st (zlen pre + 65528 * 2 ^ 48) =
               OK (POwn (zlen (pre ++ varint_bytes (zlen d))), zlen d)).
  { rewrite zlen_app. apply (get_heap st pre (zlen d) (d ++ [0] ++ post) Hs); [unfold is_u64; lia|exact Hp]. }
  rewrite app_assoc in Hs. split.
  - split; [apply tag_u64; lia|]. split; [rewrite kind_tagged by lia; reflexivity|].
    eexists. split; [exact HG|]. split; [discriminate|].
    apply read_own with (post := [0] ++ post). exact Hs.
  - eexists. split; [exact HG|].
    replace (zlen d + 1) with (zlen (d ++ [0])) by (rewrite zlen_app; reflexivity).
    apply read_own with (post := post). rewrite Hs. rewrite <- !app_assoc. reflexivity.
Qed.

Lemma mk_heap_src st src n : zlen (match src with Some d => d | None => repeat 0 (Z.to_nat n) end) = n ->
  5 < n -> zlen (so st) < 2 ^ 48 ->
  exists st', mk_string_src st src n = OK (st', zlen (so st) + 65528 * 2 ^ 48) /\
    so st' = so st ++ embed_bytes src n /\ sf st' = sf st.
Proof.
  intros Hl Hn Hs. pose proof (zlen_nonneg (so st)). unfold mk_string_src. rewrite Hl, Z.eqb_refl. cbn [negb].
  replace (n <=? 4) with false by lia. replace (n =? 5) with false by lia. cbv zeta.
  eexists. split; [rewrite untag_mod, Z.mod_small by lia; unfold TAG_STRING_O; rewrite lor_tag by lia; reflexivity|].
  split; reflexivity.
Qed.

(** C07. *)
Lemma mk_string_holds st ext d : bytes_ok d -> zlen (so st) < 2 ^ 48 -> zlen d < 2 ^ 64 ->
  exists st' v, mk_string st d = OK (st', v) /\ holds st' ext v d /\ nul_terminated st' ext v d /\
    (exists extra, so st' = so st ++ extra) /\ sf st' = sf st /\ (zlen d <= 5 -> st' = st).
Proof.
  intros Hd Hs Hn. pose proof (zlen_nonneg d).
  destruct (Z.le_gt_cases (zlen d) 4) as [H4|H4]; [|destruct (Z.eq_dec (zlen d) 5) as [H5|H5]].
  - exists st, (le_val (zlen d :: d) + 65526 * 2 ^ 48).
    pose proof (inline_val_bound (zlen d) d Hd eq_refl H4) as B.
    destruct (read_inline4 st ext d Hd H4) as [R1 R2].
    split; [apply mk_inline4; assumption|]. split; [|split; [|split; [|split]]].
    + split; [apply tag_u64; (exact B || lia)|]. split; [rewrite kind_tagged by (exact B || lia); reflexivity|].
      eexists. split; [apply get_inline4; assumption|]. split; [discriminate|exact R1].
    + eexists. split; [apply get_inline4; assumption|exact R2].
    + exists []. rewrite app_nil_r. reflexivity.
    + reflexivity.
    + reflexivity.
  - exists st, (le_val d + 65527 * 2 ^ 48).
    pose proof (inline5_val_bound d Hd H5) as B. destruct (read_inline5 st ext d Hd H5) as [R1 R2].
    split; [apply mk_inline5; assumption|]. split; [|split; [|split; [|split]]].
    + split; [apply tag_u64; (exact B || lia)|]. split; [rewrite kind_tagged by (exact B || lia); reflexivity|].
      eexists. split; [apply get_inline5; assumption|]. split; [discriminate|exact R1].
    + eexists. split; [apply get_inline5; assumption|exact R2].
    + exists []. rewrite app_nil_r. reflexivity.
    + reflexivity.
    + reflexivity.
  - destruct (mk_heap_src st (Some d) (zlen d) eq_refl ltac:(lia) Hs) as (st' & H1 & H2 & H3).
    exists st', (zlen (so st) + 65528 * 2 ^ 48). split; [exact H1|].
    unfold embed_bytes in H2.
    assert (H2' : so st' = so st ++ varint_bytes (zlen d) ++ d ++ [0] ++ []) by exact H2.
    destruct (heap_holds st' ext (so st) d [] H2' Hs Hn) as [HA HB].
    split; [exact HA|]. split; [exact HB|]. split; [eexists; exact H2|]. split; [exact H3|]. lia.
Qed.

(** C08: strings survive any growth of the buffers. *)
Definition grows (st st' : strs) : Prop :=
  (exists x, so st' = so st ++ x) /\ (exists y, sf st' = sf st ++ y).
Lemma grows_refl st : grows st st.
Proof. split; exists []; rewrite app_nil_r; reflexivity. Qed.
Lemma grows_trans a b c : grows a b -> grows b c -> grows a c.
Proof.
  intros [[x1 H1] [y1 H2]] [[x2 H3] [y2 H4]].
  split; [exists (x1 ++ x2); rewrite H3, H1|exists (y1 ++ y2); rewrite H4, H2]; rewrite app_assoc; reflexivity.
Qed.

Lemma nthz_app_l {A} (a b : list A) i x : nthz a i = Some x -> nthz (a ++ b) i = Some x.
Proof.
  unfold nthz. destruct (i <? 0); [discriminate|]. intros H. rewrite nth_error_app1; [exact H|].
  apply nth_error_Some. rewrite H. discriminate.
Qed.

Lemma dec_loop_mono f : forall buf ext size size' i shift n r,
  dec_loop f buf size i shift n = OK (Some r) -> i <= size <= size' ->
  dec_loop f (buf ++ ext) size' i shift n = OK (Some r).
Proof.
  induction f as [|f IH]; intros buf ext size size' i shift n r H Hs; [discriminate H|].
  cbn [dec_loop] in *. destruct ((i =? size) || (i =? 10)) eqn:E; [discriminate H|].
  replace ((i =? size') || (i =? 10)) with false by lia.
  destruct (nthz buf i) as [b|] eqn:Eb; [|discriminate H]. rewrite (nthz_app_l _ _ _ _ Eb).
  destruct ((shift + 7 <? 64) && negb (Z.land b 128 =? 0)); [|exact H].
  apply (IH _ _ _ _ _ _ _ _ H). lia.
Qed.

Lemma skipn_app_le {A} n (a b : list A) : (n <= length a)%nat -> skipn n (a ++ b) = skipn n a ++ b.
Proof. intros. rewrite skipn_app. replace (n - length a)%nat with 0%nat by lia. reflexivity. Qed.

Lemma le_bytes_cons8 v : exists b r, le_bytes 8 v = b :: r.
Proof. cbn [le_bytes]. eexists; eexists; reflexivity. Qed.

Lemma val_to_offset_nonneg v : 0 <= v -> 0 <= val_to_offset v.
Proof. intros. unfold val_to_offset. rewrite untag_mod. lia. Qed.

Lemma get_string_grows st st' v l n : is_u64 v -> grows st st' ->
  get_string st v = OK (l, n) -> l <> PNull -> get_string st' v = OK (l, n).
Proof.
  intros Hv [[x Hx] [y Hy]] H Hl. unfold get_string in *. cbv zeta in *.
  destruct (is_string v) eqn:Es; cbn [negb] in *; [|injection H as <- <-; congruence].
  destruct (Z.land v TAG_MASK =? TAG_STRING_I); [exact H|].
  destruct (Z.land v TAG_MASK =? TAG_STRING_5); [exact H|].
  pose proof (val_to_offset_nonneg v ltac:(unfold is_u64 in Hv; lia)) as Ho.
  set (off := val_to_offset v) in *.
  destruct (Z.land v TAG_MASK =? TAG_STRING_O).
  - rewrite Hx, zlen_app. pose proof (zlen_nonneg x).
    destruct (off <? zlen (so st)) eqn:E; [|injection H as <- <-; congruence].
    replace (off <? zlen (so st) + zlen x) with true by lia.
    rewrite skipn_app_le by (unfold zlen in E; lia).
    destruct (varint_decode (skipn (Z.to_nat off) (so st)) (zlen (so st) - off)) as [[[m k]|]| | |] eqn:Ed;
      cbn [bind] in H; try discriminate H; [|injection H as <- <-; congruence].
    unfold varint_decode in *. rewrite (dec_loop_mono _ _ _ _ (zlen (so st) + zlen x - off) _ _ _ _ Ed) by lia.
    exact H.
  - destruct (Z.land v TAG_MASK =? TAG_STRING_F); [|exact H].
    rewrite Hy, zlen_app. pose proof (zlen_nonneg y).
    destruct (off <? zlen (sf st)) eqn:E; [|injection H as <- <-; congruence].
    replace (off <? zlen (sf st) + zlen y) with true by lia.
    rewrite skipn_app_le by (unfold zlen in E; lia).
    destruct (varint_decode (skipn (Z.to_nat off) (sf st)) (zlen (sf st) - off)) as [[[m k]|]| | |] eqn:Ed;
      cbn [bind] in H; try discriminate H; [|injection H as <- <-; congruence].
    unfold varint_decode in *. rewrite (dec_loop_mono _ _ _ _ (zlen (sf st) + zlen y - off) _ _ _ _ Ed) by lia.
    cbn [bind]. destruct (off + k + 8 <=? zlen (sf st)) eqn:E8; [|discriminate H].
    replace (off + k + 8 <=? zlen (sf st) + zlen y) with true by lia.
    rewrite sub_app_l; [exact H| |lia|lia].
    (* k is non-negative *)
    clear - Ed Ho. assert (G : forall f buf size i shift n r, dec_loop f buf size i shift n = OK (Some r) -> i <= snd r).
    { induction f as [|f IH]; intros buf size i shift n r H; [discriminate H|]. cbn [dec_loop] in H.
      destruct ((i =? size) || (i =? 10)); [discriminate H|]. destruct (nthz buf i); [|discriminate H].
      destruct ((shift + 7 <? 64) && negb (Z.land z 128 =? 0)).
      - apply IH in H. lia.
      - injection H as <-. cbn [snd]. lia. }
    apply G in Ed. cbn [snd] in Ed. lia.
Qed.

Lemma loc_read_grows st st' ext v l n d : grows st st' ->
  loc_read st ext v l n = OK d -> (match l with POwn o => 0 <= o | _ => True end) ->
  loc_read st' ext v l n = OK d.
Proof.
  intros [[x Hx] _] H Ho. destruct l as [|o|o|a]; try exact H. unfold loc_read in *.
  destruct ((0 <=? n) && (o + n <=? zlen (so st))) eqn:E; [|discriminate H].
  rewrite Hx, zlen_app. pose proof (zlen_nonneg x).
  replace ((0 <=? n) && (o + n <=? zlen (so st) + zlen x)) with true by lia.
  rewrite sub_app_l by lia. exact H.
Qed.

Lemma dec_loop_pos f : forall buf size i shift n r, dec_loop f buf size i shift n = OK (Some r) -> i < snd r.
Proof.
  induction f as [|f IH]; intros buf size i shift n r H; [discriminate H|]. cbn [dec_loop] in H.
  destruct ((i =? size) || (i =? 10)); [discriminate H|]. destruct (nthz buf i); [|discriminate H].
  destruct ((shift + 7 <? 64) && negb (Z.land z 128 =? 0)).
  - apply IH in H. lia.
  - injection H as <-. cbn [snd]. lia.
Qed.

Lemma get_string_own_nonneg st v o n : 0 <= v -> get_string st v = OK (POwn o, n) -> 0 <= o.
Proof.
  intros Hv H. unfold get_string in H. cbv zeta in H.
  destruct (is_string v); cbn [negb] in H; [|discriminate H].
  pose proof (val_to_offset_nonneg v Hv).
  destruct (Z.land v TAG_MASK =? TAG_STRING_I).
  { destruct (le_bytes_cons8 v) as (b & r & E). rewrite E in H. discriminate H. }
  destruct (Z.land v TAG_MASK =? TAG_STRING_5); [discriminate H|].
  destruct (Z.land v TAG_MASK =? TAG_STRING_O).
  - destruct (val_to_offset v <? zlen (so st)); [|discriminate H].
    destruct (varint_decode _ _) as [[[m k]|]| | |] eqn:E; cbn [bind] in H; try discriminate H.
    injection H as <- <-. apply dec_loop_pos in E. cbn [snd] in E. lia.
  - destruct (Z.land v TAG_MASK =? TAG_STRING_F); [|discriminate H].
    destruct (val_to_offset v <? zlen (sf st)); [|discriminate H].
    destruct (varint_decode _ _) as [[[m k]|]| | |] eqn:E; cbn [bind] in H; try discriminate H.
    destruct (_ <=? _); discriminate H.
Qed.

Lemma holds_grows st st' ext v d : grows st st' -> holds st ext v d -> holds st' ext v d.
Proof.
  intros HG (Hv & Hk & l & H1 & H2 & H3). split; [exact Hv|]. split; [exact Hk|].
  exists l. split; [apply (get_string_grows st st' v l _ Hv HG H1 H2)|]. split; [exact H2|].
  apply (loc_read_grows st st' _ _ _ _ _ HG H3). destruct l; try exact I.
  unfold is_u64 in Hv. apply (get_string_own_nonneg st v o (zlen d)); [lia|exact H1].
Qed.

Lemma holds_str_bytes st ext v d : holds st ext v d -> str_bytes st ext v = OK d.
Proof. intros (_ & _ & l & H1 & _ & H3). unfold str_bytes. rewrite H1. cbn [bind]. exact H3. Qed.
Lemma holds_fun st ext v d e : holds st ext v d -> holds st ext v e -> d = e.
Proof. intros H1%holds_str_bytes H2%holds_str_bytes. congruence. Qed.

Lemma mk_string_grows st d st' v : mk_string st d = OK (st', v) -> grows st st'.
Proof.
  unfold mk_string, mk_string_src. rewrite Z.eqb_refl. cbn [negb]. intros H.
  destruct (zlen d <=? 4); [injection H as <- <-; apply grows_refl|].
  destruct (zlen d =? 5); [injection H as <- <-; apply grows_refl|].
  injection H as <- <-. split; cbn [so sf]; [eexists; reflexivity|exists []; rewrite app_nil_r; reflexivity].
Qed.

(** Foreign strings. *)
Lemma mk_foreign_holds st ext p n : 0 < n < 2 ^ 64 -> is_u64 p -> zlen (sf st) < 2 ^ 48 ->
  (forall i, 0 <= i < n -> is_byte (ext (p + i))) ->
  exists st' v, mk_string_foreign st p n = OK (st', v) /\ holds st' ext v (ext_read ext p n) /\
    so st' = so st /\ grows st st'.
Proof.
  intros Hn Hp Hs Hb. pose proof (zlen_nonneg (sf st)). unfold mk_string_foreign.
  replace (n =? 0) with false by lia.
  eexists; eexists; split; [rewrite untag_mod, Z.mod_small by lia; unfold TAG_STRING_F; rewrite lor_tag by lia; reflexivity|].
  assert (Hl : zlen (ext_read ext p n) = n).
  { unfold ext_read, zlen. rewrite map_length, seq_length. lia. }
  split; [|split; [reflexivity|split; cbn [so sf]; [exists []; rewrite app_nil_r; reflexivity|eexists; reflexivity]]].
  split; [apply tag_u64; lia|]. split; [rewrite kind_tagged by lia; reflexivity|].
  exists (PExt p). rewrite Hl. split; [|split; [discriminate|]].
  - unfold get_string. rewrite is_string_tag by lia. cbn [negb]. rewrite tag_land by lia.
    unfold TAG_STRING_I, TAG_STRING_5, TAG_STRING_O, TAG_STRING_F. eqb_consts. cbv iota zeta.
    rewrite val_to_offset_tag by lia. cbn [sf].
    destruct (varint_len_u64 n ltac:(unfold is_u64; lia)) as [L1 L2].
    assert (L8 : zlen (le_bytes 8 p) = 8) by (unfold zlen; rewrite le_bytes_length; reflexivity).
    rewrite !zlen_app, L8.
    replace (zlen (sf st) <? zlen (sf st) + (zlen (varint_bytes n) + 8)) with true by lia.
    unfold zlen at 1. rewrite Nat2Z.id, skipn_app, skipn_all, Nat.sub_diag. cbn [skipn app].
    rewrite decode_encode by (try (unfold is_u64; lia); lia). cbn [bind].
    replace (zlen (sf st) + zlen (varint_bytes n) + 8 <=? zlen (sf st) + (zlen (varint_bytes n) + 8)) with true by lia.
    repeat f_equal.
    rewrite app_assoc. rewrite <- zlen_app.
    rewrite sub_app_r by lia. rewrite Z.sub_diag.
    pose proof (sub_all (le_bytes 8 p)) as SA. rewrite L8 in SA. rewrite SA.
    rewrite le_val_bytes_small; [reflexivity|]. unfold is_u64 in Hp. cbn; lia.
  - unfold loc_read. replace (0 <=? n) with true by lia. reflexivity.
Qed.

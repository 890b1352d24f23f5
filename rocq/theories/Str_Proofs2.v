From Verif Require Import Base BaseFacts Varint_Model Varint_Spec Varint_Proofs Mbuf_Model
  Value_Model Value_Spec Value_Proofs Float_Proofs Str_Model Str_Spec Str_Proofs.
Ltac Zify.zify_post_hook ::= Z.div_mod_to_equations.

(** C09 *)
Lemma memcmp_spec a : forall b, zlen a = zlen b ->
  (memcmp a b = 0 <-> a = b) /\ (memcmp a b < 0 <-> lexlt a b) /\ (memcmp a b > 0 <-> lexlt b a).
Proof.
  induction a as [|x a IH]; intros [|y b] H; rewrite ?zlen_cons in H; cbn [zlen length] in H;
    try (pose proof (zlen_nonneg a)); try (pose proof (zlen_nonneg b)); try (unfold zlen in *; cbn [length] in *; lia).
  - cbn [memcmp]. split; [tauto|]. split; (split; [lia|intros L; inversion L]).
  - destruct (IH b ltac:(lia)) as (I1 & I2 & I3). cbn [memcmp]. destruct (x =? y) eqn:E.
    + assert (x = y) by lia. subst y. rewrite I1, I2, I3. split; [|split].
      * split; [intros ->; reflexivity|intros K; injection K; auto].
      * split; [intros; constructor; assumption|intros K; inversion K; subst; [lia|assumption]].
      * split; [intros; constructor; assumption|intros K; inversion K; subst; [lia|assumption]].
    + unfold sgn_cmp. split; [|split].
      * split; [destruct (x <? y) eqn:G1, (x >? y) eqn:G2; lia|intros K; injection K; lia].
      * split; [intros K; constructor; destruct (x <? y) eqn:G, (x >? y); lia|].
        intros K; inversion K; subst; [|lia]. replace (x <? y) with true by lia. lia.
      * split; [intros K; constructor; destruct (x <? y) eqn:G, (x >? y) eqn:G2; lia|].
        intros K; inversion K; subst; [|lia]. replace (x <? y) with false by lia.
        replace (x >? y) with true by lia. lia.
Qed.

Lemma s_cmp_spec st ext a b da db : holds st ext a da -> holds st ext b db ->
  exists r, s_cmp st ext a b = OK r /\ (r = 0 <-> da = db) /\
    (r < 0 <-> shortlex_lt da db) /\ (r > 0 <-> shortlex_lt db da).
Proof.
  intros (_ & _ & la & A1 & _ & A3) (_ & _ & lb & B1 & _ & B3).
  unfold s_cmp. rewrite A1, B1. cbn [bind]. destruct (zlen da =? zlen db) eqn:E.
  - rewrite A3, B3. cbn [bind]. assert (H : zlen da = zlen db) by lia.
    destruct (memcmp_spec da db H) as (M1 & M2 & M3). eexists; split; [reflexivity|].
    unfold shortlex_lt. split; [exact M1|]. rewrite M2, M3. split; (split; [intros; right; auto|intros [K|[_ K]]; [lia|exact K]]).
  - destruct (zlen da >? zlen db) eqn:G; eexists; (split; [reflexivity|]); unfold shortlex_lt.
    + split; [split; [lia|intros ->; lia]|]. split; (split; [lia|intros [K|[K _]]; lia]).
    + split; [split; [lia|intros ->; lia]|]. split; (split; [lia|intros [K|[K _]]; lia]).
Qed.

(** C10 *)
Lemma zlen_repeat {A} (x : A) n : 0 <= n -> zlen (repeat x (Z.to_nat n)) = n.
Proof. intros. unfold zlen. rewrite repeat_length. lia. Qed.
Lemma repeat_app0 {A} (x : A) a b : 0 <= a -> 0 <= b ->
  repeat x (Z.to_nat (a + b)) = repeat x (Z.to_nat a) ++ repeat x (Z.to_nat b).
Proof. intros. rewrite Z2Nat.inj_add by assumption. apply repeat_app. Qed.
Lemma bytes_ok_repeat n : bytes_ok (repeat 0 n).
Proof. induction n; cbn; constructor; [unfold is_byte; lia|assumption]. Qed.

(** The eight bytes of an inline string. *)
Lemma inline4_bytes d : bytes_ok d -> zlen d <= 4 ->
  le_bytes 8 (le_val (zlen d :: d) + 65526 * 2 ^ 48) =
  [zlen d] ++ d ++ repeat 0 (Z.to_nat (5 - zlen d)) ++ le_bytes 2 65526.
Proof.
  intros Hd Hl. pose proof (inline_val_bound (zlen d) d Hd eq_refl Hl) as B. pose proof (zlen_nonneg d).
  rewrite le_bytes_tagged by (try exact B; lia).
  rewrite le_val_pad; [|constructor; [unfold is_byte; lia|exact Hd]|unfold zlen in *; cbn [length]; lia].
  cbn [app length]. f_equal. rewrite <- app_assoc. do 2 f_equal. unfold zlen. f_equal. lia.
Qed.
Lemma inline5_bytes d : bytes_ok d -> zlen d = 5 ->
  le_bytes 8 (le_val d + 65527 * 2 ^ 48) = d ++ [0] ++ le_bytes 2 65527.
Proof.
  intros Hd Hl. pose proof (inline5_val_bound d Hd Hl) as B.
  rewrite le_bytes_tagged by (try exact B; lia). rewrite le_val_pad; [|exact Hd|unfold zlen in *; lia].
  replace (6 - length d)%nat with 1%nat by (unfold zlen in *; lia). rewrite <- app_assoc. reflexivity.
Qed.

Lemma le_val_le_bytes8 v : is_u64 v -> le_val (le_bytes 8 v) = v.
Proof. unfold is_u64. intros. rewrite le_val_bytes_small by (cbn; lia). reflexivity. Qed.

Lemma write_val st v pre mid post d : le_bytes 8 v = pre ++ mid ++ post -> length d = length mid -> 
  loc_write st v (PVal (zlen pre)) d = OK (st, le_val (pre ++ d ++ post)).
Proof.
  intros Hv Hd. unfold loc_write.
  assert (HL : zlen pre + zlen d <= 8).
  { apply (f_equal (@length Z)) in Hv. rewrite le_bytes_length, !app_length in Hv. unfold zlen. lia. }
  replace (zlen pre + zlen d <=? 8) with true by lia. rewrite Hv, blit_app_mid by exact Hd. reflexivity.
Qed.
Lemma le_bytes8_val X : bytes_ok X -> length X = 8%nat -> le_bytes 8 (le_val X) = X.
Proof. intros HX HL. rewrite <- HL. apply le_bytes_val. exact HX. Qed.

Lemma write_own st v pre mid post d : so st = pre ++ mid ++ post -> length d = length mid ->
  loc_write st v (POwn (zlen pre)) d =
  OK ({| so := pre ++ d ++ post; so_size := so_size st; sf := sf st; s_need_gc := s_need_gc st |}, v).
Proof.
  intros Hv Hd. unfold loc_write. rewrite Hv, !zlen_app. pose proof (zlen_nonneg post).
  assert (zlen d = zlen mid) by (unfold zlen; lia).
  replace (zlen pre + zlen d <=? zlen pre + (zlen mid + zlen post)) with true by lia.
  rewrite blit_app_mid by exact Hd. reflexivity.
Qed.

Definition sok st ext v d := holds st ext v d /\ nul_terminated st ext v d.

Lemma s_concat_spec st ext a b da db :
  bytes_ok da -> bytes_ok db -> holds st ext a da -> holds st ext b db ->
  zlen (so st) < 2 ^ 48 -> zlen da + zlen db < 2 ^ 64 ->
  exists st' v, s_concat st ext a b = OK (st', v) /\
    holds st' ext v (da ++ db) /\ nul_terminated st' ext v (da ++ db) /\ grows st st' /\
    (zlen (da ++ db) <= 5 -> mk_string st' (da ++ db) = OK (st', v)).
Proof.
  intros Da Db Ha Hb Hs Hn. pose proof (zlen_nonneg da). pose proof (zlen_nonneg db).
  unfold s_concat.
  destruct (proj2 (proj2 Ha)) as (la & A1 & A2 & A3). destruct (proj2 (proj2 Hb)) as (lb & B1 & B2 & B3).
  rewrite A1, B1. cbn [bind].
  set (za := repeat 0 (Z.to_nat (zlen da))). set (zb := repeat 0 (Z.to_nat (zlen db))).
  assert (Za : length za = length da) by (unfold za, zlen; rewrite repeat_length; lia).
  assert (Zb : length zb = length db) by (unfold zb, zlen; rewrite repeat_length; lia).
  assert (EZ : repeat 0 (Z.to_nat (zlen da + zlen db)) = za ++ zb) by (apply repeat_app0; lia).
  assert (ZOK : bytes_ok (za ++ zb)) by (rewrite <- EZ; apply bytes_ok_repeat).
  assert (ZL : zlen (za ++ zb) = zlen da + zlen db) by (rewrite zlen_app; unfold zlen in *; lia).
  assert (DOK : bytes_ok (da ++ db)) by (apply Forall_app; split; assumption).
  assert (DL : zlen (da ++ db) = zlen da + zlen db) by apply zlen_app.
  destruct (Z.le_gt_cases (zlen da + zlen db) 4) as [H4|H4];
    [|destruct (Z.eq_dec (zlen da + zlen db) 5) as [H5|H5]].
  - assert (EM : mk_string_src st None (zlen da + zlen db) = mk_string st (za ++ zb)).
    { unfold mk_string, mk_string_src. rewrite EZ, ZL. rewrite Z.eqb_refl. cbn [negb].
      replace (zlen da + zlen db <=? 4) with true by lia. reflexivity. }
    rewrite EM, mk_inline4 by (try exact ZOK; lia). cbn [bind]. rewrite A1, B1. cbn [bind].
    rewrite get_inline4 by (try exact ZOK; lia). cbn [bind]. rewrite A3. cbn [bind].
    change (PVal 1) with (PVal (zlen [zlen (za ++ zb)])).
    rewrite (write_val _ _ [zlen (za ++ zb)] za (zb ++ repeat 0 (Z.to_nat (5 - zlen (za ++ zb))) ++ le_bytes 2 65526));
      [|rewrite inline4_bytes by (try exact ZOK; lia); rewrite <- !app_assoc; reflexivity|symmetry; exact Za].
    cbn [bind]. rewrite B3. cbn [bind loc_add].
    replace (zlen [zlen (za ++ zb)] + zlen da) with (zlen ([zlen (za ++ zb)] ++ da)) by (rewrite zlen_app; reflexivity).
    rewrite (write_val _ _ ([zlen (za ++ zb)] ++ da) zb (repeat 0 (Z.to_nat (5 - zlen (za ++ zb))) ++ le_bytes 2 65526));
      [| |symmetry; exact Zb].
    2:{ rewrite le_bytes8_val; [rewrite <- !app_assoc; reflexivity| |].
        - apply Forall_app; split; [constructor; [unfold is_byte; lia|constructor]|].
          apply Forall_app; split; [exact Da|]. apply Forall_app; split; [apply Forall_app in ZOK; tauto|].
          apply Forall_app; split; [apply bytes_ok_repeat|apply le_bytes_ok].
        - rewrite !app_length, repeat_length, le_bytes_length. cbn [length]. unfold zlen in *. lia. }
    exists st, (le_val (zlen (da ++ db) :: da ++ db) + 65526 * 2 ^ 48).
    destruct (mk_string_holds st ext (da ++ db) DOK Hs ltac:(lia)) as (st' & v & M1 & M2 & M3 & M4).
    rewrite mk_inline4 in M1 by (try exact DOK; lia). injection M1 as <- <-.
    split; [|split; [exact M2|split; [exact M3|split; [apply grows_refl|intros _; apply mk_inline4; [exact DOK|lia]]]]].
    do 2 f_equal. rewrite <- (le_val_le_bytes8 (le_val (zlen (da ++ db) :: da ++ db) + _)) by apply M2.
    rewrite inline4_bytes by (try exact DOK; lia). rewrite ZL, DL. rewrite <- !app_assoc. reflexivity.
  - assert (EM : mk_string_src st None (zlen da + zlen db) = mk_string st (za ++ zb)).
    { unfold mk_string, mk_string_src. rewrite EZ, ZL. rewrite Z.eqb_refl. cbn [negb].
      replace (zlen da + zlen db <=? 4) with false by lia. 
      replace (zlen da + zlen db =? 5) with true by lia. reflexivity. }
    rewrite EM, mk_inline5 by (try exact ZOK; lia). cbn [bind]. rewrite A1, B1. cbn [bind].
    rewrite get_inline5 by (try exact ZOK; lia). cbn [bind]. rewrite A3. cbn [bind].
    change (PVal 0) with (PVal (zlen (@nil Z))).
    rewrite (write_val _ _ [] za (zb ++ [0] ++ le_bytes 2 65527));
      [|rewrite inline5_bytes by (try exact ZOK; lia); rewrite <- !app_assoc; reflexivity|symmetry; exact Za].
    cbn [bind]. rewrite B3. cbn [bind loc_add].
    replace (zlen [] + zlen da) with (zlen da) by reflexivity. 
    rewrite (write_val _ _ da zb ([0] ++ le_bytes 2 65527));
      [| |symmetry; exact Zb].
    2:{ rewrite le_bytes8_val; [reflexivity| |].
        - apply Forall_app; split; [constructor|].
          apply Forall_app; split; [exact Da|]. apply Forall_app; split; [apply Forall_app in ZOK; tauto|].
          apply Forall_app; split; [constructor; [unfold is_byte; lia|constructor]|apply le_bytes_ok].
        - rewrite !app_length, le_bytes_length. cbn [length]. unfold zlen in *. lia. }
    exists st, (le_val (da ++ db) + 65527 * 2 ^ 48).
    destruct (mk_string_holds st ext (da ++ db) DOK Hs ltac:(lia)) as (st' & v & M1 & M2 & M3 & M4).
    rewrite mk_inline5 in M1 by (try exact DOK; lia). injection M1 as <- <-.
    split; [|split; [exact M2|split; [exact M3|split; [apply grows_refl|intros _; apply mk_inline5; [exact DOK|lia]]]]].
    do 2 f_equal. rewrite <- (le_val_le_bytes8 (le_val (da ++ db) + _)) by apply M2.
    rewrite inline5_bytes by (try exact DOK; lia). rewrite <- !app_assoc. reflexivity.
  - destruct (mk_heap_src st None (zlen da + zlen db)) as (st1 & M1 & M2 & M3);
      [apply zlen_repeat; lia|lia|exact Hs|].
    rewrite M1. cbn [bind]. unfold embed_bytes in M2. rewrite EZ in M2.
    assert (G1 : grows st st1) by (split; [eexists; exact M2|exists []; rewrite app_nil_r; exact M3]).
    rewrite (get_string_grows st st1 a la _ (proj1 Ha) G1 A1 A2). cbn [bind].
    rewrite (get_string_grows st st1 b lb _ (proj1 Hb) G1 B1 B2). cbn [bind].
    set (n := zlen da + zlen db) in *.
    rewrite (get_heap st1 (so st) n ((za ++ zb) ++ [0]) M2) by (try exact Hs; unfold is_u64; lia). cbn [bind].
    pose proof (holds_grows st st1 ext a da G1 Ha) as Ha1.
    assert (PO : match la with POwn o => 0 <= o | _ => True end).
    { destruct la; try exact I. apply (get_string_own_nonneg st a o (zlen da)); [|exact A1]. destruct Ha as [U _]. unfold is_u64 in U; lia. }
    assert (PB : match lb with POwn o => 0 <= o | _ => True end).
    { destruct lb; try exact I. apply (get_string_own_nonneg st b o (zlen db)); [|exact B1]. destruct Hb as [U _]. unfold is_u64 in U; lia. }
    rewrite (loc_read_grows st st1 ext a la _ da G1 A3 PO). cbn [bind].
    rewrite <- zlen_app.
    rewrite (write_own st1 _ (so st ++ varint_bytes n) za (zb ++ [0]));
      [|rewrite M2; rewrite <- !app_assoc; reflexivity|symmetry; exact Za].
    cbn [bind]. set (st2 := {| so := _; so_size := _; sf := _; s_need_gc := _ |}).
    assert (G2 : grows st st2).
    { split; cbn [st2 so sf]; [eexists; rewrite <- app_assoc; reflexivity|exists []; rewrite app_nil_r; exact M3]. }
    rewrite (loc_read_grows st st2 ext b lb _ db G2 B3 PB). cbn [bind loc_add].
    rewrite <- zlen_app.
    rewrite (write_own st2 _ ((so st ++ varint_bytes n) ++ da) zb [0]);
      [|cbn [st2 so]; rewrite <- !app_assoc; reflexivity|symmetry; exact Zb].
    eexists; eexists; split; [reflexivity|]. set (st3 := {| so := _; so_size := _; sf := _; s_need_gc := _ |}).
    assert (E3 : so st3 = so st ++ varint_bytes (zlen (da ++ db)) ++ (da ++ db) ++ [0] ++ []).
    { cbn [st3 so]. rewrite DL. fold n. rewrite <- !app_assoc. reflexivity. }
    destruct (heap_holds st3 ext (so st) (da ++ db) [] E3 Hs ltac:(lia)) as [K1 K2].
    split; [exact K1|]. split; [exact K2|].
    split; [split; [eexists; exact E3|exists []; rewrite app_nil_r; exact M3]|lia].
Qed.

(** Reading inside a string. *)
Lemma sub_sub {A} (l : list A) o n k m : 0 <= o -> 0 <= k -> 0 <= m -> k + m <= n ->
  sub (sub l o n) k m = sub l (o + k) m.
Proof.
  intros. unfold sub. rewrite skipn_firstn_comm, firstn_firstn, skipn_skipn. f_equal; [lia|]. f_equal. lia.
Qed.
Lemma seq_sub a n : firstn a (seq 0 n) = seq 0 (Nat.min a n).
Proof.
  revert n. assert (G : forall a s n, firstn a (seq s n) = seq s (Nat.min a n)).
  { clear. induction a as [|a IH]; intros s [|n]; cbn; try reflexivity. f_equal. apply IH. }
  apply G.
Qed.
Lemma ext_read_sub ext a n k m : 0 <= k -> 0 <= m -> k + m <= n ->
  sub (ext_read ext a n) k m = ext_read ext (a + k) m.
Proof.
  intros. unfold sub, ext_read. rewrite skipn_map, firstn_map.
  apply nth_ext with 0 0.
  - rewrite !map_length, firstn_length, skipn_length, !seq_length. lia.
  - rewrite map_length, firstn_length, skipn_length, seq_length. intros i Hi.
    assert (Hi' : (i < Z.to_nat m)%nat) by lia.
    rewrite (nth_indep _ 0 (ext (a + Z.of_nat 0))) by (rewrite map_length, firstn_length, skipn_length, seq_length; lia).
    rewrite (map_nth (fun j => ext (a + Z.of_nat j))).
    rewrite (nth_indep (map _ _) 0 (ext (a + k + Z.of_nat 0))) by (rewrite map_length, seq_length; lia).
    rewrite (map_nth (fun j => ext (a + k + Z.of_nat j))).
    f_equal. rewrite seq_nth by lia.
    rewrite nth_firstn, nth_skipn, seq_nth by lia. lia.
Qed.

Lemma get_string_val_nonneg st v o n : get_string st v = OK (PVal o, n) -> 0 <= o.
Proof.
  intros H. unfold get_string in H. cbv zeta in H.
  destruct (is_string v); cbn [negb] in H; [|discriminate H].
  destruct (Z.land v TAG_MASK =? TAG_STRING_I).
  { destruct (le_bytes_cons8 v) as (b & r & E). rewrite E in H. injection H as <- _. lia. }
  destruct (Z.land v TAG_MASK =? TAG_STRING_5); [injection H as <- _; lia|].
  destruct (Z.land v TAG_MASK =? TAG_STRING_O).
  - destruct (val_to_offset v <? zlen (so st)); [|discriminate H].
    destruct (varint_decode _ _) as [[[m k]|]| | |] eqn:E; cbn [bind] in H; discriminate H.
  - destruct (Z.land v TAG_MASK =? TAG_STRING_F); [|discriminate H].
    destruct (val_to_offset v <? zlen (sf st)); [|discriminate H].
    destruct (varint_decode _ _) as [[[m k]|]| | |] eqn:E; cbn [bind] in H; try discriminate H.
    destruct (_ <=? _); discriminate H.
Qed.

Lemma holds_read_inside st ext v d l k m : holds st ext v d -> get_string st v = OK (l, zlen d) ->
  0 <= k -> 0 <= m -> k + m <= zlen d -> loc_read st ext v (loc_add l k) m = OK (sub d k m).
Proof.
  intros (Hv & _ & l' & H1 & H2 & H3) Hg Hk Hm Hb.
  assert (l' = l) by congruence. subst l'. destruct l as [|o|o|a]; [congruence| | |]; cbn [loc_add].
  - pose proof (get_string_val_nonneg _ _ _ _ Hg). unfold loc_read in *.
    destruct ((0 <=? zlen d) && (o + zlen d <=? 8)) eqn:E; [|discriminate H3].
    replace ((0 <=? m) && (o + k + m <=? 8)) with true by lia. injection H3 as H3.
    rewrite <- H3, sub_sub by lia. reflexivity.
  - pose proof (get_string_own_nonneg st v o (zlen d) ltac:(unfold is_u64 in Hv; lia) Hg). unfold loc_read in *.
    destruct ((0 <=? zlen d) && (o + zlen d <=? zlen (so st))) eqn:E; [|discriminate H3].
    replace ((0 <=? m) && (o + k + m <=? zlen (so st))) with true by lia. injection H3 as H3.
    rewrite <- H3, sub_sub by lia. reflexivity.
  - unfold loc_read in *. replace (0 <=? m) with true by lia.
    destruct (0 <=? zlen d); [|discriminate H3]. injection H3 as H3.
    rewrite <- H3, ext_read_sub by lia. reflexivity.
Qed.

(** Argument checks. *)
Lemma check_this_string this args : is_u64 this -> kind_of this = KString ->
  check_arg this args None TyString = OK (Some this).
Proof. intros H1 H2. unfold check_arg. rewrite (get_type_agrees this TyString H1 H2). reflexivity. Qed.
Lemma check_arg_ok this args k v ty : nth_error args k = Some v -> is_u64 v -> kind_of v = type_kind ty ->
  check_arg this args (Some k) ty = OK (Some v).
Proof.
  intros H1 H2 H3. unfold check_arg. rewrite H1, (get_type_agrees v ty H2 H3). cbn [bind].
  destruct ty; reflexivity.
Qed.
Lemma s32_small z : - 2 ^ 31 <= z < 2 ^ 31 -> s32 z = z.
Proof. unfold s32. intros. destruct (z mod 2 ^ 32 <? 2 ^ 31) eqn:E; lia. Qed.
Lemma s32_range z : - 2 ^ 31 <= s32 z < 2 ^ 31.
Proof. unfold s32. destruct (z mod 2 ^ 32 <? 2 ^ 31) eqn:E; lia. Qed.
Lemma get_int_range v i : get_int v = OK i -> - 2 ^ 31 <= i < 2 ^ 31.
Proof. unfold get_int. intros H. destruct (d_to_range _ _ _); cbn [bind] in H; try discriminate H. injection H as <-. apply s32_range. Qed.

Lemma clamp_range i n : 0 <= n -> 0 <= clamp_idx i n <= n.
Proof. unfold clamp_idx. lia. Qed.

Lemma string_slice_spec st ext this d bv bi rest :
  holds st ext this d -> bytes_ok d -> zlen d < 2 ^ 31 -> zlen (so st) < 2 ^ 48 ->
  is_u64 bv -> kind_of bv = KNumber -> get_int bv = OK bi ->
  forall e, match rest with
            | [] => e = zlen d
            | ev :: _ => is_u64 ev /\ kind_of ev = KNumber /\ exists ei, get_int ev = OK ei /\ e = clamp_idx ei (zlen d)
            end ->
  let b := clamp_idx bi (zlen d) in
  exists st' v, string_slice st ext this (bv :: rest) = OK (st', v, E_OK) /\
    holds st' ext v (sub d b (Z.max 0 (e - b))) /\ grows st st'.
Proof.
  intros Hh Hd Hn Hs Hbu Hbk Hbi e He b. pose proof (zlen_nonneg d).
  pose proof (get_int_range _ _ Hbi) as Rb. pose proof (clamp_range bi (zlen d) ltac:(lia)).
  unfold string_slice. rewrite check_this_string by apply Hh. cbn [bind].
  destruct (proj2 (proj2 Hh)) as (l & G1 & G2 & G3). rewrite G1. cbn [bind].
  rewrite (check_arg_ok _ _ 0 bv TyNumber) by (try reflexivity; assumption). cbn [bind].
  rewrite Hbi. cbn [bind]. rewrite s32_small by lia. rewrite normalize_idx_spec by lia. cbn [bind].
  fold (clamp_idx bi (zlen d)). fold b.
  assert (HE : (if 2 <=? zlen (bv :: rest) then
          a2 <- check_arg this (bv :: rest) (Some 1%nat) TyNumber ;;
          match a2 with
          | None => OK None
          | Some ev => ei <- get_int ev ;; e <- normalize_idx ei (zlen d) ;; OK (Some e)
          end
        else OK (Some (zlen d))) = OK (Some e) /\ 0 <= e <= zlen d).
  { destruct rest as [|ev rest].
    - subst e. split; [reflexivity|lia].
    - destruct He as (E1 & E2 & ei & E3 & ->). split; [|apply clamp_range; lia].
      replace (2 <=? zlen (bv :: ev :: rest)) with true by (rewrite !zlen_cons; pose proof (zlen_nonneg rest); lia).
      rewrite (check_arg_ok _ _ 1 ev TyNumber) by (try reflexivity; assumption). cbn [bind].
      rewrite E3. cbn [bind]. pose proof (get_int_range _ _ E3). rewrite normalize_idx_spec by lia. reflexivity. }
  destruct HE as [HE HR]. rewrite HE. cbn [bind].
  set (e' := if e <? b then b else e).
  assert (Ee : e' - b = Z.max 0 (e - b)) by (unfold e'; destruct (e <? b) eqn:Q; lia).
  rewrite Ee. rewrite (holds_read_inside st ext this d l b (Z.max 0 (e - b)) Hh G1) by (unfold b in *; lia).
  cbn [bind].
  destruct (mk_string_holds st ext (sub d b (Z.max 0 (e - b)))) as (st' & v & M1 & M2 & _).
  { apply bytes_ok_sub. exact Hd. }
  { exact Hs. }
  { rewrite sub_length by (unfold b in *; lia). lia. }
  rewrite M1. cbn [bind]. exists st', v. split; [reflexivity|]. split; [exact M2|].
  apply (mk_string_grows _ _ _ _ M1).
Qed.

(** C12 *)
Lemma strstr_loop_spec h n : forall f i, 0 <= i -> i + Z.of_nat f + zlen n <= zlen h ->
  match strstr_loop f h n i with
  | Some k => i <= k <= i + Z.of_nat f /\ sub h k (zlen n) = n /\ forall j, i <= j < k -> sub h j (zlen n) <> n
  | None => forall j, i <= j <= i + Z.of_nat f -> sub h j (zlen n) <> n
  end.
Proof.
  assert (M : forall i, 0 <= i -> i + zlen n <= zlen h -> (memcmp (sub h i (zlen n)) n =? 0) = true <-> sub h i (zlen n) = n).
  { intros i H0 H1. pose proof (zlen_nonneg n). rewrite Z.eqb_eq. apply memcmp_spec. rewrite sub_length by lia. lia. }
  induction f as [|f IH]; intros i H0 H1; cbn [strstr_loop].
  - destruct (memcmp (sub h i (zlen n)) n =? 0) eqn:E.
    + apply M in E; [|lia|lia]. split; [lia|]. split; [exact E|]. lia.
    + intros j Hj K. replace j with i in K by lia. apply M in K; [congruence|lia|lia].
  - destruct (memcmp (sub h i (zlen n)) n =? 0) eqn:E.
    + apply M in E; [|lia|lia]. split; [lia|]. split; [exact E|]. lia.
    + specialize (IH (i + 1) ltac:(lia) ltac:(lia)).
      assert (NI : sub h i (zlen n) <> n) by (intros K; apply M in K; [congruence|lia|lia]).
      destruct (strstr_loop f h n (i + 1)) as [k|].
      * destruct IH as (I1 & I2 & I3). split; [lia|]. split; [exact I2|].
        intros j Hj. destruct (Z.eq_dec j i); [subst; exact NI|apply I3; lia].
      * intros j Hj. destruct (Z.eq_dec j i); [subst; exact NI|apply IH; lia].
Qed.
Lemma mg_strstr_spec h n :
  match mg_strstr h n with
  | Some k => first_occurrence h n 0 k
  | None => no_occurrence h n 0
  end.
Proof.
  unfold mg_strstr, first_occurrence, no_occurrence. pose proof (zlen_nonneg n). destruct (zlen n >? zlen h) eqn:E; [lia|].
  pose proof (strstr_loop_spec h n (Z.to_nat (zlen h - zlen n)) 0 ltac:(lia) ltac:(lia)) as S.
  destruct (strstr_loop _ h n 0).
  - destruct S as (S1 & S2 & S3). repeat split; try lia; assumption.
  - intros j J1 J2. apply S. lia.
Qed.

Lemma string_index_of_spec st ext this d sv t rest from :
  holds st ext this d -> holds st ext sv t -> zlen d < 2 ^ 31 ->
  match rest with
  | [] => from = 0
  | iv :: _ => is_u64 iv /\ kind_of iv = KNumber /\ exists i, get_int iv = OK i /\ from = Z.min (zlen d) (Z.max 0 i)
  end ->
  exists r, string_index_of st ext this (sv :: rest) = OK (st, mk_number (d_of_Z r), E_OK) /\
    (first_occurrence d t from r \/ (r = -1 /\ no_occurrence d t from)).
Proof.
  intros Hh Ht Hn Hf. pose proof (zlen_nonneg d). pose proof (zlen_nonneg t).
  unfold string_index_of. rewrite check_this_string by apply Hh. cbn [bind].
  destruct (proj2 (proj2 Hh)) as (l & G1 & G2 & G3). rewrite G1. cbn [bind].
  rewrite (check_arg_ok _ _ 0 sv TyString) by (try reflexivity; apply Ht). cbn [bind].
  destruct (proj2 (proj2 Ht)) as (l2 & T1 & T2 & T3). rewrite T1. cbn [bind].
  assert (HE : (if 1 <? zlen (sv :: rest) then
          a2 <- check_arg this (sv :: rest) (Some 1%nat) TyNumber ;;
          match a2 with
          | None => OK None
          | Some iv => i <- get_int iv ;;
                       OK (Some (if (if i <? 0 then 0 else i) >? zlen d then s32 (zlen d) else (if i <? 0 then 0 else i)))
          end
        else OK (Some 0)) = OK (Some from) /\ 0 <= from <= zlen d).
  { destruct rest as [|iv rest].
    - subst from. split; [reflexivity|lia].
    - destruct Hf as (E1 & E2 & i & E3 & ->). split; [|lia].
      replace (1 <? zlen (sv :: iv :: rest)) with true by (rewrite !zlen_cons; pose proof (zlen_nonneg rest); lia).
      rewrite (check_arg_ok _ _ 1 iv TyNumber) by (try reflexivity; assumption). cbn [bind].
      rewrite E3. cbn [bind]. do 2 f_equal. rewrite s32_small by lia.
      destruct (i <? 0) eqn:Q.
      + replace (0 >? zlen d) with false by lia. lia.
      + destruct (i >? zlen d) eqn:Q2; lia. }
  destruct HE as [HE HR]. rewrite HE. cbn [bind].
  rewrite (holds_read_inside st ext this d l from (zlen d - from) Hh G1) by lia. cbn [bind].
  rewrite T3. cbn [bind].
  pose proof (mg_strstr_spec (sub d from (zlen d - from)) t) as S.
  assert (HL : zlen (sub d from (zlen d - from)) = zlen d - from) by (rewrite sub_length by lia; lia).
  assert (SS : forall j, 0 <= j -> j + zlen t <= zlen d - from ->
     sub (sub d from (zlen d - from)) j (zlen t) = sub d (from + j) (zlen t)).
  { intros j J1 J2. apply sub_sub; lia. }
  unfold first_occurrence, no_occurrence in *. rewrite HL in S.
  destruct (mg_strstr _ t) as [k|].
  - destruct S as (S1 & S2 & S3 & S4). exists (from + k). rewrite s32_small by lia. split; [reflexivity|]. left.
    split; [lia|]. split; [lia|]. split; [rewrite <- SS by lia; exact S3|].
    intros j Hj. replace j with (from + (j - from)) by lia. rewrite <- SS by lia. apply S4. lia.
  - exists (-1). split; [reflexivity|]. right. split; [reflexivity|].
    intros j J1 J2. replace j with (from + (j - from)) by lia. rewrite <- SS by lia. apply S; lia.
Qed.

(** C13 *)
Lemma sub_one {A} (d : list A) i b : nthz d i = Some b -> sub d i 1 = [b].
Proof.
  unfold nthz, sub. destruct (i <? 0) eqn:E; [discriminate|]. intros H.
  change (Z.to_nat 1) with 1%nat. revert H. generalize (Z.to_nat i). clear.
  induction d as [|x d IH]; intros [|n] H; try discriminate H.
  - injection H as <-. reflexivity.
  - apply IH. exact H.
Qed.
Lemma nthz_in {A} (d : list A) i : 0 <= i < zlen d -> exists b, nthz d i = Some b.
Proof.
  intros H. unfold nthz. replace (i <? 0) with false by lia.
  destruct (nth_error d (Z.to_nat i)) eqn:E; [eauto|]. apply nth_error_None in E. unfold zlen in H. lia.
Qed.
Lemma nthz_out {A} (d : list A) i : i < 0 \/ zlen d <= i -> nthz d i = None.
Proof.
  intros H. unfold nthz. destruct (i <? 0) eqn:E; [reflexivity|]. apply nth_error_None. unfold zlen in H. lia.
Qed.

Lemma char_code_at_spec st ext this d iv i rest :
  holds st ext this d -> zlen d < 2 ^ 31 -> is_u64 iv -> kind_of iv = KNumber -> get_int iv = OK i ->
  string_char_code_at st ext this (iv :: rest) =
    OK (st, match nthz d (clamp_idx i (zlen d)) with Some b => mk_number (d_of_Z b) | None => V_UNDEFINED end, E_OK).
Proof.
  intros Hh Hn Hu Hk Hi. pose proof (zlen_nonneg d). pose proof (get_int_range _ _ Hi).
  unfold string_char_code_at. rewrite check_this_string by apply Hh. cbn [bind].
  destruct (proj2 (proj2 Hh)) as (l & G1 & G2 & G3). rewrite G1. cbn [bind].
  rewrite (check_arg_ok _ _ 0 iv TyNumber) by (try reflexivity; assumption). cbn [bind].
  rewrite Hi. cbn [bind]. rewrite s32_small by lia. rewrite normalize_idx_spec by lia. cbn [bind].
  fold (clamp_idx i (zlen d)). pose proof (clamp_range i (zlen d) ltac:(lia)).
  set (k := clamp_idx i (zlen d)) in *. destruct ((0 <=? k) && (k <? zlen d)) eqn:E.
  - destruct (nthz_in d k ltac:(lia)) as [b Hb]. rewrite Hb.
    rewrite (holds_read_inside st ext this d l k 1 Hh G1) by lia. cbn [bind]. rewrite (sub_one d k b Hb). reflexivity.
  - rewrite nthz_out by lia. reflexivity.
Qed.

Lemma ul_digits_val ds : forall acc k rest c, Forall (fun c => 48 <= c <= 57) ds -> is_digit c = false ->
  ul_digits (ds ++ c :: rest) acc k = Some (fold_left (fun a c => a * 10 + (c - 48)) ds acc, k + zlen ds).
Proof.
  induction ds as [|x ds IH]; intros acc k rest c H Hc; cbn [app ul_digits fold_left].
  - rewrite Hc. rewrite Z.add_0_r. reflexivity.
  - pose proof (Forall_inv H) as Hx. cbn beta in Hx. unfold is_digit at 1. replace ((48 <=? x) && (x <=? 57)) with true by lia.
    rewrite IH by (try exact Hc; apply (Forall_inv_tail H)). rewrite zlen_cons. do 2 f_equal. lia.
Qed.
Lemma cstr_to_ulong_digits ds : digits_ok ds -> digits_val ds < 2 ^ 64 ->
  cstr_to_ulong (ds ++ [0]) (zlen ds) = Some (digits_val ds).
Proof.
  intros [H1 H2] H3. unfold cstr_to_ulong. destruct ds as [|x ds]; [congruence|].
  pose proof (Forall_inv H2) as Hx. cbn beta in Hx. cbn [app strtoul]. unfold is_space.
  replace ((x =? 32) || ((9 <=? x) && (x <=? 13))) with false by lia.
  cbn [ul_signed]. replace (x =? 45) with false by lia. replace (x =? 43) with false by lia.
  change (x :: ds ++ [0]) with ((x :: ds) ++ [0]).
  rewrite ul_digits_val by (try exact H2; reflexivity). pose proof (zlen_nonneg ds).
  replace (0 + zlen (x :: ds) =? 0) with false by (rewrite zlen_cons; lia).
  fold (digits_val (x :: ds)). unfold ul_value. replace (digits_val (x :: ds) <? 2 ^ 64) with true by lia.
  replace (0 + (0 + zlen (x :: ds)) =? zlen (x :: ds)) with true by lia.
  replace (zlen (x :: ds) =? 0) with false by (rewrite zlen_cons; lia). reflexivity.
Qed.
Lemma cstr_eq_digits ds lit x : digits_ok ds -> hd 0 lit = x -> 57 < x -> cstr_eq (ds ++ [0]) lit = OK false.
Proof.
  intros [H1 H2] Hx Hl. destruct ds as [|c ds]; [congruence|]. pose proof (Forall_inv H2) as Hc. cbn beta in Hc.
  destruct lit as [|y l]; cbn [hd] in Hx; [lia|]. subst y. cbn [app cstr_eq]. replace (c =? x) with false by lia. reflexivity.
Qed.
Lemma getprop_string_digits st ext v d ds : holds st ext v d -> bytes_ok d -> zlen d < 2 ^ 31 -> zlen (so st) < 2 ^ 48 ->
  digits_ok ds -> digits_val ds < 2 ^ 64 ->
  let i := s32 (digits_val ds) in
  exists st' r, getprop_string st ext v (ds ++ [0]) (zlen ds) = OK (st', GP_val r) /\ grows st st' /\
    match nthz d i with Some b => holds st' ext r [b] | None => r = V_UNDEFINED end.
Proof.
  intros Hh Hd Hn Hs Hds Hv i. unfold getprop_string.
  rewrite !(cstr_eq_digits ds _ _ Hds eq_refl) by (cbn; lia). cbn [bind].
  rewrite cstr_to_ulong_digits by assumption. cbv zeta. fold i.
  destruct (proj2 (proj2 Hh)) as (l & G1 & G2 & G3). rewrite G1. cbn [bind].
  pose proof (zlen_nonneg d). rewrite s32_small by lia.
  destruct ((0 <=? i) && (i <? zlen d)) eqn:E.
  - destruct (nthz_in d i ltac:(lia)) as [b Hb]. rewrite Hb.
    rewrite (holds_read_inside st ext v d l i 1 Hh G1) by lia. cbn [bind]. rewrite (sub_one d i b Hb).
    destruct (mk_string_holds st ext [b]) as (st' & r & M1 & M2 & _).
    { rewrite <- (sub_one d i b Hb). apply bytes_ok_sub. exact Hd. }
    { exact Hs. }
    { cbn; lia. }
    rewrite M1. cbn [bind]. exists st', r. split; [reflexivity|]. split; [apply (mk_string_grows _ _ _ _ M1)|exact M2].
  - exists st, V_UNDEFINED. split; [reflexivity|]. split; [apply grows_refl|]. rewrite nthz_out by lia. reflexivity.
Qed.
Lemma getprop_string_length st ext v d : holds st ext v d ->
  getprop_string st ext v (ascii_length ++ [0]) 6 = OK (st, GP_val (mk_number (d_of_Z (zlen d)))).
Proof.
  intros (_ & _ & l & G1 & _ & _). unfold getprop_string. cbn [cstr_eq ascii_length app Z.eqb Pos.eqb bind].
  rewrite G1. reflexivity.
Qed.

From Verif Require Import Base BaseFacts Varint_Model Varint_Spec.
Ltac Zify.zify_post_hook ::= Z.div_mod_to_equations.

Lemma shiftr7 n : Z.shiftr n 7 = n / 128.
Proof. rewrite Z.shiftr_div_pow2 by lia. reflexivity. Qed.
Lemma land127 n : Z.land n 127 = n mod 128.
Proof. exact (land_ones_mod n 7 ltac:(lia)). Qed.
Lemma lor128 b : 0 <= b < 128 -> Z.lor b 128 = b + 128.
Proof. intros H. exact (lor_add_disjoint b 1 7 ltac:(lia) H). Qed.
Lemma log2_div128 n : 128 <= n -> Z.log2 (n / 128) < Z.log2 n.
Proof.
  intros H. apply Z.log2_lt_pow2; [lia|].
  pose proof (Z.log2_spec n ltac:(lia)) as [H1 H2].
  assert (0 <= Z.log2 n) by apply Z.log2_nonneg.
  rewrite Z.pow_succ_r in H2 by lia. assert (n / 128 <= n / 2) by lia. lia.
Qed.

Lemma enc_loop_fuel f g n : 0 <= n ->
  (Z.to_nat (Z.log2 n) < f)%nat -> (Z.to_nat (Z.log2 n) < g)%nat ->
  enc_loop f n = enc_loop g n.
Proof.
  revert g n; induction f as [|f IH]; intros g n Hn Hf Hg; [lia|].
  destruct g as [|g]; [lia|]. cbn [enc_loop]. rewrite shiftr7.
  destruct (n / 128 =? 0) eqn:E; cbn [negb]; [reflexivity|].
  f_equal. pose proof (log2_div128 n ltac:(lia)). pose proof (Z.log2_nonneg (n / 128)). apply IH; lia.
Qed.

(** The defining equation of the encoder. *)
Lemma varint_bytes_eq n : 0 <= n ->
  varint_bytes n = if n <? 128 then [n] else (n mod 128 + 128) :: varint_bytes (n / 128).
Proof.
  intros Hn. unfold varint_bytes, varint_fuel at 1. cbn [enc_loop].
  rewrite shiftr7, land127.
  destruct (n <? 128) eqn:E.
  - replace (n / 128 =? 0) with true by lia. cbn [negb]. f_equal. lia.
  - replace (n / 128 =? 0) with false by lia. cbn [negb]. rewrite lor128 by lia.
    f_equal. pose proof (log2_div128 n ltac:(lia)). pose proof (Z.log2_nonneg (n / 128)). apply enc_loop_fuel; unfold varint_fuel; lia.
Qed.

Lemma llen_loop_enc f n : llen_loop f n = zlen (enc_loop f n).
Proof.
  revert n; induction f as [|f IH]; intros n; [reflexivity|].
  cbn [llen_loop enc_loop]. destruct (_ =? 0); cbn [negb]; [reflexivity|].
  rewrite zlen_cons, IH. reflexivity.
Qed.
Lemma varint_llen_eq n : varint_llen n = zlen (varint_bytes n).
Proof. apply llen_loop_enc. Qed.

(** Strong induction along /128. *)
Lemma varint_ind (P : Z -> Prop) :
  (forall n, 0 <= n < 128 -> P n) ->
  (forall n, 128 <= n -> P (n / 128) -> P n) ->
  forall n, 0 <= n -> P n.
Proof.
  intros H0 H1. apply Zlt_0_ind.
  intros x IH Hx. destruct (Z.lt_ge_cases x 128); [apply H0; lia|].
  apply H1; [lia|]. apply IH; lia.
Qed.

Lemma varint_bytes_ok n : 0 <= n -> bytes_ok (varint_bytes n).
Proof.
  intros Hn. pattern n; apply varint_ind; [| |exact Hn]; intros m Hm.
  - rewrite varint_bytes_eq by lia. replace (m <? 128) with true by lia.
    constructor; [unfold is_byte; lia|constructor].
  - intros IH. rewrite varint_bytes_eq by lia. replace (m <? 128) with false by lia.
    constructor; [unfold is_byte; lia|exact IH].
Qed.

Lemma varint_len_pos n : 0 <= n -> 1 <= zlen (varint_bytes n).
Proof.
  intros. rewrite varint_bytes_eq by lia.
  destruct (n <? 128); [reflexivity|]. rewrite zlen_cons.
  pose proof (zlen_nonneg (varint_bytes (n / 128))). lia.
Qed.

Lemma varint_len_bound k n : 0 <= k -> 0 <= n < 128 ^ k -> 1 <= k ->
  zlen (varint_bytes n) <= k.
Proof.
  intros Hk. revert n. pattern k. apply natlike_ind; [lia| |exact Hk].
  intros x Hx IH n Hn _. rewrite varint_bytes_eq by lia.
  destruct (n <? 128) eqn:E; [cbn; lia|]. rewrite zlen_cons.
  rewrite Z.pow_succ_r in Hn by lia.
  assert (1 <= x). { destruct (Z.eq_dec x 0) as [->|]; [|lia]. rewrite Z.pow_0_r in Hn. lia. }
  assert (n / 128 < 128 ^ x) by (apply Z.div_lt_upper_bound; lia).
  specialize (IH (n / 128) ltac:(lia) ltac:(lia)). lia.
Qed.
Lemma varint_len_u64 n : is_u64 n -> 1 <= zlen (varint_bytes n) <= 10.
Proof.
  intros H. split; [apply varint_len_pos; unfold is_u64 in H; lia|].
  apply varint_len_bound; [lia| |lia]. unfold is_u64 in H.
  split; [lia|]. apply Z.lt_trans with (2 ^ 64); [lia|]. reflexivity.
Qed.

Lemma groups_val_bytes n : 0 <= n -> groups_val (varint_bytes n) = n.
Proof.
  intros Hn. pattern n; apply varint_ind; [| |exact Hn]; intros m Hm.
  - rewrite varint_bytes_eq by lia. replace (m <? 128) with true by lia.
    cbn [groups_val]. lia.
  - intros IH. rewrite varint_bytes_eq by lia. replace (m <? 128) with false by lia.
    cbn [groups_val]. rewrite IH. lia.
Qed.
Lemma groups_val_nonneg l : 0 <= groups_val l.
Proof. induction l as [|b l IH]; cbn [groups_val]; lia. Qed.

(** All bytes of an encoding but the last have the continuation bit. *)
Inductive varint_shape : list Z -> Prop :=
| vs_last b : 0 <= b < 128 -> varint_shape [b]
| vs_cont b l : 128 <= b < 256 -> varint_shape l -> varint_shape (b :: l).
Lemma varint_bytes_shape n : 0 <= n -> varint_shape (varint_bytes n).
Proof.
  intros Hn. pattern n; apply varint_ind; [| |exact Hn]; intros m Hm.
  - rewrite varint_bytes_eq by lia. replace (m <? 128) with true by lia.
    constructor; lia.
  - intros IH. rewrite varint_bytes_eq by lia. replace (m <? 128) with false by lia.
    constructor; [lia|exact IH].
Qed.
Lemma shape_prefix a b r s : varint_shape a -> varint_shape b -> a ++ r = b ++ s -> a = b.
Proof.
  intros Ha; revert b; induction Ha as [x Hx|x l Hx Ha IH]; intros b Hb He;
    destruct Hb as [y Hy|y m Hy Hb]; cbn [app] in He; injection He as -> He; try lia.
  - reflexivity.
  - f_equal. apply IH; assumption.
Qed.
Lemma varint_bytes_inj n m : 0 <= n -> 0 <= m -> varint_bytes n = varint_bytes m -> n = m.
Proof.
  intros Hn Hm H. rewrite <- (groups_val_bytes n Hn), <- (groups_val_bytes m Hm), H. reflexivity.
Qed.

(** Continuation-bit test. *)
Lemma land128 b : is_byte b -> (Z.land b 128 =? 0) = (b <? 128).
Proof.
  intros Hb. unfold is_byte in Hb.
  destruct (b <? 128) eqn:E.
  - pose proof (land_disjoint b 1 7 ltac:(lia) ltac:(lia)) as H. change (1 * 2 ^ 7) with 128 in H. lia.
  - assert (b = (b - 128) + 1 * 2 ^ 7) as Hd by lia. rewrite Hd.
    rewrite <- lor_add_disjoint by lia. rewrite Z.land_lor_distr_l.
    pose proof (land_disjoint (b - 128) 1 7 ltac:(lia) ltac:(lia)) as H.
    change (1 * 2 ^ 7) with 128 in *. rewrite H. reflexivity.
Qed.

Lemma pow_128_7 i : 0 <= i -> 2 ^ (7 * i) = 128 ^ i.
Proof. intros. rewrite Z.pow_mul_r by lia. reflexivity. Qed.

(** Accumulating step: or-ing the next group is addition modulo 2^64. *)
Lemma group_step n b i : 0 <= i <= 9 -> 0 <= n < 128 ^ i -> is_byte b ->
  Z.lor n (u64 (Z.shiftl (Z.land b 127) (7 * i))) = (n + (b mod 128) * 128 ^ i) mod 2 ^ 64.
Proof.
  intros Hi Hn Hb. rewrite land127, Z.shiftl_mul_pow2 by lia. unfold u64.
  assert (HK : 128 ^ i = 2 ^ (7 * i)) by (rewrite pow_128_7 by lia; reflexivity).
  assert (Hsplit : 2 ^ 64 = 2 ^ (7 * i) * 2 ^ (64 - 7 * i)).
  { rewrite <- Z.pow_add_r by lia. f_equal. lia. }
  assert (HM : 0 < 2 ^ (64 - 7 * i)) by (apply Z.pow_pos_nonneg; lia).
  assert (HKp : 0 < 2 ^ (7 * i)) by (apply Z.pow_pos_nonneg; lia).
  rewrite HK in *. rewrite Hsplit.
  set (M := 2 ^ (64 - 7 * i)) in *. set (g := b mod 128).
  rewrite (Z.mul_comm g), Z.mul_mod_distr_l by (clear - HM HKp; lia).
  rewrite (Z.mul_comm _ (g mod M)).
  rewrite lor_add_disjoint; [|clear - Hi; lia|exact Hn].
  set (K := 2 ^ (7 * i)) in *. clearbody K M g. clear - Hn HM HKp.
  apply Z.mod_unique_pos with (q := g / M).
  - pose proof (Z.mod_pos_bound g M HM). nia.
  - pose proof (Z.div_mod g M ltac:(lia)). nia.
Qed.

Lemma nthz_mid {A} (pre : list A) b r : nthz (pre ++ b :: r) (zlen pre) = Some b.
Proof.
  unfold nthz. pose proof (zlen_nonneg pre). replace (zlen pre <? 0) with false by lia.
  unfold zlen. rewrite Nat2Z.id, nth_error_app2, Nat.sub_diag by lia. reflexivity.
Qed.

Lemma groups_val_bound l : 0 <= groups_val l < 128 ^ zlen l.
Proof.
  induction l as [|b l IH]; [cbn; lia|]. cbn [groups_val]. rewrite zlen_cons.
  pose proof (zlen_nonneg l). rewrite Z.pow_add_r by lia. change (128 ^ 1) with 128.
  pose proof (Z.mod_pos_bound b 128 ltac:(lia)). lia.
Qed.

(** One loop iteration on a readable byte. *)
Lemma dec_step f pre b rest size n :
  zlen pre <= 9 -> zlen pre <> size -> is_byte b -> 0 <= n < 128 ^ zlen pre ->
  dec_loop (S f) (pre ++ b :: rest) size (zlen pre) (7 * zlen pre) n =
  let n' := (n + b mod 128 * 128 ^ zlen pre) mod 2 ^ 64 in
  if (7 * (zlen pre + 1) <? 64) && negb (b <? 128)
  then dec_loop f (pre ++ b :: rest) size (zlen pre + 1) (7 * (zlen pre + 1)) n'
  else OK (Some (n', zlen pre + 1)).
Proof.
  intros Hp Hs Hb Hn. cbn [dec_loop]. pose proof (zlen_nonneg pre).
  replace ((zlen pre =? size) || (zlen pre =? 10)) with false by lia.
  rewrite nthz_mid. rewrite group_step by (lia || assumption).
  rewrite land128 by exact Hb.
  replace (7 * zlen pre + 7) with (7 * (zlen pre + 1)) by lia. reflexivity.
Qed.

Lemma pow128_le_u64 k : 0 <= k <= 9 -> 128 ^ k <= 2 ^ 63.
Proof.
  intros. apply Z.le_trans with (128 ^ 9); [|reflexivity || discriminate].
  apply Z.pow_le_mono_r; lia.
Qed.

Lemma dec_skip l : forall f pre rest size n,
  Forall cont l -> zlen pre + zlen l <= 9 ->
  (zlen pre + zlen l <= size) -> 0 <= n < 128 ^ zlen pre ->
  dec_loop (length l + f) (pre ++ l ++ rest) size (zlen pre) (7 * zlen pre) n =
  dec_loop f (pre ++ l ++ rest) size (zlen pre + zlen l) (7 * (zlen pre + zlen l))
           (n + groups_val l * 128 ^ zlen pre).
Proof.
  induction l as [|b l IH]; intros f pre rest size n Hc Hl Hs Hn.
  - cbn [length Nat.add groups_val]. rewrite zlen_nil, Z.add_0_r.
    rewrite Z.mul_0_l, Z.add_0_r. reflexivity.
  - inversion Hc as [|? ? Hb Hc']; subst. unfold cont in Hb.
    pose proof (zlen_nonneg l). pose proof (zlen_nonneg pre). rewrite zlen_cons in *.
    cbn [length Nat.add app]. rewrite dec_step; [|lia|lia|unfold is_byte; lia|exact Hn].
    cbv zeta. replace (7 * (zlen pre + 1) <? 64) with true by lia.
    replace (b <? 128) with false by lia. cbn [andb negb].
    assert (Hpow : 128 ^ (zlen pre + 1) = 128 * 128 ^ zlen pre).
    { rewrite Z.pow_add_r by lia. change (128 ^ 1) with 128. ring. }
    assert (Hb1 : n + b mod 128 * 128 ^ zlen pre < 128 ^ (zlen pre + 1)).
    { rewrite Hpow. pose proof (Z.mod_pos_bound b 128 ltac:(lia)). clear - Hn H1. nia. }
    pose proof (pow128_le_u64 (zlen pre + 1) ltac:(lia)) as Hp63.
    pose proof (Z.mod_pos_bound b 128 ltac:(lia)) as Hbm.
    assert (0 <= n + b mod 128 * 128 ^ zlen pre) by (clear - Hn Hbm; nia).
    rewrite Z.mod_small by (clear - Hb1 Hp63 H1; lia).
    replace (pre ++ b :: l ++ rest) with ((pre ++ [b]) ++ l ++ rest)
      by (rewrite <- app_assoc; reflexivity).
    assert (Hz : zlen (pre ++ [b]) = zlen pre + 1) by (rewrite zlen_app; reflexivity).
    rewrite <- Hz. rewrite IH; rewrite ?Hz; [|exact Hc'|lia|lia|lia].
    replace (zlen pre + 1 + zlen l) with (zlen pre + (1 + zlen l)) by lia.
    f_equal. rewrite Hpow. cbn [groups_val]. ring.
Qed.

(** Split of any byte list: a run of continuation bytes, then the end or a
    terminator. *)
Lemma cont_split l : bytes_ok l ->
  Forall cont l \/ exists a t r, l = a ++ t :: r /\ Forall cont a /\ 0 <= t < 128.
Proof.
  induction l as [|b l IH]; intros H; [left; constructor|].
  inversion H as [|? ? Hb Hl]; subst. unfold is_byte in Hb.
  destruct (Z.lt_ge_cases b 128).
  - right. exists [], b, l. repeat split; try constructor; lia.
  - destruct (IH Hl) as [Hc|(a & t & r & -> & Ha & Ht)].
    + left. constructor; [unfold cont; lia|exact Hc].
    + right. exists (b :: a), t, r. repeat split; [constructor; [unfold cont; lia|exact Ha]|lia|lia].
Qed.

Lemma groups_val_app a b : groups_val (a ++ b) = groups_val a + 128 ^ zlen a * groups_val b.
Proof.
  induction a as [|x a IH]; [change (zlen (@nil Z)) with 0; cbn [app groups_val]; rewrite Z.pow_0_r; ring|].
  cbn [app groups_val]. rewrite IH, zlen_cons. pose proof (zlen_nonneg a).
  rewrite Z.pow_add_r by lia. change (128 ^ 1) with 128. ring.
Qed.

(** Decoding a run of continuation bytes ended by a terminator. *)
Lemma decode_term a t rest size :
  Forall cont a -> 0 <= t < 128 -> zlen a <= 9 -> zlen a + 1 <= size ->
  varint_decode (a ++ t :: rest) size =
  OK (Some (groups_val (a ++ [t]) mod 2 ^ 64, zlen a + 1)).
Proof.
  intros Ha Ht Hl Hs. unfold varint_decode. pose proof (zlen_nonneg a).
  pose proof (dec_skip a (10 - length a) [] (t :: rest) size 0 Ha) as HS.
  change (zlen (@nil Z)) with 0 in HS. rewrite !Z.add_0_l in HS.
  change (7 * 0) with 0 in HS. cbn [app] in HS. rewrite Z.pow_0_r, Z.mul_1_r in HS.
  replace (length a + (10 - length a))%nat with 10%nat in HS by (unfold zlen in Hl; lia).
  rewrite HS by lia. clear HS.
  replace (10 - length a)%nat with (S (9 - length a)) by (unfold zlen in Hl; lia).
  rewrite dec_step; [|lia|lia|unfold is_byte; lia|apply groups_val_bound].
  cbv zeta. replace (t <? 128) with true by lia. cbn [negb]. rewrite andb_false_r.
  repeat f_equal. rewrite groups_val_app. cbn [groups_val].
  ring.
Qed.

(** Fewer than ten bytes, all continuation bytes: failure. *)
Lemma decode_short a rest : Forall cont a -> zlen a <= 9 ->
  varint_decode (a ++ rest) (zlen a) = OK None.
Proof.
  intros Ha Hl. unfold varint_decode. pose proof (zlen_nonneg a).
  pose proof (dec_skip a (10 - length a) [] rest (zlen a) 0 Ha) as HS.
  change (zlen (@nil Z)) with 0 in HS. rewrite !Z.add_0_l in HS.
  change (7 * 0) with 0 in HS. cbn [app] in HS.
  replace (length a + (10 - length a))%nat with 10%nat in HS by (unfold zlen in Hl; lia).
  rewrite HS by lia. clear HS.
  replace (10 - length a)%nat with (S (9 - length a)) by (unfold zlen in Hl; lia).
  cbn [dec_loop]. rewrite Z.eqb_refl. reflexivity.
Qed.

(** Ten continuation bytes: the tenth is taken as the last one. *)
Lemma decode_ten a b rest size : Forall cont a -> cont b -> zlen a = 9 -> 10 <= size ->
  varint_decode (a ++ b :: rest) size =
  OK (Some (groups_val (a ++ [b]) mod 2 ^ 64, 10)).
Proof.
  intros Ha Hb Hl Hs. unfold varint_decode.
  pose proof (dec_skip a 1 [] (b :: rest) size 0 Ha) as HS.
  change (zlen (@nil Z)) with 0 in HS. rewrite !Z.add_0_l in HS.
  change (7 * 0) with 0 in HS. cbn [app] in HS. rewrite Z.pow_0_r, Z.mul_1_r in HS.
  replace (length a + 1)%nat with 10%nat in HS by (unfold zlen in Hl; lia).
  rewrite HS by lia. clear HS. unfold cont in Hb.
  rewrite dec_step; [|lia|lia|unfold is_byte; lia|apply groups_val_bound].
  cbv zeta. replace (7 * (zlen a + 1) <? 64) with false by lia. cbn [andb].
  rewrite groups_val_app. cbn [groups_val]. rewrite Hl, Z.mul_0_r, Z.add_0_r, (Z.mul_comm (128 ^ 9)). reflexivity.
Qed.

Lemma shape_split l : varint_shape l -> exists a t, l = a ++ [t] /\ Forall cont a /\ 0 <= t < 128.
Proof.
  induction 1 as [b Hb|b l Hb Hl (a & t & -> & Ha & Ht)].
  - exists [], b. repeat split; try constructor; lia.
  - exists (b :: a), t. repeat split; [constructor; [unfold cont; lia|exact Ha]|lia|lia].
Qed.

(** C01 *)
Lemma decode_encode n rest size : is_u64 n -> zlen (varint_bytes n) <= size ->
  varint_decode (varint_bytes n ++ rest) size = OK (Some (n, zlen (varint_bytes n))).
Proof.
  intros Hn Hs. assert (H0 : 0 <= n) by (unfold is_u64 in Hn; lia).
  destruct (shape_split _ (varint_bytes_shape n H0)) as (a & t & Hb & Ha & Ht).
  pose proof (varint_len_u64 n Hn) as Hl. pose proof (groups_val_bytes n H0) as Hg.
  rewrite Hb in *. rewrite zlen_app in *. change (zlen [t]) with 1 in *.
  rewrite <- app_assoc. cbn [app]. rewrite decode_term by (lia || assumption).
  rewrite Hg. rewrite Z.mod_small by (unfold is_u64 in Hn; lia). reflexivity.
Qed.

Lemma decode_unsafe_encode n rest : is_u64 n ->
  varint_decode_unsafe (varint_bytes n ++ rest) = OK (n, zlen (varint_bytes n)).
Proof.
  intros H. unfold varint_decode_unsafe. rewrite decode_encode; [reflexivity|exact H|].
  pose proof (varint_len_u64 n H). apply Z.le_trans with 10; [lia|discriminate].
Qed.

(** C02 *)
Lemma decode_char buf size : bytes_ok buf -> 0 <= size <= zlen buf ->
  (exists n used, varint_decode buf size = OK (Some (n, zlen used)) /\
     (exists rest, buf = used ++ rest) /\ zlen used <= Z.min size 10 /\
     n = groups_val used mod 2 ^ 64 /\
     exists a t, used = a ++ [t] /\ Forall cont a /\ (0 <= t < 128 \/ (cont t /\ zlen used = 10)))
  \/ (varint_decode buf size = OK None /\ size < 10 /\ Forall cont (sub buf 0 size)).
Proof.
  intros Hok Hs. pose proof (sub_split buf 0 size ltac:(lia) ltac:(lia) ltac:(lia)) as Hsp.
  change (sub buf 0 0) with (@nil Z) in Hsp. cbn [app] in Hsp.
  set (w := sub buf 0 size) in *. set (rest := sub buf (0 + size) (zlen buf - 0 - size)) in *.
  assert (Hw : zlen w = size) by (apply sub_length; lia).
  assert (Hwok : bytes_ok w) by (apply bytes_ok_sub; exact Hok).
  clearbody w rest. subst buf.
  destruct (cont_split w Hwok) as [Hc|(a & t & r & -> & Ha & Ht)].
  - destruct (Z.lt_ge_cases size 10).
    + right. repeat split; [|lia|exact Hc]. rewrite <- Hw. apply decode_short; [exact Hc|lia].
    + left. pose proof (sub_split w 9 1 ltac:(lia) ltac:(lia) ltac:(lia)) as Hw9.
      assert (H9 : zlen (sub w 0 9) = 9) by (apply sub_length; lia).
      assert (H1 : zlen (sub w 9 1) = 1) by (apply sub_length; lia).
      set (a := sub w 0 9) in *. set (m := sub w 9 1) in *.
      set (r := sub w (9 + 1) (zlen w - 9 - 1)) in *. clearbody a m r. subst w.
      destruct m as [|b [|? ?]]; try (unfold zlen in H1; cbn [length] in H1; lia).
      apply Forall_app in Hc as [Hca Hc]. apply Forall_app in Hc as [Hcb Hc].
      inversion Hcb; subst. exists (groups_val (a ++ [b]) mod 2 ^ 64), (a ++ [b]).
      repeat split.
      * rewrite <- !app_assoc. cbn [app]. rewrite decode_ten by (assumption || lia).
        rewrite zlen_app, H9. reflexivity.
      * exists (r ++ rest). rewrite <- !app_assoc. reflexivity.
      * rewrite zlen_app, H9. change (zlen [b]) with 1. lia.
      * exists a, b. repeat split; [exact Hca|]. right. split; [assumption|].
        rewrite zlen_app, H9. reflexivity.
  - rewrite zlen_app, zlen_cons in Hw. pose proof (zlen_nonneg r).
    destruct (Z.lt_ge_cases (zlen a) 10) as [Hl|Hl].
    + left. exists (groups_val (a ++ [t]) mod 2 ^ 64), (a ++ [t]). repeat split.
      * rewrite <- app_assoc. cbn [app]. rewrite decode_term by (assumption || lia).
        rewrite zlen_app. reflexivity.
      * exists (r ++ rest). rewrite <- !app_assoc. reflexivity.
      * rewrite zlen_app. change (zlen [t]) with 1. lia.
      * exists a, t. repeat split; [exact Ha|]. left. exact Ht.
    + left. pose proof (sub_split a 9 1 ltac:(lia) ltac:(lia) ltac:(lia)) as Hw9.
      assert (H9 : zlen (sub a 0 9) = 9) by (apply sub_length; lia).
      assert (H1 : zlen (sub a 9 1) = 1) by (apply sub_length; lia).
      set (a0 := sub a 0 9) in *. set (m := sub a 9 1) in *.
      set (r0 := sub a (9 + 1) (zlen a - 9 - 1)) in *. clearbody a0 m r0. subst a.
      destruct m as [|b [|? ?]]; try (unfold zlen in H1; cbn [length] in H1; lia).
      apply Forall_app in Ha as [Hca Hc]. apply Forall_app in Hc as [Hcb Hc].
      apply Forall_inv in Hcb. assert (Hsz : 10 <= size) by lia. clear Hw Hwok Hs.
      exists (groups_val (a0 ++ [b]) mod 2 ^ 64), (a0 ++ [b]).
      repeat split.
      * rewrite <- !app_assoc. cbn [app]. rewrite decode_ten by (assumption || lia).
        rewrite zlen_app, H9. reflexivity.
      * exists (r0 ++ t :: r ++ rest). rewrite <- !app_assoc. reflexivity.
      * rewrite zlen_app, H9. change (zlen [b]) with 1. lia.
      * exists a0, b. repeat split; [exact Hca|]. right. split; [assumption|].
        rewrite zlen_app, H9. reflexivity.
Qed.

Lemma varint_prefix_free n m r s : 0 <= n -> 0 <= m ->
  varint_bytes n ++ r = varint_bytes m ++ s -> n = m /\ r = s.
Proof.
  intros Hn Hm H.
  pose proof (shape_prefix _ _ _ _ (varint_bytes_shape n Hn) (varint_bytes_shape m Hm) H) as He.
  split; [apply varint_bytes_inj; assumption|]. rewrite He in H. apply app_inv_head in H. exact H.
Qed.

(** Encoding into a short buffer stores a prefix and still reports the full length. *)
Lemma encode_report n size : 0 <= size ->
  snd (varint_encode n size) = varint_llen n /\
  (exists rest, varint_bytes n = fst (varint_encode n size) ++ rest) /\
  zlen (fst (varint_encode n size)) = Z.min size (varint_llen n).
Proof.
  intros Hs. rewrite varint_llen_eq. unfold varint_encode. cbn [fst snd]. repeat split.
  - exists (skipn (Z.to_nat size) (varint_bytes n)). symmetry. apply firstn_skipn.
  - unfold zlen. rewrite firstn_length. lia.
Qed.

(** The ten-byte buffer always holds the whole encoding. *)
Lemma encode_fst10 n : is_u64 n -> fst (varint_encode n 10) = varint_bytes n.
Proof.
  intros H. unfold varint_encode. cbn [fst]. apply firstn_all2.
  pose proof (varint_len_u64 n H) as Hl. unfold zlen in Hl. lia.
Qed.

Lemma varint_round_trip_lemma n rest size :
  0 <= n < 2 ^ 64 ->
  let bytes := fst (varint_encode n 10) in
  zlen bytes <= size ->
  varint_decode (bytes ++ rest) size = OK (Some (n, zlen bytes)) /\
  snd (varint_encode n 10) = zlen bytes /\ varint_llen n = zlen bytes /\
  1 <= zlen bytes <= 10 /\ Forall is_byte bytes /\ groups_val bytes = n.
Proof.
  intros Hn bytes Hs. subst bytes. rewrite encode_fst10 in * by exact Hn.
  split; [apply decode_encode; assumption|]. split; [reflexivity|].
  split; [apply varint_llen_eq|]. split; [apply varint_len_u64; exact Hn|].
  split; [apply varint_bytes_ok; lia|apply groups_val_bytes; lia].
Qed.

Lemma varint_encode_bounded_lemma n size :
  0 <= n < 2 ^ 64 -> 0 <= size ->
  snd (varint_encode n size) = varint_llen n /\
  (exists rest, fst (varint_encode n 10) = fst (varint_encode n size) ++ rest) /\
  zlen (fst (varint_encode n size)) = Z.min size (varint_llen n).
Proof. intros Hn Hs. rewrite encode_fst10 by exact Hn. apply encode_report; exact Hs. Qed.

Lemma varint_prefix_unique_lemma n m rest1 rest2 :
  0 <= n < 2 ^ 64 -> 0 <= m < 2 ^ 64 ->
  fst (varint_encode n 10) ++ rest1 = fst (varint_encode m 10) ++ rest2 ->
  n = m /\ rest1 = rest2.
Proof. intros Hn Hm. rewrite !encode_fst10 by assumption. apply varint_prefix_free; lia. Qed.

Lemma varint_decode_unsafe_lemma n rest :
  0 <= n < 2 ^ 64 ->
  varint_decode_unsafe (fst (varint_encode n 10) ++ rest) = OK (n, varint_llen n).
Proof.
  intros Hn. rewrite encode_fst10 by exact Hn. rewrite varint_llen_eq.
  apply decode_unsafe_encode; exact Hn.
Qed.

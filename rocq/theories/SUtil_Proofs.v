From Verif Require Import Base BaseFacts SUtil_Model SUtil_Spec.
Ltac Zify.zify_post_hook ::= Z.div_mod_to_equations.

(** The buffer after the text [t] went through with limit [size]. *)
Definition fill (b : list Z) (size : Z) (t : list Z) : list Z :=
  let n := Z.to_nat (Z.min (zlen t) size) in firstn n t ++ skipn n b.

Lemma fill_nil b size : fill b size [] = b.
Proof.
  unfold fill. replace (Z.to_nat (Z.min (zlen []) size)) with 0%nat by (unfold zlen; cbn [length]; lia).
  reflexivity.
Qed.

Lemma fill_length b size t : 0 <= size <= zlen b -> zlen (fill b size t) = zlen b.
Proof.
  intros H. unfold fill, zlen in *. rewrite app_length, firstn_length, skipn_length. lia.
Qed.

Lemma s32_id z : - 2 ^ 31 <= z < 2 ^ 31 -> s32 z = z.
Proof.
  intros H. unfold s32. cbv zeta. change (2 ^ 31) with 2147483648 in *. change (2 ^ 32) with 4294967296.
  destruct (z mod 4294967296 <? 2147483648) eqn:E; lia.
Qed.

Lemma s32_u64 z : - 2 ^ 31 <= z < 2 ^ 31 -> s32 (u64 z) = z.
Proof.
  intros H. unfold s32, u64. cbv zeta. change (2 ^ 31) with 2147483648 in *. change (2 ^ 32) with 4294967296.
  change (2 ^ 64) with 18446744073709551616.
  destruct (z mod 18446744073709551616 mod 4294967296 <? 2147483648) eqn:E; lia.
Qed.

Lemma firstn_app_len {A} (a b : list A) n : n = length a -> firstn n (a ++ b) = a.
Proof. intros ->. rewrite firstn_app, Nat.sub_diag, firstn_all. cbn [firstn]. apply app_nil_r. Qed.

Lemma skipn_app_ge {A} n (a b : list A) : (length a <= n)%nat -> skipn n (a ++ b) = skipn (n - length a) b.
Proof. intros H. rewrite skipn_app. rewrite skipn_all2 by lia. reflexivity. Qed.

Lemma put_fill b size t off i sz c :
  0 <= size <= zlen b -> off + i = zlen t -> 0 <= i -> 0 <= off -> s32 sz = size - off ->
  put (fill b size t) off i sz c = OK (fill b size (t ++ [c])).
Proof.
  intros Hs Hi H0 Ho Hz. unfold put. rewrite Hz, fill_length by assumption.
  destruct (i <? size - off) eqn:E.
  - replace ((0 <=? off + i) && (off + i <? zlen b)) with true by lia.
    f_equal. unfold blit, fill. rewrite zlen_app, zlen_cons, zlen_nil.
    replace (Z.to_nat (Z.min (zlen t) size)) with (length t) by (unfold zlen in *; lia).
    replace (Z.to_nat (off + i)) with (length t) by (unfold zlen in *; lia).
    replace (Z.to_nat (Z.min (zlen t + (1 + 0)) size)) with (length (t ++ [c]))
      by (unfold zlen in *; rewrite app_length; cbn [length]; lia).
    rewrite !firstn_all. rewrite firstn_app_len by reflexivity.
    rewrite skipn_app_ge by (cbn [length]; lia). rewrite skipn_skipn.
    rewrite <- app_assoc. do 3 f_equal. rewrite app_length. cbn [length]. lia.
  - f_equal. unfold fill. rewrite zlen_app, zlen_cons, zlen_nil.
    replace (Z.to_nat (Z.min (zlen t) size)) with (Z.to_nat size) by lia.
    replace (Z.to_nat (Z.min (zlen t + (1 + 0)) size)) with (Z.to_nat size) by lia.
    rewrite firstn_app. replace (Z.to_nat size - length t)%nat with 0%nat by (unfold zlen in *; lia).
    cbn [firstn]. rewrite app_nil_r. reflexivity.
Qed.

Lemma puts_fill b size off sz cs : forall t i,
  0 <= size <= zlen b -> off + i = zlen t -> 0 <= i -> 0 <= off -> s32 sz = size - off ->
  puts (fill b size t) off i sz cs = OK (fill b size (t ++ cs), i + zlen cs).
Proof.
  induction cs as [|c r IH]; intros t i Hs Hi H0 Ho Hz; cbn [puts].
  - rewrite app_nil_r, zlen_nil. do 2 f_equal. lia.
  - rewrite put_fill by assumption. cbn [bind]. rewrite IH; try assumption; try lia.
    + rewrite <- app_assoc. cbn [app]. do 2 f_equal. rewrite zlen_cons. lia.
    + rewrite zlen_app, zlen_cons, zlen_nil. lia.
Qed.

(** Digits. *)
Lemma digit_char_ok base r : 2 <= base <= 16 -> 0 <= r < base ->
  is_digit_in base (digit_char r) /\ digit_of (digit_char r) = r.
Proof.
  intros Hb Hr. unfold is_digit_in, digit_of, digit_char.
  destruct (r <? 10) eqn:E.
  - replace (48 + r <? 58) with true by lia. lia.
  - replace (97 + (r - 10) <? 58) with false by lia. lia.
Qed.

Lemma num_value_app base t : forall acc c,
  num_value base acc (t ++ [c]) = num_value base acc t * base + digit_of c.
Proof. induction t as [|x t IH]; intros acc c; cbn [app num_value]; [reflexivity|]. apply IH. Qed.

Lemma itoa_digits_spec base : 2 <= base <= 16 -> forall f n,
  0 <= n < base ^ Z.of_nat f -> (f > 0)%nat ->
  exists ds, itoa_digits f n base = OK ds /\ numeral base n (rev ds) /\ (length ds <= f)%nat.
Proof.
  intros Hb. induction f as [|f IH]; intros n Hn Hf; [lia|].
  cbn [itoa_digits]. cbv zeta.
  destruct (digit_char_ok base (n mod base) Hb) as [D1 D2]; [apply Z.mod_pos_bound; lia|].
  assert (Hdm := Z.div_mod n base ltac:(lia)).
  destruct (n / base >? 0) eqn:E.
  - assert (Hq : 0 <= n / base < base ^ Z.of_nat f).
    { split; [lia|]. apply Z.div_lt_upper_bound; [lia|].
      rewrite Nat2Z.inj_succ, Z.pow_succ_r in Hn by lia. lia. }
    destruct f as [|f'].
    { change (Z.of_nat 0) with 0 in Hq. rewrite Z.pow_0_r in Hq. lia. }
    destruct (IH (n / base) Hq ltac:(lia)) as (ds & E1 & (N1 & N2 & N3 & N4) & L).
    rewrite E1. cbn [bind]. eexists; split; [reflexivity|]. split; [|cbn [length]; lia].
    cbn [rev]. unfold numeral. split; [destruct (rev ds); discriminate|].
    split; [apply Forall_app; split; [assumption|constructor; [assumption|constructor]]|].
    split; [rewrite num_value_app, N3, D2; lia|].
    destruct (rev ds) as [|x y] eqn:Er; [contradiction|]. cbn [app hd] in *.
    intros Hx. specialize (N4 Hx). injection N4 as -> ->. cbn [num_value] in N3.
    unfold digit_of in N3. change (48 <? 58) with true in N3. cbv iota in N3. lia.
  - assert (Hq0 : n / base = 0).
    { assert (0 <= n / base) by (apply Z.div_pos; lia). lia. }
    eexists; split; [reflexivity|]. split; [|cbn [length]; lia].
    cbn [rev app]. unfold numeral. split; [discriminate|].
    split; [constructor; [assumption|constructor]|].
    split; [cbn [num_value]; rewrite D2; rewrite Hq0 in Hdm; lia|].
    cbn [hd]. intros ->. reflexivity.
Qed.

(** Numerals are unique. *)
Lemma digit_of_inj base a b : is_digit_in base a -> is_digit_in base b -> digit_of a = digit_of b -> a = b.
Proof.
  unfold is_digit_in, digit_of. intros [Ha Ra] [Hb Rb] H.
  destruct (a <? 58) eqn:E1; destruct (b <? 58) eqn:E2; lia.
Qed.

Lemma num_value_acc base t : forall acc,
  num_value base acc t = acc * base ^ zlen t + num_value base 0 t.
Proof.
  induction t as [|c t IH]; intros acc; cbn [num_value].
  - rewrite zlen_nil. lia.
  - rewrite IH, (IH (0 * base + digit_of c)), zlen_cons.
    rewrite Z.pow_add_r, Z.pow_1_r by (pose proof (zlen_nonneg t); lia). ring.
Qed.

Lemma num_value_bound base t : 2 <= base -> Forall (is_digit_in base) t ->
  0 <= num_value base 0 t < base ^ zlen t.
Proof.
  intros Hb H. induction H as [|c t Hc Ht IH]; cbn [num_value].
  - change (zlen (@nil Z)) with 0. lia.
  - rewrite num_value_acc, zlen_cons.
    rewrite Z.pow_add_r, Z.pow_1_r by (pose proof (zlen_nonneg t); lia).
    unfold is_digit_in in Hc. nia.
Qed.

Lemma num_value_inj base a : 2 <= base -> forall b, length a = length b ->
  Forall (is_digit_in base) a -> Forall (is_digit_in base) b ->
  num_value base 0 a = num_value base 0 b -> a = b.
Proof.
  intros Hb. induction a as [|x a IH]; intros [|y b] L Ha Hb' E; try discriminate; [reflexivity|].
  injection L as L. cbn [num_value] in E. rewrite num_value_acc, (num_value_acc base b) in E.
  pose proof (Forall_inv Ha) as Dx. pose proof (Forall_inv Hb') as Dy.
  apply Forall_inv_tail in Ha. apply Forall_inv_tail in Hb'.
  pose proof (num_value_bound base a Hb Ha). pose proof (num_value_bound base b Hb Hb').
  assert (Z : zlen a = zlen b) by (unfold zlen; rewrite L; reflexivity). rewrite Z in *.
  assert (Q : digit_of x = digit_of y).
  { set (P := base ^ zlen b) in *. set (u := num_value base 0 a) in *. set (v := num_value base 0 b) in *.
    assert (0 < P) by lia.
    assert (digit_of x < digit_of y \/ digit_of x = digit_of y \/ digit_of x > digit_of y) by lia.
    nia. }
  rewrite Q in E. f_equal; [eapply digit_of_inj; eassumption|]. apply IH; auto. lia.
Qed.

Lemma numeral_head base n t : 2 <= base -> numeral base n t -> n <> 0 ->
  base ^ (zlen t - 1) <= n < base ^ zlen t.
Proof.
  intros Hb (N1 & N2 & N3 & N4) Hn. split; [|rewrite <- N3; apply num_value_bound; auto].
  destruct t as [|c t]; [contradiction|]. cbn [hd] in N4. rewrite zlen_cons.
  cbn [num_value] in N3. rewrite num_value_acc in N3.
  pose proof (Forall_inv N2) as Dc. apply Forall_inv_tail in N2.
  pose proof (num_value_bound base t Hb N2).
  replace (1 + zlen t - 1) with (zlen t) by lia.
  assert (digit_of c <> 0).
  { intros D0. assert (c = 48).
    { unfold is_digit_in, digit_of in *. destruct (c <? 58) eqn:E; lia. }
    subst c. specialize (N4 eq_refl). injection N4 as ->. cbn [num_value] in N3. change (zlen (@nil Z)) with 0 in N3.
    change (digit_of 48) with 0 in N3. lia. }
  unfold is_digit_in in Dc. nia.
Qed.

Lemma numeral_unique base n a b : 2 <= base -> numeral base n a -> numeral base n b -> a = b.
Proof.
  intros Hb Ha Hb'. destruct (Z.eq_dec n 0) as [->|Hn].
  - assert (Q : forall t, numeral base 0 t -> t = [48]).
    { intros t (N1 & N2 & N3 & N4). destruct t as [|c t]; [contradiction|]. apply N4. cbn [hd].
      cbn [num_value] in N3. rewrite num_value_acc in N3.
      pose proof (Forall_inv N2) as Dc. apply Forall_inv_tail in N2.
      pose proof (num_value_bound base t Hb N2).
      assert (0 < base ^ zlen t) by (apply Z.pow_pos_nonneg; [lia|apply zlen_nonneg]).
      assert (digit_of c = 0) by (unfold is_digit_in in Dc; nia).
      unfold is_digit_in, digit_of in *. destruct (c <? 58) eqn:E; lia. }
    rewrite (Q a), (Q b) by assumption. reflexivity.
  - pose proof (numeral_head _ _ _ Hb Ha Hn) as P1. pose proof (numeral_head _ _ _ Hb Hb' Hn) as P2.
    assert (Hl : zlen a = zlen b).
    { assert (zlen a - 1 < zlen b) by (apply (Z.pow_lt_mono_r_iff base); [lia|apply zlen_nonneg|lia]).
      assert (zlen b - 1 < zlen a) by (apply (Z.pow_lt_mono_r_iff base); [lia|apply zlen_nonneg|lia]).
      lia. }
    destruct Ha as (A1 & A2 & A3 & A4). destruct Hb' as (B1 & B2 & B3 & B4).
    apply (num_value_inj base); auto; [unfold zlen in Hl; lia|congruence].
Qed.

Lemma numeral_short base n t : numeral base n t -> 10 <= base -> 0 <= n < 2 ^ 63 -> zlen t <= 19.
Proof.
  intros H Hb Hn. destruct (Z.eq_dec n 0) as [->|Hz].
  - rewrite (numeral_unique base 0 t [48]); [cbn; lia|lia|assumption|].
    unfold numeral. split; [discriminate|]. split.
    + constructor; [|constructor]. unfold is_digit_in, digit_of. cbn. lia.
    + split; [cbn [num_value]; unfold digit_of; change (48 <? 58) with true; cbv iota; lia|reflexivity].
  - pose proof (numeral_head base n t ltac:(lia) H Hz) as [P _].
    destruct (Z_le_gt_dec (zlen t) 19); [assumption|exfalso].
    assert (10 ^ 19 <= base ^ (zlen t - 1)).
    { transitivity (base ^ 19); [apply Z.pow_le_mono_l; lia|apply Z.pow_le_mono_r; lia]. }
    change (10 ^ 19) with 10000000000000000000 in *. change (2 ^ 63) with 9223372036854775808 in *. lia.
Qed.

Lemma rev_repeat {A} (x : A) n : rev (repeat x n) = repeat x n.
Proof.
  induction n as [|n IH]; [reflexivity|]. cbn [repeat rev]. rewrite IH.
  clear IH. induction n as [|n IH]; [reflexivity|]. cbn [repeat app]. rewrite IH. reflexivity.
Qed.

Lemma itoa_tmp_spec num base flags w :
  base = 10 \/ base = 16 -> int64 num ->
  exists t, itoa_tmp num base flags w = OK t /\ int_text base num flags w (rev t).
Proof.
  intros Hb Hn. unfold int64 in Hn. unfold itoa_tmp.
  replace (num =? - 2 ^ 63) with false by lia.
  destruct (itoa_digits_spec base ltac:(lia) 64 (Z.abs num)) as (ds & E & N & L); [|lia|].
  { split; [lia|]. eapply Z.lt_le_trans with (2 ^ 63); [lia|]. change (Z.of_nat 64) with 64.
    transitivity (2 ^ 64); [vm_compute; discriminate|]. apply Z.pow_le_mono_l. lia. }
  rewrite E. cbn [bind]. cbv zeta.
  pose proof (numeral_short base (Z.abs num) (rev ds) N ltac:(lia) ltac:(lia)) as Hs.
  assert (Hd : zlen (rev ds) = zlen ds) by (unfold zlen; rewrite rev_length; reflexivity).
  rewrite !zlen_app. rewrite Hd in Hs.
  set (pad := if flags then Z.max 0 (Z.min w 39 - zlen ds) else 0) in *.
  assert (Hp : 0 <= pad /\ (pad = 0 \/ zlen ds + pad <= 39)) by (unfold pad; destruct flags; lia).
  assert (Hr : zlen (repeat 48 (Z.to_nat pad)) = pad) by (unfold zlen; rewrite repeat_length; lia).
  rewrite Hr.
  replace (zlen ds + (pad + zlen (if num <? 0 then [45] else [])) >? 40) with false
    by (destruct (num <? 0); rewrite ?zlen_cons, zlen_nil; lia).
  eexists; split; [reflexivity|]. exists (rev ds). split; [assumption|].
  rewrite !rev_app_distr, rev_repeat, <- app_assoc. f_equal; [destruct (num <? 0); reflexivity|].
  do 2 f_equal. unfold pad. rewrite Hd. destruct flags; lia.
Qed.

Lemma int_text_unique base n z w a b : 2 <= base ->
  int_text base n z w a -> int_text base n z w b -> a = b.
Proof.
  intros Hb (d & D1 & ->) (e & E1 & ->). rewrite (numeral_unique base _ d e Hb D1 E1). reflexivity.
Qed.

Lemma c_itoa_fill b size t num base flags w u :
  0 <= size <= zlen b -> size < 2 ^ 31 -> zlen t < 2 ^ 31 ->
  base = 10 \/ base = 16 -> int64 num -> int_text base num flags w u ->
  c_itoa (fill b size t) (zlen t) (u64 (size - zlen t)) num base flags w
  = OK (fill b size (t ++ u), zlen u).
Proof.
  intros Hs H31 Ht Hb Hn Hu. unfold c_itoa.
  destruct (itoa_tmp_spec num base flags w Hb Hn) as (v & -> & Hv). cbn [bind].
  rewrite (int_text_unique base num flags w u (rev v)) by (auto; lia).
  rewrite puts_fill; try assumption; try lia.
  - rewrite Z.add_0_l. reflexivity.
  - apply zlen_nonneg.
  - apply s32_u64. pose proof (zlen_nonneg t). lia.
Qed.

(** Reading the format. *)
Lemma fmt_num_digits ds : forall acc r, dec_digits ds ->
  (match r with c :: _ => ~ (48 <= c <= 57) | [] => True end) ->
  fmt_num (ds ++ r) acc = (dec_value acc ds, r).
Proof.
  induction ds as [|c ds IH]; intros acc r Hd Hr; cbn [app dec_value].
  - destruct r as [|c r]; [reflexivity|]. cbn [fmt_num].
    replace ((48 <=? c) && (c <=? 57)) with false by lia. reflexivity.
  - cbn [fmt_num]. pose proof (Forall_inv Hd) as Hc. cbn beta in Hc.
    replace ((48 <=? c) && (c <=? 57)) with true by lia.
    apply IH; [eapply Forall_inv_tail; eassumption|assumption].
Qed.

Definition conv_of (d : direc) : conv :=
  {| cv_flags := zero_of d; cv_width := width_of d; cv_prec := prec_of d;
     cv_len := match d_kind d with
               | KLd _ | KLu _ | KLx _ => 108 | KZd _ | KZu _ | KZx _ => 122 | KLLd _ => 113
               | _ => 0 end;
     cv_ch := last (kind_src (d_kind d)) 0 |}.

(** The tail of a directive: precision, length modifier and conversion letter. *)
Lemma parse_conv_ok d rest args :
  item_ok (Dir d) ->
  parse_conv (tl (item_src (Dir d)) ++ rest) (item_args (Dir d) ++ args)
  = OK (conv_of d, rest, kind_arg (d_kind d) :: args).
Proof.
  destruct d as [wd st pr k]. intros [Hw Hp]. cbn [item_src tl item_args d_width d_star d_prec d_kind] in *.
  unfold parse_conv. cbv zeta.
  assert (Hz : match (wd ++ (match st with Some _ => [42] | None => [] end) ++
             (match pr with PNone => [] | PDigits ds => 46 :: ds | PStar _ => [46; 42] end) ++
             kind_src k) ++ rest with c :: _ => c =? 48 | [] => false end
             = match wd with c :: _ => c =? 48 | [] => false end).
  { destruct wd; [|reflexivity]. destruct st, pr, k; reflexivity. }
  rewrite Hz. clear Hz. rewrite <- !app_assoc.
  rewrite fmt_num_digits; [|assumption|destruct st, pr, k; cbn [app kind_src]; try lia; exact I].
  destruct st as [z|].
  - cbn [app]. change (42 =? 42) with true. cbv iota. cbn [next_int bind].
    destruct pr as [|ds|z2].
    + cbn [app]. destruct k; reflexivity.
    + cbn [app]. change (46 =? 46) with true. cbv iota.
      rewrite fmt_num_digits; [|assumption|destruct k; cbn [app kind_src]; lia].
      destruct ds as [|c ds].
      * cbn [app]. destruct k; reflexivity.
      * cbn [app]. pose proof (Forall_inv Hp) as Hc. cbn beta in Hc.
        replace (c =? 42) with false by lia. destruct k; reflexivity.
    + cbn [app]. destruct k; reflexivity.
  - cbn [app]. destruct pr as [|ds|z2].
    + cbn [app]. destruct k; reflexivity.
    + cbn [app]. change (46 =? 42) with false. cbv iota. cbn [bind]. change (46 =? 46) with true. cbv iota.
      rewrite fmt_num_digits; [|assumption|destruct k; cbn [app kind_src]; lia].
      destruct ds as [|c ds].
      * cbn [app]. destruct k; reflexivity.
      * cbn [app]. pose proof (Forall_inv Hp) as Hc. cbn beta in Hc.
        replace (c =? 42) with false by lia. destruct k; reflexivity.
    + cbn [app]. destruct k; reflexivity.
Qed.

(** Strings. *)
Lemma c_strnlen_text t : forall r n, Forall (fun c => c <> 0) t -> (n <= length t)%nat ->
  c_strnlen (t ++ r) n = OK (Z.of_nat n).
Proof.
  induction t as [|c t IH]; intros r n Ht Hn.
  - destruct n; [reflexivity|cbn [length] in Hn; lia].
  - destruct n as [|n]; [reflexivity|]. cbn [app c_strnlen].
    pose proof (Forall_inv Ht) as Hc. cbn beta in Hc. replace (c =? 0) with false by lia.
    rewrite IH; [|eapply Forall_inv_tail; eassumption|cbn [length] in Hn; lia].
    cbn [bind]. f_equal. lia.
Qed.
Lemma c_strnlen_nul t r n : Forall (fun c => c <> 0) t -> (length t < n)%nat ->
  c_strnlen (t ++ 0 :: r) n = OK (zlen t).
Proof.
  revert n. induction t as [|c t IH]; intros n Ht Hn.
  - destruct n; [cbn [length] in Hn; lia|]. reflexivity.
  - destruct n as [|n]; [lia|]. cbn [app c_strnlen].
    pose proof (Forall_inv Ht) as Hc. cbn beta in Hc. replace (c =? 0) with false by lia.
    rewrite IH; [|eapply Forall_inv_tail; eassumption|cbn [length] in Hn; lia].
    cbn [bind]. rewrite zlen_cons. reflexivity.
Qed.
Lemma str_chars_nul t : forall r l, Forall (fun c => c <> 0) t ->
  match l with None => True | Some k => (length t < k)%nat end ->
  str_chars (t ++ 0 :: r) l = OK t.
Proof.
  induction t as [|c t IH]; intros r l Ht Hl.
  - destruct l as [[|k]|]; [lia|reflexivity|reflexivity].
  - pose proof (Forall_inv Ht) as Hc. cbn beta in Hc. apply Forall_inv_tail in Ht.
    destruct l as [[|k]|]; [lia| |]; cbn [app str_chars]; replace (c =? 0) with false by lia;
      rewrite IH; try assumption; try reflexivity. cbn [length] in Hl. lia.
Qed.
Lemma str_chars_full t : forall r, Forall (fun c => c <> 0) t ->
  str_chars (t ++ r) (Some (length t)) = OK t.
Proof.
  induction t as [|c t IH]; intros r Ht; cbn [length].
  - destruct r; reflexivity.
  - cbn [app str_chars]. pose proof (Forall_inv Ht) as Hc. cbn beta in Hc.
    replace (c =? 0) with false by lia. rewrite IH by (eapply Forall_inv_tail; eassumption). reflexivity.
Qed.

Lemma s64_id z : - 2 ^ 63 <= z < 2 ^ 63 -> s64 z = z.
Proof.
  intros H. unfold s64. cbv zeta. change (2 ^ 63) with 9223372036854775808 in *.
  change (2 ^ 64) with 18446744073709551616.
  destruct (z mod 18446744073709551616 <? 9223372036854775808) eqn:E; lia.
Qed.
Lemma u32_id z : 0 <= z < 2 ^ 32 -> u32 z = z.
Proof. intros H. unfold u32. apply Z.mod_small. assumption. Qed.

Lemma do_conv_ok b size t d rest u :
  0 <= size <= zlen b -> size < 2 ^ 31 -> zlen t + zlen u < 2 ^ 31 -> prints d u ->
  do_conv (fill b size t) (zlen t) size (conv_of d) (kind_arg (d_kind d) :: rest)
  = OK (fill b size (t ++ u), zlen t + zlen u, rest).
Proof.
  intros Hs H31 Ht Hp. pose proof (zlen_nonneg t) as Lt. pose proof (zlen_nonneg u) as Lu.
  assert (Hsz : s32 size = size - 0) by (rewrite s32_id; lia).
  unfold prints in Hp. cbv zeta in Hp. destruct d as [wd st pr k].
  unfold do_conv, conv_of. cbv zeta. cbn [cv_flags cv_width cv_prec cv_len cv_ch d_kind] in *.
  set (d := {| d_width := wd; d_star := st; d_prec := pr; d_kind := k |}) in *.
  assert (ITOA : forall num base v w, base = 10 \/ base = 16 -> int64 num ->
     int_text base num (zero_of d) w v -> zlen v = zlen u -> 
     c_itoa (fill b size t) (zlen t) (u64 (size - zlen t)) num base (zero_of d) w
     = OK (fill b size (t ++ v), zlen v)).
  { intros. apply c_itoa_fill; auto; lia. }
  assert (I64 : forall n, - 2 ^ 31 <= n < 2 ^ 32 \/ 0 <= n < 2 ^ 63 -> int64 n).
  { intros n. unfold int64. change (2 ^ 31) with 2147483648. change (2 ^ 32) with 4294967296.
    change (2 ^ 63) with 9223372036854775808. lia. }
  destruct k as [s|z|z|z|z|z|z|z|z|z|z|z|z]; cbn [kind_src last kind_arg].
  - change (115 =? 115) with true. cbv iota. destruct s as [s|].
    + destruct Hp as (v & Hv & ->). set (p := prec_of d) in *. set (w := width_of d) in *.
      unfold str_text in Hv. destruct (p <=? 0) eqn:Ep.
      * destruct Hv as (Hnz & r & ->).
        assert (E1 : (if p >=? 0 then c_strnlen (v ++ 0 :: r) (Z.to_nat p) else OK 0) = OK 0).
        { destruct (p >=? 0) eqn:E; [|reflexivity]. replace (Z.to_nat p) with 0%nat by lia. reflexivity. }
        rewrite E1. cbn [bind].
        replace (if p >=? 0 then Z.min p (zlen v) else 0) with 0 in *
          by (destruct (p >=? 0) eqn:E; pose proof (zlen_nonneg v); lia).
        rewrite zlen_app in Ht.
        rewrite puts_fill by lia. cbn [bind].
        rewrite str_chars_nul by (auto; exact I). cbn [bind].
        rewrite puts_fill by (try match goal with |- 0 <= _ + zlen ?l => pose proof (zlen_nonneg l) end; rewrite ?zlen_app; lia). cbn [bind]. rewrite <- app_assoc.
        rewrite zlen_app. do 3 f_equal. lia.
      * replace (p >=? 0) with true in * by lia.
        destruct Hv as (Hnz & Hcase).
        assert (E1 : c_strnlen s (Z.to_nat p) = OK (zlen v)).
        { destruct Hcase as [[Hl (r & ->)]|[Hl (r & ->)]].
          - rewrite c_strnlen_text; [f_equal; lia|assumption|unfold zlen in *; lia].
          - rewrite c_strnlen_nul; [reflexivity|assumption|unfold zlen in *; lia]. }
        assert (E2 : str_chars s (Some (Z.to_nat p)) = OK v).
        { destruct Hcase as [[Hl (r & ->)]|[Hl (r & ->)]].
          - replace (Z.to_nat p) with (length v) by (unfold zlen in *; lia). apply str_chars_full. assumption.
          - apply str_chars_nul; [assumption|unfold zlen in *; lia]. }
        rewrite E1. cbn [bind].
        replace (Z.min p (zlen v)) with (zlen v) in * by lia. rewrite zlen_app in Ht.
        rewrite puts_fill by lia. cbn [bind]. rewrite E2. cbn [bind].
        rewrite puts_fill by (try match goal with |- 0 <= _ + zlen ?l => pose proof (zlen_nonneg l) end; rewrite ?zlen_app; lia). cbn [bind]. rewrite <- app_assoc.
        rewrite zlen_app. do 3 f_equal. lia.
    + destruct Hp as [Hp ->].
      assert (E1 : (if prec_of d >=? 0 then if prec_of d =? 0 then OK 0 else UB else OK 0) = OK 0).
      { destruct (prec_of d >=? 0) eqn:E; [|reflexivity]. replace (prec_of d =? 0) with true by lia. reflexivity. }
      rewrite E1. cbn [bind]. rewrite Z.sub_0_r. rewrite puts_fill by lia. reflexivity.
  - change (99 =? 115) with false. change (99 =? 99) with true. cbv iota. cbn [next_int bind]. subst u.
    rewrite put_fill by lia. reflexivity.
  - destruct Hp as [Hr Hi]. cbn [Z.eqb Pos.eqb andb orb next_int bind].
    rewrite s32_id by lia. rewrite (ITOA _ _ _ _ (or_introl eq_refl) (I64 z ltac:(lia)) Hi eq_refl). reflexivity.
  - destruct Hp as [Hr Hi]. cbn [Z.eqb Pos.eqb andb orb next_int bind].
    rewrite u32_id by lia. rewrite (ITOA _ _ _ _ (or_introl eq_refl) (I64 z ltac:(lia)) Hi eq_refl). reflexivity.
  - destruct Hp as [Hr Hi]. cbn [Z.eqb Pos.eqb andb orb next_int bind].
    rewrite u32_id by lia. rewrite (ITOA _ _ _ _ (or_intror eq_refl) (I64 z ltac:(lia)) Hi eq_refl). reflexivity.
  - destruct Hp as [Hr Hi]. cbn [Z.eqb Pos.eqb andb orb next_int bind].
    rewrite s64_id by (unfold int64 in Hr; lia). rewrite (ITOA _ _ _ _ (or_introl eq_refl) Hr Hi eq_refl). reflexivity.
  - destruct Hp as [Hr Hi]. cbn [Z.eqb Pos.eqb andb orb next_int bind].
    rewrite s64_id by lia. rewrite (ITOA _ _ _ _ (or_introl eq_refl) (I64 z ltac:(lia)) Hi eq_refl). reflexivity.
  - destruct Hp as [Hr Hi]. cbn [Z.eqb Pos.eqb andb orb next_int bind].
    rewrite s64_id by lia. rewrite (ITOA _ _ _ _ (or_intror eq_refl) (I64 z ltac:(lia)) Hi eq_refl). reflexivity.
  - destruct Hp as [Hr Hi]. cbn [Z.eqb Pos.eqb andb orb next_int bind].
    rewrite s64_id by (unfold int64 in Hr; lia). rewrite (ITOA _ _ _ _ (or_introl eq_refl) Hr Hi eq_refl). reflexivity.
  - destruct Hp as [Hr Hi]. cbn [Z.eqb Pos.eqb andb orb next_int bind].
    rewrite s64_id by lia. rewrite (ITOA _ _ _ _ (or_introl eq_refl) (I64 z ltac:(lia)) Hi eq_refl). reflexivity.
  - destruct Hp as [Hr Hi]. cbn [Z.eqb Pos.eqb andb orb next_int bind].
    rewrite s64_id by lia. rewrite (ITOA _ _ _ _ (or_intror eq_refl) (I64 z ltac:(lia)) Hi eq_refl). reflexivity.
  - destruct Hp as [Hr Hi]. cbn [Z.eqb Pos.eqb andb orb next_int bind].
    rewrite s64_id by (unfold int64 in Hr; lia). rewrite (ITOA _ _ _ _ (or_introl eq_refl) Hr Hi eq_refl). reflexivity.
  - destruct Hp as [Hr (v & Hi & ->)]. cbn [Z.eqb Pos.eqb andb orb next_int bind].
    rewrite !zlen_cons in *. rewrite puts_fill by lia. cbn [bind]. rewrite s64_id by lia.
    replace (zlen t + zlen [48; 120]) with (zlen (t ++ [48; 120])) by (rewrite zlen_app; reflexivity).
    rewrite (c_itoa_fill b size (t ++ [48; 120]) z 16 (zero_of d) 0 v); auto; try lia.
    + cbn [bind]. rewrite <- app_assoc. cbn [app]. rewrite zlen_app, !zlen_cons, zlen_nil. do 3 f_equal. lia.
    + rewrite zlen_app, !zlen_cons, zlen_nil. pose proof (zlen_nonneg v). lia.
Qed.

Lemma vsn_loop_ok b size l : 0 <= size <= zlen b -> size < 2 ^ 31 ->
  forall f t u, (length (fmt_src l) <= f)%nat -> Forall item_ok l -> fmt_prints l u ->
  zlen t + zlen u < 2 ^ 31 ->
  vsn_loop f (fill b size t) (zlen t) size (fmt_src l) (fmt_args l)
  = OK (fill b size (t ++ u), zlen t + zlen u).
Proof.
  intros Hs H31. assert (Hsz : s32 size = size - 0) by (rewrite s32_id; lia).
  induction l as [|it l IH]; intros f t u Hf Hok Hp Ht.
  - cbn [fmt_prints] in Hp. subst u. destruct f; cbn [fmt_src vsn_loop]; rewrite app_nil_r, zlen_nil, Z.add_0_r; reflexivity.
  - destruct Hp as (a & c & Ha & Hc & ->). rewrite zlen_app in *.
    pose proof (zlen_nonneg t). pose proof (zlen_nonneg a). pose proof (zlen_nonneg c).
    pose proof (Forall_inv Hok) as Hi. apply Forall_inv_tail in Hok.
    cbn [fmt_src fmt_args] in *. rewrite app_length in Hf.
    destruct it as [ch|d].
    + cbn [item_src item_args item_prints item_ok] in *. subst a. cbn [app length] in *.
      destruct f as [|f]; [lia|]. cbn [vsn_loop]. replace (ch =? 37) with false by lia. cbn [negb].
      rewrite put_fill by lia. cbn [bind].
      replace (zlen t + 1) with (zlen (t ++ [ch])) by (rewrite zlen_app; reflexivity).
      rewrite IH with (u := c); auto; try lia.
      * rewrite <- app_assoc. rewrite zlen_app, zlen_cons, zlen_nil. cbn [app]. do 2 f_equal. lia.
      * rewrite zlen_app, zlen_cons, zlen_nil in *. lia.
    + cbn [item_prints] in Ha.
      assert (Hsrc : item_src (Dir d) = 37 :: tl (item_src (Dir d))) by reflexivity.
      rewrite Hsrc in *. cbn [app length] in *. destruct f as [|f]; [lia|]. cbn [vsn_loop].
      change (37 =? 37) with true. cbn [negb].
      rewrite parse_conv_ok by assumption. cbn [bind].
      rewrite do_conv_ok with (u := a) by (auto; lia). cbn [bind].
      replace (zlen t + zlen a) with (zlen (t ++ a)) by apply zlen_app.
      rewrite IH with (u := c); auto; try lia.
      * rewrite <- app_assoc. rewrite zlen_app. do 2 f_equal. lia.
      * rewrite zlen_app. lia.
Qed.

Theorem vsnprintf_spec l u buf size :
  Forall item_ok l -> fmt_prints l u -> zlen u < 2 ^ 31 -> 0 <= size < 2 ^ 31 -> size <= zlen buf ->
  c_vsnprintf buf size (fmt_src l) (fmt_args l) = OK (shown buf size u, zlen u).
Proof.
  intros Hok Hp Hu Hs Hb. unfold c_vsnprintf.
  rewrite <- (fill_nil buf size) at 1. change 0 with (zlen (@nil Z)) at 1.
  rewrite vsn_loop_ok with (u := u) by (auto; rewrite ?zlen_nil; lia). cbn [bind app].
  change (zlen (@nil Z)) with 0. rewrite Z.add_0_l. pose proof (zlen_nonneg u) as Lu.
  unfold shown. destruct (size >? 0) eqn:E.
  - replace (size =? 0) with false by lia. rewrite s32_id by lia. cbv zeta.
    rewrite fill_length by lia.
    set (k := if zlen u <? size then zlen u else size - 1).
    assert (Hk : k = Z.min (zlen u) (size - 1)) by (unfold k; destruct (zlen u <? size) eqn:E2; lia).
    rewrite Hk. replace ((0 <=? Z.min (zlen u) (size - 1)) && (Z.min (zlen u) (size - 1) <? zlen buf)) with true by lia.
    do 2 f_equal. unfold blit, fill, sub. cbn [skipn Z.to_nat firstn app].
    set (m := Z.min (zlen u) (size - 1)) in *. set (n := Z.min (zlen u) size) in *.
    assert (m <= n /\ 0 <= m <= zlen u /\ n <= zlen u) by lia.
    rewrite firstn_app, firstn_firstn, firstn_length.
    replace (Nat.min (Z.to_nat m) (Z.to_nat n)) with (Z.to_nat m) by lia.
    replace (Z.to_nat m - Nat.min (Z.to_nat n) (length u))%nat with 0%nat by (unfold zlen in *; lia).
    cbn [firstn]. rewrite app_nil_r, <- app_assoc. cbn [app]. f_equal. f_equal.
    cbn [length Nat.add]. rewrite skipn_app, firstn_length.
    rewrite skipn_all2 by (rewrite firstn_length; unfold zlen in *; lia).
    rewrite skipn_skipn. cbn [app]. f_equal. rewrite app_length, firstn_length. cbn [length].
    unfold zlen in *. lia.
  - replace (size =? 0) with true by lia. do 2 f_equal. unfold fill.
    replace (Z.to_nat (Z.min (zlen u) size)) with 0%nat by lia. reflexivity.
Qed.

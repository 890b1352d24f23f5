(** Facts about the binary64 operations used by the model: exactness on small
    integers and well-formedness of every result. *)
From Verif Require Import Base BaseFacts Value_Model Value_Spec Value_Proofs.
Ltac Zify.zify_post_hook ::= Z.div_mod_to_equations.

Lemma digits2_shift m d : Z.pos (digits2_pos (shift_pos d m)) = Z.pos (digits2_pos m) + Z.pos d.
Proof.
  pose proof (digits2_bounds m) as B.
  replace (Z.pos (digits2_pos m) + Z.pos d) with (Z.pos (digits2_pos m) + Z.pos d - 1 + 1) by lia.
  apply digits2_unique; [lia|].
  rewrite shift_pos_correct. change (Zpower_pos 2 d) with (2 ^ Z.pos d).
  replace (Z.pos (digits2_pos m) + Z.pos d - 1) with (Z.pos d + (Z.pos (digits2_pos m) - 1)) by lia.
  replace (Z.pos d + (Z.pos (digits2_pos m) - 1) + 1) with (Z.pos d + Z.pos (digits2_pos m)) by lia.
  rewrite !Z.pow_add_r by lia. assert (0 < 2 ^ Z.pos d) by lia.
  split; [apply Z.mul_le_mono_nonneg_l; lia|apply Z.mul_lt_mono_pos_l; lia].
Qed.

Notation fexp64 := (fexp 53 1024).

(** Rounding a mantissa already in canonical position changes nothing. *)
Lemma round_aux_canonical s m e :
  fexp64 (Z.pos (digits2_pos m) + e) = e -> e <= 971 ->
  binary_round_aux 53 1024 s (Z.pos m) e loc_Exact = S754_finite s m e.
Proof.
  intros Hf He. unfold binary_round_aux, shr_fexp. cbn [Zdigits2 shr_record_of_loc].
  rewrite Hf, Z.sub_diag. cbn [shr shr_m loc_of_shr_record round_nearest_even Zdigits2 shr_record_of_loc].
  rewrite Hf, Z.sub_diag. cbn [shr shr_m]. 
  replace (Zle_bool e (1024 - 53)) with true; [reflexivity|]. symmetry. apply Zle_imp_le_bool. lia.
Qed.

(** A positive integer below 2^53, in canonical form. *)
Definition canon_int (p : positive) : positive * Z :=
  match 53 - Z.pos (digits2_pos p) with
  | Z.pos d => (shift_pos d p, - Z.pos d)
  | _ => (p, 0)
  end.

Lemma round_small_int s p : Z.pos p < 2 ^ 53 ->
  binary_round 53 1024 s p 0 = S754_finite s (fst (canon_int p)) (snd (canon_int p)) /\
  Z.pos (digits2_pos (fst (canon_int p))) = 53 /\ -52 <= snd (canon_int p) <= 0 /\
  Z.pos (fst (canon_int p)) = Z.pos p * 2 ^ (- snd (canon_int p)).
Proof.
  intros Hp. pose proof (digits2_bounds p) as B.
  assert (Hd : 1 <= Z.pos (digits2_pos p) <= 53).
  { split; [lia|]. destruct (Z.le_gt_cases (Z.pos (digits2_pos p)) 53); [assumption|].
    assert (2 ^ 53 <= 2 ^ (Z.pos (digits2_pos p) - 1)) by (apply Z.pow_le_mono_r; lia). lia. }
  unfold binary_round, shl_align, canon_int.
  assert (Hf : fexp64 (Z.pos (digits2_pos p) + 0) = Z.pos (digits2_pos p) - 53).
  { unfold fexp, emin. lia. }
  rewrite Hf. replace (Z.pos (digits2_pos p) - 53 - 0) with (- (53 - Z.pos (digits2_pos p))) by lia.
  destruct (53 - Z.pos (digits2_pos p)) as [|d|d] eqn:E; [| |lia]; cbn [Z.opp fst snd].
  - split; [apply round_aux_canonical; [unfold fexp, emin; lia|lia]|]. repeat split; lia.
  - assert (Hd53 : Z.pos (digits2_pos (shift_pos d p)) = 53) by (rewrite digits2_shift; lia).
    assert (Hm : Z.pos (digits2_pos p) - 53 = Z.neg d) by lia. 
    split; [rewrite Hm; apply round_aux_canonical; [unfold fexp, emin; lia|lia]|].
    split; [exact Hd53|]. split; [lia|]. rewrite shift_pos_correct. cbn [Z.opp].
    change (Zpower_pos 2 d) with (2 ^ Z.pos d). lia.
Qed.

Lemma dec_enc_finite s m e :
  bounded 53 1024 m e = true -> d_dec (d_enc (S754_finite s m e)) = S754_finite s m e /\
  is_u64 (d_enc (S754_finite s m e)) /\ d_isnan (d_enc (S754_finite s m e)) = false.
Proof.
  intros Hb. unfold bounded, canonical_mantissa in Hb. apply andb_true_iff in Hb as [Hc He].
  apply Zeq_is_eq_bool in Hc. apply Zle_bool_imp_le in He. unfold fexp, emin in Hc.
  pose proof (digits2_bounds m) as B.
  cbn [d_enc]. destruct (Z.pos m <? 2 ^ 52) eqn:E.
  - assert (Hd : Z.pos (digits2_pos m) <= 52).
    { destruct (Z.le_gt_cases (Z.pos (digits2_pos m)) 52); [assumption|].
      assert (2 ^ 52 <= 2 ^ (Z.pos (digits2_pos m) - 1)) by (apply Z.pow_le_mono_r; lia). lia. }
    assert (e = -1074) by lia. subst e. clear Hc He B Hd.
    assert (HS : d_sign (sbit s + Z.pos m) = s) by (unfold d_sign, sbit; destruct s; lia).
    assert (HE : d_exp (sbit s + Z.pos m) = 0).
    { unfold d_exp, sbit. change (2 ^ 11) with 2048. destruct s; lia. }
    assert (HM : d_man (sbit s + Z.pos m) = Z.pos m) by (unfold d_man, sbit; destruct s; lia).
    split; [|split].
    + unfold d_dec. rewrite HS, HE, HM. reflexivity.
    + unfold is_u64, sbit. destruct s; lia.
    + unfold d_isnan. rewrite HE. reflexivity.
  - assert (Hd : Z.pos (digits2_pos m) = 53).
    { assert (53 <= Z.pos (digits2_pos m)).
      { destruct (Z.le_gt_cases 53 (Z.pos (digits2_pos m))); [assumption|].
        assert (2 ^ Z.pos (digits2_pos m) <= 2 ^ 52) by (apply Z.pow_le_mono_r; lia). lia. }
      lia. }
    rewrite Hd in B. change (53 - 1) with 52 in B.
    set (x := sbit s + (e + 1075) * 2 ^ 52 + (Z.pos m - 2 ^ 52)).
    assert (Hr : 1 <= e + 1075 <= 2046) by lia. clear Hc He Hd E.
    assert (HS : d_sign x = s) by (unfold x, d_sign, sbit; destruct s; lia).
    assert (HE : d_exp x = e + 1075).
    { unfold x, d_exp, sbit. change (2 ^ 11) with 2048. destruct s; lia. }
    assert (HM : d_man x = Z.pos m - 2 ^ 52) by (unfold x, d_man, sbit; destruct s; lia).
    split; [|split].
    + unfold d_dec. rewrite HS, HE, HM.
      replace (e + 1075 =? 2047) with false by lia. replace (e + 1075 =? 0) with false by lia.
      replace (Z.pos m - 2 ^ 52 + 2 ^ 52) with (Z.pos m) by lia. f_equal. lia.
    + unfold is_u64, x, sbit. destruct s; lia.
    + unfold d_isnan. rewrite HE. replace (e + 1075 =? 2047) with false by lia. reflexivity.
Qed.

Lemma enc_u64 f : valid_binary 53 1024 f = true -> is_u64 (d_enc f).
Proof.
  destruct f as [s|s| |s m e]; intros H.
  - unfold is_u64; cbn [d_enc]; unfold sbit; destruct s; lia.
  - unfold is_u64; cbn [d_enc]; unfold sbit; destruct s; lia.
  - unfold is_u64; cbn [d_enc]; unfold TAG_NAN; lia.
  - apply dec_enc_finite. exact H.
Qed.
Lemma enc_number f : valid_binary 53 1024 f = true -> mk_number (d_enc f) = d_enc f /\ is_number (d_enc f) = true.
Proof.
  destruct f as [s|s| |s m e]; intros H.
  - destruct s; vm_compute; split; reflexivity.
  - destruct s; vm_compute; split; reflexivity.
  - vm_compute; split; reflexivity.
  - destruct (dec_enc_finite s m e H) as (_ & _ & Hn). unfold mk_number, is_number, get_double.
    rewrite Hn. split; [reflexivity|apply orb_true_r].
Qed.
Lemma dec_enc f : valid_binary 53 1024 f = true -> d_dec (d_enc f) = f.
Proof.
  destruct f as [s|s| |s m e]; intros H.
  - destruct s; vm_compute; reflexivity.
  - destruct s; vm_compute; reflexivity.
  - vm_compute; reflexivity.
  - apply dec_enc_finite. exact H.
Qed.

Lemma canon_int_bounded p : Z.pos p < 2 ^ 53 ->
  bounded 53 1024 (fst (canon_int p)) (snd (canon_int p)) = true.
Proof.
  intros Hp. destruct (round_small_int false p Hp) as (_ & Hd & He & _).
  unfold bounded, canonical_mantissa. rewrite Hd. unfold fexp, emin.
  apply andb_true_iff; split; [apply Zeq_is_eq_bool; lia|apply Zle_imp_le_bool; lia].
Qed.

(** Integers below 2^53 in magnitude convert to double and back exactly. *)
Lemma d_of_Z_exact n : - 2 ^ 53 < n < 2 ^ 53 ->
  is_u64 (d_of_Z n) /\ d_isnan (d_of_Z n) = false /\ d_trunc (d_of_Z n) = Some n.
Proof.
  intros Hn. unfold d_of_Z. destruct n as [|p|p]; cbn [binary_normalize].
  - vm_compute. repeat split; congruence.
  - destruct (round_small_int false p ltac:(lia)) as (-> & Hd & He & Hm).
    destruct (dec_enc_finite false _ _ (canon_int_bounded p ltac:(lia))) as (H1 & H2 & H3).
    split; [exact H2|]. split; [exact H3|]. unfold d_trunc. rewrite H1. rewrite Hm.
    destruct (0 <=? snd (canon_int p)) eqn:E.
    + replace (snd (canon_int p)) with 0 by lia. f_equal. rewrite Z.pow_0_r. lia.
    + f_equal. apply Z.div_mul. apply Z.pow_nonzero; lia.
  - destruct (round_small_int true p ltac:(lia)) as (-> & Hd & He & Hm).
    destruct (dec_enc_finite true _ _ (canon_int_bounded p ltac:(lia))) as (H1 & H2 & H3).
    split; [exact H2|]. split; [exact H3|]. unfold d_trunc. rewrite H1. rewrite Hm.
    destruct (0 <=? snd (canon_int p)) eqn:E.
    + replace (snd (canon_int p)) with 0 by lia. f_equal. rewrite Z.pow_0_r. lia.
    + f_equal. rewrite Z.div_mul; [reflexivity|]. apply Z.pow_nonzero; lia.
Qed.

Lemma int_round_trip n : 0 <= n < 2 ^ 32 -> get_int (mk_number (d_of_Z n)) = OK (s32 n).
Proof.
  intros Hn. destruct (d_of_Z_exact n ltac:(lia)) as (H1 & H2 & H3).
  unfold get_int, d_to_range, mk_number, get_double. rewrite H2, H3.
  replace ((0 <=? n) && (n <=? 2 ^ 32 - 1)) with true by lia. reflexivity.
Qed.
Lemma int_negative_ub n : - 2 ^ 53 < n < 0 -> get_int (mk_number (d_of_Z n)) = UB.
Proof.
  intros Hn. destruct (d_of_Z_exact n ltac:(lia)) as (H1 & H2 & H3).
  unfold get_int, d_to_range, mk_number, get_double. rewrite H2, H3.
  replace ((0 <=? n) && (n <=? 2 ^ 32 - 1)) with false by lia. reflexivity.
Qed.

(** ** Well-formedness of rounded results. *)
Lemma shr_1_m r : 0 <= shr_m r -> shr_m (shr_1 r) = shr_m r / 2.
Proof.
  destruct r as [m rr s]. cbn [shr_m shr_1]. intros H.
  destruct m as [|[p|p|]|p]; cbn [shr_m]; try reflexivity; lia.
Qed.
Lemma iter_shr_m n : forall r, 0 <= shr_m r ->
  shr_m (iter_pos shr_1 n r) = shr_m r / 2 ^ Z.pos n.
Proof.
  induction n as [n IH|n IH|]; intros r Hr; cbn [iter_pos].
  - assert (H1 : shr_m (shr_1 r) = shr_m r / 2) by (apply shr_1_m; exact Hr).
    assert (P : 0 < 2 ^ Z.pos n) by (apply Z.pow_pos_nonneg; lia).
    assert (H2 : shr_m (iter_pos shr_1 n (shr_1 r)) = shr_m r / 2 / 2 ^ Z.pos n).
    { rewrite IH, H1 by (rewrite shr_1_m by exact Hr; apply Z.div_pos; lia). reflexivity. }
    rewrite IH, H2 by (rewrite H2; repeat (apply Z.div_pos; [|lia]); lia).
    rewrite !Z.div_div by lia. f_equal.
    change (Z.pos n~1) with (1 + 2 * Z.pos n). rewrite Z.pow_add_r by lia.
    replace (2 * Z.pos n) with (Z.pos n + Z.pos n) by lia. rewrite Z.pow_add_r by lia. lia.
  - assert (P : 0 < 2 ^ Z.pos n) by (apply Z.pow_pos_nonneg; lia).
    assert (H2 : shr_m (iter_pos shr_1 n r) = shr_m r / 2 ^ Z.pos n) by (apply IH; exact Hr).
    rewrite IH, H2 by (rewrite H2; apply Z.div_pos; lia).
    rewrite !Z.div_div by lia. f_equal. change (Z.pos n~0) with (2 * Z.pos n).
    replace (2 * Z.pos n) with (Z.pos n + Z.pos n) by lia. rewrite Z.pow_add_r by lia. lia.
  - apply shr_1_m. exact Hr.
Qed.

Lemma shr_record_m m l : shr_m (shr_record_of_loc m l) = m.
Proof. destruct l as [|[]]; reflexivity. Qed.

Lemma shr_fexp_spec m e l : 0 <= m ->
  shr_m (fst (shr_fexp 53 1024 m e l)) = m / 2 ^ Z.max 0 (fexp64 (Zdigits2 m + e) - e) /\
  snd (shr_fexp 53 1024 m e l) = Z.max e (fexp64 (Zdigits2 m + e)).
Proof.
  intros Hm. unfold shr_fexp, shr. set (k := fexp64 (Zdigits2 m + e) - e).
  destruct k as [|p|p] eqn:E; cbn [fst snd].
  - rewrite shr_record_m. split; [cbn [Z.max Z.compare]; rewrite Z.pow_0_r, Z.div_1_r; reflexivity|lia].
  - rewrite iter_shr_m by (rewrite shr_record_m; exact Hm). rewrite shr_record_m. split; [reflexivity|lia].
  - rewrite shr_record_m. split; [cbn [Z.max Z.compare]; rewrite Z.pow_0_r, Z.div_1_r; reflexivity|lia].
Qed.

Lemma Zdigits2_bounds m : 0 < m -> 1 <= Zdigits2 m /\ 2 ^ (Zdigits2 m - 1) <= m < 2 ^ Zdigits2 m.
Proof. destruct m as [|p|p]; intros H; try lia. cbn [Zdigits2]. pose proof (digits2_bounds p). lia. Qed.
Lemma Zdigits2_unique m n : 1 <= n -> 2 ^ (n - 1) <= m < 2 ^ n -> Zdigits2 m = n.
Proof.
  intros Hn H. assert (0 < 2 ^ (n - 1)) by (apply Z.pow_pos_nonneg; lia).
  destruct m as [|p|p]; try lia. cbn [Zdigits2].
  pose proof (digits2_unique p (n - 1) ltac:(lia)). replace (n - 1 + 1) with n in * by lia. auto.
Qed.
Lemma Zdigits2_le m n : 0 <= m -> 0 <= n -> m < 2 ^ n -> Zdigits2 m <= n.
Proof.
  intros Hm Hn H. destruct (Z.eq_dec m 0) as [->|]; [cbn; lia|].
  destruct (Zdigits2_bounds m ltac:(lia)) as [H1 [H2 _]].
  destruct (Z.le_gt_cases (Zdigits2 m) n); [assumption|].
  assert (2 ^ n <= 2 ^ (Zdigits2 m - 1)) by (apply Z.pow_le_mono_r; lia). lia.
Qed.
Lemma Zdigits2_ge m n : 0 <= n -> 2 ^ n <= m -> n + 1 <= Zdigits2 m.
Proof.
  intros Hn H. assert (0 < 2 ^ n) by (apply Z.pow_pos_nonneg; lia).
  destruct (Zdigits2_bounds m ltac:(lia)) as [H1 [_ H2]].
  destruct (Z.le_gt_cases (n + 1) (Zdigits2 m)); [assumption|].
  assert (2 ^ Zdigits2 m <= 2 ^ n) by (apply Z.pow_le_mono_r; lia). lia.
Qed.

Lemma round_even_cases mx lx : round_nearest_even mx lx = mx \/ round_nearest_even mx lx = mx + 1.
Proof. destruct lx as [|[]]; cbn; auto. destruct (Z.even mx); auto. Qed.

Lemma shr_digits m k : 0 < m -> 0 <= k < Zdigits2 m -> Zdigits2 (m / 2 ^ k) = Zdigits2 m - k.
Proof.
  intros Hm Hk. destruct (Zdigits2_bounds m Hm) as [H1 H2].
  assert (P : 0 < 2 ^ k) by (apply Z.pow_pos_nonneg; lia).
  apply Zdigits2_unique; [lia|]. split.
  - apply Z.div_le_lower_bound; [lia|]. rewrite <- Z.pow_add_r by lia.
    replace (k + (Zdigits2 m - k - 1)) with (Zdigits2 m - 1) by lia. lia.
  - apply Z.div_lt_upper_bound; [lia|]. rewrite <- Z.pow_add_r by lia.
    replace (k + (Zdigits2 m - k)) with (Zdigits2 m) by lia. lia.
Qed.

Lemma round_aux_valid s m e l : 0 <= m -> e <= fexp64 (Zdigits2 m + e) ->
  valid_binary 53 1024 (binary_round_aux 53 1024 s m e l) = true.
Proof.
  intros Hm He. unfold binary_round_aux.
  destruct (shr_fexp 53 1024 m e l) as [r1 e1] eqn:E1.
  pose proof (shr_fexp_spec m e l Hm) as [S1 S2]. rewrite E1 in S1, S2. cbn [fst snd] in S1, S2.
  set (k := Z.max 0 (fexp64 (Zdigits2 m + e) - e)) in *.
  set (m1 := round_nearest_even (shr_m r1) (loc_of_shr_record r1)).
  assert (Hm1 : m1 = shr_m r1 \/ m1 = shr_m r1 + 1) by apply round_even_cases.
  clearbody m1.
  assert (Pk : 0 < 2 ^ k) by (apply Z.pow_pos_nonneg; lia).
  assert (Hm' : 0 <= shr_m r1) by (rewrite S1; apply Z.div_pos; lia).
  assert (He1 : e1 = fexp64 (Zdigits2 m + e)) by lia.
  assert (Hk : k = e1 - e) by lia.
  (* what is known after the first shift *)
  assert (HF : shr_m r1 < 2 ^ 53 /\ -1074 <= e1 /\ (-1074 < e1 -> 2 ^ 52 <= shr_m r1)).
  { unfold fexp, emin in He1.
    destruct (Z.eq_dec m 0) as [->|Hmz].
    - cbn [Zdigits2] in He1. rewrite Z.div_0_l in S1 by lia. rewrite S1. split; [lia|]. split; [lia|].
      unfold fexp, emin in He. cbn [Zdigits2] in He. lia.
    - destruct (Zdigits2_bounds m ltac:(lia)) as [D1 D2].
      assert (HL : shr_m r1 < 2 ^ 53).
      { rewrite S1. apply Z.div_lt_upper_bound; [lia|]. rewrite <- Z.pow_add_r by lia.
        apply Z.lt_le_trans with (2 ^ Zdigits2 m); [lia|]. apply Z.pow_le_mono_r; lia. }
      split; [exact HL|]. split; [lia|]. intros Hgt.
      rewrite S1. apply Z.div_le_lower_bound; [lia|]. rewrite <- Z.pow_add_r by lia.
      replace (k + 52) with (Zdigits2 m - 1) by lia. lia. }
  destruct HF as (F1 & F2 & F3).
  destruct (shr_fexp 53 1024 m1 e1 loc_Exact) as [r2 e2] eqn:E2.
  pose proof (shr_fexp_spec m1 e1 loc_Exact ltac:(lia)) as [T1 T2].
  rewrite E2 in T1, T2. cbn [fst snd] in T1, T2.
  destruct (shr_m r2) as [|p|p] eqn:E3; [reflexivity| |reflexivity].
  destruct (Zle_bool e2 (1024 - 53)) eqn:E4; [|reflexivity].
  cbn [valid_binary]. unfold bounded, canonical_mantissa. rewrite E4, andb_true_r.
  apply Zeq_is_eq_bool. change (Z.pos (digits2_pos p)) with (Zdigits2 (Z.pos p)). rewrite T1.
  assert (Hm1pos : 0 < m1).
  { destruct (Z.eq_dec m1 0) as [Hz|]; [|lia]. rewrite Hz in T1. rewrite Z.div_0_l in T1; [lia|].
    apply Z.pow_nonzero; lia. }
  destruct (Z.eq_dec m1 (2 ^ 53)) as [Em|Em].
  - assert (D : Zdigits2 m1 = 54) by (apply Zdigits2_unique; [lia|rewrite Em; cbn; lia]).
    rewrite D in *. unfold fexp, emin in *.
    replace (Z.max 0 (Z.max (54 + e1 - 53) (3 - 1024 - 53) - e1)) with 1 in * by lia.
    rewrite Em. change (2 ^ 53 / 2 ^ 1) with (2 ^ 52).
    replace (Zdigits2 (2 ^ 52)) with 53 by reflexivity. lia.
  - assert (D : Zdigits2 m1 <= 53) by (apply Zdigits2_le; lia).
    assert (D2 : -1074 < e1 -> 53 <= Zdigits2 m1).
    { intros Hg. apply (Zdigits2_ge m1 52); [lia|]. specialize (F3 Hg). lia. }
    unfold fexp, emin in *.
    replace (Z.max 0 (Z.max (Zdigits2 m1 + e1 - 53) (3 - 1024 - 53) - e1)) with 0 in * by lia.
    rewrite Z.pow_0_r, Z.div_1_r in *. lia.
Qed.

Lemma round_valid s m e : valid_binary 53 1024 (binary_round 53 1024 s m e) = true.
Proof.
  unfold binary_round, shl_align.
  destruct (fexp64 (Z.pos (digits2_pos m) + e) - e) as [|d|d] eqn:E.
  - apply round_aux_valid; [lia|]. cbn [Zdigits2]. lia.
  - apply round_aux_valid; [lia|]. cbn [Zdigits2]. lia.
  - apply round_aux_valid; [lia|]. cbn [Zdigits2]. rewrite digits2_shift.
    replace (Z.pos (digits2_pos m) + Z.pos d + fexp64 (Z.pos (digits2_pos m) + e))
      with (Z.pos (digits2_pos m) + e) by lia. lia.
Qed.
Lemma normalize_valid m e z : valid_binary 53 1024 (binary_normalize 53 1024 m e z) = true.
Proof. destruct m; cbn [binary_normalize]; [reflexivity|apply round_valid|apply round_valid]. Qed.

Lemma add_valid x y : valid_binary 53 1024 x = true -> valid_binary 53 1024 y = true ->
  valid_binary 53 1024 (SFadd 53 1024 x y) = true.
Proof.
  intros Hx Hy. destruct x as [[]|[]| |sx mx ex], y as [[]|[]| |sy my ey]; cbn [SFadd Bool.eqb];
    try reflexivity; try assumption. apply normalize_valid.
Qed.
Lemma sub_valid x y : valid_binary 53 1024 x = true -> valid_binary 53 1024 y = true ->
  valid_binary 53 1024 (SFsub 53 1024 x y) = true.
Proof.
  intros Hx Hy. destruct x as [[]|[]| |sx mx ex], y as [[]|[]| |sy my ey]; cbn [SFsub Bool.eqb negb];
    try reflexivity; try assumption. apply normalize_valid.
Qed.

Lemma bounded_facts m e : bounded 53 1024 m e = true ->
  e <= 971 /\ -1074 <= e /\ Z.pos (digits2_pos m) <= 53 /\ (-1074 < e -> Z.pos (digits2_pos m) = 53).
Proof.
  unfold bounded, canonical_mantissa. intros H. apply andb_true_iff in H as [Hc He].
  apply Zeq_is_eq_bool in Hc. apply Zle_bool_imp_le in He. unfold fexp, emin in Hc. lia.
Qed.

Lemma digits_mul a b : 0 < a -> 0 < b -> Zdigits2 a <= Zdigits2 (a * b).
Proof.
  intros Ha Hb. destruct (Zdigits2_bounds a Ha) as [H1 H2].
  replace (Zdigits2 a) with (Zdigits2 a - 1 + 1) by lia. apply Zdigits2_ge; nia.
Qed.

Lemma mul_valid x y : valid_binary 53 1024 x = true -> valid_binary 53 1024 y = true ->
  valid_binary 53 1024 (SFmul 53 1024 x y) = true.
Proof.
  intros Hx Hy. destruct x as [sx|sx| |sx mx ex], y as [sy|sy| |sy my ey]; cbn [SFmul];
    try reflexivity; try assumption. cbn [valid_binary] in Hx, Hy.
  apply round_aux_valid; [lia|].
  destruct (bounded_facts _ _ Hx) as (A1 & A2 & A3 & A4).
  destruct (bounded_facts _ _ Hy) as (B1 & B2 & B3 & B4).
  pose proof (digits_mul (Z.pos mx) (Z.pos my) ltac:(lia) ltac:(lia)) as D1.
  pose proof (digits_mul (Z.pos my) (Z.pos mx) ltac:(lia) ltac:(lia)) as D2.
  rewrite Z.mul_comm in D2. change (Z.pos mx * Z.pos my) with (Z.pos (mx * my)) in *.
  cbn [Zdigits2] in D1, D2 |- *. set (dd := Z.pos (digits2_pos (mx * my))) in *. clearbody dd.
  unfold fexp, emin. lia.
Qed.

Lemma div_valid x y : valid_binary 53 1024 x = true -> valid_binary 53 1024 y = true ->
  valid_binary 53 1024 (SFdiv 53 1024 x y) = true.
Proof.
  intros Hx Hy. destruct x as [sx|sx| |sx mx ex], y as [sy|sy| |sy my ey]; cbn [SFdiv];
    try reflexivity; try assumption. cbn [valid_binary] in Hx, Hy.
  unfold SFdiv_core_binary.
  set (d1 := Zdigits2 (Z.pos mx)). set (d2 := Zdigits2 (Z.pos my)).
  set (e' := Z.min (fexp64 (d1 + ex - (d2 + ey))) (ex - ey)).
  set (s := ex - ey - e'). assert (Hs : 0 <= s) by (unfold s, e'; lia).
  set (m' := match s with Z.pos _ => Z.shiftl (Z.pos mx) s | 0 => Z.pos mx | Z.neg _ => 0 end).
  assert (Hm' : m' = Z.pos mx * 2 ^ s).
  { unfold m'. destruct s as [|p|p]; [lia| |lia]. rewrite Z.shiftl_mul_pow2 by lia. reflexivity. }
  destruct (Z.div_eucl m' (Z.pos my)) as [q r] eqn:Eq.
  pose proof (Z_div_mod m' (Z.pos my) ltac:(lia)) as Hq. rewrite Eq in Hq. destruct Hq as [Hq Hr].
  assert (Ps : 0 < 2 ^ s) by (apply Z.pow_pos_nonneg; lia).
  assert (Hq0 : 0 <= q) by nia.
  apply round_aux_valid; [exact Hq0|].
  destruct (Zdigits2_bounds (Z.pos mx) ltac:(lia)) as [A1 A2].
  destruct (Zdigits2_bounds (Z.pos my) ltac:(lia)) as [B1 B2]. fold d1 in A1, A2. fold d2 in B1, B2.
  assert (D : d1 + s - d2 <= Zdigits2 q).
  { destruct (Z.le_gt_cases (d1 + s - d2) 0) as [L|G].
    - destruct q as [|qq|qq]; cbn [Zdigits2]; lia.
    - replace (d1 + s - d2) with (d1 + s - d2 - 1 + 1) by lia. apply Zdigits2_ge; [lia|].
      assert (Hlow : 2 ^ (d1 + s - 1) <= m').
      { rewrite Hm'. replace (d1 + s - 1) with (d1 - 1 + s) by lia. rewrite Z.pow_add_r by lia.
        apply Z.mul_le_mono_nonneg_r; lia. }
      replace (d1 + s - 1) with (d2 + (d1 + s - d2 - 1)) in Hlow by lia. rewrite Z.pow_add_r in Hlow by lia.
      set (P := 2 ^ (d1 + s - d2 - 1)) in *.
      assert (0 < P) by (apply Z.pow_pos_nonneg; lia).
      destruct (Z.le_gt_cases P q); [assumption|]. exfalso.
      set (Q := 2 ^ d2) in *. clearbody P Q. nia. }
  assert (e' <= fexp64 (d1 + ex - (d2 + ey))) by (unfold e'; lia).
  unfold fexp, emin in *. lia.
Qed.

Lemma opp_valid x : valid_binary 53 1024 x = true -> valid_binary 53 1024 (SFopp x) = true.
Proof. destruct x; intros H; exact H || reflexivity. Qed.
Lemma d_of_Z_valid n : is_u64 (d_of_Z n) /\ is_number (d_of_Z n) = true /\ mk_number (d_of_Z n) = d_of_Z n.
Proof.
  unfold d_of_Z. pose proof (normalize_valid n 0 false) as H.
  pose proof (enc_number _ H) as [H1 H2]. split; [apply enc_u64; exact H|]. split; assumption.
Qed.

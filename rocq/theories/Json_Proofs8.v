(** Numbers that are printed exactly are read back. *)
From Verif Require Import Base BaseFacts Value_Model Value_Spec Value_Proofs Float_Proofs Ops_Proofs Num_Model Str_Model Str_Spec SUtil_Model SUtil_Spec SUtil_Proofs
  NumText_Spec NumText_Proofs Json_Spec RoundTrip_Spec.
Local Ltac Zify.zify_post_hook ::= idtac.

Lemma round_aux_exact s m e j : fexp64 (Z.pos (digits2_pos m) + e) = e -> e <= 971 -> 0 <= j ->
  binary_round_aux 53 1024 s (Z.pos m * 2 ^ j) (e - j) loc_Exact = S754_finite s m e.
Proof.
  intros Hf He Hj. destruct (Z.eq_dec j 0) as [->|Nj].
  { rewrite Z.pow_0_r, Z.mul_1_r, Z.sub_0_r. apply round_aux_canonical; assumption. }
  assert (P : 0 < 2 ^ j) by (apply Z.pow_pos_nonneg; lia).
  assert (D : Zdigits2 (Z.pos m * 2 ^ j) = Z.pos (digits2_pos m) + j).
  { destruct (Zdigits2_bounds (Z.pos m) ltac:(lia)) as (B0 & B1 & B2). cbn [Zdigits2] in B0, B1, B2.
    apply Zdigits2_unique; [lia|]. replace (Z.pos (digits2_pos m) + j - 1) with (Z.pos (digits2_pos m) - 1 + j) by lia.
    rewrite !Z.pow_add_r by lia. nia. }
  unfold binary_round_aux at 1. unfold shr_fexp at 1. rewrite D. cbn [shr_record_of_loc].
  replace (Z.pos (digits2_pos m) + j + (e - j)) with (Z.pos (digits2_pos m) + e) by lia. rewrite Hf.
  replace (e - (e - j)) with j by lia. destruct j as [|k|k]; try lia. cbn [shr]. rewrite iter_shr_exact.
  replace (e - Z.pos k + Z.pos k) with e by lia. cbn [loc_of_shr_record round_nearest_even shr_m].
  unfold shr_fexp. cbn [Zdigits2 shr_record_of_loc]. rewrite Hf, Z.sub_diag. cbn [shr shr_m].
  replace (Zle_bool e (1024 - 53)) with true; [reflexivity|]. symmetry. apply Zle_imp_le_bool. lia.
Qed.
Lemma bounded_fexp m e : bounded 53 1024 m e = true -> fexp64 (Z.pos (digits2_pos m) + e) = e /\ e <= 971.
Proof.
  unfold bounded, canonical_mantissa. intros H. apply andb_true_iff in H as [Hc He].
  apply Zeq_is_eq_bool in Hc. apply Zle_bool_imp_le in He. split; [symmetry|]; assumption || lia.
Qed.
(** A ratio that is a double is rounded to it. *)
Lemma round_ratio_exact num den m e : bounded 53 1024 m e = true -> 0 < den ->
  (0 <= e /\ num = Z.pos m * 2 ^ e * den \/ e < 0 /\ num * 2 ^ (- e) = Z.pos m * den) ->
  round_ratio num den = d_enc (S754_finite false m e).
Proof.
  intros Hb Hd Hv. destruct (bounded_fexp m e Hb) as [F1 F2]. destruct (bounded_facts m e Hb) as (_ & _ & D53 & _).
  assert (M53 : Z.pos m < 2 ^ 53).
  { destruct (Zdigits2_bounds (Z.pos m) ltac:(lia)) as (_ & _ & B2). cbn [Zdigits2] in B2.
    eapply Z.lt_le_trans; [exact B2|]. apply Z.pow_le_mono_r; lia. }
  assert (Hn : 0 < num).
  { destruct Hv as [[He ->]|[He Q]].
    - assert (0 < 2 ^ e) by (apply Z.pow_pos_nonneg; lia). nia.
    - assert (0 < 2 ^ (- e)) by (apply Z.pow_pos_nonneg; lia). nia. }
  unfold round_ratio. replace (num =? 0) with false by lia. set (k := Z.max 0 (64 + Z.log2 den - Z.log2 num)).
  assert (K : 0 <= k /\ 0 <= e + k).
  { split; [lia|]. destruct Hv as [[He _]|[He Q]]; [lia|].
    assert (L1 : Z.log2 (num * 2 ^ (- e)) = Z.log2 num + - e) by (rewrite Z.log2_mul_pow2; lia).
    pose proof (Z.log2_mul_above (Z.pos m) den ltac:(lia) ltac:(lia)) as L2. rewrite <- Q, L1 in L2.
    assert (Z.log2 (Z.pos m) < 53) by (apply Z.log2_lt_pow2; lia). lia. }
  destruct K as [K0 K1].
  assert (V : num * 2 ^ k = Z.pos m * 2 ^ (e + k) * den).
  { destruct Hv as [[He ->]|[He Q]].
    - rewrite Z.pow_add_r by lia. ring.
    - replace k with (- e + (e + k)) at 1 by lia. rewrite (Z.pow_add_r 2 (- e)) by lia. rewrite Z.mul_assoc, Q. ring. }
  cbv zeta. rewrite V, Z.div_mul, Z.mod_mul by lia. cbn [Z.eqb]. f_equal.
  replace (- k) with (e - (e + k)) by lia. apply round_aux_exact; assumption || lia.
Qed.

Lemma dval_num t : Forall (is_digit_in 10) t -> forall acc, dval acc t = num_value 10 acc t.
Proof.
  induction 1 as [|c t Hc _ IH]; intros acc; [reflexivity|]. cbn [dval num_value]. rewrite IH. f_equal.
  unfold is_digit_in, digit_of in Hc. unfold digit_of. destruct (c <? 58) eqn:E; lia.
Qed.
Lemma digits_j t : Forall (is_digit_in 10) t -> jdigits t.
Proof. unfold jdigits. apply Forall_impl. intros c. unfold is_digit_in, digit_of. destruct (c <? 58) eqn:E; lia. Qed.
Lemma num_value_shift t : forall acc, num_value 10 acc t = acc * 10 ^ zlen t + num_value 10 0 t.
Proof.
  induction t as [|c t IH]; intros acc; [change (zlen []) with 0; cbn [num_value]; lia|]. cbn [num_value].
  rewrite (IH (acc * 10 + digit_of c)), (IH (0 * 10 + digit_of c)). replace (zlen (c :: t)) with (1 + zlen t) by (unfold zlen; cbn [length]; lia).
  rewrite Z.pow_add_r by (try lia; unfold zlen; lia). lia.
Qed.
Lemma num_value_app2 a b : num_value 10 0 (a ++ b) = num_value 10 0 a * 10 ^ zlen b + num_value 10 0 b.
Proof.
  rewrite <- num_value_shift. generalize 0. induction a as [|c a IH]; intros z; [reflexivity|]. cbn [app num_value]. apply IH.
Qed.

Lemma six_finite d s m e : is_u64 d -> d_dec d = S754_finite s m e ->
  bounded 53 1024 m e = true /\ d = d_enc (S754_finite false m e) + (if s then 2 ^ 63 else 0) /\ d_isnan d = false.
Proof.
  intros U E. pose proof (dec_valid d U) as V. rewrite E in V. cbn [valid_binary] in V. split; [exact V|].
  assert (N : d_isnan d = false).
  { destruct (d_isnan d) eqn:Q; [|reflexivity]. exfalso. revert E. unfold d_isnan in Q. unfold d_dec. cbv zeta.
    destruct (d_exp d =? 2047); [|discriminate Q]. destruct (d_man d =? 0); [discriminate Q|discriminate]. }
  split; [|exact N]. rewrite <- (enc_dec d U N), E. cbn [d_enc].
  destruct (Z.pos m <? 2 ^ 52); destruct s; unfold sbit; lia.
Qed.
Lemma six_number d : six_decimals d -> is_u64 d /\ mk_number d = d /\ kind_of d = KNumber /\ printable d.
Proof.
  intros [->|(s & m & e & U & E & H)].
  { split; [vm_compute; split; [discriminate|reflexivity]|]. split; [reflexivity|]. split; [reflexivity|]. split; [intros s Q; vm_compute in Q; discriminate|].
    intros n W. apply whole_trunc in W. vm_compute in W. injection W as <-. lia. }
  destruct (six_finite d s m e U E) as (B & Q & N).
  assert (Mk : mk_number d = d) by (unfold mk_number; rewrite N; reflexivity).
  split; [exact U|]. split; [exact Mk|]. split.
  - destruct (preds_kind d U) as (P & _). unfold is_number, get_double in P. rewrite N in P. rewrite orb_true_r in P.
    destruct (kind_of d); try discriminate P; reflexivity.
  - split; [intros s'; rewrite E; discriminate|]. intros n W. pose proof (finite_facts d s m e U E) as F. apply whole_trunc in W. unfold d_trunc in W. rewrite E in W.
    destruct (0 <=? e) eqn:He.
    + assert (n = (if s then - (Z.pos m * 2 ^ e) else Z.pos m * 2 ^ e)) as -> by (destruct s; congruence).
      assert (0 < 2 ^ e) by (apply Z.pow_pos_nonneg; lia). destruct s; nia.
    + assert (n = (if s then - (Z.pos m / 2 ^ (- e)) else Z.pos m / 2 ^ (- e))) as -> by (destruct s; congruence).
      assert (0 <= Z.pos m / 2 ^ (- e) <= Z.pos m).
      { assert (0 < 2 ^ (- e)) by (apply Z.pow_pos_nonneg; lia). split; [apply Z.div_pos; lia|]. apply Z.div_le_upper_bound; nia. }
      assert (2 ^ 53 < 2 ^ 63) by lia. destruct s; lia.
Qed.
(** What is printed for such a number denotes it. *)
Lemma six_text d t : six_decimals d -> num_shows d t -> number d t.
Proof.
  intros H S. destruct (six_number d H) as (U & _). destruct H as [->|(s & m & e & _ & E & H)].
  { assert (t = [48]) as ->.
    { assert (A : num_shows 0 [48]).
      { apply (NS_whole 0 0); [apply (W_zero 0 false); reflexivity|lia|]. exists [48]. split; [|reflexivity].
        split; [discriminate|]. split; [repeat constructor; unfold is_digit_in; cbn; lia|]. split; [reflexivity|cbn; congruence]. }
      apply (num_shows_unique 0 t [48]); assumption. }
    exact (N_num false [48] [] [] [] [] 0 ltac:(repeat constructor; lia) ltac:(discriminate) (or_introl (conj eq_refl eq_refl)) (or_introl (conj eq_refl eq_refl))). }
  destruct (six_finite d s m e U E) as (B & Q & N).
  destruct S as [v n t W Hn T|v s' m' e' k i f E' He Nz K NI F|v E']; [| |congruence].
  - destruct T as (ds & ND & ->). cbn [repeat app]. destruct ND as (D1 & D2 & D3 & D4).
    assert (A : (0 <= e /\ Z.abs n = Z.pos m * 2 ^ e * 1 \/ e < 0 /\ Z.abs n * 2 ^ (- e) = Z.pos m * 1) /\ (n <? 0) = s).
    { destruct W as [v s' E'|v s' m' e' n E' He ->|v s' m' e' n E' He Q']; [congruence| |]; rewrite E in E'; injection E' as <- <- <-.
      - assert (0 < Z.pos m * 2 ^ e) by (apply Z.mul_pos_pos; [lia|apply Z.pow_pos_nonneg; lia]).
        split; [left; split; [exact He|destruct s; lia]|destruct s; lia].
      - assert (0 < 2 ^ (- e)) by (apply Z.pow_pos_nonneg; lia). assert (0 < n) by nia.
        split; [right; split; [exact He|]; replace (Z.abs _) with n by (destruct s; lia); lia|destruct s; lia]. }
    destruct A as [A As]. rewrite As.
    pose proof (N_num s ds [] [] [] [] 0 (digits_j ds D2) D1 (or_introl (conj eq_refl eq_refl)) (or_introl (conj eq_refl eq_refl))) as R.
    rewrite !app_nil_r in R. rewrite dval_num, D3 in R by assumption. change (0 - zlen []) with 0 in R. unfold scale10 in R. cbn [Z.leb Z.compare] in R.
    rewrite Z.pow_0_r, Z.mul_1_r in R. rewrite (round_ratio_exact _ 1 m e B ltac:(lia) A), <- Q in R. exact R.
  - rewrite E in E'. injection E' as <- <- <-. destruct H as [[H _]|[_ H]]; [lia|].
    assert (P : 0 < 2 ^ (- e)) by (apply Z.pow_pos_nonneg; lia).
    assert (Kq : k * 2 ^ (- e) = Z.pos m * 1000000).
    { destruct K as [K _]. pose proof (Z.div_mod (Z.pos m * 1000000) (2 ^ (- e)) ltac:(lia)) as D. rewrite H in D.
      set (q := Z.pos m * 1000000 / 2 ^ (- e)) in *. clearbody q. set (x := 2 ^ (- e)) in *. clearbody x. set (y := Z.pos m * 1000000) in *. clearbody y. clear - D P K.
      assert (k = q); [|subst; lia]. subst y. replace (k * x - (x * q + 0)) with ((k - q) * x) in K by lia.
      rewrite Z.abs_mul, (Z.abs_eq x) in K by lia. nia. }
    destruct NI as (I1 & I2 & I3 & I4). destruct F as (F1 & F2 & F3).
    assert (Z6 : zlen f = 6) by (unfold zlen; lia).
    assert (Fn : f <> []) by (intros ->; discriminate F1).
    pose proof (N_num s i f (46 :: f) [] [] 0 (digits_j i I2) I1 (or_intror (conj eq_refl (conj (digits_j f F2) Fn))) (or_introl (conj eq_refl eq_refl))) as R.
    rewrite !app_nil_r in R. rewrite dval_num in R by (apply Forall_app; auto). rewrite num_value_app2, I3, F3, Z6 in R.
    change (0 - 6) with (-6) in R. unfold scale10 in R. cbn [Z.leb Z.compare Z.opp] in R. change (10 ^ 6) with 1000000 in R.
    replace (k / 1000000 * 1000000 + k mod 1000000) with k in R by (pose proof (Z.div_mod k 1000000 ltac:(lia)); lia).
    rewrite (round_ratio_exact k 1000000 m e B ltac:(lia) (or_intror (conj He Kq))), <- Q in R. exact R.
Qed.

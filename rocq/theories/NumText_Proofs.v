(** The text of a number is the one specified. *)
From Verif Require Import Base BaseFacts Value_Model Value_Spec Value_Proofs Float_Proofs SUtil_Model SUtil_Spec SUtil_Proofs Conv_Model NumText_Spec.
Ltac Zify.zify_post_hook ::= Z.div_mod_to_equations.

Lemma dec_text_num i : 0 <= i < 2 ^ 64 -> exists d, dec_text i = OK d /\ numeral 10 i d.
Proof.
  intros H. unfold dec_text. destruct (itoa_digits_spec 10 ltac:(lia) 64%nat i) as (ds & -> & N & L); [|lia|].
  - split; [lia|]. eapply Z.lt_le_trans; [apply H|]. vm_compute. discriminate.
  - cbn [bind]. exists (rev ds). auto.
Qed.
Lemma signed_text_num n : - 2 ^ 63 <= n < 2 ^ 63 -> exists t, signed_text n = OK t /\ int_text 10 n false 0 t.
Proof.
  intros H. unfold signed_text. destruct (dec_text_num (Z.abs n) ltac:(lia)) as (d & -> & N). cbn [bind].
  eexists. split; [reflexivity|]. exists d. split; [exact N|]. destruct (n <? 0); reflexivity.
Qed.
Lemma int_text_unique n a b : int_text 10 n false 0 a -> int_text 10 n false 0 b -> a = b.
Proof.
  intros (d & N1 & ->) (e & N2 & ->). rewrite (numeral_unique 10 _ d e ltac:(lia) N1 N2). reflexivity.
Qed.

Lemma whole_trunc v n : whole v n -> d_trunc v = Some n.
Proof.
  intros W. destruct W as [v s E|v s m e n E He ->|v s m e n E He Q]; unfold d_trunc; rewrite E; [reflexivity| |].
  - replace (0 <=? e) with true by lia. reflexivity.
  - replace (0 <=? e) with false by lia. rewrite <- Q, Z.div_mul by (apply Z.pow_nonzero; lia). reflexivity.
Qed.
Lemma whole_unique v n n' : whole v n -> whole v n' -> n = n'.
Proof. intros A B. apply whole_trunc in A, B. congruence. Qed.
Lemma finite_whole v s m e : d_dec v = S754_finite s m e ->
  (0 <= e \/ Z.pos m mod 2 ^ (- e) = 0) -> exists n, whole v n.
Proof.
  intros E [H|H]; [eexists; eapply W_up; eauto|]. destruct (Z_le_dec 0 e); [eexists; eapply W_up; eauto|].
  eexists. eapply (W_down v s m e (Z.pos m / 2 ^ (- e))); [exact E|lia|].
  pose proof (Z.div_mod (Z.pos m) (2 ^ (- e)) ltac:(apply Z.pow_nonzero; lia)) as D. rewrite H in D. lia.
Qed.

Lemma rhe_nearest num den : 0 < den -> 0 <= num -> nearest (round_half_even num den) num den /\ 0 <= round_half_even num den <= num / den + 1.
Proof.
  intros Hd Hn. unfold round_half_even, nearest. pose proof (Z.div_mod num den ltac:(lia)) as D. pose proof (Z.mod_pos_bound num den Hd) as B.
  assert (Q0 : 0 <= num / den) by (apply Z.div_pos; lia).
  set (q := num / den) in *. set (r := num mod den) in *. clearbody q r. cbv zeta.
  destruct (2 * r <? den) eqn:E1; [|destruct (2 * r >? den) eqn:E2; [|destruct (Z.even q) eqn:E3]].
  - replace (q * den - num) with (- r) by nia. split; [|lia]. split; [lia|]. intros; lia.
  - replace ((q + 1) * den - num) with (den - r) by nia. split; [|lia]. split; [lia|]. intros; lia.
  - replace (q * den - num) with (- r) by nia. split; [|lia]. split; [lia|]. intros; assumption.
  - replace ((q + 1) * den - num) with (den - r) by nia. split; [|lia]. split; [lia|]. intros _.
    rewrite Z.even_add, E3. reflexivity.
Qed.
Lemma nearest_unique k k' num den : 0 < den -> nearest k num den -> nearest k' num den -> k = k'.
Proof.
  intros Hd [A1 A2] [B1 B2]. destruct (Z.eq_dec k k') as [|N]; [assumption|exfalso].
  assert (K : k' = k + 1 \/ k = k' + 1).
  { assert (Z.abs (k' - k) * den <= den) by (rewrite <- (Z.abs_eq den) at 1 by lia; rewrite <- Z.abs_mul; lia). nia. }
  assert (E1 : 2 * Z.abs (k * den - num) = den) by lia. assert (E2 : 2 * Z.abs (k' * den - num) = den) by lia.
  specialize (A2 E1). specialize (B2 E2). destruct K as [-> | ->]; rewrite Z.even_add, ?A2, ?B2 in *; discriminate.
Qed.

Lemma num_value_zeros n t : num_value 10 0 (repeat 48 n ++ t) = num_value 10 0 t.
Proof. induction n as [|n IH]; [reflexivity|]. cbn [repeat app num_value]. exact IH. Qed.
Lemma num_value_lower t : Forall (is_digit_in 10) t -> forall acc, 0 <= acc -> acc * 10 ^ zlen t <= num_value 10 acc t.
Proof.
  induction 1 as [|c t Hc _ IH]; intros acc Ha; [cbn; lia|]. cbn [num_value].
  assert (D : 0 <= digit_of c) by (unfold is_digit_in in Hc; lia).
  transitivity ((acc * 10 + digit_of c) * 10 ^ zlen t); [|apply IH; lia].
  unfold zlen. cbn [length]. rewrite Nat2Z.inj_succ, Z.pow_succ_r by lia. nia.
Qed.
Lemma numeral_len n t k : numeral 10 n t -> 0 <= k -> n < 10 ^ k -> 0 < k -> zlen t <= k.
Proof.
  intros (N0 & N1 & N2 & N3) Hk Hn K0. destruct t as [|c t]; [congruence|].
  inversion N1 as [|? ? Hc Ht]; subst. destruct (Z.eq_dec (digit_of c) 0) as [Z0|Z0].
  - assert (c = 48) by (unfold is_digit_in, digit_of in *; destruct (c <? 58) eqn:E; lia). subst c.
    cbn [hd] in N3. specialize (N3 eq_refl). injection N3 as ->. unfold zlen. cbn. lia.
  - cbn [num_value] in Hn. pose proof (num_value_lower t Ht (0 * 10 + digit_of c) ltac:(unfold is_digit_in in Hc; lia)) as L.
    assert (P : 10 ^ zlen t < 10 ^ k).
    { eapply Z.le_lt_trans; [|exact Hn]. etransitivity; [|exact L]. assert (1 <= digit_of c) by (unfold is_digit_in in Hc; lia).
      pose proof (Z.pow_pos_nonneg 10 (zlen t) ltac:(lia) (zlen_nonneg t)). nia. }
    apply Z.pow_lt_mono_r_iff in P; [|lia|lia]. unfold zlen in *. cbn [length]. lia.
Qed.
Lemma pad6_six k d : 0 <= k < 1000000 -> numeral 10 k d -> six k (pad6 d).
Proof.
  intros Hk N. pose proof (numeral_len k d 6 N ltac:(lia) ltac:(change (10 ^ 6) with 1000000; lia) ltac:(lia)) as L.
  destruct N as (N0 & N1 & N2 & N3). unfold six, pad6. split; [|split].
  - rewrite app_length, repeat_length. unfold zlen in L. lia.
  - apply Forall_app. split; [|assumption]. apply Forall_forall. intros x Hx. apply repeat_spec in Hx. subst x. unfold is_digit_in, digit_of. cbn. lia.
  - rewrite num_value_zeros. assumption.
Qed.
Lemma num_value_inj a : forall b acc acc', length a = length b -> Forall (is_digit_in 10) a -> Forall (is_digit_in 10) b ->
  num_value 10 acc a = num_value 10 acc' b -> acc = acc' /\ a = b.
Proof.
  induction a as [|c a IH]; intros [|d b] acc acc' L A B E; try discriminate; [cbn in E; auto|].
  inversion A as [|? ? Hc Ha]; inversion B as [|? ? Hd Hb]; subst. cbn [num_value] in E.
  destruct (IH b _ _ ltac:(cbn in L; lia) Ha Hb E) as [Q ->].
  assert (digit_of c = digit_of d /\ acc = acc') as [D ->] by (unfold is_digit_in in *; lia).
  split; [reflexivity|]. f_equal. unfold is_digit_in, digit_of in *. destruct (c <? 58) eqn:?, (d <? 58) eqn:?; lia.
Qed.
Lemma six_unique k a b : six k a -> six k b -> a = b.
Proof.
  intros (A1 & A2 & A3) (B1 & B2 & B3). apply (num_value_inj a b 0 0); congruence.
Qed.

Lemma finite_facts v s m e : is_u64 v -> d_dec v = S754_finite s m e -> Z.pos m < 2 ^ 53.
Proof.
  intros U E. pose proof (dec_valid v U) as V. rewrite E in V. cbn [valid_binary] in V. apply bounded_facts in V.
  destruct (Zdigits2_bounds (Z.pos m) ltac:(lia)) as [_ [_ B]]. cbn [Zdigits2] in B.
  eapply Z.lt_le_trans; [exact B|]. apply Z.pow_le_mono_r; lia.
Qed.

(** The printed text is the specified one... *)
Lemma num_text_shows v t : is_u64 v -> num_shows v t -> num_text v = OK t.
Proof.
  intros U S. destruct S as [v n t W R T|v s m e k i f E He Hm Hk Hi Hf|v E].
  - unfold num_text. pose proof (whole_trunc _ _ W) as Tr.
    assert (D : d_to_range (- 2 ^ 63) (2 ^ 63 - 1) v = OK n).
    { unfold d_to_range. rewrite Tr. replace (- 2 ^ 63 <=? n) with true by lia. replace (n <=? 2 ^ 63 - 1) with true by lia. reflexivity. }
    destruct (signed_text_num n R) as (t' & Et & T'). rewrite (int_text_unique n t t' T T').
    destruct W as [v s E|v s m e n E He ->|v s m e n E He Q]; rewrite E.
    + unfold signed_text in Et. vm_compute in Et. congruence.
    + replace (0 <=? e) with true by lia. cbn [orb]. rewrite D. exact Et.
    + rewrite <- Q, Z.mod_mul by (apply Z.pow_nonzero; lia). rewrite orb_true_r. rewrite D. exact Et.
  - unfold num_text. rewrite E. replace (0 <=? e) with false by lia. replace (Z.pos m mod 2 ^ (- e) =? 0) with false by lia. cbn [orb].
    unfold fixed6_text. replace (0 <=? e) with false by lia. pose proof (finite_facts v s m e U E) as M53.
    assert (P : 0 < 2 ^ (- e)) by (apply Z.pow_pos_nonneg; lia).
    destruct (rhe_nearest (Z.pos m * 1000000) (2 ^ (- e)) P ltac:(lia)) as [N B].
    rewrite (nearest_unique _ _ _ _ P N Hk) in *. cbv zeta.
    assert (KB : 0 <= k / 1000000 < 2 ^ 64).
    { assert (KL : Z.pos m * 1000000 / 2 ^ (- e) <= Z.pos m * 1000000) by (apply Z.div_le_upper_bound; nia).
      generalize dependent (Z.pos m * 1000000 / 2 ^ (- e)). intros x B KL. clear - B KL M53. lia. }
    destruct (dec_text_num _ KB) as (i' & -> & Hi'). rewrite (numeral_unique 10 _ i i' ltac:(lia) Hi Hi').
    destruct (dec_text_num (k mod 1000000) ltac:(clear; lia)) as (f' & -> & Hf'). cbn [bind].
    rewrite (six_unique _ f (pad6 f') Hf (pad6_six (k mod 1000000) f' ltac:(clear; lia) Hf')). reflexivity.
  - unfold num_text. rewrite E. reflexivity.
Qed.
(** ...every printable number has one... *)
Lemma num_shows_total v : is_u64 v -> printable v -> exists t, num_shows v t.
Proof.
  intros U [P1 P2]. destruct (d_dec v) as [s|s| |s m e] eqn:E.
  - destruct (signed_text_num 0 ltac:(lia)) as (t & _ & T). exists t. eapply NS_whole; [eapply W_zero; exact E|lia|exact T].
  - destruct (P1 s eq_refl).
  - eexists. apply NS_nan. exact E.
  - destruct (Z_le_dec 0 e) as [He|He]; [|destruct (Z.eq_dec (Z.pos m mod 2 ^ (- e)) 0) as [Hm|Hm]].
    + destruct (finite_whole v s m e E (or_introl He)) as (n & W). specialize (P2 n W). destruct (signed_text_num n P2) as (t & _ & T). eauto using NS_whole.
    + destruct (finite_whole v s m e E (or_intror Hm)) as (n & W). specialize (P2 n W). destruct (signed_text_num n P2) as (t & _ & T). eauto using NS_whole.
    + pose proof (finite_facts v s m e U E) as M53. assert (P : 0 < 2 ^ (- e)) by (apply Z.pow_pos_nonneg; lia).
      destruct (rhe_nearest (Z.pos m * 1000000) (2 ^ (- e)) P ltac:(lia)) as [N B]. set (k := round_half_even _ _) in *. clearbody k.
      assert (KB : 0 <= k / 1000000 < 2 ^ 64).
      { assert (KL : Z.pos m * 1000000 / 2 ^ (- e) <= Z.pos m * 1000000) by (apply Z.div_le_upper_bound; nia).
      generalize dependent (Z.pos m * 1000000 / 2 ^ (- e)). intros x B KL. clear - B KL M53. lia. }
      destruct (dec_text_num _ KB) as (i & _ & Hi). destruct (dec_text_num (k mod 1000000) ltac:(clear; lia)) as (f & _ & Hf).
      eexists. eapply NS_frac; [exact E|lia|exact Hm|exact N|exact Hi|apply pad6_six; [clear; lia|exact Hf]].
Qed.
Lemma num_shows_unique v t t' : is_u64 v -> num_shows v t -> num_shows v t' -> t = t'.
Proof. intros U A B. apply (num_text_shows v t U) in A. apply (num_text_shows v t' U) in B. congruence. Qed.
(** ...and any other number has no defined text. *)
Lemma num_text_ub v : is_u64 v -> ~ printable v -> num_text v = UB.
Proof.
  intros U NP. unfold num_text. destruct (d_dec v) as [s|s| |s m e] eqn:E; [| reflexivity| |].
  - destruct NP. split; [intros; congruence|]. intros n W. assert (W0 : whole v 0) by (eapply W_zero; exact E).
    rewrite (whole_unique _ _ _ W W0). lia.
  - destruct NP. split; [intros; congruence|]. intros n W. destruct W; congruence.
  - destruct ((0 <=? e) || (Z.pos m mod 2 ^ (- e) =? 0)) eqn:Q.
    + destruct (finite_whole v s m e E) as (n & W); [lia|]. pose proof (whole_trunc v n W) as Tr.
      unfold d_to_range. rewrite Tr. destruct ((- 2 ^ 63 <=? n) && (n <=? 2 ^ 63 - 1)) eqn:B; [|reflexivity].
      destruct NP. split; [intros; congruence|]. intros n' W'. rewrite (whole_unique _ _ _ W' W). lia.
    + destruct NP. split; [intros; congruence|]. intros n W. exfalso.
      destruct W as [v s0 E0|v s0 m0 e0 n E0 He ->|v s0 m0 e0 n E0 He W]; rewrite E0 in E; try discriminate; injection E as -> -> ->; [lia|].
      rewrite <- W, Z.mod_mul in Q by (apply Z.pow_nonzero; lia). lia.
Qed.
Lemma six_len k f : six k f -> zlen f = 6. Proof. intros (L & _). unfold zlen. lia. Qed.
Lemma num_shows_len v t : is_u64 v -> num_shows v t -> 0 < zlen t <= 40 /\ Forall (fun c => c <> 0) t /\ bytes_ok t.
Proof.
  assert (DG : forall l, Forall (is_digit_in 10) l -> Forall (fun c => c <> 0) l /\ bytes_ok l).
  { intros l F. split; (eapply Forall_impl; [|exact F]); unfold is_digit_in, is_byte; intros; lia. }
  intros U S. destruct S as [v n t W R T|v s m e k i f E He Hm Hk Hi Hf|v E].
  - destruct T as (d & N & ->). pose proof (numeral_len _ d 20 N ltac:(lia) ltac:(eapply Z.le_lt_trans with (2 ^ 63); [lia|reflexivity]) ltac:(lia)) as L.
    destruct (DG d) as [D1 D2]; [apply N|]. assert (0 < zlen d) by (destruct N as (N0 & _); destruct d; [congruence|unfold zlen; cbn; lia]).
    cbv iota. cbn [repeat app]. destruct (n <? 0); cbn [app].
    + split; [change (45 :: d) with ([45] ++ d); rewrite zlen_app; change (zlen [45]) with 1; lia|]. split; constructor; auto; unfold is_byte; lia.
    + split; [lia|auto].
  - pose proof (finite_facts v s m e U E) as M53. assert (P : 0 < 2 ^ (- e)) by (apply Z.pow_pos_nonneg; lia).
    destruct (rhe_nearest (Z.pos m * 1000000) (2 ^ (- e)) P ltac:(lia)) as [N B]. rewrite (nearest_unique _ _ _ _ P N Hk) in *.
    assert (KB : 0 <= k / 1000000 < 2 ^ 64).
    { assert (KL : Z.pos m * 1000000 / 2 ^ (- e) <= Z.pos m * 1000000) by (apply Z.div_le_upper_bound; nia).
      generalize dependent (Z.pos m * 1000000 / 2 ^ (- e)). intros x B KL. clear - B KL M53. lia. }
    pose proof (numeral_len _ i 20 Hi ltac:(lia) ltac:(eapply Z.lt_le_trans with (2 ^ 64); [lia|vm_compute; discriminate]) ltac:(lia)) as L.
    pose proof (six_len _ _ Hf) as L6. destruct (DG i) as [D1 D2]; [apply Hi|]. destruct (DG f) as [D3 D4]; [apply Hf|].
    change (46 :: f) with ([46] ++ f). rewrite !zlen_app; change (zlen [46]) with 1; rewrite L6. pose proof (zlen_nonneg i).
    assert (SG : zlen (if s then [45] else []) <= 1) by (destruct s; vm_compute; discriminate).
    pose proof (zlen_nonneg (if s then [45] else [])). split; [lia|].
    split; (apply Forall_app; split; [destruct s; repeat constructor; unfold is_byte; lia|]; apply Forall_app; split; [assumption|]; constructor; [unfold is_byte; lia|assumption]).
  - split; [unfold zlen; cbn; lia|]. split; repeat constructor; unfold is_byte; lia.
Qed.

(** There is one nearest double. *)
From Verif Require Import Base BaseFacts Value_Model Value_Spec Value_Proofs Float_Proofs NumRound_Spec NumRound_Proofs NumRound_Proofs2.
Ltac Zify.zify_post_hook ::= Z.div_mod_to_equations.

Definition units (p : Z) : Z := if d_exp p =? 0 then d_man p else (d_man p + 2 ^ 52) * 2 ^ (d_exp p - 1).
Lemma units_dvalue p : 0 <= p < 2047 * 2 ^ 52 -> dvalue p (units p).
Proof.
  intros H. assert (E : 0 <= d_exp p < 2047) by (unfold d_exp; lia). assert (M : 0 <= d_man p < 2 ^ 52) by (unfold d_man; lia).
  assert (S : d_sign p = false) by (unfold d_sign; lia).
  unfold dvalue, d_dec, units. cbv zeta. rewrite S. replace (d_exp p =? 2047) with false by lia. destruct (d_exp p =? 0).
  - destruct (d_man p) as [|m|m]; [reflexivity| |lia]. change (-1074 + 1074) with 0. rewrite Z.pow_0_r. lia.
  - destruct (d_man p + 2 ^ 52) as [|m|m] eqn:Q; try lia. f_equal. f_equal. lia.
Qed.
Lemma dvalue_units p v : is_u64 p -> p < 2 ^ 63 -> dvalue p v -> 0 <= p < 2047 * 2 ^ 52 /\ v = units p.
Proof.
  intros U L V. unfold is_u64 in U. assert (R : 0 <= p < 2047 * 2 ^ 52).
  { destruct (Z.lt_ge_cases p (2047 * 2 ^ 52)); [lia|]. exfalso. unfold dvalue, d_dec in V. cbv zeta in V.
    assert (E : d_exp p = 2047) by (unfold d_exp; lia). rewrite E in V. cbn [Z.eqb Pos.eqb] in V. destruct (d_man p =? 0); exact V. }
  split; [exact R|]. pose proof (units_dvalue p R) as W. unfold dvalue in V, W. destruct (d_dec p); try contradiction; congruence.
Qed.
Lemma units_step p : 0 <= p -> p + 1 < 2047 * 2 ^ 52 -> units p < units (p + 1).
Proof.
  intros H1 H2. unfold units. assert (M : 0 <= d_man p < 2 ^ 52) by (unfold d_man; lia). assert (E : 0 <= d_exp p < 2047) by (unfold d_exp; lia).
  destruct (Z.eq_dec (d_man p) (2 ^ 52 - 1)) as [Q|Q].
  - assert (M' : d_man (p + 1) = 0) by (unfold d_man in *; lia). assert (E' : d_exp (p + 1) = d_exp p + 1) by (unfold d_exp, d_man in *; lia).
    rewrite M', E', Q. replace (d_exp p + 1 =? 0) with false by lia. replace (d_exp p + 1 - 1) with (d_exp p) by lia. destruct (d_exp p =? 0) eqn:Z0.
    + replace (d_exp p) with 0 by lia. lia.
    + replace (2 ^ d_exp p) with (2 ^ (1 + (d_exp p - 1))) by (f_equal; lia). rewrite Z.pow_add_r by lia.
      assert (0 < 2 ^ (d_exp p - 1)) by (apply Z.pow_pos_nonneg; lia). lia.
  - assert (M' : d_man (p + 1) = d_man p + 1) by (unfold d_man in *; lia). assert (E' : d_exp (p + 1) = d_exp p) by (unfold d_exp, d_man in *; lia).
    rewrite M', E'. destruct (d_exp p =? 0) eqn:Z0; [lia|]. assert (0 < 2 ^ (d_exp p - 1)) by (apply Z.pow_pos_nonneg; lia). nia.
Qed.
Lemma units_mono n : 0 <= n -> forall p, 0 <= p -> p + 1 + n < 2047 * 2 ^ 52 -> units p < units (p + 1 + n).
Proof.
  apply (natlike_ind (fun n => forall p, 0 <= p -> p + 1 + n < 2047 * 2 ^ 52 -> units p < units (p + 1 + n))).
  - intros p H1 H2. rewrite Z.add_0_r. apply units_step; lia.
  - intros k Hk IH p H1 H2. replace (p + 1 + Z.succ k) with (p + 1 + k + 1) by lia. apply Z.lt_trans with (units (p + 1 + k)); [apply IH; lia|apply units_step; lia].
Qed.
Lemma units_lt p q : 0 <= p -> p < q < 2047 * 2 ^ 52 -> units p < units q.
Proof. intros H1 H2. replace q with (p + 1 + (q - p - 1)) by lia. apply units_mono; lia. Qed.

Lemma nearest_unique_pos A B p q : 0 < B -> 0 < A -> nearest_double A B p -> nearest_double A B q -> p = q.
Proof.
  intros HB HA (Up & Lp & _ & Hp) (Uq & Lq & _ & Hq). specialize (Lp HA). specialize (Lq HA). destruct (too_large * B <=? Z.abs A).
  - assert (Inf : forall z, is_u64 z -> z < 2 ^ 63 -> d_dec z = S754_infinity (A <? 0) -> z = 2047 * 2 ^ 52).
    { intros z U L. unfold d_dec, is_u64 in *. cbv zeta. assert (d_exp z <= 2047) by (unfold d_exp; lia). destruct (d_exp z =? 2047) eqn:E.
      - destruct (d_man z =? 0) eqn:M; [|discriminate]. intros _. unfold d_exp, d_man in *. lia.
      - destruct (d_exp z =? 0); [destruct (d_man z); discriminate|destruct (d_man z + 2 ^ 52); discriminate]. }
    rewrite (Inf p Up Lp Hp), (Inf q Uq Lq Hq). reflexivity.
  - destruct Hp as (v & Vp & Hp), Hq as (w & Vq & Hq).
    destruct (dvalue_units p v Up Lp Vp) as [Rp Ev]. destruct (dvalue_units q w Uq Lq Vq) as [Rq Ew].
    destruct (Hp q w Uq Vq) as [P1 P2]. destruct (Hq p v Up Vp) as [Q1 Q2].
    assert (Key : forall a b x y, 0 <= a -> a < b < 2047 * 2 ^ 52 -> x = units a -> y = units b -> Z.even a = true -> Z.even b = true ->
      Z.abs (x * B - A) = Z.abs (y * B - A) ->
      (forall q w, is_u64 q -> dvalue q w -> Z.abs (x * B - A) <= Z.abs (w * B - A)) -> False).
    { intros a b x y Ha Hb -> -> Ea Eb D Min. assert (L : a + 1 < b) by (destruct (Z.eq_dec b (a + 1)) as [->|]; [rewrite Z.even_add, Ea in Eb; discriminate Eb|lia]).
      pose proof (units_lt a (a + 1) Ha ltac:(lia)) as M1. pose proof (units_lt (a + 1) b ltac:(lia) ltac:(lia)) as M2.
      specialize (Min (a + 1) (units (a + 1)) ltac:(unfold is_u64; lia) (units_dvalue (a + 1) ltac:(lia))).
      set (x := units a) in *. set (y := units b) in *. set (z := units (a + 1)) in *. clearbody x y z.
      assert (x * B < z * B) by (apply Z.mul_lt_mono_pos_r; lia). assert (z * B < y * B) by (apply Z.mul_lt_mono_pos_r; lia). lia. }
    assert (Dq : Z.abs (v * B - A) = Z.abs (w * B - A)) by lia.
    destruct (Z.lt_trichotomy p q) as [L|[E|L]]; [exfalso|exact E|exfalso].
    + pose proof (units_lt p q ltac:(lia) ltac:(lia)) as Lt.
      apply (Key p q v w); try lia; [apply P2; [exact Dq|lia]|apply Q2; [symmetry; exact Dq|lia]|]. intros z u Uz Vz. apply (Hp z u Uz Vz).
    + pose proof (units_lt q p ltac:(lia) ltac:(lia)) as Lt.
      apply (Key q p w v); try lia; [apply Q2; [symmetry; exact Dq|lia]|apply P2; [exact Dq|lia]|]. intros z u Uz Vz. apply (Hq z u Uz Vz).
Qed.
Lemma nearest_opp_neg A B p : A < 0 -> nearest_double A B p -> nearest_double (- A) B (p - 2 ^ 63).
Proof.
  intros HA (U & _ & L & H). specialize (L HA). unfold is_u64 in U. pose proof (dec_flip (p - 2 ^ 63) ltac:(lia)) as F.
  replace (p - 2 ^ 63 + 2 ^ 63) with p in F by lia.
  assert (F' : d_dec (p - 2 ^ 63) = SFopp (d_dec p)) by (rewrite F; destruct (d_dec (p - 2 ^ 63)); cbn [SFopp]; rewrite ?negb_involutive; reflexivity).
  unfold nearest_double. split; [unfold is_u64; lia|]. split; [lia|]. split; [lia|]. rewrite Z.abs_opp.
  destruct (too_large * B <=? Z.abs A).
  - rewrite F', H. replace (A <? 0) with true by lia. replace (- A <? 0) with false by lia. reflexivity.
  - destruct H as (v & V & H). exists (- v). split; [apply (value_opp p); assumption|].
    intros q w Uq Vw. destruct (value_flip w q Uq Vw) as (q' & Uq' & Vq'). destruct (H q' (- w) Uq' Vq') as [H1 H2].
    replace (- v * B - - A) with (- (v * B - A)) by lia. replace (w * B - - A) with (- (- w * B - A)) by lia. rewrite !Z.abs_opp.
    split; [exact H1|]. intros Q N. rewrite Z.even_sub, (H2 Q ltac:(lia)). reflexivity.
Qed.
Lemma nearest_one A B p q : 0 < B -> A <> 0 -> nearest_double A B p -> nearest_double A B q -> p = q.
Proof.
  intros HB HA Hp Hq. destruct (Z.lt_ge_cases A 0).
  - pose proof (nearest_unique_pos (- A) B _ _ HB ltac:(lia) (nearest_opp_neg A B p ltac:(lia) Hp) (nearest_opp_neg A B q ltac:(lia) Hq)). lia.
  - apply (nearest_unique_pos A B); assumption || lia.
Qed.

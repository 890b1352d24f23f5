(** Numbers are correctly rounded (properties C77, C78) and isNaN (C79). *)
From Verif Require Import Base BaseFacts Txt_Model Value_Model Value_Spec Value_Proofs Float_Proofs Num_Model Str_Model Str_Spec Ops_Spec Ops_Model Ops_Proofs Ops_Proofs2 TokNum_Model.
From Verif Require Import Expr_Spec Expr_Proofs Lit_Proofs Json_Spec NumText_Spec Built_Model NumRound_Spec NumRound_Proofs NumRound_Proofs2 NumRound_Proofs3.
Ltac Zify.zify_post_hook ::= idtac.

Lemma scale10_nearest m e : 0 <= m -> nearest_double (m * 10 ^ Z.max 0 e * 2 ^ 1074) (10 ^ Z.max 0 (- e)) (scale10 m e).
Proof.
  intros Hm. destruct (Z.eq_dec m 0) as [->|Nz].
  { rewrite !Z.mul_0_l. assert (scale10 0 e = 0) as -> by (unfold scale10; destruct (0 <=? e); reflexivity).
    apply nearest_zero; [apply Z.pow_pos_nonneg; lia|left; reflexivity|unfold is_u64; lia]. }
  unfold scale10. destruct (0 <=? e) eqn:E.
  - replace (Z.max 0 e) with e by lia. replace (Z.max 0 (- e)) with 0 by lia. apply ratio_nearest; [|lia].
    apply Z.mul_pos_pos; [lia|apply Z.pow_pos_nonneg; lia].
  - replace (Z.max 0 e) with 0 by lia. replace (Z.max 0 (- e)) with (- e) by lia. rewrite Z.pow_0_r, Z.mul_1_r. apply ratio_nearest; [lia|].
    apply Z.pow_pos_nonneg; lia.
Qed.

(** C77: a number literal means the double nearest to what it denotes. *)
Theorem literals_are_nearest : forall txt p, literal txt p ->
  exists num den, text_denotes txt num den /\ 0 < den /\ nearest_double (num * 2 ^ 1074) den p.
Proof.
  intros txt p [ip fo fr eo e D F X|hs N F B].
  - eexists. eexists. split; [apply (den_dec ip fo fr eo e); assumption|]. split; [apply Z.pow_pos_nonneg; lia|].
    replace (zlen fr - e) with (- (e - zlen fr)) by lia. apply scale10_nearest. apply digits_val_nonneg. destruct D as [_ D].
    apply Forall_app. split; [exact D|]. destruct F as [[_ ->]|[_ F]]; [constructor|exact F].
  - exists (hexs_val hs), 1. split; [apply den_hex; assumption|]. split; [lia|]. unfold of_int.
    apply normalize_nearest; [lia|]. reflexivity.
Qed.
Print Assumptions literals_are_nearest.

Lemma dval_digits l : forall a, dval a l = fold_left (fun a c => a * 10 + (c - 48)) l a.
Proof. induction l as [|c l IH]; intros a; [reflexivity|]. cbn [dval fold_left]. apply IH. Qed.

(** A number in a JSON text means the double nearest to what it denotes. *)
Theorem json_numbers_are_nearest : forall d x, number d x ->
  exists (neg : bool) t num den, x = (if neg then [45] else []) ++ t /\ text_denotes t num den /\ 0 < den /\
    nearest_double ((if neg then - num else num) * 2 ^ 1074) den d.
Proof.
  intros d x [neg ip fr fo ep eo e D N F X].
  assert (Dr : digits (ip ++ fr)). { apply Forall_app. split; [exact D|]. destruct F as [[_ ->]|(_ & F & _)]; [constructor|exact F]. }
  assert (V : dval 0 (ip ++ fr) = digits_val (ip ++ fr)) by apply dval_digits.
  pose proof (digits_val_nonneg _ Dr) as P. pose proof (scale10_nearest (digits_val (ip ++ fr)) (e - zlen fr) P) as H.
  exists neg, (ip ++ fo ++ eo). eexists. eexists. split; [reflexivity|]. split; [apply (den_dec ip fo fr eo e)|].
  - split; assumption.
  - destruct F as [F|(F1 & F2 & _)]; auto.
  - destruct X as [X|(ec & sg & C & E1 & E2 & E3 & ->)]; [left; exact X|]. right. exists ec, sg, ep. split; [exact C|]. split; [split; assumption|]. split; [reflexivity|].
    change (digits_val ep) with (fold_left (fun a c => a * 10 + (c - 48)) ep 0). rewrite <- dval_digits. exact E3.
  - split; [apply Z.pow_pos_nonneg; lia|]. rewrite V. replace (zlen fr - e) with (- (e - zlen fr)) by lia.
    set (A := digits_val (ip ++ fr) * 10 ^ Z.max 0 (e - zlen fr)) in *. destruct neg; [|rewrite Z.add_0_r; exact H].
    assert (P10 : 0 < 10 ^ Z.max 0 (e - zlen fr)) by (apply Z.pow_pos_nonneg; lia).
    assert (PB : 0 < 10 ^ Z.max 0 (- (e - zlen fr))) by (apply Z.pow_pos_nonneg; lia).
    destruct (Z.eq_dec (digits_val (ip ++ fr)) 0) as [Z0|Z0].
    + assert (A = 0) as -> by (unfold A; rewrite Z0; lia). rewrite Z0. cbn [Z.opp].
      assert (scale10 0 (e - zlen fr) = 0) as -> by (unfold scale10; destruct (0 <=? e - zlen fr); reflexivity).
      apply nearest_zero; [exact PB|right; reflexivity|unfold is_u64; lia].
    + replace (- A * 2 ^ 1074) with (- (A * 2 ^ 1074)) by ring. apply nearest_opp; [|exact H].
      assert (0 < A) by (unfold A; nia). assert (0 < 2 ^ 1074) by (apply Z.pow_pos_nonneg; lia). nia.
Qed.
Print Assumptions json_numbers_are_nearest.

(** C78: the arithmetic of a script on finite numbers gives the double nearest to the exact
    result, and comparisons compare the exact values. *)
Lemma finite_number v x : is_u64 v -> dvalue v x -> is_number v = true /\ is_foreign v = false /\ d_isnan v = false.
Proof.
  intros U V. assert (N : d_isnan v = false).
  { destruct (d_isnan v) eqn:E; [|reflexivity]. exfalso. unfold dvalue in V. revert V. unfold d_isnan in E. unfold d_dec. cbv zeta.
    destruct (d_exp v =? 2047); [|discriminate E]. destruct (d_man v =? 0); [discriminate E|]. auto. }
  assert (K : is_number v = true) by (unfold is_number, get_double; rewrite N; apply orb_true_r).
  split; [exact K|]. split; [|exact N]. destruct (kinds v U) as (Q1 & _ & Q3 & _). rewrite Q3. rewrite K in Q1. destruct (kind_of v); try discriminate Q1; reflexivity.
Qed.
Theorem arithmetic_is_nearest : forall st ext a b x y, is_u64 a -> is_u64 b -> dvalue a x -> dvalue b y ->
  (exists v, do_op st ext a b TOK_PLUS = OK (st, v, E_OK) /\ nearest_double (x + y) 1 v) /\
  (exists v, do_op st ext a b TOK_MINUS = OK (st, v, E_OK) /\ nearest_double (x - y) 1 v) /\
  (exists v, do_op st ext a b TOK_MUL = OK (st, v, E_OK) /\ nearest_double (x * y) (2 ^ 1074) v) /\
  (y <> 0 -> exists v, do_op st ext a b TOK_DIV = OK (st, v, E_OK) /\
    nearest_double (x * Z.sgn y * 2 ^ 1074) (Z.abs y) v).
Proof.
  intros st ext a b x y Ua Ub Va Vb. destruct (finite_number a x Ua Va) as (A1 & A2 & A3). destruct (finite_number b y Ub Vb) as (B1 & B2 & B3).
  assert (Mk : forall f, valid_binary 53 1024 f = true -> mk_number (d_enc f) = d_enc f) by (intros f V; apply enc_number; exact V).
  pose proof (dec_valid a Ua) as Wa. pose proof (dec_valid b Ub) as Wb.
  assert (Do : forall op d, do_arith_op a b op = OK (Some (d_enc d)) -> valid_binary 53 1024 d = true -> do_op st ext a b op = OK (st, d_enc d, E_OK)).
  { intros op d E V. unfold do_op. rewrite A1, A2, B1, B2. cbn [orb andb xorb]. unfold get_double. rewrite E. cbn [bind]. rewrite Mk by exact V. reflexivity. }
  assert (Dz : y <> 0 -> d_is_zero b = false).
  { intros Hy. unfold d_is_zero. unfold dvalue in Vb. destruct (d_dec b); congruence || reflexivity. }
  repeat split.
  - eexists. split; [apply Do; [|apply (add_valid _ _ Wa Wb)]|]; [unfold do_arith_op; rewrite A3, B3; reflexivity|apply add_nearest; assumption].
  - eexists. split; [apply Do; [|apply (sub_valid _ _ Wa Wb)]|]; [unfold do_arith_op; rewrite A3, B3; reflexivity|apply sub_nearest; assumption].
  - eexists. split; [apply Do; [|apply (mul_valid _ _ Wa Wb)]|]; [unfold do_arith_op; rewrite A3, B3; reflexivity|apply mul_nearest; assumption].
  - intros Hy. eexists. split; [apply Do; [|apply (div_valid _ _ Wa Wb)]|]; [unfold do_arith_op; rewrite A3, B3, (Dz Hy); reflexivity|apply div_nearest; assumption].
Qed.
Print Assumptions arithmetic_is_nearest.

Theorem comparison_is_exact : forall a b x y op, is_u64 a -> is_u64 b -> dvalue a x -> dvalue b y -> In op [TOK_LT; TOK_GT; TOK_LE; TOK_GE] ->
  rel_op a b op = if op =? TOK_LT then x <? y else if op =? TOK_GT then x >? y else if op =? TOK_LE then x <=? y else x >=? y.
Proof.
  intros a b x y op Ua Ub Va Vb Ho. pose proof (dvalue_compare a b x y Ua Ub Va Vb) as C1. pose proof (dvalue_compare b a y x Ub Ua Vb Va) as C2.
  assert (L1 : d_lt a b = (x <? y)) by (unfold d_lt, SFltb; rewrite C1; unfold Z.ltb; destruct (x ?= y); reflexivity).
  assert (L2 : d_lt b a = (x >? y)) by (unfold d_lt, SFltb; rewrite C2, Z.compare_antisym; unfold Z.gtb; destruct (x ?= y); reflexivity).
  assert (L3 : d_le a b = (x <=? y)) by (unfold d_le, SFleb; rewrite C1; unfold Z.leb; destruct (x ?= y); reflexivity).
  assert (L4 : d_le b a = (x >=? y)) by (unfold d_le, SFleb; rewrite C2, Z.compare_antisym; unfold Z.geb; destruct (x ?= y); reflexivity).
  unfold rel_op. rewrite L1, L2, L3, L4. destruct Ho as [<-|[<-|[<-|[<-|[]]]]]; reflexivity.
Qed.
Print Assumptions comparison_is_exact.

Theorem minus_is_exact : forall v x, is_u64 v -> dvalue v x -> is_u64 (un_minus v) /\ dvalue (un_minus v) (- x).
Proof.
  intros v x U V. destruct (finite_number v x U V) as (_ & _ & N). unfold un_minus, get_double, d_neg.
  assert (K : exists q, (if d_sign v then v - 2 ^ 63 else v + 2 ^ 63) = q /\ is_u64 q /\ d_dec q = SFopp (d_dec v)).
  { eexists. split; [reflexivity|]. unfold is_u64 in *. unfold d_sign. destruct (2 ^ 63 <=? v) eqn:E.
    - split; [lia|]. pose proof (dec_flip (v - 2 ^ 63) ltac:(lia)) as F. replace (v - 2 ^ 63 + 2 ^ 63) with v in F by lia. rewrite F.
      destruct (d_dec (v - 2 ^ 63)); cbn [SFopp]; rewrite ?negb_involutive; reflexivity.
    - split; [lia|]. apply dec_flip. lia. }
  destruct K as (q & -> & Uq & Dq). pose proof (value_opp v q x Dq V) as Vq. destruct (finite_number q _ Uq Vq) as (_ & _ & Nq).
  unfold mk_number. rewrite Nq. split; assumption.
Qed.
Print Assumptions minus_is_exact.

(** Only one double is nearest, so that the results above are determined. *)
Theorem nearest_is_unique : forall A B p q, 0 < B -> A <> 0 -> nearest_double A B p -> nearest_double A B q -> p = q.
Proof. exact nearest_one. Qed.
Print Assumptions nearest_is_unique.

(** C79: isNaN holds for the number NaN and for nothing else. *)
Theorem isnan_of_numbers : forall d, is_u64 d -> op_isnan (mk_number d) = mk_boolean true <-> ieee_nan d.
Proof.
  intros d U. rewrite <- isnan_spec by exact U. unfold op_isnan, mk_number. destruct (d_isnan d) eqn:E; [cbn [Z.eqb]; rewrite Z.eqb_refl; tauto|].
  destruct (d =? TAG_NAN) eqn:Q; [|split; [intros H; vm_compute in H; discriminate H|discriminate]].
  apply Z.eqb_eq in Q. subst d. vm_compute in E. discriminate E.
Qed.
Print Assumptions isnan_of_numbers.
Theorem isnan_of_others : forall v, is_u64 v -> kind_of v <> KNumber -> op_isnan v = mk_boolean false.
Proof.
  intros v U K. unfold op_isnan. destruct (v =? TAG_NAN) eqn:E; [|reflexivity]. apply Z.eqb_eq in E. subst v. destruct K. reflexivity.
Qed.
Print Assumptions isnan_of_others.

(** Examples: 0.1, 0.2 and their sum, which is not the double of 0.3; the tie 2^53 + 1; NaN. *)
Example ex_tenth : literal (bs "0.1") 4591870180066957722 /\ text_denotes (bs "0.1") 1 10.
Proof.
  split.
  - replace 4591870180066957722 with (scale10 (digits_val (bs "0" ++ bs "1")) (0 - zlen (bs "1"))) by (vm_compute; reflexivity).
    apply (lit_dec (bs "0") (bs ".1") (bs "1") [] 0);
      [split; [discriminate|cbn; apply Forall_cons; [lia|apply Forall_nil]]|right; split; [reflexivity|cbn; apply Forall_cons; [lia|apply Forall_nil]]|left; split; reflexivity].
  - apply (den_dec (bs "0") (bs ".1") (bs "1") [] 0);
      [split; [discriminate|cbn; apply Forall_cons; [lia|apply Forall_nil]]|right; split; [reflexivity|cbn; apply Forall_cons; [lia|apply Forall_nil]]|left; split; reflexivity].
Qed.
Example ex_sum : dvalue 4591870180066957722 (7205759403792794 * 2 ^ (-56 + 1074)) /\ dvalue 4596373779694328218 (7205759403792794 * 2 ^ (-55 + 1074)) /\
  do_op strs_init (fun _ => 0) 4591870180066957722 4596373779694328218 TOK_PLUS = OK (strs_init, 4599075939470750516, E_OK) /\
  4599075939470750516 <> scale10 3 (-1).
Proof. split; [|split; [|split]]; try (vm_compute; reflexivity). vm_compute. discriminate. Qed.
Example ex_tie : nearest_double ((2 ^ 53 + 1) * 2 ^ 1074) 1 (d_of_Z (2 ^ 53 + 1)) /\ d_of_Z (2 ^ 53 + 1) = d_of_Z (2 ^ 53).
Proof. split; [apply normalize_nearest; [lia|reflexivity]|vm_compute; reflexivity]. Qed.
Example ex_less : rel_op (scale10 1 (-1)) (scale10 2 (-1)) TOK_LT = true.
Proof. vm_compute. reflexivity. Qed.
Example ex_isnan : op_isnan (mk_number (2047 * 2 ^ 52 + 1)) = mk_boolean true /\ op_isnan (d_of_Z 7) = mk_boolean false.
Proof. split; reflexivity. Qed.

(** Proofs about the operators: operand kinds, truthiness, equality. *)
From Verif Require Import Base BaseFacts Value_Model Value_Spec Value_Proofs Float_Proofs TokNum_Model
  Str_Model Str_Spec Str_Proofs Str_Proofs2 Conv_Model Ops_Model Ops_Spec Ops_Proofs.
Ltac Zify.zify_post_hook ::= Z.div_mod_to_equations.

Lemma kinds v : is_u64 v ->
  is_number v = kind_eqb (kind_of v) KNumber /\ is_boolean v = kind_eqb (kind_of v) KBoolean /\
  is_foreign v = kind_eqb (kind_of v) KForeign /\ is_string v = kind_eqb (kind_of v) KString /\
  is_function v = kind_eqb (kind_of v) KFunction /\
  is_object v = (kind_eqb (kind_of v) KObject || kind_eqb (kind_of v) KArray).
Proof.
  intros H. pose proof (preds_kind v H) as K. repeat match goal with H : _ /\ _ |- _ => destruct H end.
  repeat split; assumption.
Qed.

Lemma land_1 v : 0 <= v -> Z.land v 1 = v mod 2.
Proof. intros. apply (land_ones_mod v 1). lia. Qed.

Lemma dec_zero v : is_u64 v -> d_isnan v = false -> (exists s, d_dec v = S754_zero s) <-> v = 0 \/ v = 2 ^ 63.
Proof.
  intros U N. split.
  - intros [s E]. pose proof (enc_dec v U N) as K. rewrite E in K. cbn [d_enc sbit] in K. destruct s; cbn [sbit] in K; lia.
  - intros [-> | ->]; eexists; vm_compute; reflexivity.
Qed.

Lemma truthy_non_string_ok st v : is_u64 v -> kind_of v <> KString -> is_truthy st v = OK (truthy_non_string v).
Proof.
  intros U Ns. destruct (kinds v U) as (K1 & K2 & K3 & K4 & K5 & K6).
  unfold is_truthy, truthy_non_string. rewrite K1, K2, K3, K4, K5, K6.
  destruct (kind_of v) eqn:K; try congruence; cbn [kind_eqb bind orb andb];
  try (assert (NN : v =? TAG_NAN = false) by (destruct (v =? TAG_NAN) eqn:Q; [exfalso; assert (Q' : v = TAG_NAN) by lia; rewrite Q' in K; vm_compute in K; discriminate K|reflexivity]));
  try (rewrite NN); cbn [negb andb orb]; try reflexivity.
  - (* numbers *)
    assert (Nn : v = TAG_NAN \/ d_isnan v = false).
    { cbn [kind_eqb] in K1. unfold is_number, get_double in K1. apply orb_true_iff in K1 as [Q|Q]; [left; lia|right; destruct (d_isnan v); [discriminate Q|reflexivity]]. }
    unfold TAG_NAN in *. destruct Nn as [-> | Nn].
    + rewrite Z.eqb_refl. cbn [negb andb]. rewrite andb_false_r. vm_compute. reflexivity.
    + assert (v =? 65525 * 2 ^ 48 = false).
      { destruct (v =? 65525 * 2 ^ 48) eqn:Q; [|reflexivity]. assert (Q' : v = 65525 * 2 ^ 48) by lia.
        rewrite Q' in Nn. vm_compute in Nn. discriminate Nn. }
      rewrite H. cbn [negb]. rewrite andb_true_r, !orb_false_r. f_equal. unfold d_nonzero.
      pose proof (dec_zero v U Nn) as [Z1 Z2].
      destruct ((v =? 0) || (v =? 2 ^ 63)) eqn:Q.
      * destruct Z2 as [s ->]; [lia|]. reflexivity.
      * destruct (d_dec v); try reflexivity. destruct Z1; [eauto|lia|lia].
  - (* booleans *)
    rewrite !orb_false_r, andb_true_r. unfold get_bool. rewrite K2. cbn [kind_eqb].
    unfold is_u64 in U. rewrite land_1 by lia. f_equal. pose proof (Z.mod_pos_bound v 2 ltac:(lia)).
    destruct (v mod 2 =? 0) eqn:Q; destruct (v mod 2 =? 1) eqn:Q1; try reflexivity; lia.
Qed.

Lemma truthy_string_ok st ext v d : holds st ext v d -> is_truthy st v = OK (negb (bytes_eqb d [])).
Proof.
  intros (U & K & l & G & N & _). destruct (kinds v U) as (K1 & K2 & K3 & K4 & K5 & K6).
  unfold is_truthy. rewrite K1, K2, K3, K4, K5, K6, K. cbn [kind_eqb bind orb andb]. rewrite G. cbn [bind].
  rewrite !orb_false_r. f_equal.
  replace (v =? TAG_NAN) with false.
  - cbn [negb]. rewrite andb_true_r. destruct l; try congruence; destruct d; cbn [bytes_eqb negb];
    rewrite ?zlen_nil, ?zlen_cons; try reflexivity; pose proof (zlen_nonneg d); lia.
  - symmetry. destruct (v =? TAG_NAN) eqn:Q; [|reflexivity]. assert (Q' : v = TAG_NAN) by lia. rewrite Q' in K.
    vm_compute in K. discriminate K.
Qed.

(** do_op *)
Lemma do_op_other st ext a b op : is_u64 a -> is_u64 b ->
  ~ ((kind_of a = KForeign \/ kind_of a = KNumber) /\ (kind_of b = KForeign \/ kind_of b = KNumber)) ->
  ~ (kind_of a = KString /\ kind_of b = KString /\ op = TOK_PLUS) ->
  do_op st ext a b op = OK (st, V_UNDEFINED, E_TYPE).
Proof.
  intros Ua Ub H1 H2. destruct (kinds a Ua) as (A1 & _ & A3 & A4 & _). destruct (kinds b Ub) as (B1 & _ & B3 & B4 & _).
  unfold do_op. rewrite A1, A3, A4, B1, B3, B4.
  assert (Q : ((kind_eqb (kind_of a) KForeign || kind_eqb (kind_of a) KNumber) && (kind_eqb (kind_of b) KForeign || kind_eqb (kind_of b) KNumber)) = false).
  { destruct (kind_of a), (kind_of b); cbn [kind_eqb orb andb]; try reflexivity; exfalso; apply H1; auto. }
  rewrite Q.
  assert (Q2 : (kind_eqb (kind_of a) KString && kind_eqb (kind_of b) KString && (op =? TOK_PLUS)) = false).
  { destruct (kind_of a), (kind_of b); cbn [kind_eqb orb andb]; try reflexivity.
    destruct (op =? TOK_PLUS) eqn:E; [|reflexivity]. exfalso. apply H2. repeat split; lia. }
  rewrite Q2. reflexivity.
Qed.

Lemma arith_number da db op r : is_u64 da -> is_u64 db -> do_arith_op da db op = OK (Some r) -> is_u64 r.
Proof.
  intros Ua Ub H.
  assert (OZ : forall n, is_u64 (d_of_Z n)) by (intros; apply d_of_Z_valid).
  assert (NG : forall x, is_u64 x -> is_u64 (d_neg x)).
  { intros x Hx. unfold d_neg, d_sign, is_u64 in *. destruct (2 ^ 63 <=? x) eqn:E; lia. }
  pose proof (dec_valid _ Ua) as Va. pose proof (dec_valid _ Ub) as Vb.
  unfold do_arith_op in H.
  repeat match type of H with
  | (if ?c then _ else _) = _ => destruct c
  | bind ?m _ = _ => destruct m; cbn [bind] in H
  end; try discriminate H.
  all: match type of H with OK (Some ?x) = OK (Some ?y) => assert (E : x = y) by congruence; rewrite <- E; clear E H end.
  all: try apply OZ.
  all: try (apply enc_u64; first [apply sub_valid|apply add_valid|apply mul_valid|apply div_valid]; assumption).
  destruct (d_lt da 0); [apply NG|]; apply OZ.
Qed.

Lemma do_op_numbers st ext a b op st' v e : is_u64 a -> is_u64 b -> kind_of a = KNumber -> kind_of b = KNumber ->
  do_op st ext a b op = OK (st', v, e) -> st' = st /\ kind_of v = KNumber /\ e = E_OK.
Proof.
  intros Ua Ub Ka Kb H. destruct (kinds a Ua) as (A1 & _ & A3 & A4 & _). destruct (kinds b Ub) as (B1 & _ & B3 & B4 & _).
  unfold do_op in H. rewrite A1, A3, B1, B3, Ka, Kb in H. cbn [kind_eqb orb andb xorb] in H.
  destruct (do_arith_op (get_double a) (get_double b) op) as [[d|]| | |] eqn:E; cbn [bind] in H; try discriminate H.
  - assert (K : st' = st /\ v = mk_number d /\ e = E_OK) by (split; [|split]; congruence). destruct K as (-> & -> & ->).
    split; [reflexivity|]. split; [|reflexivity]. apply number_boxing. eapply arith_number; [exact Ua|exact Ub|exact E].
  - assert (K : st' = st /\ v = TAG_NAN /\ e = E_OK) by (split; [|split]; congruence). destruct K as (-> & -> & ->).
    split; [reflexivity|]. split; [vm_compute; reflexivity|reflexivity].
Qed.

Lemma do_op_prohibited st ext a b op : is_u64 a -> is_u64 b -> In op bin_ops ->
  op_kind (kind_of a) (kind_of b) op = None ->
  (forall st' v e, do_op st ext a b op = OK (st', v, e) -> e = E_TYPE) /\
  (~ (kind_of a = KForeign \/ kind_of b = KForeign) -> do_op st ext a b op = OK (st, V_UNDEFINED, E_TYPE)).
Proof.
  intros Ua Ub Ho Hk.
  assert (D : ((kind_of a = KForeign \/ kind_of a = KNumber) /\ (kind_of b = KForeign \/ kind_of b = KNumber)) \/
              ~ ((kind_of a = KForeign \/ kind_of a = KNumber) /\ (kind_of b = KForeign \/ kind_of b = KNumber))).
  { destruct (kind_of a), (kind_of b); auto; right; intros [[|] [|]]; discriminate. }
  destruct D as [D|D].
  - split.
    + intros st' v e H. destruct (kinds a Ua) as (A1 & _ & A3 & A4 & _). destruct (kinds b Ub) as (B1 & _ & B3 & B4 & _).
      unfold do_op in H. rewrite A1, A3, B1, B3 in H. unfold op_kind in Hk.
      assert (Hp : op =? TOK_MINUS = false) by (destruct D as [[Da|Da] [Db|Db]]; rewrite Da, Db in Hk; try discriminate Hk; destruct (op =? TOK_MINUS); rewrite ?orb_true_r in Hk; congruence).
      rewrite Hp in *. cbn [negb orb] in *. rewrite ?orb_false_r in *.
      destruct D as [[Da|Da] [Db|Db]]; rewrite Da, Db in *; cbn [kind_eqb orb andb xorb] in H; try discriminate Hk;
      try (destruct (op =? TOK_PLUS); [discriminate Hk|]); cbn [negb orb] in H;
      (destruct (do_arith_op _ _ op) as [[d|]| | |]; cbn [bind] in H; try discriminate H; try congruence);
      (destruct (d_to_range _ _ _) as [p| | |]; cbn [bind] in H; try discriminate H); destruct (mk_foreign p); congruence.
    + intros N. exfalso. destruct D as [[Da|Da] [Db|Db]]; try tauto. rewrite Da, Db in Hk. discriminate Hk.
  - assert (O : do_op st ext a b op = OK (st, V_UNDEFINED, E_TYPE)).
    { apply do_op_other; [exact Ua|exact Ub|exact D|]. intros (Da & Db & Do). unfold op_kind in Hk. rewrite Da, Db in Hk.
      replace (op =? TOK_PLUS) with true in Hk by lia. discriminate Hk. }
    split; [intros; congruence|intros _; exact O].
Qed.

Lemma rem_abs x y : y <> 0 -> Z.rem x y = if x <? 0 then - Z.rem (- x) (Z.abs y) else Z.rem x (Z.abs y).
Proof.
  intros H. destruct (x <? 0) eqn:E; [rewrite Z.rem_opp_l by lia; rewrite Z.opp_involutive|];
  (destruct (Z.abs_eq_or_opp y) as [-> | ->]; [reflexivity|]); rewrite Z.rem_opp_r by lia; reflexivity.
Qed.

Lemma int_value_number v n : int_value v n -> - 2 ^ 53 < n < 2 ^ 53 -> mk_number v = v /\ is_number v = true /\ is_foreign v = false.
Proof.
  intros H Hn. destruct (int_value_dec _ _ H Hn) as (U & N & _). unfold mk_number, is_number, get_double. rewrite N.
  split; [reflexivity|]. split; [apply orb_true_r|]. pose proof (preds_kind v U) as K. destruct (kinds v U) as (K1 & _ & K3 & _).
  assert (Q : is_number v = true) by (unfold is_number, get_double; rewrite N; apply orb_true_r).
  rewrite K3. destruct (kind_of v); try reflexivity. rewrite K1 in Q. discriminate Q.
Qed.

Lemma s64_small n : - 2 ^ 63 <= n < 2 ^ 63 -> s64 n = n.
Proof. intros H. unfold s64. cbv zeta. destruct (n mod 2 ^ 64 <? 2 ^ 63) eqn:E; lia. Qed.

Lemma lt_zero v n : int_value v n -> - 2 ^ 53 < n < 2 ^ 53 -> d_lt v 0 = (n <? 0).
Proof.
  intros H Hn. destruct (int_value_dec _ _ H Hn) as (_ & _ & D). unfold d_lt, SFltb.
  rewrite (compare_int _ _ n 0 Hn ltac:(lia) D).
  - reflexivity.
  - exists false. vm_compute. reflexivity.
Qed.

Lemma arith_int a b x y op r : int_value a x -> int_value b y ->
  - 2 ^ 53 < x < 2 ^ 53 -> - 2 ^ 53 < y < 2 ^ 53 -> int_op op x y = Some r -> - 2 ^ 53 < r < 2 ^ 53 ->
  exists d, do_arith_op a b op = OK (Some d) /\ int_value d r.
Proof.
  intros Ha Hb Hx Hy Ho Hr. destruct (int_value_dec _ _ Ha Hx) as (_ & Na & Da). destruct (int_value_dec _ _ Hb Hy) as (_ & Nb & Db).
  unfold do_arith_op. rewrite Na, Nb. cbn [orb]. unfold int_op in Ho.
  destruct (op =? TOK_PLUS) eqn:O1.
  { replace (op =? TOK_MINUS) with false by (unfold TOK_MINUS, TOK_PLUS in *; lia).
    assert (r = x + y) by congruence. subst r. eexists. split; [reflexivity|]. apply enc_int; [lia|]. apply add_int; assumption. }
  destruct (op =? TOK_MINUS) eqn:O2.
  { assert (r = x - y) by congruence. subst r. eexists. split; [reflexivity|]. apply enc_int; [lia|]. apply sub_int; assumption. }
  destruct (op =? TOK_MUL) eqn:O3.
  { assert (r = x * y) by congruence. subst r. eexists. split; [reflexivity|]. apply enc_int; [lia|]. apply mul_int; assumption. }
  destruct (op =? TOK_DIV) eqn:O4.
  { destruct (negb (y =? 0) && (x mod y =? 0)) eqn:E; [|discriminate Ho]. assert (r = x / y) by congruence. subst r.
    assert (Z0 : d_is_zero b = false).
    { unfold d_is_zero. destruct (sf_int_finite _ _ Db ltac:(lia)) as (s & p & _ & ->). reflexivity. }
    rewrite Z0. cbn [negb]. eexists. split; [reflexivity|]. apply enc_int; [exact Hr|]. apply div_int; try assumption; lia. }
  destruct (op =? TOK_REM) eqn:O5.
  { destruct (negb (y =? 0) && (- 2 ^ 31 <=? y) && (y <? 2 ^ 31)) eqn:E; [|discriminate Ho].
    assert (Er : r = Z.rem x y) by congruence.
    rewrite (range_int _ _ _ _ Hb Hy) by lia. cbn [bind]. replace (y =? 0) with false by lia. cbn [negb].
    rewrite (lt_zero _ _ Ha Hx). rewrite rem_abs in Er by lia. destruct (x <? 0) eqn:Lx; cbv zeta.
    - unfold to_i64. rewrite (range_int _ _ _ _ (neg_int _ _ Ha)) by lia. cbn [bind].
      eexists. split; [reflexivity|]. rewrite Er. apply neg_int. apply of_Z_int. lia.
    - unfold to_i64. rewrite (range_int _ _ _ _ Ha) by lia. cbn [bind].
      eexists. split; [reflexivity|]. rewrite Er. apply of_Z_int. lia. }
  assert (Ix : to_i64 a = OK x) by (apply range_int; try assumption; lia).
  assert (Iy : to_i64 b = OK y) by (apply range_int; try assumption; lia).
  rewrite Ix, Iy. cbn [bind].
  destruct (op =? TOK_AND) eqn:O6.
  { assert (r = Z.land x y) by congruence. subst r. eexists. split; [reflexivity|]. apply of_Z_int. exact Hr. }
  destruct (op =? TOK_OR) eqn:O7.
  { assert (r = Z.lor x y) by congruence. subst r. eexists. split; [reflexivity|]. apply of_Z_int. exact Hr. }
  destruct (op =? TOK_XOR) eqn:O8.
  { assert (r = Z.lxor x y) by congruence. subst r. eexists. split; [reflexivity|]. apply of_Z_int. exact Hr. }
  destruct (op =? TOK_LSHIFT) eqn:O9.
  { destruct ((0 <=? y) && (y <=? 63)) eqn:E; [|discriminate Ho]. assert (r = x * 2 ^ y) by congruence. subst r.
    rewrite Z.shiftl_mul_pow2 by lia. rewrite s64_small by (clear -Hr; lia). eexists. split; [reflexivity|]. apply of_Z_int. exact Hr. }
  destruct (op =? TOK_RSHIFT) eqn:O10.
  { destruct ((0 <=? y) && (y <=? 63)) eqn:E; [|discriminate Ho]. assert (r = x / 2 ^ y) by congruence. subst r.
    rewrite Z.shiftr_div_pow2 by lia. eexists. split; [reflexivity|]. apply of_Z_int. exact Hr. }
  destruct (op =? TOK_URSHIFT) eqn:O11; [|discriminate Ho].
  destruct ((0 <=? x) && (x <? 2 ^ 32) && (0 <=? y) && (y <=? 31)) eqn:E; [|discriminate Ho].
  assert (r = x / 2 ^ y) by congruence. subst r. unfold to_u32.
  rewrite (range_int _ _ _ _ Ha Hx), (range_int _ _ _ _ Hb Hy) by lia. cbn [bind].
  replace (y <=? 31) with true by lia. rewrite Z.shiftr_div_pow2 by lia. eexists. split; [reflexivity|]. apply of_Z_int. exact Hr.
Qed.

Lemma do_op_ints st ext a b x y op r : int_value a x -> int_value b y ->
  - 2 ^ 53 < x < 2 ^ 53 -> - 2 ^ 53 < y < 2 ^ 53 -> int_op op x y = Some r -> - 2 ^ 53 < r < 2 ^ 53 ->
  exists v, do_op st ext a b op = OK (st, v, E_OK) /\ int_value v r.
Proof.
  intros Ha Hb Hx Hy Ho Hr. destruct (int_value_number _ _ Ha Hx) as (_ & A1 & A2). destruct (int_value_number _ _ Hb Hy) as (_ & B1 & B2).
  destruct (arith_int _ _ _ _ _ _ Ha Hb Hx Hy Ho Hr) as (d & E & Hd).
  unfold do_op. rewrite A1, A2, B1, B2. cbn [orb andb xorb]. unfold get_double. rewrite E. cbn [bind].
  eexists. split; [reflexivity|]. destruct (int_value_number _ _ Hd Hr) as (-> & _). exact Hd.
Qed.

Lemma do_op_pointer st ext a b p n op r : 
  is_u64 a -> kind_of a = KForeign -> get_ptr a = p -> int_value b n -> - 2 ^ 53 < n < 2 ^ 53 ->
  (op = TOK_PLUS /\ r = p + n \/ op = TOK_MINUS /\ r = p - n) -> 0 <= r < 2 ^ 48 ->
  exists v, do_op st ext a b op = OK (st, v, E_OK) /\ kind_of v = KForeign /\ get_ptr v = r.
Proof.
  intros Ua Ka Gp Hb Hn Ho Hr. destruct (int_value_number _ _ Hb Hn) as (_ & B1 & B2).
  destruct (kinds a Ua) as (A1 & _ & A3 & _). rewrite Ka in A1, A3. cbn [kind_eqb] in A1, A3.
  assert (Hp : 0 <= p < 2 ^ 48).
  { unfold get_ptr in Gp. rewrite A3 in Gp. cbn [negb] in Gp. rewrite get_ptr_raw_mod in Gp. rewrite <- Gp. apply Z.mod_pos_bound. lia. }
  assert (Hi : int_value (d_of_Z p) p) by (apply of_Z_int; lia).
  assert (Io : int_op op p n = Some r) by (destruct Ho as [[-> ->]|[-> ->]]; reflexivity).
  destruct (arith_int _ _ p n op r Hi Hb ltac:(lia) Hn Io ltac:(lia)) as (d & E & Hd).
  unfold do_op. rewrite A1, A3, B1, B2. cbn [orb andb xorb]. rewrite Gp. unfold get_double. rewrite E. cbn [bind].
  rewrite (range_int _ _ _ _ Hd) by lia. cbn [bind].
  pose proof (foreign_round_trip r ltac:(unfold is_u64; lia)) as [F _]. specialize (F ltac:(lia)).
  destruct (mk_foreign r) as [v e]. destruct F as (-> & F2 & F3). exists v.
  assert (Q : (negb (op =? TOK_MINUS) && negb (op =? TOK_PLUS) || false) = false) by (destruct Ho as [[-> _]|[-> _]]; reflexivity).
  rewrite Q. split; [reflexivity|]. split; assumption.
Qed.

Lemma do_op_strings st ext a b da db :
  bytes_ok da -> bytes_ok db -> holds st ext a da -> holds st ext b db ->
  zlen (so st) < 2 ^ 48 -> zlen da + zlen db < 2 ^ 64 ->
  exists st' v, do_op st ext a b TOK_PLUS = OK (st', v, E_OK) /\ holds st' ext v (da ++ db) /\ grows st st'.
Proof.
  intros Da Db Ha Hb Hs Hl. destruct (s_concat_spec st ext a b da db Da Db Ha Hb Hs Hl) as (st' & v & E & H1 & _ & H3 & _).
  destruct Ha as (Ua & Ka & _). destruct Hb as (Ub & Kb & _).
  destruct (kinds a Ua) as (A1 & _ & A3 & A4 & _). destruct (kinds b Ub) as (B1 & _ & B3 & B4 & _).
  rewrite Ka in *. rewrite Kb in *. cbn [kind_eqb] in *.
  exists st', v. split; [|split; assumption]. unfold do_op. rewrite A1, A3, A4, B1, B3, B4. cbn [orb andb].
  rewrite Z.eqb_refl, E. reflexivity.
Qed.

Lemma rel_op_ints a b x y op : int_value a x -> int_value b y -> - 2 ^ 53 < x < 2 ^ 53 -> - 2 ^ 53 < y < 2 ^ 53 ->
  In op [TOK_LT; TOK_GT; TOK_LE; TOK_GE] ->
  rel_op a b op = if op =? TOK_LT then x <? y else if op =? TOK_GT then x >? y
                  else if op =? TOK_LE then x <=? y else x >=? y.
Proof.
  intros Ha Hb Hx Hy Ho. destruct (int_value_dec _ _ Ha Hx) as (_ & _ & Da). destruct (int_value_dec _ _ Hb Hy) as (_ & _ & Db).
  pose proof (compare_int _ _ _ _ Hx Hy Da Db) as C1. pose proof (compare_int _ _ _ _ Hy Hx Db Da) as C2.
  unfold rel_op, d_lt, d_le, SFltb, SFleb. rewrite C1, C2.
  unfold Z.ltb, Z.gtb, Z.leb, Z.geb. rewrite (Z.compare_antisym x y).
  destruct (op =? TOK_LT); [destruct (x ?= y); reflexivity|].
  destruct (op =? TOK_GT); [destruct (x ?= y); reflexivity|].
  destruct (op =? TOK_LE); destruct (x ?= y); reflexivity.
Qed.

(** check_equal *)
Lemma equal_strings st ext a b da db : holds st ext a da -> holds st ext b db ->
  check_equal st ext a b = OK (bytes_eqb da db).
Proof.
  intros Ha Hb. destruct (s_cmp_spec st ext a b da db Ha Hb) as (r & E & E0 & _).
  pose proof Ha as (Ua & Ka & la & A1 & _ & A3). pose proof Hb as (Ub & Kb & lb & B1 & _ & B3).
  destruct (kinds a Ua) as (KA1 & _ & _ & KA4 & _). destruct (kinds b Ub) as (KB1 & _ & _ & KB4 & _).
  rewrite Ka in *. rewrite Kb in *. cbn [kind_eqb] in *.
  assert (Na : a =? TAG_NAN = false).
  { destruct (a =? TAG_NAN) eqn:Q; [|reflexivity]. assert (Q' : a = TAG_NAN) by lia. rewrite Q' in Ka. vm_compute in Ka. discriminate Ka. }
  unfold check_equal. rewrite Na. cbn [andb]. destruct (a =? b) eqn:Q.
  - assert (a = b) by lia. subst b. assert (da = db).
    { apply E0. assert (s_cmp st ext a a = OK 0); [|congruence].
      unfold s_cmp. rewrite A1. cbn [bind]. rewrite Z.eqb_refl, A3. cbn [bind]. f_equal. apply memcmp_spec; reflexivity. }
    subst db. rewrite bytes_eqb_refl. reflexivity.
  - rewrite KA1, KB1, KA4, KB4. cbn [andb]. rewrite E. cbn [bind]. f_equal.
    destruct (bytes_eqb da db) eqn:B.
    + apply bytes_eqb_eq in B. apply E0 in B. lia.
    + destruct (r =? 0) eqn:R; [|reflexivity]. assert (R' : r = 0) by lia. apply E0 in R'. subst db.
      rewrite bytes_eqb_refl in B. discriminate B.
Qed.

Lemma equal_others st ext a b : is_u64 a -> is_u64 b -> ~ (kind_of a = KString /\ kind_of b = KString) ->
  exists r, check_equal st ext a b = OK r /\
    (r = true <-> (a = b /\ a <> 65525 * 2 ^ 48) \/ (a = 65522 * 2 ^ 48 /\ b = 65535 * 2 ^ 48) \/
                  (a = 65535 * 2 ^ 48 /\ b = 65522 * 2 ^ 48)).
Proof.
  intros Ua Ub Ns. destruct (kinds a Ua) as (A1 & _ & A3 & A4 & _). destruct (kinds b Ub) as (B1 & _ & B3 & B4 & _).
  unfold check_equal. rewrite A1, A4, B1, B4.
  assert (FA : is_foreign a && (get_ptr a =? 0) = (a =? 65522 * 2 ^ 48)).
  { unfold get_ptr. rewrite is_foreign_hi by exact Ua. rewrite get_ptr_raw_mod. unfold is_u64 in *.
    destruct (a / 2 ^ 48 =? 65522) eqn:E; cbn [negb andb]; lia. }
  assert (FB : is_foreign b && (get_ptr b =? 0) = (b =? 65522 * 2 ^ 48)).
  { unfold get_ptr. rewrite is_foreign_hi by exact Ub. rewrite get_ptr_raw_mod. unfold is_u64 in *.
    destruct (b / 2 ^ 48 =? 65522) eqn:E; cbn [negb andb]; lia. }
  unfold TAG_NAN, V_NULL, TAG_NULL in *.
  destruct ((a =? 65525 * 2 ^ 48) && (b =? 65525 * 2 ^ 48)) eqn:E1.
  { eexists; split; [reflexivity|]. split; [discriminate|lia]. }
  destruct (a =? b) eqn:E2.
  { eexists; split; [reflexivity|]. split; [lia|reflexivity]. }
  destruct (kind_eqb (kind_of a) KNumber && kind_eqb (kind_of b) KNumber) eqn:E3.
  { eexists; split; [reflexivity|]. split; [discriminate|].
    intros [H|[[-> ->]|[-> ->]]]; [lia|vm_compute in E3; discriminate E3|vm_compute in E3; discriminate E3]. }
  destruct (kind_eqb (kind_of a) KString && kind_eqb (kind_of b) KString) eqn:E4.
  { exfalso. apply Ns. destruct (kind_of a), (kind_of b); try discriminate E4. auto. }
  destruct (is_foreign a && (b =? 65535 * 2 ^ 48)) eqn:E5.
  { apply andb_true_iff in E5 as [F5 E5]. rewrite F5 in FA. cbn [andb] in FA. eexists; split; [reflexivity|].
    rewrite FA. assert (b <> 65522 * 2 ^ 48) by lia. lia. }
  destruct ((a =? 65535 * 2 ^ 48) && is_foreign b) eqn:E6.
  { apply andb_true_iff in E6 as [E6 F6]. rewrite F6 in FB. cbn [andb] in FB. eexists; split; [reflexivity|].
    rewrite FB. lia. }
  eexists; split; [reflexivity|]. split; [discriminate|]. intros [H|[[-> ->]|[-> ->]]]; [lia| |].
  - vm_compute in E5. discriminate E5.
  - vm_compute in E6. discriminate E6.
Qed.

(** Operators (properties C29, C30, C31). *)
From Verif Require Import Base BaseFacts Value_Model Value_Spec Value_Proofs Float_Proofs TokNum_Model
  Str_Model Str_Spec Str_Proofs Str_Proofs2 Conv_Model Ops_Model Ops_Spec Ops_Proofs Ops_Proofs2.

(** C29: truthiness of every value that is not a string, and of every string. *)
Theorem truthiness_of_non_strings : forall st v, is_u64 v -> kind_of v <> KString ->
  is_truthy st v = OK (truthy_non_string v).
Proof. exact truthy_non_string_ok. Qed.
Print Assumptions truthiness_of_non_strings.

Theorem truthiness_of_strings : forall st ext v d, holds st ext v d ->
  is_truthy st v = OK (negb (bytes_eqb d [])).
Proof. exact truthy_string_ok. Qed.
Print Assumptions truthiness_of_strings.

(** In JavaScript every function is truthy. An imported C function is not. *)
Theorem functions_are_truthy_refuted : exists v, is_u64 v /\ kind_of v = KFfi /\
  forall st, is_truthy st v = OK false.
Proof.
  exists (65534 * 2 ^ 48 + 4096).
  assert (U : is_u64 (65534 * 2 ^ 48 + 4096)) by (unfold is_u64; lia).
  split; [exact U|]. split; [vm_compute; reflexivity|].
  intros st. rewrite truthy_non_string_ok; [vm_compute; reflexivity|exact U|vm_compute; discriminate].
Qed.
Print Assumptions functions_are_truthy_refuted.

(** C30: operand pairs outside the table are a type error; unless a pointer is involved,
    nothing is computed. *)
Theorem prohibited_operands_are_errors : forall st ext a b op, is_u64 a -> is_u64 b -> In op bin_ops ->
  op_kind (kind_of a) (kind_of b) op = None ->
  (forall st' v e, do_op st ext a b op = OK (st', v, e) -> e = E_TYPE) /\
  (~ (kind_of a = KForeign \/ kind_of b = KForeign) -> do_op st ext a b op = OK (st, V_UNDEFINED, E_TYPE)).
Proof. exact do_op_prohibited. Qed.
Print Assumptions prohibited_operands_are_errors.

Theorem numbers_give_numbers : forall st ext a b op st' v e,
  is_u64 a -> is_u64 b -> kind_of a = KNumber -> kind_of b = KNumber ->
  do_op st ext a b op = OK (st', v, e) -> st' = st /\ kind_of v = KNumber /\ e = E_OK.
Proof. exact do_op_numbers. Qed.
Print Assumptions numbers_give_numbers.

(** Whenever the mathematical result of an operator on two integers is an integer below
    2^53, the script sees exactly that integer. *)
Theorem integer_arithmetic_is_exact : forall st ext a b x y op r, int_value a x -> int_value b y ->
  - 2 ^ 53 < x < 2 ^ 53 -> - 2 ^ 53 < y < 2 ^ 53 -> int_op op x y = Some r -> - 2 ^ 53 < r < 2 ^ 53 ->
  exists v, do_op st ext a b op = OK (st, v, E_OK) /\ int_value v r.
Proof. exact do_op_ints. Qed.
Print Assumptions integer_arithmetic_is_exact.

Theorem integer_comparison_is_exact : forall a b x y op, int_value a x -> int_value b y ->
  - 2 ^ 53 < x < 2 ^ 53 -> - 2 ^ 53 < y < 2 ^ 53 -> In op [TOK_LT; TOK_GT; TOK_LE; TOK_GE] ->
  rel_op a b op = if op =? TOK_LT then x <? y else if op =? TOK_GT then x >? y
                  else if op =? TOK_LE then x <=? y else x >=? y.
Proof. exact rel_op_ints. Qed.
Print Assumptions integer_comparison_is_exact.

Theorem integer_unary_minus_is_exact : forall v n, int_value v n -> - 2 ^ 53 < n < 2 ^ 53 ->
  int_value (un_minus v) (- n).
Proof.
  intros v n H Hn. unfold un_minus, get_double. pose proof (neg_int v n H) as N.
  destruct (int_value_number _ _ N) as (-> & _); [lia|exact N].
Qed.
Print Assumptions integer_unary_minus_is_exact.

Theorem integer_complement_is_exact : forall v n, int_value v n -> - 2 ^ 53 < n < 2 ^ 53 - 1 ->
  exists r, un_tilda v = OK r /\ int_value r (- n - 1).
Proof.
  intros v n H Hn. unfold un_tilda, get_double, to_i64. rewrite (range_int _ _ _ _ H) by lia. cbn [bind].
  pose proof (of_Z_int (Z.lnot n)) as I. replace (Z.lnot n) with (- n - 1) in * by (pose proof (Z.add_lnot_diag n); lia).
  specialize (I ltac:(lia)). destruct (int_value_number _ _ I ltac:(lia)) as (E & _).
  exists (mk_number (d_of_Z (- n - 1))). split; [reflexivity|]. rewrite E. exact I.
Qed.
Print Assumptions integer_complement_is_exact.

(** Dividing by either zero, or taking a remainder by it, is NaN and no error. *)
Theorem division_by_zero_is_nan : forall st ext a b op, is_u64 a -> kind_of a = KNumber -> int_value b 0 ->
  (op = TOK_DIV \/ op = TOK_REM) -> do_op st ext a b op = OK (st, TAG_NAN, E_OK).
Proof.
  intros st ext a b op Ua Ka Hb Ho. destruct (kinds a Ua) as (A1 & _ & A3 & _).
  rewrite Ka in *. cbn [kind_eqb] in *. destruct (int_value_number b 0 Hb ltac:(lia)) as (_ & B1 & B2).
  destruct (int_value_dec b 0 Hb ltac:(lia)) as (_ & Nb & s & Db).
  unfold do_op. rewrite A1, A3, B1, B2. cbn [orb andb xorb]. unfold do_arith_op, get_double. rewrite Nb.
  destruct (d_isnan a); cbn [orb bind]; [reflexivity|]. destruct Ho as [-> | ->].
  - change (TOK_DIV =? TOK_MINUS) with false. change (TOK_DIV =? TOK_PLUS) with false.
    change (TOK_DIV =? TOK_MUL) with false. change (TOK_DIV =? TOK_DIV) with true. cbv iota.
    unfold d_is_zero. rewrite Db. cbn [negb bind]. reflexivity.
  - change (TOK_REM =? TOK_MINUS) with false. change (TOK_REM =? TOK_PLUS) with false.
    change (TOK_REM =? TOK_MUL) with false. change (TOK_REM =? TOK_DIV) with false.
    change (TOK_REM =? TOK_REM) with true. cbv iota.
    rewrite (range_int _ _ _ _ Hb) by lia. cbn [bind Z.eqb negb]. reflexivity.
Qed.
Print Assumptions division_by_zero_is_nan.

(** Adding to and subtracting from a pointer moves it by that many bytes. *)
Theorem pointer_arithmetic : forall st ext a b p n op r,
  is_u64 a -> kind_of a = KForeign -> get_ptr a = p -> int_value b n -> - 2 ^ 53 < n < 2 ^ 53 ->
  (op = TOK_PLUS /\ r = p + n \/ op = TOK_MINUS /\ r = p - n) -> 0 <= r < 2 ^ 48 ->
  exists v, do_op st ext a b op = OK (st, v, E_OK) /\ kind_of v = KForeign /\ get_ptr v = r.
Proof. exact do_op_pointer. Qed.
Print Assumptions pointer_arithmetic.

(** The number may come first as well, and the difference of two pointers is the number of
    bytes between them, not a pointer. *)
Lemma pointer_range a : is_u64 a -> kind_of a = KForeign -> is_number a = false /\ is_foreign a = true /\ 0 <= get_ptr a < 2 ^ 48.
Proof.
  intros Ua Ka. destruct (kinds a Ua) as (A1 & _ & A3 & _). rewrite Ka in A1, A3. cbn [kind_eqb] in A1, A3.
  split; [exact A1|]. split; [exact A3|]. unfold get_ptr. rewrite A3. cbn [negb]. rewrite get_ptr_raw_mod. apply Z.mod_pos_bound. lia.
Qed.

Theorem number_plus_pointer : forall st ext a b p n,
  is_u64 b -> kind_of b = KForeign -> get_ptr b = p -> int_value a n -> - 2 ^ 53 < n < 2 ^ 53 ->
  0 <= n + p < 2 ^ 48 ->
  exists v, do_op st ext a b TOK_PLUS = OK (st, v, E_OK) /\ kind_of v = KForeign /\ get_ptr v = n + p.
Proof.
  intros st ext a b p n Ub Kb Gp Ha Hn Hr. destruct (int_value_number _ _ Ha Hn) as (_ & A1 & A2).
  destruct (pointer_range b Ub Kb) as (B1 & B2 & Hp). rewrite Gp in Hp.
  assert (Hi : int_value (d_of_Z p) p) by (apply of_Z_int; lia).
  destruct (arith_int _ _ n p TOK_PLUS (n + p) Ha Hi Hn ltac:(lia) eq_refl ltac:(lia)) as (d & E & Hd).
  unfold do_op. rewrite A1, A2, B1, B2. cbn [orb andb xorb]. rewrite Gp. unfold get_double. rewrite E. cbn [bind].
  rewrite (range_int _ _ _ _ Hd) by lia. cbn [bind].
  pose proof (foreign_round_trip (n + p) ltac:(unfold is_u64; lia)) as [F _]. specialize (F ltac:(lia)).
  destruct (mk_foreign (n + p)) as [v e]. destruct F as (-> & F2 & F3). exists v.
  split; [reflexivity|]. split; assumption.
Qed.
Print Assumptions number_plus_pointer.

Theorem pointer_difference : forall st ext a b,
  is_u64 a -> kind_of a = KForeign -> is_u64 b -> kind_of b = KForeign ->
  exists v, do_op st ext a b TOK_MINUS = OK (st, v, E_OK) /\ int_value v (get_ptr a - get_ptr b).
Proof.
  intros st ext a b Ua Ka Ub Kb.
  destruct (pointer_range a Ua Ka) as (A1 & A2 & Hp). destruct (pointer_range b Ub Kb) as (B1 & B2 & Hq).
  set (p := get_ptr a) in *. set (q := get_ptr b) in *.
  assert (Hi : int_value (d_of_Z p) p) by (apply of_Z_int; lia).
  assert (Hj : int_value (d_of_Z q) q) by (apply of_Z_int; lia).
  destruct (arith_int _ _ p q TOK_MINUS (p - q) Hi Hj ltac:(lia) ltac:(lia) eq_refl ltac:(lia)) as (d & E & Hd).
  unfold do_op. rewrite A1, A2, B1, B2. cbn [orb andb xorb]. fold p q. rewrite E. cbn [bind].
  exists (mk_number d). split; [reflexivity|]. destruct (int_value_number _ _ Hd ltac:(lia)) as (-> & _). exact Hd.
Qed.
Print Assumptions pointer_difference.

Example pointers_apart : let a := fst (mk_foreign 4096) in let b := fst (mk_foreign 4100) in
  kind_of a = KForeign /\ kind_of b = KForeign /\
  do_op strs_init (fun _ => 0) a b TOK_MINUS = OK (strs_init, d_of_Z (-4), E_OK).
Proof. vm_compute. repeat split. Qed.

Theorem string_plus_is_concatenation : forall st ext a b da db,
  bytes_ok da -> bytes_ok db -> holds st ext a da -> holds st ext b db ->
  zlen (so st) < 2 ^ 48 -> zlen da + zlen db < 2 ^ 64 ->
  exists st' v, do_op st ext a b TOK_PLUS = OK (st', v, E_OK) /\ holds st' ext v (da ++ db) /\ grows st st'.
Proof. exact do_op_strings. Qed.
Print Assumptions string_plus_is_concatenation.

(** Operators on two numbers are not always defined: a shift by 64, a bitwise operation on
    1e300 and a remainder by Infinity are undefined behaviour in C. *)
Theorem number_operators_are_defined_refuted : exists a b,
  int_value a 1 /\ int_value b 64 /\ forall st ext, do_op st ext a b TOK_LSHIFT = UB.
Proof.
  exists (d_of_Z 1), (d_of_Z 64). split; [apply of_Z_int; lia|]. split; [apply of_Z_int; lia|].
  intros. vm_compute. reflexivity.
Qed.
Print Assumptions number_operators_are_defined_refuted.
Theorem bitwise_operators_are_defined_refuted : exists a b op,
  kind_of a = KNumber /\ kind_of b = KNumber /\ In op [TOK_AND; TOK_OR; TOK_XOR; TOK_REM] /\
  forall st ext, do_op st ext a b op = UB.
Proof.
  exists (d_of_Z (10 ^ 30)), (d_of_Z 1), TOK_AND. split; [vm_compute; reflexivity|].
  split; [vm_compute; reflexivity|]. split; [left; reflexivity|]. intros. vm_compute. reflexivity.
Qed.
Print Assumptions bitwise_operators_are_defined_refuted.

(** The unary minus of any non-number silently gives NaN: a conversion without an error. *)
Theorem unary_minus_never_errors_refuted : exists v, kind_of v = KObject /\ un_minus v = TAG_NAN.
Proof. exists (65521 * 2 ^ 48 + 4096). vm_compute. split; reflexivity. Qed.
Print Assumptions unary_minus_never_errors_refuted.

(** C31: strict equality. Strings compare by contents; every other pair is equal only when
    the patterns are identical and not NaN, or one is null and the other a null pointer. *)
Theorem strings_equal_by_contents : forall st ext a b da db, holds st ext a da -> holds st ext b db ->
  check_equal st ext a b = OK (bytes_eqb da db).
Proof. exact equal_strings. Qed.
Print Assumptions strings_equal_by_contents.

Theorem other_values_equal_by_identity : forall st ext a b, is_u64 a -> is_u64 b ->
  ~ (kind_of a = KString /\ kind_of b = KString) ->
  exists r, check_equal st ext a b = OK r /\
    (r = true <-> (a = b /\ a <> 65525 * 2 ^ 48) \/ (a = 65522 * 2 ^ 48 /\ b = 65535 * 2 ^ 48) \/
                  (a = 65535 * 2 ^ 48 /\ b = 65522 * 2 ^ 48)).
Proof. exact equal_others. Qed.
Print Assumptions other_values_equal_by_identity.

(** A readable value: any non-string, or a string whose bytes can be read. *)
Definition readable (st : strs) (ext : extmem) (v : Z) : Prop :=
  is_u64 v /\ (kind_of v <> KString \/ exists d, holds st ext v d).
Theorem equality_is_symmetric : forall st ext a b, readable st ext a -> readable st ext b ->
  exists r, check_equal st ext a b = OK r /\ check_equal st ext b a = OK r.
Proof.
  intros st ext a b [Ua Ha] [Ub Hb].
  assert (C : (exists da db, holds st ext a da /\ holds st ext b db) \/ ~ (kind_of a = KString /\ kind_of b = KString)).
  { destruct Ha as [Ha|[da Ha]]; [right; tauto|]. destruct Hb as [Hb|[db Hb]]; [right; tauto|]. left; eauto. }
  destruct C as [(da & db & Da & Db)|C].
  - rewrite (equal_strings _ _ _ _ _ _ Da Db), (equal_strings _ _ _ _ _ _ Db Da). exists (bytes_eqb da db).
    split; [reflexivity|]. f_equal. destruct (bytes_eqb da db) eqn:E.
    + apply bytes_eqb_eq in E. subst. apply bytes_eqb_refl.
    + destruct (bytes_eqb db da) eqn:E2; [|reflexivity]. apply bytes_eqb_eq in E2. subst. rewrite bytes_eqb_refl in E. exact E.
  - destruct (equal_others st ext a b Ua Ub C) as (r & E & Hr).
    destruct (equal_others st ext b a Ub Ua ltac:(tauto)) as (r' & E' & Hr').
    exists r. split; [exact E|]. rewrite E'. f_equal.
    assert (Q : r = true <-> r' = true) by (rewrite Hr, Hr'; split; intros [[? ?]|[[? ?]|[? ?]]]; subst; auto).
    destruct r, r'; try reflexivity; destruct Q as [Q1 Q2]; [discriminate (Q1 eq_refl)|discriminate (Q2 eq_refl)].
Qed.
Print Assumptions equality_is_symmetric.

Theorem equality_is_reflexive : forall st ext a, readable st ext a -> a <> 65525 * 2 ^ 48 ->
  check_equal st ext a a = OK true.
Proof.
  intros st ext a [Ua Ha] N. destruct Ha as [Ha|[d Ha]].
  - destruct (equal_others st ext a a Ua Ua ltac:(tauto)) as (r & E & Hr). rewrite E. f_equal. apply Hr. left. auto.
  - rewrite (equal_strings _ _ _ _ _ _ Ha Ha), bytes_eqb_refl. reflexivity.
Qed.
Print Assumptions equality_is_reflexive.

(** Two numbers with the same value need not be ===: 0 and -0. *)
Theorem equal_numbers_are_equal_refuted : exists a b, int_value a 0 /\ int_value b 0 /\
  rel_op a b TOK_LE = true /\ rel_op a b TOK_GE = true /\
  forall st ext, check_equal st ext a b = OK false.
Proof.
  exists 0, (2 ^ 63). split; [left; auto|]. split; [left; auto|].
  split; [vm_compute; reflexivity|]. split; [vm_compute; reflexivity|]. intros. vm_compute. reflexivity.
Qed.
Print Assumptions equal_numbers_are_equal_refuted.

(** Apart from zero, integers are === exactly when they are the same number. *)
Theorem integer_equality_is_exact : forall st ext a b x y, int_value a x -> int_value b y ->
  - 2 ^ 53 < x < 2 ^ 53 -> - 2 ^ 53 < y < 2 ^ 53 -> x <> 0 \/ y <> 0 ->
  check_equal st ext a b = OK (x =? y).
Proof.
  intros st ext a b x y Ha Hb Hx Hy N.
  destruct (int_value_dec _ _ Ha Hx) as (Ua & Na & Da). destruct (int_value_dec _ _ Hb Hy) as (Ub & Nb & Db).
  destruct (int_value_number _ _ Ha Hx) as (_ & A1 & _). destruct (int_value_number _ _ Hb Hy) as (_ & B1 & _).
  assert (An : a =? TAG_NAN = false).
  { destruct (a =? TAG_NAN) eqn:Q; [|reflexivity]. assert (Q' : a = TAG_NAN) by lia. rewrite Q' in Na. vm_compute in Na. discriminate Na. }
  unfold check_equal. rewrite An, A1, B1. cbn [andb].
  destruct (a =? b) eqn:E.
  - assert (a = b) by lia. subst b. f_equal. pose proof (trunc_int _ _ Ha Hx). pose proof (trunc_int _ _ Hb Hy).
    assert (x = y) by congruence. lia.
  - f_equal. destruct (x =? y) eqn:Q; [|reflexivity]. assert (x = y) by lia. subst y.
    assert (d_dec a = d_dec b) by (destruct x as [|p|p]; [lia|cbn [sf_int] in *; congruence|cbn [sf_int] in *; congruence]).
    assert (a = b); [|lia]. rewrite <- (enc_dec a Ua Na), <- (enc_dec b Ub Nb). congruence.
Qed.
Print Assumptions integer_equality_is_exact.

(** Non-vacuity. *)
Example ops_ex_int : int_value (d_of_Z (-7)) (-7) /\ int_value (d_of_Z 2) 2 /\ int_op TOK_REM (-7) 2 = Some (-1) /\
  forall st ext, do_op st ext (d_of_Z (-7)) (d_of_Z 2) TOK_REM = OK (st, d_of_Z (-1), E_OK).
Proof.
  split; [apply of_Z_int; lia|]. split; [apply of_Z_int; lia|]. split; [reflexivity|]. intros. vm_compute. reflexivity.
Qed.
Example ops_ex_kinds : op_kind KString KNumber TOK_PLUS = None /\ op_kind KForeign KForeign TOK_PLUS = None /\
  op_kind KForeign KNumber TOK_PLUS = Some KForeign.
Proof. repeat split. Qed.
Example ops_ex_ptr : kind_of (fst (mk_foreign 4096)) = KForeign /\ get_ptr (fst (mk_foreign 4096)) = 4096 /\
  forall st ext, do_op st ext (fst (mk_foreign 4096)) (d_of_Z 24) TOK_PLUS = OK (st, fst (mk_foreign 4120), E_OK).
Proof. split; [vm_compute; reflexivity|]. split; [vm_compute; reflexivity|]. intros. vm_compute. reflexivity. Qed.
Example ops_ex_str : exists st1 v st2 w, mk_string strs_init [97; 98; 99; 100; 101; 102] = OK (st1, v) /\
  mk_string st1 [97; 98; 99; 100; 101; 102] = OK (st2, w) /\ v <> w /\
  check_equal st2 (fun _ => 0) v w = OK true /\ is_truthy st2 v = OK true.
Proof.
  eexists _, _, _, _. split; [vm_compute; reflexivity|]. split; [vm_compute; reflexivity|].
  split; [discriminate|]. split; vm_compute; reflexivity.
Qed.

(** Keys of properties: names and the numbers of array elements. *)
From Verif Require Import Base BaseFacts Value_Model Value_Spec Value_Proofs Str_Model Str_Spec Str_Proofs Str_Proofs2 Float_Proofs SUtil_Spec SUtil_Proofs
  Ops_Model Ops_Spec Ops_Proofs Ops_Proofs2 TokNum_Model Txt_Model Obj_Model Obj_Proofs Obj_Proofs2 Conv_Model Num_Model Arr_Model Arr_Spec Arr_Proofs Bcode_Model Bcode_Proofs
  Vm_Model Vm_Spec Host_Proofs Vm_Proofs Vm_Proofs4 Parse_Model Expr_Spec Run_Spec Lang_Spec Lang_Code Lang_Spec2 Obj_Spec Lang_Exec1.
From Coq Require Import ZifyBool.
Ltac Zify.zify_post_hook ::= Z.div_mod_to_equations.

(** ** Decimal names *)
Lemma digits10_num f n : 0 <= n < 10 ^ Z.of_nat f -> (0 < f)%nat -> numeral 10 n (digits10 f n).
Proof.
  revert n. induction f as [|f IH]; intros n Hn Hf; [lia|]. cbn [digits10]. destruct (n <? 10) eqn:E.
  - split; [discriminate|]. split; [apply Forall_cons; [|apply Forall_nil]; unfold is_digit_in, digit_of; replace (48 + n <? 58) with true by lia; lia|].
    split; [cbn [num_value]; unfold digit_of; replace (48 + n <? 58) with true by lia; lia|]. cbn [hd]. intros Q. rewrite Q. reflexivity.
  - assert (Hf' : (0 < f)%nat) by (destruct f; [cbn in Hn; lia|lia]).
    assert (B : 0 <= n / 10 < 10 ^ Z.of_nat f).
    { replace (Z.of_nat (S f)) with (1 + Z.of_nat f) in Hn by lia. rewrite Z.pow_add_r in Hn by lia. change (10 ^ 1) with 10 in Hn. lia. }
    destruct (IH (n / 10) B Hf') as (N1 & N2 & N3 & N4).
    assert (N0 : forall a b acc, num_value 10 acc (a ++ b) = num_value 10 (num_value 10 acc a) b).
    { induction a as [|x a IHa]; intros b acc; [reflexivity|]. cbn [app num_value]. apply IHa. }
    split; [destruct (digits10 f (n / 10)); discriminate|]. split.
    { apply Forall_app. split; [exact N2|]. apply Forall_cons; [|apply Forall_nil]. unfold is_digit_in, digit_of. replace (48 + n mod 10 <? 58) with true by lia. lia. }
    split. { rewrite N0, N3. cbn [num_value]. unfold digit_of. replace (48 + n mod 10 <? 58) with true by lia. lia. }
    destruct (digits10 f (n / 10)) as [|x r] eqn:Ed; [congruence|]. cbn [app hd] in *. intros Q. exfalso. rewrite (N4 Q) in N3. cbn in N3. lia.
Qed.
Lemma dec_name_num n : 0 <= n < 10 ^ 20 -> numeral 10 n (dec_name n).
Proof. intros H. apply digits10_num; [exact H|lia]. Qed.
Lemma dec_name_good n : 0 <= n < 2 ^ 63 -> good_name (dec_name n) = true.
Proof.
  intros H. pose proof (dec_name_num n ltac:(lia)) as N. destruct (numeral_digits _ _ N) as ((_ & D) & _). destruct (numeral_name _ _ N H) as [_ L].
  unfold good_name. replace (zlen (dec_name n) <? 2 ^ 31) with true by lia. rewrite andb_true_r. apply forallb_forall. rewrite Forall_forall in D.
  intros c Hc. specialize (D c Hc). lia.
Qed.
Lemma dec_value_val n : dec_value n = digits_val n.
Proof. unfold dec_value, digits_val. generalize 0. induction n as [|c n IH]; intros a; [reflexivity|]. cbn [fold_left]. rewrite IH, (Z.mul_comm 10 a). reflexivity. Qed.
Lemma name_eqb_same a b : name_eqb a b = true -> a = b.
Proof. unfold name_eqb. destruct (list_eq_dec Z.eq_dec a b); congruence. Qed.

Lemma as_index_some n i : as_index n = Some (Some i) -> numeral 10 i n /\ 0 <= i < 4294967295.
Proof.
  unfold as_index. destruct n as [|c n]; [discriminate|]. destruct (dec_digit c) eqn:D; [|destruct (_ || _); discriminate].
  destruct (name_eqb _ _ && _) eqn:E; [|discriminate]. intros [= <-]. apply andb_prop in E. destruct E as [E1 E2]. apply name_eqb_same in E1.
  assert (0 <= dec_value (c :: n)).
  { destruct (Z_lt_le_dec (dec_value (c :: n)) 0) as [Hn|]; [|assumption]. exfalso.
    assert (Q : dec_name (dec_value (c :: n)) = [48 + dec_value (c :: n)]) by (unfold dec_name; cbn [digits10]; replace (_ <? 10) with true by lia; reflexivity).
    rewrite Q in E1. assert (48 + dec_value (c :: n) = c) by congruence. unfold dec_digit in D. lia. }
  split; [|lia]. rewrite <- E1 at 2. apply dec_name_num. lia.
Qed.
Lemma as_index_none n i : as_index n = Some None -> ~ index_text n i.
Proof.
  unfold as_index. intros H (sp & sg & ds & E & Fs & (D0 & Dd) & Hg & _).
  assert (Hd : exists c r, n = c :: r /\ (blank c \/ c = 43 \/ c = 45 \/ 48 <= c <= 57)).
  { destruct sp as [|x sp]; [|exists x, (sp ++ sg ++ ds); split; [exact E|left; exact (Forall_inv Fs)]].
    cbn [app] in E. destruct Hg as [->|[-> | ->]]; cbn [app] in E.
    - destruct ds as [|d ds]; [congruence|]. exists d, ds. split; [exact E|]. pose proof (Forall_inv Dd) as X. cbn beta in X. lia.
    - eexists _, _. split; [exact E|lia].
    - eexists _, _. split; [exact E|lia]. }
  destruct Hd as (c & r & -> & Hc). unfold dec_digit, blank in *. revert H.
  destruct ((48 <=? c) && (c <=? 57)) eqn:Q; [destruct (name_eqb _ _ && _); intros X; discriminate X|].
  destruct ((c =? 32) || (9 <=? c) && (c <=? 13) || (c =? 43) || (c =? 45)) eqn:Q2; [intros X; discriminate X|]. intros _. lia.
Qed.
Section Lens.
Context (cd : code) (ext : extmem).
Notation vrep := (vrep cd ext). Notation rel := (rel cd ext).
Lemma len_of_ok W mp c L : Forall2 (entry_is cd ext W) mp c -> len_of c = Some L ->
  0 <= L <= 4294967295 /\ (forall n w j, In (n, w) mp -> index_text n j -> j < 4294967295 -> j < L) /\
  (L = 0 \/ exists n w, In (n, w) mp /\ index_text n (L - 1) /\ L - 1 < 4294967295).
Proof.
  intros F. revert L. induction F as [|[k x] [k' y] mp c [E _] F IH]; intros L H.
  - injection H as <-. split; [lia|]. split; [intros n w j []|left; reflexivity].
  - cbn [fst snd] in E. subst k'. cbn [len_of] in H. destruct (len_of c) as [l|]; [|discriminate H]. destruct (as_index k) as [o|] eqn:Ei; [|discriminate H]. injection H as <-.
    destruct (IH l eq_refl) as (I1 & I2 & I3). destruct o as [i|].
    + destruct (as_index_some _ _ Ei) as [Hn Hi]. pose proof (numeral_index i k i Hn ltac:(lia)) as [_ Q]. specialize (Q eq_refl).
      split; [lia|]. split.
      * intros n w j [Hin|Hin] Hx Hj; [|specialize (I2 n w j Hin Hx Hj); lia]. injection Hin as <- <-. apply (numeral_index i k j Hn ltac:(lia)) in Hx. lia.
      * destruct (Z.max_spec l (i + 1)) as [[Hm ->]|[Hm ->]].
        -- right. exists k, x. split; [left; reflexivity|]. replace (i + 1 - 1) with i by lia. split; [exact Q|lia].
        -- destruct I3 as [->|(n & w & Hin & Hx)]; [lia|]. right. exists n, w. split; [right; exact Hin|exact Hx].
    + split; [exact I1|]. split.
      * intros n w j [Hin|Hin] Hx Hj; [|exact (I2 n w j Hin Hx Hj)]. injection Hin as <- <-. destruct (as_index_none _ j Ei Hx).
      * destruct I3 as [->|(n & w & Hin & Hx)]; [left; reflexivity|]. right. exists n, w. split; [right; exact Hin|exact Hx].
Qed.
Lemma arr_len_ok W s i ov L : rel W s -> (ov = obj_at W i \/ ov = arr_at W i) -> arr_len s i = Some L ->
  array_length (w_heap W) ext ov = OK L /\ 0 <= L <= 4294967295.
Proof.
  intros Rl Ho E. unfold arr_len in E. destruct (nth_error (objs s) i) as [c|] eqn:Ec; [|discriminate E].
  pose proof Rl as (Hr & _ & F & _). destruct (Forall2_nth _ _ _ 0 i c F Ec) as [(mp & Em & Fe) Hi].
  destruct (obj_refers cd ext W s i Rl Hi) as (R1 & R2 & _).
  assert (Rf : refers ov (nth i (w_addr W) 0)) by (destruct Ho as [-> | ->]; assumption).
  destruct (array_length_spec _ _ _ _ _ _ Hr Em Rf) as (L' & E' & A0 & A1 & A2). destruct (len_of_ok W mp c L Fe E) as (B0 & B1 & B2).
  split; [|exact B0]. rewrite E'. f_equal.
  assert (L' <= L).
  { destruct A2 as [->|(n & w & Hin & Hx & Hl)]; [lia|]. specialize (B1 n w _ Hin Hx Hl). lia. }
  assert (L <= L').
  { destruct B2 as [->|(n & w & Hin & Hx & Hl)]; [lia|]. specialize (A1 n w _ Hin Hx Hl). lia. }
  lia.
Qed.

(** ** Keys *)
(** The value [key] denotes the name [n]. *)
Definition key_of (st : strs) (key : Z) (n : list Z) : Prop :=
  to_string st ext key = OK (Some n) /\ (is_string key = true -> name_of st ext key n).
Lemma key_name_of st key n : name_of st ext key n -> key_of st key n.
Proof. intros H. split; [exact (to_string_holds _ _ _ _ (proj1 H))|intros _; exact H]. Qed.
Lemma key_index_int k i : key_index k = Some i -> k = VPrim (ANum (of_int i)) /\ 0 <= i < 2 ^ 31.
Proof.
  unfold key_index. destruct k as [[p| | | |]| | | |]; try discriminate. destruct (int32_part p) as [j|] eqn:Ej; [|discriminate].
  destruct ((0 <=? j) && (p =? of_int j)) eqn:E; [|discriminate]. intros [= <-]. unfold int32_part in Ej. destruct (int_part p) as [j'|]; [|discriminate Ej].
  unfold within in Ej. destruct ((- 2 ^ 31 <=? j') && (j' <=? 2 ^ 31 - 1)) eqn:Q; [|discriminate Ej]. injection Ej as ->. split; [do 2 f_equal; lia|lia].
Qed.
Lemma of_int_value i : - 2 ^ 53 < i < 2 ^ 53 -> int_value (of_int i) i.
Proof. exact (of_Z_int i). Qed.
Lemma key_ok W key k n : vrep W key k -> key_name k = Some n -> good_name n = true /\ key_of (w_st W) key n.
Proof.
  intros V E. unfold key_name in E. destruct k as [[p| | | |t]| | | |]; try discriminate E.
  - destruct (key_index (VPrim (ANum p))) as [i|] eqn:Ei; [|discriminate E]. cbn [option_map] in E. injection E as <-.
    destruct (key_index_int _ _ Ei) as [[= ->] Hi]. split; [apply dec_name_good; lia|]. destruct V as (-> & U & N).
    destruct (int_to_string (w_st W) ext (of_int i) i (of_int_value i ltac:(lia)) ltac:(lia)) as (t & Et & Nt).
    rewrite (numeral_unique 10 i _ _ ltac:(lia) (dec_name_num i ltac:(lia)) Nt). split; [exact Et|]. intros Hs. exfalso.
    destruct (preds_kind (of_int i) U) as (P3 & _ & _ & _ & P4 & _). rewrite P4 in Hs. rewrite P3 in N. destruct (kind_of (of_int i)); cbn in *; congruence.
  - destruct (good_name t) eqn:G; [|discriminate E]. injection E as <-. split; [exact G|]. apply key_name_of, V.
Qed.
Lemma text_key_name k n : text_key k = Some n -> k = VPrim (AStr n) /\ good_name n = true.
Proof. unfold text_key. destruct k as [[| | | |t]| | | |]; try discriminate. destruct (good_name t) eqn:G; [|discriminate]. intros [= <-]. split; [reflexivity|exact G]. Qed.

(** Prototype chains, by the name of a key. *)
Lemma proto_step_key h M key n v o m fuel : hrep h ext M -> to_string (h_st h) ext key = OK (Some n) -> bytes_ok n -> zlen n < 2 ^ 31 ->
  zlen (so (h_st h)) < 2 ^ 48 -> M o = Some m -> refers v o ->
  get_v_proto (S fuel) h ext v key =
    match lookup m n with
    | Some x => OK x
    | None => match lookup m proto_name with None => OK V_UNDEFINED | Some pv => get_v_proto fuel h ext pv key end
    end.
Proof.
  intros Hrep Hk Nn Ln Hs HM Hr. cbn [get_v_proto]. unfold own_property_v at 1. rewrite Hk. cbn [bind].
  destruct (own_property_spec' h ext M v o m n Hrep HM Hr Nn Ln Hs) as (a & -> & Q). cbn [bind].
  destruct (lookup m n) as [x|].
  - destruct Q as (Q1 & c & Q2 & Q3). replace (a =? 0) with false by lia. cbn [negb]. rewrite Q2. cbn [bind]. congruence.
  - subst a. change (0 =? 0) with true. cbn [negb]. rewrite proto_value. cbn [bind].
    assert (Hp : holds (h_st h) ext (65526 * 2 ^ 48 + le_val (3 :: proto_name)) proto_name).
    { destruct (mk_string_holds (h_st h) ext proto_name bytes_proto Hs ltac:(vm_compute; reflexivity)) as (s & w & E & Hh & _).
      rewrite proto_value in E. injection E as <- <-. exact Hh. }
    unfold own_property_v. rewrite (to_string_holds _ _ _ _ Hp). cbn [bind].
    destruct (own_property_spec' h ext M v o m proto_name Hrep HM Hr bytes_proto ltac:(vm_compute; reflexivity) Hs) as (a & -> & Q). cbn [bind].
    destruct (lookup m proto_name) as [pv|].
    + destruct Q as (Q1 & c & Q2 & Q3). replace (a =? 0) with false by lia. rewrite Q2. cbn [bind]. congruence.
    + subst a. reflexivity.
Qed.
End Lens.

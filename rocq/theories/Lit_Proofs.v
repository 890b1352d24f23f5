(** Number literals are read as the doubles they denote. *)
From Verif Require Import Base BaseFacts Value_Model Str_Model Str_Spec Ops_Model TokNum_Model Num_Model Txt_Model Tok_Spec Tok_Model
  Float_Proofs Ops_Spec Ops_Proofs NumText_Spec NumText_Proofs Parse_Model Expr_Spec Expr_Proofs Json_Proofs8.
Ltac Zify.zify_post_hook ::= Z.div_mod_to_equations.

Lemma stop_digit q : num_stop q -> forall c r, q = c :: r -> ~ 48 <= c <= 57.
Proof. intros H c r -> K. destruct H as [H _]. apply H. right. exact K. Qed.
Lemma stop_cons c q : num_stop (c :: q) -> c <> 46 /\ ~ 48 <= c <= 57 /\ ~ 97 <= c <= 122 /\ ~ 65 <= c <= 90.
Proof. intros [H ?]. unfold ident_char, letter in H. lia. Qed.
Lemma skipn_len {A} (a b : list A) : skipn (length a) (a ++ b) = b.
Proof. rewrite skipn_app, skipn_all, Nat.sub_diag. reflexivity. Qed.

Lemma exp_stop eo e q : exponent eo e -> num_stop q -> exp_part 101 69 (eo ++ q) = (e, length eo).
Proof.
  intros H Q. destruct H as [[-> ->]|(ec & sg & ep & He & [N F] & -> & S)].
  - cbn [app length]. destruct q as [|c q]; [reflexivity|]. destruct (stop_cons _ _ Q). cbn [exp_part].
    replace ((c =? 101) || (c =? 69)) with false by lia. reflexivity.
  - cbn [app exp_part]. replace ((ec =? 101) || (ec =? 69)) with true by lia. rewrite <- app_assoc.
    assert (R : dec_run (ep ++ q) 0 0 = (digits_val ep, length ep)) by (rewrite (dec_run_digits ep q F (stop_digit q Q)); reflexivity).
    destruct ep as [|x ep]; [congruence|]. pose proof (Forall_inv F) as Hx. cbn beta in Hx.
    destruct S as [[-> ->]|[[-> ->]|[-> ->]]]; cbn [app].
    + replace (x =? 45) with false by lia. replace (x =? 43) with false by lia. cbn [app] in R. rewrite R. reflexivity.
    + replace (43 =? 45) with false by lia. replace (43 =? 43) with true by lia. cbn [app] in R. rewrite R. reflexivity.
    + replace (45 =? 45) with true by lia. cbn [app] in R. rewrite R. reflexivity.
Qed.
(** What follows the digits does not continue them. *)
Lemma exp_head eo e q : exponent eo e -> num_stop q -> forall c r, eo ++ q = c :: r -> ~ 48 <= c <= 57 /\ c <> 46 /\ c <> 120 /\ c <> 88.
Proof.
  intros H Q c r E. destruct H as [[-> ->]|(ec & sg & ep & He & _ & -> & S)].
  - cbn [app] in E. subst q. destruct (stop_cons _ _ Q). lia.
  - cbn [app] in E. injection E as <- _. lia.
Qed.
Lemma strtod_dec_lit ip fo fr eo e q : digits_ok ip -> (fo = [] /\ fr = [] \/ fo = 46 :: fr /\ digits fr) -> exponent eo e -> num_stop q ->
  strtod_dec ((ip ++ fo ++ eo) ++ q) = (scale10 (digits_val (ip ++ fr)) (e - zlen fr), length (ip ++ fo ++ eo)).
Proof.
  intros [N D] F E Q. pose proof (exp_head eo e q E Q) as EH. unfold strtod_dec. rewrite <- !app_assoc.
  rewrite (dec_run_digits ip); [|exact D|]. 2:{ intros c r H. destruct F as [[-> _]|[-> _]]; [apply (EH c r H)|injection H as <- _; lia]. }
  cbn [Nat.add]. rewrite skipn_len. destruct F as [[-> ->]|(-> & Df)].
  - cbn [app]. assert (X : match eo ++ q with c :: r => if c =? 46 then let '(m1, d) := dec_run r (fold_left (fun a c => a * 10 + (c - 48)) ip 0) 0 in (m1, (length ip + 1 + d)%nat, d)
      else (fold_left (fun a c => a * 10 + (c - 48)) ip 0, length ip, 0%nat) | [] => (fold_left (fun a c => a * 10 + (c - 48)) ip 0, length ip, 0%nat) end
      = (fold_left (fun a c => a * 10 + (c - 48)) ip 0, length ip, 0%nat)).
    { destruct (eo ++ q) as [|c r]; [reflexivity|]. replace (c =? 46) with false; [reflexivity|]. symmetry. apply Z.eqb_neq. apply (EH c r eq_refl). }
    rewrite X, skipn_len, (exp_stop eo e q E Q), !app_nil_r, app_length. unfold digits_val, zlen. reflexivity.
  - cbn [app]. cbn [Z.eqb Pos.eqb]. rewrite (dec_run_digits fr (eo ++ q) Df) by (intros c r H; apply (EH c r H)). cbn [Nat.add].
    replace (skipn (length ip + 1 + length fr) (ip ++ 46 :: fr ++ eo ++ q)) with (eo ++ q).
    2:{ replace (length ip + 1 + length fr)%nat with (length (ip ++ 46 :: fr)) by (rewrite app_length; cbn [length]; lia).
        replace (ip ++ 46 :: fr ++ eo ++ q) with ((ip ++ 46 :: fr) ++ (eo ++ q)) by (rewrite <- app_assoc; reflexivity). rewrite skipn_len. reflexivity. }
    rewrite (exp_stop eo e q E Q). unfold digits_val. rewrite fold_left_app. unfold zlen. apply f_equal2; [reflexivity|].
    rewrite !app_length. cbn [length]. rewrite app_length. lia.
Qed.
(** The second character of a decimal literal, or what follows it. *)
Lemma dec_second ip fo fr eo e q z x y : digits_ok ip -> (fo = [] /\ fr = [] \/ fo = 46 :: fr /\ digits fr) -> exponent eo e -> num_stop q ->
  (ip ++ fo ++ eo) ++ q = z :: x :: y -> x <> 120 /\ x <> 88.
Proof.
  intros [N D] F E Q H. destruct ip as [|z' ip]; [congruence|]. rewrite <- !app_assoc in H. cbn [app] in H. assert (H' : ip ++ fo ++ eo ++ q = x :: y) by congruence. clear H.
  destruct ip as [|x' ip]; cbn [app] in H'.
  - destruct F as [[-> ->]|[-> _]]; cbn [app] in H'; [apply (exp_head eo e q E Q x y H')|injection H' as <- _; lia].
  - injection H' as <- _. apply Forall_inv_tail, Forall_inv in D. cbn beta in D. lia.
Qed.
Lemma strtod_lit ip fo fr eo e q : digits_ok ip -> (fo = [] /\ fr = [] \/ fo = 46 :: fr /\ digits fr) -> exponent eo e -> num_stop q ->
  strtod ((ip ++ fo ++ eo) ++ q) = (scale10 (digits_val (ip ++ fr)) (e - zlen fr), length (ip ++ fo ++ eo)).
Proof.
  intros D F E Q. rewrite <- (strtod_dec_lit ip fo fr eo e q D F E Q). unfold strtod.
  destruct ((ip ++ fo ++ eo) ++ q) as [|z [|x [|y r]]] eqn:H; try reflexivity.
  destruct (dec_second _ _ _ _ _ _ _ _ _ D F E Q H). replace ((x =? 120) || (x =? 88)) with false by lia. rewrite andb_false_r. reflexivity.
Qed.

(** Hexadecimal. *)
Lemma hex_same c : hex_digit c = hex_val c. Proof. reflexivity. Qed.
Lemma hex_stop c q : num_stop (c :: q) -> hex_val c = None.
Proof. intros H. destruct (stop_cons _ _ H) as (? & ? & ? & ?). unfold hex_val, within. replace ((48 <=? c) && (c <=? 57)) with false by lia.
  replace ((97 <=? c) && (c <=? 102)) with false by lia. replace ((65 <=? c) && (c <=? 70)) with false by lia. reflexivity. Qed.
Lemma hex_run_lit hs q : Forall (fun c => hex_val c <> None) hs -> num_stop q -> forall acc k,
  hex_run (hs ++ q) acc k = (fold_left (fun a c => a * 16 + match hex_val c with Some d => d | None => 0 end) hs acc, (k + length hs)%nat).
Proof.
  intros F Q. induction F as [|c hs Hc F IH]; intros acc k; cbn [app length fold_left].
  - rewrite Nat.add_0_r. destruct q as [|c q]; [reflexivity|]. cbn [hex_run]. rewrite hex_same, (hex_stop c q Q). reflexivity.
  - cbn [hex_run]. rewrite hex_same. destruct (hex_val c); [|congruence]. rewrite IH. f_equal. lia.
Qed.
Lemma hex_range c : hex_val c <> None -> 48 <= c <= 57 \/ 97 <= c <= 102 \/ 65 <= c <= 70.
Proof. unfold hex_val, within. intros H. repeat match type of H with context [if ?b then _ else _] => destruct b eqn:?; [lia|] end. congruence. Qed.
Lemma hexs_nonneg hs : Forall (fun c => hex_val c <> None) hs -> 0 <= hexs_val hs.
Proof.
  intros F. unfold hexs_val. enough (G : forall acc, 0 <= acc -> 0 <= fold_left (fun a c => a * 16 + match hex_val c with Some d => d | None => 0 end) hs acc) by (apply G; lia).
  induction F as [|c hs Hc F IH]; intros acc Ha; [exact Ha|]. cbn [fold_left]. apply IH. pose proof (hex_range c Hc) as R.
  assert (0 <= match hex_val c with Some d => d | None => 0 end); [|lia]. unfold hex_val, within. destruct ((48 <=? c) && (c <=? 57)) eqn:?; [lia|].
  destruct ((97 <=? c) && (c <=? 102)) eqn:?; [lia|]. destruct ((65 <=? c) && (c <=? 70)) eqn:?; lia.
Qed.
Lemma strtoul16_lit hs q : hs <> [] -> Forall (fun c => hex_val c <> None) hs -> hexs_val hs < 2 ^ 64 -> num_stop q ->
  strtoul16 (hs ++ q) = (hexs_val hs, length hs).
Proof.
  intros N F B Q. destruct hs as [|c hs]; [congruence|]. pose proof (hex_range c (Forall_inv F)) as Hc.
  assert (Sp : is_space c = false) by (unfold is_space; lia).
  unfold strtoul16. cbn [app strtoul16_at]. rewrite Sp. replace (c =? 45) with false by lia. replace (c =? 43) with false by lia.
  change (c :: hs ++ q) with ((c :: hs) ++ q). set (txt := (c :: hs) ++ q).
  assert (G : (let '(n, d) := hex_run txt 0 0 in match d with O => (0, 0%nat) | _ => (ul_value false n, (0 + d)%nat) end) = (hexs_val (c :: hs), length (c :: hs))).
  { unfold txt. rewrite (hex_run_lit (c :: hs) q F Q). cbn [Nat.add length]. fold (hexs_val (c :: hs)). unfold ul_value. replace (hexs_val (c :: hs) <? 2 ^ 64) with true by lia. reflexivity. }
  unfold ul16_digits. destruct txt as [|z [|x [|y r]]] eqn:H; try exact G.
  replace ((z =? 48) && ((x =? 120) || (x =? 88))) with false; [exact G|]. symmetry. apply andb_false_iff. right.
  unfold txt in H. cbn [app] in H. assert (H' : hs ++ q = x :: y :: r) by congruence. destruct hs as [|x' hs]; cbn [app] in H'.
  - subst q. destruct (stop_cons _ _ Q). lia.
  - injection H' as <- _. pose proof (hex_range x' (Forall_inv (Forall_inv_tail F))). lia.
Qed.

(** * What the tokenizer and the parser make of a literal *)
Lemma literal_head txt p : literal txt p -> exists c w, txt = c :: w /\ 48 <= c <= 57.
Proof.
  intros [ip fo fr eo e [N D] _ _|hs _ _ _]; [|eexists _, _; split; [reflexivity|lia]].
  destruct ip as [|c ip]; [congruence|]. eexists c, _. split; [reflexivity|]. exact (Forall_inv D).
Qed.
Lemma getnum_lit txt p q : literal txt p -> num_end txt q -> getnum (txt ++ q) = OK (length txt).
Proof.
  intros L [Q E]. destruct L as [ip fo fr eo e D F X|hs N F B].
  - pose proof (fun z x y => dec_second ip fo fr eo e q z x y D F X Q) as Sx. pose proof (strtod_lit ip fo fr eo e q D F X Q) as St.
    set (txt := ip ++ fo ++ eo) in *.
    assert (L2 : exists z x y, txt ++ q = z :: x :: y).
    { assert (2 <= zlen (txt ++ q)).
      { rewrite zlen_app. destruct q as [|c q]; [specialize (E eq_refl); change (zlen []) with 0; lia|].
        destruct D as [N _]. destruct ip as [|z ip]; [congruence|]. rewrite zlen_cons. unfold txt. cbn [app]. rewrite zlen_cons. pose proof (zlen_nonneg q). pose proof (zlen_nonneg (ip ++ fo ++ eo)). lia. }
      destruct (txt ++ q) as [|z [|x y]]; [change (zlen []) with 0 in *; lia|change (zlen [z]) with 1 in *; lia|]. eauto. }
    destruct L2 as (z & x & y & E2). destruct (Sx z x y E2) as [Sx1 _]. rewrite E2 in *. unfold getnum, pk. cbn [nth_error bind].
    replace (x =? 120) with false by lia. destruct (z =? 48); cbn [bind]; rewrite St; reflexivity.
  - unfold getnum, pk. cbn [app nth_error bind Z.eqb Pos.eqb]. cbn [skipn]. rewrite (strtoul16_lit hs q N F B Q). cbn [snd length]. reflexivity.
Qed.
Lemma num_literal_lit txt p q : literal txt p -> num_end txt q -> num_literal (txt ++ q) = OK p.
Proof.
  intros L [Q E]. assert (L2 : (length (txt ++ q) <? 2)%nat = false).
  { apply Nat.ltb_ge. rewrite app_length. destruct (literal_head _ _ L) as (c & w & -> & _). destruct q as [|d q]; cbn [length]; [|lia].
    specialize (E eq_refl). unfold zlen in E. cbn [length] in E. lia. }
  unfold num_literal. rewrite L2. destruct L as [ip fo fr eo e D F X|hs N F B].
  - destruct ((ip ++ fo ++ eo) ++ q) as [|z [|x y]] eqn:H; [discriminate L2|discriminate L2|].
    destruct (dec_second _ _ _ _ _ _ _ _ _ D F X Q H). replace (x =? 120) with false by lia. rewrite andb_false_r.
    rewrite <- H, (strtod_lit ip fo fr eo e q D F X Q). reflexivity.
  - cbn [app Z.eqb Pos.eqb andb skipn]. rewrite (strtoul16_lit hs q N F B Q). reflexivity.
Qed.
Lemma whole_is p n : whole p n -> is_whole p = true.
Proof.
  intros W. unfold is_whole. destruct W as [v s E|v s m e n E He ->|v s m e n E He Q]; rewrite E; [reflexivity| |].
  - replace (0 <=? e) with true by lia. reflexivity.
  - rewrite <- Q, Z.mod_mul by (apply Z.pow_nonzero; lia). apply orb_true_r.
Qed.
Lemma whole_int p n : whole p n -> - 2 ^ 63 <= n < 2 ^ 63 -> is_whole p = true /\ to_i64 p = OK n.
Proof.
  intros W B. split; [exact (whole_is _ _ W)|].
  unfold to_i64, d_to_range. rewrite (whole_trunc _ _ W). replace ((- 2 ^ 63 <=? n) && (n <=? 2 ^ 63 - 1)) with true by lia. reflexivity.
Qed.
Lemma not_whole p s m e : d_dec p = S754_finite s m e -> (forall n, ~ whole p n) -> is_whole p = false.
Proof.
  intros E N. destruct (is_whole p) eqn:W; [|reflexivity]. unfold is_whole in W. rewrite E in W.
  destruct (finite_whole p s m e E) as (n & K); [lia|]. destruct (N n K).
Qed.
(** The double of a literal is a number of the engine. *)
Definition plain (f : spec_float) : Prop :=
  match f with S754_zero s | S754_infinity s | S754_finite s _ _ => s = false | S754_nan => True end.
Lemma round_aux_plain m e l : plain (binary_round_aux 53 1024 false m e l).
Proof.
  unfold binary_round_aux. destruct (shr_fexp 53 1024 m e l) as [r1 e1]. destruct (shr_fexp 53 1024 _ e1 _) as [r2 e2].
  destruct (shr_m r2); [reflexivity| |exact I]. destruct (Zle_bool _ _); reflexivity.
Qed.
Lemma round_ratio_valid num den : 0 <= num -> 0 < den -> exists f, valid_binary 53 1024 f = true /\ plain f /\ round_ratio num den = d_enc f.
Proof.
  intros Hn Hd. unfold round_ratio. destruct (num =? 0) eqn:E0; [exists (S754_zero false); repeat split; reflexivity|].
  set (k := Z.max 0 (64 + Z.log2 den - Z.log2 num)). cbv zeta. eexists. split; [|split; [apply round_aux_plain|reflexivity]].
  assert (P : 0 < 2 ^ k) by (apply Z.pow_pos_nonneg; lia).
  assert (Q64 : 2 ^ 63 <= num * 2 ^ k / den).
  { apply Z.div_le_lower_bound; [lia|].
    pose proof (Z.log2_spec num ltac:(lia)) as [L1 _]. pose proof (Z.log2_spec den ltac:(lia)) as [_ L2].
    pose proof (Z.log2_nonneg num). pose proof (Z.log2_nonneg den).
    assert (HP : 2 ^ (63 + Z.succ (Z.log2 den)) <= 2 ^ (Z.log2 num + k)) by (apply Z.pow_le_mono_r; lia).
    rewrite !Z.pow_add_r in HP by lia.
    assert (2 ^ Z.log2 num * 2 ^ k <= num * 2 ^ k) by (apply Z.mul_le_mono_nonneg_r; lia).
    assert (den * 2 ^ 63 <= 2 ^ 63 * 2 ^ Z.succ (Z.log2 den)) by (rewrite Z.mul_comm; apply Z.mul_le_mono_nonneg_l; lia). lia. }
  apply round_aux_valid; [lia|]. pose proof (Zdigits2_ge (num * 2 ^ k / den) 63 ltac:(lia) Q64). unfold fexp, emin. lia.
Qed.
Lemma literal_valid txt p : literal txt p -> exists f, valid_binary 53 1024 f = true /\ plain f /\ p = d_enc f.
Proof.
  intros [ip fo fr eo e [N D] F X|hs N F B].
  - assert (Dr : digits (ip ++ fr)). { apply Forall_app. split; [exact D|]. destruct F as [[_ ->]|[_ F]]; [constructor|exact F]. }
    pose proof (digits_val_nonneg _ Dr). unfold scale10. destruct (0 <=? e - zlen fr) eqn:E.
    + apply round_ratio_valid; [|lia]. apply Z.mul_nonneg_nonneg; [assumption|]. apply Z.pow_nonneg. lia.
    + apply round_ratio_valid; [assumption|]. apply Z.pow_pos_nonneg; lia.
  - eexists. split; [apply normalize_valid|]. split; [|reflexivity].
    pose proof (hexs_nonneg hs F) as H.
    destruct (hexs_val hs) as [|k|k]; [reflexivity| |lia]. cbn [binary_normalize]. unfold binary_round. destruct (shl_align _ _ _). apply round_aux_plain.
Qed.
Lemma literal_number txt p : literal txt p -> is_u64 p /\ is_number p = true /\ mk_number p = p.
Proof.
  intros L. destruct (literal_valid _ _ L) as (f & V & _ & ->). destruct (enc_number f V). split; [apply enc_u64; exact V|]. split; assumption.
Qed.
(** An integral double is the double nearest to its value. *)
Lemma whole_of_int txt p n : literal txt p -> whole p n -> of_int n = p.
Proof.
  intros L W. destruct (literal_valid _ _ L) as (f & V & Pl & ->). pose proof (dec_enc f V) as DE. unfold of_int. f_equal.
  assert (Pos : forall m e, f = S754_finite false m e -> forall n, 0 < n ->
    (0 <= e /\ n = Z.pos m * 2 ^ e \/ e < 0 /\ n * 2 ^ (- e) = Z.pos m) -> binary_normalize 53 1024 n 0 false = f).
  { intros m e -> k Hk Hv. cbn [valid_binary] in V. destruct (bounded_fexp m e V) as [F1 F2].
    destruct k as [|k|k]; [lia| |lia]. cbn [binary_normalize]. unfold binary_round.
    assert (D : Z.pos (digits2_pos k) + 0 = Z.pos (digits2_pos m) + e).
    { destruct (Zdigits2_bounds (Z.pos m) ltac:(lia)) as (B0 & B1 & B2). cbn [Zdigits2] in B0, B1, B2.
      destruct (Zdigits2_bounds (Z.pos k) ltac:(lia)) as (C0 & C1 & C2). cbn [Zdigits2] in C0, C1, C2. rewrite Z.add_0_r.
      destruct Hv as [[He Q]|[He Q]].
      - apply (Zdigits2_unique (Z.pos k)); [lia|]. rewrite Q. replace (Z.pos (digits2_pos m) + e - 1) with (Z.pos (digits2_pos m) - 1 + e) by lia.
        rewrite !Z.pow_add_r by lia. assert (0 < 2 ^ e) by (apply Z.pow_pos_nonneg; lia). nia.
      - enough (Z.pos (digits2_pos m) = Z.pos (digits2_pos k) + - e) by lia. apply (Zdigits2_unique (Z.pos m)); [lia|]. rewrite <- Q.
        replace (Z.pos (digits2_pos k) + - e - 1) with (Z.pos (digits2_pos k) - 1 + - e) by lia.
        rewrite !Z.pow_add_r by lia. assert (0 < 2 ^ (- e)) by (apply Z.pow_pos_nonneg; lia). nia. }
    rewrite D, F1. unfold shl_align. rewrite Z.sub_0_r. destruct e as [|e|e].
    - destruct Hv as [[_ Q]|[? _]]; [|lia]. rewrite Z.pow_0_r, Z.mul_1_r in Q. rewrite Q. apply round_aux_canonical; assumption.
    - destruct Hv as [[_ Q]|[? _]]; [|lia]. rewrite Q. rewrite <- (Z.sub_diag (Z.pos e)). apply round_aux_exact; assumption || lia.
    - destruct Hv as [[? _]|[_ Q]]; [lia|]. rewrite shift_pos_correct, Zpower_pos_nat, Zpower_nat_Z, positive_nat_Z.
      cbn [Z.opp] in Q. rewrite Z.mul_comm, Q. apply round_aux_canonical; assumption. }
  inversion W as [v s E|v s m e n' E He Q|v s m e n' E He Q]; subst v; rewrite DE in E; rewrite E in Pl; cbn [plain] in Pl; subst s.
  - rewrite E. reflexivity.
  - apply (Pos m e E); [|left; split; assumption]. subst n'. assert (0 < 2 ^ e) by (apply Z.pow_pos_nonneg; lia). lia.
  - apply (Pos m e E); [|right; split; assumption]. assert (0 < 2 ^ (- e)) by (apply Z.pow_pos_nonneg; lia). nia.
Qed.
Lemma whole_nonneg txt p n : literal txt p -> whole p n -> 0 <= n.
Proof.
  intros L W. destruct (literal_valid _ _ L) as (f & V & Pl & ->). pose proof (dec_enc f V) as DE.
  inversion W as [v s E|v s m e n' E He Q|v s m e n' E He Q]; subst v; rewrite DE in E; rewrite E in Pl; cbn [plain] in Pl; subst s.
  - lia.
  - subst n'. assert (0 < 2 ^ e) by (apply Z.pow_pos_nonneg; lia). lia.
  - assert (0 < 2 ^ (- e)) by (apply Z.pow_pos_nonneg; lia). nia.
Qed.
(** Fractions are not hexadecimal, so that strtod reads them again when the code runs. *)
Lemma round_aux_exp s m e l : 0 <= m -> match binary_round_aux 53 1024 s m e l with S754_finite _ _ e' => e <= e' | _ => True end.
Proof.
  intros Hm. unfold binary_round_aux. destruct (shr_fexp 53 1024 m e l) as [r1 e1] eqn:E1.
  pose proof (shr_fexp_spec m e l Hm) as [S1 S2]. rewrite E1 in S1, S2. cbn [fst snd] in S1, S2.
  assert (Pk : 0 < 2 ^ Z.max 0 (fexp64 (Zdigits2 m + e) - e)) by (apply Z.pow_pos_nonneg; lia).
  assert (H1 : 0 <= shr_m r1) by (rewrite S1; apply Z.div_pos; lia).
  set (m1 := round_nearest_even (shr_m r1) (loc_of_shr_record r1)).
  assert (Hm1 : 0 <= m1) by (destruct (round_even_cases (shr_m r1) (loc_of_shr_record r1)) as [Q|Q]; unfold m1; rewrite Q; lia).
  destruct (shr_fexp 53 1024 m1 e1 loc_Exact) as [r2 e2] eqn:E2.
  pose proof (shr_fexp_spec m1 e1 loc_Exact Hm1) as [_ T2]. rewrite E2 in T2. cbn [fst snd] in T2.
  destruct (shr_m r2); [exact I| |exact I]. destruct (Zle_bool e2 (1024 - 53)); [lia|exact I].
Qed.
Lemma int_whole n s m e : 0 <= n -> d_dec (of_int n) = S754_finite s m e -> exists k, whole (of_int n) k.
Proof.
  intros Hn E. apply (finite_whole _ _ _ _ E). unfold of_int in E. rewrite dec_enc in E by apply normalize_valid.
  destruct n as [|k|k]; [discriminate E| |lia]. cbn [binary_normalize] in E.
  destruct (Z_lt_dec (Z.pos k) (2 ^ 53)) as [L|L].
  - right. pose proof (sf_of_Z (Z.pos k) ltac:(lia)) as Q. cbn [binary_normalize] in Q. unfold sf_int in Q. rewrite Q in E. injection E as _ <- <-.
    destruct (canon_facts k ltac:(lia)) as (_ & F2 & F3 & F4). rewrite F3, Z.mod_mul; [reflexivity|]. apply Z.pow_nonzero; lia.
  - left. unfold binary_round in E. pose proof (Zdigits2_ge (Z.pos k) 53 ltac:(lia) ltac:(lia)) as D. cbn [Zdigits2] in D.
    assert (X : shl_align k 0 (fexp64 (Z.pos (digits2_pos k) + 0)) = (k, 0)).
    { unfold shl_align. assert (0 <= fexp64 (Z.pos (digits2_pos k) + 0) - 0) by (unfold fexp, emin; lia).
      destruct (fexp64 (Z.pos (digits2_pos k) + 0) - 0); [reflexivity|reflexivity|lia]. }
    rewrite X in E. pose proof (round_aux_exp false (Z.pos k) 0 loc_Exact ltac:(lia)) as R. rewrite E in R. exact R.
Qed.
Lemma fraction_strtod txt p s m e q : literal txt p -> d_dec p = S754_finite s m e -> (forall n, ~ whole p n) -> num_stop q ->
  fst (strtod (txt ++ q)) = p.
Proof.
  intros [ip fo fr eo x D F X|hs N F B] E NW Q.
  - rewrite (strtod_lit ip fo fr eo x q D F X Q). reflexivity.
  - exfalso. destruct (int_whole (hexs_val hs) s m e (hexs_nonneg hs F) E) as (k & K). exact (NW k K).
Qed.

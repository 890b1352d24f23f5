(** Printing: the pieces of the text of a value, and the buffer they are written to. *)
From Verif Require Import Base BaseFacts Value_Model Value_Spec Value_Proofs Str_Model Str_Spec Str_Proofs SUtil_Model SUtil_Spec SUtil_Proofs
  Conv_Model NumText_Spec NumText_Proofs TokNum_Model Txt_Model Print_Model Print_Spec.
From Coq Require Import ZifyBool.
Ltac Zify.zify_post_hook ::= idtac.

(** ** The text *)
Lemma hex_text_num n : 0 <= n < 2 ^ 64 -> exists t, hex_text n = OK t /\ numeral 16 n t.
Proof.
  intros H. destruct (itoa_digits_spec 16 ltac:(lia) 64 n) as (ds & E & N & _); [|lia|].
  { split; [lia|]. apply Z.lt_le_trans with (2 ^ 64); [lia|]. apply Z.leb_le. vm_compute. reflexivity. }
  unfold hex_text. rewrite E. eexists. split; [reflexivity|exact N].
Qed.

Lemma char_shows c t : 0 <= c < 256 -> byte_shows c t -> concat (char_pieces c) = t.
Proof.
  intros Hc H. unfold char_pieces, isprint. destruct H as [c Hp|c a b _ Hp Ha Hb Hv].
  - replace ((32 <=? c) && (c <=? 126)) with true by lia. reflexivity.
  - replace ((32 <=? c) && (c <=? 126)) with false by lia. cbn [concat app]. rewrite ?app_nil_r.
    destruct Ha as (Ka & Ra), Hb as (Kb & Rb). cbn [num_value] in Hv.
    assert (E1 : c / 16 = digit_of a) by (symmetry; apply Z.div_unique with (digit_of b); lia).
    assert (E2 : c mod 16 = digit_of b) by (symmetry; apply Z.mod_unique with (digit_of a); lia).
    rewrite E1, E2. change (bs "\x") with [92; 120]. cbn [app].
    assert (D : forall x, (48 <= x <= 57) \/ (97 <= x <= 102) -> digit_char (digit_of x) = x).
    { intros x Kx. unfold digit_char, digit_of. destruct (x <? 58) eqn:E.
      - replace (x - 48 <? 10) with true by lia. lia.
      - replace (x - 87 <? 10) with false by lia. lia. }
    rewrite !D by assumption. reflexivity.
Qed.
Lemma chars_show d t : bytes_ok d -> bytes_show d t -> concat (concat (map char_pieces d)) = t.
Proof.
  intros B H. induction H as [|c d t r Hc Hd IH]; [reflexivity|]. inversion_clear B as [|? ? Bc Bd].
  cbn [map concat]. rewrite concat_app, IH by exact Bd. f_equal. apply char_shows; [exact Bc|exact Hc].
Qed.
Lemma byte_shows_total c : 0 <= c < 256 -> exists t, byte_shows c t /\ t <> [].
Proof.
  intros H. destruct (Z_le_gt_dec 32 c) as [L|L]; [destruct (Z_le_gt_dec c 126) as [M|M]|].
  1: { exists [c]. split; [constructor; lia|discriminate]. }
  all: destruct (digit_char_ok 16 (c / 16)) as (A1 & A2); [lia|split; [apply Z.div_pos; lia|apply Z.div_lt_upper_bound; lia]|].
  all: destruct (digit_char_ok 16 (c mod 16)) as (B1 & B2); [lia|apply Z.mod_pos_bound; lia|].
  all: exists [92; 120; digit_char (c / 16); digit_char (c mod 16)]; split; [|discriminate].
  all: constructor; [lia|lia|exact A1|exact B1|]. all: cbn [num_value]; rewrite A2, B2; pose proof (Z.div_mod c 16 ltac:(lia)); lia.
Qed.
Lemma bytes_show_total d : bytes_ok d -> exists t, bytes_show d t.
Proof.
  induction 1 as [|c d Hc Hd IH]; [exists []; constructor|]. destruct IH as (r & Hr).
  destruct (byte_shows_total c Hc) as (t & Ht & _). exists (t ++ r). constructor; assumption.
Qed.

Lemma signed_nat n t : 0 <= n < 2 ^ 63 -> numeral 10 n t -> signed_text n = OK t.
Proof.
  intros H N. destruct (signed_text_num n) as (t' & E & I); [lia|]. rewrite E. f_equal. eapply int_text_unique; [exact I|].
  exists t. split; [rewrite Z.abs_eq by lia; exact N|]. replace (n <? 0) with false by lia. reflexivity.
Qed.
Lemma signed_neg n t : - 2 ^ 63 <= n < 0 -> numeral 10 (- n) t -> signed_text n = OK (45 :: t).
Proof.
  intros H N. destruct (signed_text_num n) as (t' & E & I); [lia|]. rewrite E. f_equal. eapply int_text_unique; [exact I|].
  exists t. split; [rewrite Z.abs_neq by lia; exact N|]. replace (n <? 0) with true by lia. reflexivity.
Qed.

Lemma kind_ffi_range v : is_u64 v -> kind_of v = KFfi -> 2 ^ 63 <= v < 2 ^ 64.
Proof.
  intros U K. destruct (preds_kind v U) as (_ & _ & _ & _ & _ & _ & _ & _ & _ & P). rewrite K in P. cbn [kind_eqb] in P.
  rewrite is_ffi_hi in P by exact U. pose proof (Z.div_mod v (2 ^ 48) ltac:(lia)). pose proof (Z.mod_pos_bound v (2 ^ 48) ltac:(lia)).
  unfold is_u64 in U. lia.
Qed.

(** The pieces make up the text. *)
Lemma jprintf_shows st ext v t : is_u64 v -> shows st ext v t -> exists ps, jprintf st ext v = OK ps /\ concat ps = t.
Proof.
  intros U H. destruct (preds_kind v U) as (P1 & P2 & P3 & P4 & P5 & P6 & P7 & P8 & P9 & P10).
  unfold jprintf. destruct H as [t K N|b ->|d t Hh B S|K|K|p t Hp -> N|n t Hn -> N| -> | -> |t K N].
  - rewrite P1, K. cbn [kind_eqb]. rewrite (num_text_shows v t U N). cbn [bind]. eexists. split; [reflexivity|]. cbn [concat]. apply app_nil_r.
  - destruct (boolean_round_trip b) as (G & K). rewrite P1, P2, K, G. cbn [kind_eqb]. eexists. split; [reflexivity|]. destruct b; reflexivity.
  - assert (K := proj1 (proj2 Hh)). rewrite P1, P2, P5, K. cbn [kind_eqb]. rewrite (holds_str_bytes _ _ _ _ Hh). cbn [bind].
    eexists. split; [reflexivity|]. apply chars_show; assumption.
  - rewrite P1, P2, P5, P7, K. cbn [kind_eqb]. eexists. split; reflexivity.
  - rewrite P1, P2, P5, P7, P6, K. cbn [kind_eqb orb]. eexists. split; reflexivity.
  - destruct (foreign_round_trip p) as (F & _); [unfold is_u64; lia|]. specialize (F ltac:(lia)).
    destruct (mk_foreign p) as [w e] eqn:E. cbn [fst] in *. destruct F as (_ & G & K).
    rewrite P1, P2, P5, P7, P6, P8, K. cbn [kind_eqb orb]. rewrite G. destruct (hex_text_num p) as (t' & Et & N'); [lia|].
    rewrite (numeral_unique 16 p t t' ltac:(lia) N N'). rewrite Et. cbn [bind]. eexists. split; [reflexivity|]. reflexivity.
  - assert (V : mk_function n = n + 65533 * 2 ^ 48) by (apply mk_function_val; lia).
    assert (K : kind_of (mk_function n) = KFunction) by (rewrite V, kind_tagged by lia; reflexivity).
    rewrite P1, P2, P5, P7, P6, P8, P9, K. cbn [kind_eqb orb].
    assert (G : get_func_addr (mk_function n) = n).
    { rewrite V. unfold get_func_addr. rewrite ?untag_mod, ?get_ptr_raw_mod, ?mod_tag by lia. try reflexivity; lia. }
    rewrite G. replace (s32 n) with n by (unfold s32; rewrite Z.mod_small by lia; cbv zeta; replace (n <? 2 ^ 31) with true by lia; reflexivity).
    rewrite (signed_nat n t) by (lia || exact N). cbn [bind]. eexists. split; reflexivity.
  - eexists. split; reflexivity.
  - eexists. split; reflexivity.
  - rewrite P1, P2, P5, P7, P6, P8, P9, P3, P4, K. cbn [kind_eqb orb].
    pose proof (kind_ffi_range v U K) as Rv. replace (s64 v) with (v - 2 ^ 64) by (unfold s64; rewrite Z.mod_small by lia; cbv zeta; replace (v <? 2 ^ 63) with false by lia; reflexivity).
    rewrite (signed_neg (v - 2 ^ 64) t) by (try lia; replace (- (v - 2 ^ 64)) with (2 ^ 64 - v) by lia; exact N). cbn [bind]. eexists. split; reflexivity.
Qed.

(** ** The buffer *)
Lemma list_ext (a : list Z) : forall b, (forall i, nth_error a i = nth_error b i) -> a = b.
Proof.
  induction a as [|x a IH]; intros [|y b] H; [reflexivity|specialize (H O); discriminate|specialize (H O); discriminate|].
  f_equal; [specialize (H O); cbn in H; congruence|]. apply IH. intros i. apply (H (S i)).
Qed.
Lemma ne_firstn (l : list Z) : forall k i, nth_error (firstn k l) i = if (i <? k)%nat then nth_error l i else None.
Proof.
  induction l as [|x l IH]; intros k i.
  - rewrite firstn_nil. destruct (i <? k)%nat; destruct i; reflexivity.
  - destruct k as [|k]; [destruct i; reflexivity|]. destruct i as [|i]; [reflexivity|]. cbn [firstn nth_error]. rewrite IH. reflexivity.
Qed.
Lemma ne_skipn (l : list Z) : forall k i, nth_error (skipn k l) i = nth_error l (k + i).
Proof. induction l as [|x l IH]; intros [|k] i; try reflexivity; [destruct i; reflexivity|]. cbn [skipn Nat.add nth_error]. apply IH. Qed.

Lemma wr_ok mem off d : 0 <= off -> off + zlen d <= zlen mem -> exists mem', wr mem off d = OK mem' /\ zlen mem' = zlen mem /\
  forall i, nth_error mem' i = if (Z.to_nat off <=? i)%nat && (i <? Z.to_nat off + length d)%nat then nth_error d (i - Z.to_nat off) else nth_error mem i.
Proof.
  intros H1 H2. unfold wr. replace ((0 <=? off) && (off + zlen d <=? zlen mem)) with true by lia. eexists. split; [reflexivity|]. unfold zlen in *.
  assert (Lf : length (firstn (Z.to_nat off) mem) = Z.to_nat off) by (rewrite firstn_length; lia). split.
  - rewrite !app_length, Lf, skipn_length. lia.
  - intros i. destruct (le_lt_dec (Z.to_nat off) i) as [L|L].
    + rewrite nth_error_app2 by lia. rewrite Lf. destruct (le_lt_dec (Z.to_nat off + length d) i) as [M|M].
      * rewrite nth_error_app2 by lia. rewrite ne_skipn. replace ((Z.to_nat off <=? i)%nat && (i <? Z.to_nat off + length d)%nat) with false by lia. f_equal. lia.
      * rewrite nth_error_app1 by lia. replace ((Z.to_nat off <=? i)%nat && (i <? Z.to_nat off + length d)%nat) with true by lia. reflexivity.
    + rewrite nth_error_app1 by lia. rewrite ne_firstn. replace (i <? Z.to_nat off)%nat with true by lia.
      replace ((Z.to_nat off <=? i)%nat && (i <? Z.to_nat off + length d)%nat) with false by lia. reflexivity.
Qed.

Section BUF.
  Context (mem0 : list Z) (n : Z).
  Context (Hn : 0 < n) (Hm : n <= zlen mem0).

  (** After the text [q]: everything but the place of the terminator *)
  Let inv (q : list Z) (o : obuf) : Prop :=
    o_size o = n /\ o_len o = Z.min (zlen q) n /\ zlen (o_mem o) = zlen mem0 /\
    forall i, (Z.of_nat i < Z.min (zlen q) (n - 1) -> nth_error (o_mem o) i = nth_error q i) /\
              (Z.of_nat i > Z.min (zlen q) (n - 1) -> nth_error (o_mem o) i = nth_error mem0 i).
  Let ended (q : list Z) (o : obuf) : Prop := nth_error (o_mem o) (Z.to_nat (Z.min (zlen q) (n - 1))) = Some 0.

  Lemma printer_step q o p : inv q o -> exists o', printer_buf o p = OK o' /\ inv (q ++ p) o' /\ ended (q ++ p) o'.
  Proof.
    intros (Is & Il & Im & Ii). unfold printer_buf. rewrite Is, Il. cbv zeta. pose proof (zlen_nonneg p) as Pp. pose proof (zlen_nonneg q) as Pq.
    set (a := Z.min (zlen q) n) in *. set (k := if zlen p <? n - a then zlen p else n - a).
    assert (Hk : 0 <= k <= zlen p /\ a + k <= n /\ a + k = Z.min (zlen (q ++ p)) n).
    { rewrite zlen_app. subst k a. destruct (zlen p <? n - Z.min (zlen q) n) eqn:E; lia. }
    destruct Hk as (K1 & K2 & K3).
    assert (Ld : length (firstn (Z.to_nat k) p) = Z.to_nat k) by (rewrite firstn_length; unfold zlen in K1; lia).
    destruct (wr_ok (o_mem o) a (firstn (Z.to_nat k) p)) as (m1 & E1 & L1 & N1); [subst a; lia|unfold zlen at 1; rewrite Ld, Im; lia|].
    rewrite E1. cbn [bind]. replace (n >? 0) with true by lia.
    set (idx := if a + k >=? n then n - 1 else a + k).
    assert (Hidx : idx = Z.min (zlen (q ++ p)) (n - 1)) by (subst idx; destruct (a + k >=? n) eqn:E; lia).
    destruct (wr_ok m1 idx [0]) as (m2 & E2 & L2 & N2); [rewrite Hidx; pose proof (zlen_nonneg (q ++ p)); lia|rewrite Hidx; change (zlen [0]) with 1; lia|].
    rewrite E2. cbn [bind]. eexists. split; [reflexivity|]. unfold inv, ended. cbn [o_mem o_size o_len]. rewrite <- Hidx.
    assert (Hi0 : 0 <= idx) by (rewrite Hidx; pose proof (zlen_nonneg (q ++ p)); lia).
    split; [split; [reflexivity|split; [lia|split; [lia|]]]|].
    - intros i. rewrite N2. change (length [0]) with 1%nat. rewrite zlen_app in Hidx, K3. split; intros Hi.
      + replace ((Z.to_nat idx <=? i)%nat && (i <? Z.to_nat idx + 1)%nat) with false by lia. rewrite N1, Ld.
        destruct ((Z.to_nat a <=? i)%nat && (i <? Z.to_nat a + Z.to_nat k)%nat) eqn:E.
        * rewrite ne_firstn. replace (i - Z.to_nat a <? Z.to_nat k)%nat with true by lia.
          assert (Ha : a = zlen q) by (subst a; lia). unfold zlen in Ha. rewrite nth_error_app2 by lia. f_equal. lia.
        * assert (Lq : (i < length q)%nat) by (unfold zlen in *; subst a; lia). rewrite nth_error_app1 by exact Lq.
          apply Ii. unfold zlen in *. lia.
      + replace ((Z.to_nat idx <=? i)%nat && (i <? Z.to_nat idx + 1)%nat) with false by lia. rewrite N1, Ld.
        replace ((Z.to_nat a <=? i)%nat && (i <? Z.to_nat a + Z.to_nat k)%nat) with false by lia. apply Ii. lia.
    - rewrite N2. change (length [0]) with 1%nat. replace ((Z.to_nat idx <=? Z.to_nat idx)%nat && (Z.to_nat idx <? Z.to_nat idx + 1)%nat) with true by lia.
      rewrite Nat.sub_diag. reflexivity.
  Qed.

  Lemma print_all_inv ps : forall q o, inv q o -> exists o', print_all o ps = OK o' /\ inv (q ++ concat ps) o' /\ (ps <> [] -> ended (q ++ concat ps) o').
  Proof.
    induction ps as [|p ps IH]; intros q o I; cbn [print_all concat].
    - rewrite app_nil_r. exists o. split; [reflexivity|]. split; [exact I|congruence].
    - destruct (printer_step q o p I) as (o1 & E1 & I1 & T1). rewrite E1. cbn [bind].
      destruct (IH _ _ I1) as (o2 & E2 & I2 & T2). rewrite E2. rewrite <- app_assoc in I2, T2. exists o2. split; [reflexivity|]. split; [exact I2|].
      intros _. destruct ps as [|p2 ps]; [|apply T2; discriminate]. cbn [print_all] in E2. injection E2 as <-. cbn [concat]. rewrite app_nil_r. exact T1.
  Qed.

  Lemma print_all_ok ps : ps <> [] -> exists o, print_all {| o_mem := mem0; o_size := n; o_len := 0 |} ps = OK o /\ o_mem o = printed mem0 n (concat ps).
  Proof.
    intros Hps. destruct (print_all_inv ps [] {| o_mem := mem0; o_size := n; o_len := 0 |}) as (o & E & (_ & _ & Lm & I) & T).
    { unfold inv. cbn [o_mem o_size o_len]. change (zlen []) with 0. split; [reflexivity|]. split; [lia|]. split; [reflexivity|]. intros i. split; [lia|reflexivity]. }
    specialize (T Hps). cbn [app] in *. exists o. split; [exact E|]. set (t := concat ps) in *. clearbody t. unfold printed, ended in *. cbv zeta.
    set (k := Z.min (zlen t) (n - 1)) in *. pose proof (zlen_nonneg t).
    assert (Hk : 0 <= k <= zlen t /\ k < n) by (subst k; lia). clearbody k.
    assert (Lf : length (firstn (Z.to_nat k) t) = Z.to_nat k) by (rewrite firstn_length; unfold zlen in Hk; lia).
    apply list_ext. intros i. destruct (Z_lt_ge_dec (Z.of_nat i) k) as [L|L].
    - rewrite (proj1 (I i) L). rewrite nth_error_app1 by lia. rewrite ne_firstn. replace (i <? Z.to_nat k)%nat with true by lia. reflexivity.
    - rewrite nth_error_app2 by lia. rewrite Lf. destruct (Z.eq_dec (Z.of_nat i) k) as [Q|Q].
      + replace (i - Z.to_nat k)%nat with 0%nat by lia. cbn [nth_error]. replace i with (Z.to_nat k) by lia. exact T.
      + rewrite (proj2 (I i)) by lia. replace (i - Z.to_nat k)%nat with (S (i - Z.to_nat k - 1)) by lia. cbn [nth_error]. rewrite ne_skipn. f_equal. lia.
  Qed.
End BUF.

Lemma print_all_zero mem ps : print_all {| o_mem := mem; o_size := 0; o_len := 0 |} ps = OK {| o_mem := mem; o_size := 0; o_len := 0 |}.
Proof.
  induction ps as [|p ps IH]; [reflexivity|]. cbn [print_all]. unfold printer_buf. cbn [o_mem o_size o_len]. cbv zeta. change (0 - 0) with 0. pose proof (zlen_nonneg p).
  replace (zlen p <? 0) with false by lia. change (Z.to_nat 0) with 0%nat. rewrite firstn_O. unfold wr. change (zlen []) with 0. pose proof (zlen_nonneg mem).
  replace ((0 <=? 0) && (0 + 0 <=? zlen mem)) with true by lia. cbn [bind]. change (Z.to_nat (0 + 0)) with 0%nat. change (Z.to_nat 0) with 0%nat.
  rewrite firstn_O, skipn_O. cbn [app]. change (0 >? 0) with false. cbn [bind]. change (0 + 0) with 0. exact IH.
Qed.

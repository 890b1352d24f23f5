From Verif Require Import Base BaseFacts SUtil_Model SUtil_Spec SUtil_Proofs.
Ltac Zify.zify_post_hook ::= Z.div_mod_to_equations.

Ltac alls := cbn [app]; repeat (apply Forall_cons; [assumption|]); first [assumption|apply Forall_nil].

(** Hex. *)
Lemma hex_byte b : 0 <= b < 256 ->
  Z.shiftl (fourbit (hex_digit_of (Z.shiftr b 4))) 4 + fourbit (hex_digit_of (Z.land b 15)) = b /\
  hex_alphabet (hex_digit_of (Z.shiftr b 4)) /\ hex_alphabet (hex_digit_of (Z.land b 15)).
Proof.
  intros H. rewrite Z.shiftl_mul_pow2, Z.shiftr_div_pow2 by lia.
  change 15 with (2 ^ 4 - 1). rewrite land_ones_mod by lia. change (2 ^ 4) with 16.
  assert (Q : forall d, 0 <= d < 16 -> fourbit (hex_digit_of d) = d /\ hex_alphabet (hex_digit_of d)).
  { intros d Hd. unfold hex_alphabet.
    assert (d = 0 \/ d = 1 \/ d = 2 \/ d = 3 \/ d = 4 \/ d = 5 \/ d = 6 \/ d = 7 \/ d = 8 \/ d = 9
            \/ d = 10 \/ d = 11 \/ d = 12 \/ d = 13 \/ d = 14 \/ d = 15) as C by lia.
    do 15 (destruct C as [->|C]; [split; [reflexivity|first [left; vm_compute; split; discriminate | right; vm_compute; split; discriminate]]|]). subst d. split; [reflexivity|first [left; vm_compute; split; discriminate | right; vm_compute; split; discriminate]]. }
  destruct (Q (b / 16) ltac:(lia)) as [Q1 Q2]. destruct (Q (b mod 16) ltac:(lia)) as [Q3 Q4].
  rewrite Q1, Q3. split; [lia|auto].
Qed.

Lemma to_hex_split d : exists t, to_hex d = t ++ [0] /\ zlen t = 2 * zlen d.
Proof.
  induction d as [|b d (t & E & L)]; cbn [to_hex].
  - exists []. split; reflexivity.
  - exists (hex_digit_of (Z.shiftr b 4) :: hex_digit_of (Z.land b 15) :: t). rewrite E. split; [reflexivity|].
    rewrite !zlen_cons, L. lia.
Qed.

Lemma hex_spec d : bytes_ok d -> exists t,
  to_hex d = t ++ [0] /\ zlen t = 2 * zlen d /\ Forall hex_alphabet t /\
  from_hex (length t) t (zlen t) = OK (d ++ [0]).
Proof.
  intros H. induction H as [|b d Hb Hd (t & E & L & A & D)]; cbn [to_hex].
  - exists []. repeat split. constructor.
  - destruct (hex_byte b Hb) as (H1 & H2 & H3).
    exists (hex_digit_of (Z.shiftr b 4) :: hex_digit_of (Z.land b 15) :: t). rewrite E.
    split; [reflexivity|]. rewrite !zlen_cons. split; [lia|]. split; [alls|].
    cbn [length from_hex]. pose proof (zlen_nonneg t). replace (1 + (1 + zlen t) <=? 0) with false by lia.
    replace (1 + (1 + zlen t) - 2) with (zlen t) by lia.
    assert (M : forall f p n r, from_hex f p n = OK r -> from_hex (S f) p n = OK r).
    { clear. induction f as [|f IH]; intros p n r Hr.
      - cbn [from_hex] in *. destruct (n <=? 0); [assumption|discriminate].
      - cbn [from_hex] in Hr |- *. destruct (n <=? 0); [assumption|].
        destruct p as [|x [|y p]]; try discriminate.
        destruct (from_hex f p (n - 2)) eqn:Ef; try discriminate.
        apply IH in Ef. cbn [from_hex] in Ef. rewrite Ef. assumption. }
    apply M in D. cbn [from_hex] in D. rewrite D. cbn [bind]. rewrite H1. reflexivity.
Qed.

(** Base64. *)
Lemma b64_char c : 0 <= c < 64 -> b64rev (b64idx c) = c /\ b64idx c <> 61 /\ b64_alphabet (b64idx c).
Proof.
  intros H. unfold b64rev, b64idx, b64_alphabet.
  destruct (c <? 26) eqn:E1; [|destruct (c <? 52) eqn:E2; [|destruct (c <? 62) eqn:E3; [|destruct (c =? 62) eqn:E4]]].
  - replace ((65 <=? c + 65) && (c + 65 <=? 90)) with true by lia. lia.
  - replace ((65 <=? c - 26 + 97) && (c - 26 + 97 <=? 90)) with false by lia.
    replace ((97 <=? c - 26 + 97) && (c - 26 + 97 <=? 122)) with true by lia. lia.
  - replace ((65 <=? c - 52 + 48) && (c - 52 + 48 <=? 90)) with false by lia.
    replace ((97 <=? c - 52 + 48) && (c - 52 + 48 <=? 122)) with false by lia.
    replace ((48 <=? c - 52 + 48) && (c - 52 + 48 <=? 57)) with true by lia. lia.
  - cbn. lia.
  - cbn. lia.
Qed.

Lemma lor_shl_add x y k : 0 <= k -> 0 <= x -> 0 <= y < 2 ^ k -> Z.lor (Z.shiftl x k) y = x * 2 ^ k + y.
Proof.
  intros Hk Hx Hy. rewrite Z.shiftl_mul_pow2 by lia. rewrite Z.lor_comm.
  rewrite lor_add_disjoint by (auto; lia). lia.
Qed.

Section group.
Variables a b c : Z.
Hypotheses (Ha : 0 <= a < 256) (Hb : 0 <= b < 256) (Hc : 0 <= c < 256).

Lemma s0 : Z.shiftr a 2 = a / 4. Proof. rewrite Z.shiftr_div_pow2 by lia. reflexivity. Qed.
Lemma s1 : Z.lor (Z.shiftl (Z.land a 3) 4) (Z.shiftr b 4) = a mod 4 * 16 + b / 16.
Proof.
  rewrite Z.shiftr_div_pow2 by lia. change 3 with (2 ^ 2 - 1). rewrite land_ones_mod by lia.
  rewrite lor_shl_add; [reflexivity|lia| |]; change (2 ^ 2) with 4; change (2 ^ 4) with 16; lia.
Qed.
Lemma s2 : Z.lor (Z.shiftl (Z.land b 15) 2) (Z.shiftr c 6) = b mod 16 * 4 + c / 64.
Proof.
  rewrite Z.shiftr_div_pow2 by lia. change 15 with (2 ^ 4 - 1). rewrite land_ones_mod by lia.
  rewrite lor_shl_add; [reflexivity|lia| |]; change (2 ^ 2) with 4; change (2 ^ 4) with 16; change (2 ^ 6) with 64; lia.
Qed.
Lemma s3 : Z.land c 63 = c mod 64.
Proof. change 63 with (2 ^ 6 - 1). rewrite land_ones_mod by lia. reflexivity. Qed.
End group.

Lemma grp_val a b c : 0 <= a < 256 -> 0 <= b < 256 -> 0 <= c < 256 ->
  b64grp a b c = [b64idx (a / 4); b64idx (a mod 4 * 16 + b / 16); b64idx (b mod 16 * 4 + c / 64); b64idx (c mod 64)].
Proof. intros. unfold b64grp. rewrite s0, s1, s2, s3 by assumption. reflexivity. Qed.

Lemma dec0 a b : 0 <= a < 256 -> 0 <= b < 256 ->
  Z.lor (Z.shiftl (a / 4) 2) (Z.shiftr (a mod 4 * 16 + b / 16) 4) mod 256 = a.
Proof.
  intros. rewrite Z.shiftr_div_pow2 by lia. rewrite lor_shl_add; try lia; change (2 ^ 4) with 16; change (2 ^ 2) with 4; lia.
Qed.
Lemma dec1 a b c : 0 <= a < 256 -> 0 <= b < 256 -> 0 <= c < 256 ->
  Z.lor (Z.shiftl (a mod 4 * 16 + b / 16) 4) (Z.shiftr (b mod 16 * 4 + c / 64) 2) mod 256 = b.
Proof.
  intros. rewrite Z.shiftr_div_pow2 by lia. rewrite lor_shl_add; try lia; change (2 ^ 4) with 16; change (2 ^ 2) with 4; lia.
Qed.
Lemma dec2 b c : 0 <= b < 256 -> 0 <= c < 256 ->
  Z.lor (Z.shiftl (b mod 16 * 4 + c / 64) 6) (c mod 64) mod 256 = c.
Proof. intros. rewrite lor_shl_add; try lia; change (2 ^ 6) with 64; lia. Qed.

Lemma b64dec_group s0 s1 s2 s3 r : b64dec (s0 :: s1 :: s2 :: s3 :: r) =
    (Z.lor (Z.shiftl (b64rev s0) 2) (Z.shiftr (b64rev s1) 4)) mod 256 ::
    (if negb (s2 =? 61) then
       (Z.lor (Z.shiftl (b64rev s1) 4) (Z.shiftr (b64rev s2) 2)) mod 256 ::
       (if negb (s3 =? 61) then [(Z.lor (Z.shiftl (b64rev s2) 6) (b64rev s3)) mod 256] else [])
     else []) ++ b64dec r.
Proof. reflexivity. Qed.

Lemma b64_spec n : forall d, (length d <= n)%nat -> bytes_ok d ->
  b64dec (b64enc d) = d /\ Forall b64_alphabet (b64enc d) /\ zlen (b64enc d) = (zlen d + 2) / 3 * 4.
Proof.
  assert (EQ : b64_alphabet 61) by (unfold b64_alphabet; lia).
  induction n as [|n IH]; intros d Hn Hd.
  - destruct d; [|cbn [length] in Hn; lia]. repeat split. constructor.
  - destruct d as [|a [|b [|c r]]].
    + repeat split. constructor.
    + pose proof (Forall_inv Hd) as Ha. cbn [b64enc]. rewrite grp_val by (unfold is_byte in *; lia).
      unfold is_byte in *.
      destruct (b64_char (a / 4)) as (A1 & A2 & A3); [lia|].
      destruct (b64_char (a mod 4 * 16 + 0 / 16)) as (B1 & B2 & B3); [lia|].
      split; [|split; [alls|reflexivity]].
      rewrite b64dec_group, A1, B1. change (61 =? 61) with true. cbn [negb app b64dec].
      rewrite dec0 by lia. reflexivity.
    + pose proof (Forall_inv Hd) as Ha. pose proof (Forall_inv (Forall_inv_tail Hd)) as Hb.
      cbn [b64enc]. rewrite grp_val by (unfold is_byte in *; lia). unfold is_byte in *.
      destruct (b64_char (a / 4)) as (A1 & A2 & A3); [lia|].
      destruct (b64_char (a mod 4 * 16 + b / 16)) as (B1 & B2 & B3); [lia|].
      destruct (b64_char (b mod 16 * 4 + 0 / 64)) as (C1 & C2 & C3); [lia|].
      split; [|split; [alls|reflexivity]].
      rewrite b64dec_group, A1, B1, C1. change (61 =? 61) with true.
      replace (b64idx (b mod 16 * 4 + 0 / 64) =? 61) with false by lia. cbn [negb app b64dec].
      rewrite dec0, dec1 by lia. reflexivity.
    + pose proof (Forall_inv Hd) as Ha. apply Forall_inv_tail in Hd.
      pose proof (Forall_inv Hd) as Hb. apply Forall_inv_tail in Hd.
      pose proof (Forall_inv Hd) as Hc. apply Forall_inv_tail in Hd.
      destruct (IH r) as (I1 & I2 & I3); [cbn [length] in Hn; lia|assumption|].
      assert (U : b64enc (a :: b :: c :: r) = b64grp a b c ++ b64enc r) by (destruct r; reflexivity).
      rewrite U, grp_val by (unfold is_byte in *; lia). unfold is_byte in *.
      destruct (b64_char (a / 4)) as (A1 & A2 & A3); [lia|].
      destruct (b64_char (a mod 4 * 16 + b / 16)) as (B1 & B2 & B3); [lia|].
      destruct (b64_char (b mod 16 * 4 + c / 64)) as (C1 & C2 & C3); [lia|].
      destruct (b64_char (c mod 64)) as (D1 & D2 & D3); [lia|].
      split; [|split].
      * cbn [app]. rewrite b64dec_group, A1, B1, C1, D1.
        replace (b64idx (b mod 16 * 4 + c / 64) =? 61) with false by lia.
        replace (b64idx (c mod 64) =? 61) with false by lia. cbn [negb app].
        rewrite dec0, dec1, dec2, I1 by lia. reflexivity.
      * alls.
      * rewrite zlen_app, I3, !zlen_cons. change (zlen (@nil Z)) with 0. lia.
Qed.

(** Texts are determined by the directives. *)
Lemma c_text_unique s : forall a b, c_text s a -> c_text s b -> a = b.
Proof.
  intros a b [Ha (r & E)] [Hb (q & F)]. subst s. revert b Hb F.
  induction a as [|x a IH]; intros [|y b] Hb F; cbn [app] in F; inversion F as [[F1 F2]].
  - reflexivity.
  - subst y. pose proof (Forall_inv Hb). contradiction.
  - subst x. pose proof (Forall_inv Ha). contradiction.
  - subst y. f_equal. apply IH; [eapply Forall_inv_tail; eassumption| |assumption]. 
    eapply Forall_inv_tail; eassumption.
Qed.

Lemma prefix_len {A} (a b r q : list A) : a ++ r = b ++ q -> length a = length b -> a = b.
Proof. intros E L. apply (f_equal (firstn (length a))) in E. rewrite firstn_app_len in E by reflexivity.
  rewrite L, firstn_app_len in E by reflexivity. congruence. Qed.

Lemma nul_not_inside (a b r q : list Z) : Forall (fun c => c <> 0) b -> a ++ 0 :: r = b ++ q ->
  (length a < length b)%nat -> False.
Proof.
  revert b. induction a as [|x a IH]; intros [|y b] Hb E L; cbn [length] in *; try lia; cbn [app] in E; inversion E as [[E1 E2]].
  - subst y. pose proof (Forall_inv Hb). contradiction.
  - eapply IH; [eapply Forall_inv_tail; eassumption|eassumption|lia].
Qed.

Lemma str_text_unique s p a b : str_text s p a -> str_text s p b -> a = b.
Proof.
  unfold str_text. destruct (p <=? 0); [apply c_text_unique|].
  intros [Ha [[La (r & Ea)]|[La (r & Ea)]]] [Hb [[Lb (q & Eb)]|[Lb (q & Eb)]]].
  - eapply prefix_len with (r := r) (q := q); [congruence|unfold zlen in *; lia].
  - exfalso. eapply (nul_not_inside b a q r); [assumption|congruence|unfold zlen in *; lia].
  - exfalso. eapply (nul_not_inside a b r q); [assumption|congruence|unfold zlen in *; lia].
  - eapply c_text_unique with (s := s); split; eauto.
Qed.

Lemma prints_unique d a b : prints d a -> prints d b -> a = b.
Proof.
  unfold prints. cbv zeta. destruct (d_kind d) as [[s|]|z|z|z|z|z|z|z|z|z|z|z|z].
  1: { intros (u & U & ->) (v & V & ->). rewrite (str_text_unique _ _ _ _ U V). reflexivity. }
  1: { intros [_ ->] [_ ->]. reflexivity. }
  1: { intros -> ->. reflexivity. }
  11: { intros [_ (u & U & ->)] [_ (v & V & ->)]. do 2 f_equal. eapply int_text_unique; [|eassumption..]. lia. }
  all: intros [_ U] [_ V]; eapply int_text_unique; [|eassumption..]; lia.
Qed.

Lemma fmt_prints_unique l : forall a b, fmt_prints l a -> fmt_prints l b -> a = b.
Proof.
  induction l as [|i l IH]; intros a b; cbn [fmt_prints].
  - congruence.
  - intros (a1 & a2 & A1 & A2 & ->) (b1 & b2 & B1 & B2 & ->). f_equal; [|apply IH; assumption].
    destruct i as [c|d]; cbn [item_prints] in *; [congruence|eapply prints_unique; eassumption].
Qed.

Lemma int_text_exists base n z w : base = 10 \/ base = 16 -> int64 n -> exists t, int_text base n z w t.
Proof. intros Hb Hn. destruct (itoa_tmp_spec n base z w Hb Hn) as (t & _ & H). eauto. Qed.

(** The key of an array index. *)
Lemma index_name_spec junk n : zlen junk = 20 -> 0 <= n < 2 ^ 63 ->
  exists t, index_name junk n = OK t /\ numeral 10 n t.
Proof.
  intros Hj Hn.
  destruct (int_text_exists 10 n false 0 (or_introl eq_refl)) as (t & T); [unfold int64; lia|].
  set (d := {| d_width := []; d_star := None; d_prec := PNone; d_kind := KLu n |}).
  pose proof T as (x & N & E). replace (n <? 0) with false in E by lia. cbn [app repeat] in E. subst t.
  rewrite Z.abs_eq in N by lia.
  pose proof (numeral_short 10 n x N ltac:(lia) Hn) as S.
  unfold index_name. change fmt_lu with (fmt_src [Dir d]). change [VLong n] with (fmt_args [Dir d]).
  rewrite vsnprintf_spec with (u := x).
  - cbn [bind]. pose proof (zlen_nonneg x). replace (zlen x >? 20) with false by lia.
    exists x. split; [|assumption]. f_equal. unfold shown. change (20 =? 0) with false. cbv iota zeta.
    replace (Z.min (zlen x) (20 - 1)) with (zlen x) by lia. rewrite sub_all.
    unfold blit. cbn [Z.to_nat firstn app]. rewrite <- app_assoc. unfold sub. cbn [Z.to_nat skipn].
    apply firstn_app_len. unfold zlen. lia.
  - constructor; [|constructor]. cbn. split; constructor.
  - exists x, []. rewrite app_nil_r. repeat split; auto; try lia.
  - change (2 ^ 31) with 2147483648. lia.
  - change (2 ^ 31) with 2147483648. lia.
  - lia.
Qed.

(** strnstr. *)
Lemma strncmp_eq_spec find : forall s, zlen find <= zlen s ->
  strncmp_eq s find = OK (bytes_eqb (sub s 0 (zlen find)) find).
Proof.
  induction find as [|c f IH]; intros s Hs; cbn [strncmp_eq].
  - reflexivity.
  - rewrite zlen_cons in *. pose proof (zlen_nonneg f). destruct s as [|x s]; [change (zlen (@nil Z)) with 0 in Hs; lia|].
    rewrite zlen_cons in Hs. unfold sub. cbn [Z.to_nat skipn].
    replace (Z.to_nat (1 + zlen f)) with (S (Z.to_nat (zlen f))) by lia. cbn [firstn bytes_eqb].
    destruct (x =? c) eqn:E; cbn [andb]; [|reflexivity].
    rewrite IH by lia. reflexivity.
Qed.

Lemma strnstr_loop f : forall s i slen find,
  0 <= i <= slen -> slen <= zlen s -> Z.of_nat f = slen - i ->
  exists r, c_strnstr f s i slen find = OK r /\
    match r with
    | Some k => i <= k < slen /\ k + zlen find <= slen /\ sub s k (zlen find) = find /\
                (forall j, i <= j < k -> sub s j (zlen find) <> find)
    | None => forall j, i <= j < slen -> j + zlen find <= slen -> sub s j (zlen find) <> find
    end.
Proof.
  induction f as [|f IH]; intros s i slen find Hi Hs Hf; cbn [c_strnstr].
  - eexists; split; [reflexivity|]. intros j Hj; exfalso; lia.
  - pose proof (zlen_nonneg find). destruct (i + zlen find >? slen) eqn:E.
    + eexists; split; [reflexivity|]. intros j Hj Hl; exfalso; lia.
    + assert (Hsk : sub (skipn (Z.to_nat i) s) 0 (zlen find) = sub s i (zlen find)) by reflexivity.
      rewrite strncmp_eq_spec by (unfold zlen in *; rewrite skipn_length; lia). cbn [bind]. rewrite Hsk.
      destruct (bytes_eqb (sub s i (zlen find)) find) eqn:B.
      * eexists; split; [reflexivity|]. apply bytes_eqb_eq in B. split; [lia|]. split; [lia|]. split; [assumption|].
        intros j Hj; exfalso; lia.
      * assert (B' : sub s i (zlen find) <> find).
        { intros Q. rewrite Q, bytes_eqb_refl in B. discriminate. }
        destruct (IH s (i + 1) slen find) as (r & -> & P); try lia. eexists; split; [reflexivity|].
        destruct r as [k|].
        -- destruct P as (P1 & P2 & P3 & P4). split; [lia|]. split; [lia|]. split; [assumption|].
           intros j Hj. destruct (Z.eq_dec j i) as [->|]; [assumption|apply P4; lia].
        -- intros j Hj. destruct (Z.eq_dec j i) as [->|]; [intros; assumption|apply P; lia].
Qed.

(** Comma separated lists. *)
Lemma mg_strchr_spec s c :
  match mg_strchr s c with
  | Some k => exists a b, s = a ++ c :: b /\ zlen a = k /\ ~ In c a
  | None => ~ In c s
  end.
Proof.
  induction s as [|x s IH]; cbn [mg_strchr]; [auto|].
  destruct (x =? c) eqn:E.
  - exists [], s. replace x with c by lia. repeat split. auto.
  - destruct (mg_strchr s c) as [k|].
    + destruct IH as (a & b & -> & <- & H). exists (x :: a), b. split; [reflexivity|].
      rewrite zlen_cons. split; [lia|]. intros [Q|Q]; [lia|auto].
    + intros [Q|Q]; [lia|auto].
Qed.

(** Entries of a comma list: key, optional =value. *)
Definition entry := (list Z * option (list Z))%type.
Definition entry_src (e : entry) : list Z :=
  match snd e with Some v => fst e ++ 61 :: v | None => fst e end.
Definition entry_ok (e : entry) : Prop :=
  ~ In 44 (fst e) /\ ~ In 61 (fst e) /\ match snd e with Some v => ~ In 44 v | None => fst e <> [] end.
Fixpoint entries_src (l : list entry) : list Z :=
  match l with [] => [] | [e] => entry_src e | e :: r => entry_src e ++ 44 :: entries_src r end.
Fixpoint comma_all (fuel : nat) (l : list Z) : list entry :=
  match fuel with
  | O => []
  | S f => match comma_next l with
           | None => []
           | Some (rest, k, v) => (k, v) :: comma_all f rest
           end
  end.

Lemma split_unique (c : Z) a b a' b' : ~ In c a -> ~ In c a' -> a ++ c :: b = a' ++ c :: b' -> a = a' /\ b = b'.
Proof.
  revert a'. induction a as [|x a IH]; intros [|y a'] H H' E; cbn [app] in E; inversion E as [[E1 E2]].
  - split; congruence.
  - subst. exfalso. apply H'. left. reflexivity.
  - subst. exfalso. apply H. left. reflexivity.
  - subst. destruct (IH a') as [-> ->]; auto; intros Q; [apply H|apply H']; right; assumption.
Qed.

Lemma mg_strchr_app a c b : ~ In c a -> mg_strchr (a ++ c :: b) c = Some (zlen a).
Proof.
  intros H. pose proof (mg_strchr_spec (a ++ c :: b) c) as P.
  destruct (mg_strchr (a ++ c :: b) c) as [k|].
  - destruct P as (x & y & E & <- & N). apply split_unique in E; auto. destruct E as [-> _]. reflexivity.
  - exfalso. apply P. apply in_or_app. right. left. reflexivity.
Qed.
Lemma mg_strchr_none a c : ~ In c a -> mg_strchr a c = None.
Proof.
  intros H. pose proof (mg_strchr_spec a c) as P. destruct (mg_strchr a c) as [k|]; [|reflexivity].
  destruct P as (x & y & -> & _). exfalso. apply H. apply in_or_app. right. left. reflexivity.
Qed.
Lemma sub_app_c {A} (a : list A) c b : sub (a ++ c :: b) 0 (zlen a) = a /\
  skipn (Z.to_nat (zlen a) + 1) (a ++ c :: b) = b.
Proof.
  split.
  - unfold sub. cbn [Z.to_nat skipn]. apply firstn_app_len. unfold zlen. lia.
  - rewrite skipn_app_ge by (unfold zlen; lia).
    replace (Z.to_nat (zlen a) + 1 - length a)%nat with 1%nat by (unfold zlen; lia). reflexivity.
Qed.

Lemma entry_no_comma e : entry_ok e -> ~ In 44 (entry_src e).
Proof.
  intros (H1 & H2 & H3) Q. unfold entry_src in Q. destruct (snd e) as [v|]; [|auto].
  apply in_app_or in Q. destruct Q as [Q|[Q|Q]]; auto. lia.
Qed.

Lemma entry_value e : entry_ok e ->
  (match mg_strchr (entry_src e) 61 with
   | Some k => (sub (entry_src e) 0 k, Some (skipn (Z.to_nat k + 1) (entry_src e)))
   | None => (entry_src e, None)
   end) = e.
Proof.
  intros (H1 & H2 & H3). unfold entry_src. destruct e as [k [v|]]; cbn [fst snd] in *.
  - rewrite mg_strchr_app by assumption. destruct (sub_app_c k 61 v) as [-> ->]. reflexivity.
  - rewrite mg_strchr_none by assumption. reflexivity.
Qed.

Lemma comma_next_step e r : entry_ok e ->
  (r = [] -> entry_src e <> [] -> comma_next (entry_src e) = Some ([], fst e, snd e)) /\
  comma_next (entry_src e ++ 44 :: r) = Some (r, fst e, snd e).
Proof.
  intros He. pose proof (entry_value e He) as V. pose proof (entry_no_comma e He) as N. split.
  - intros _ Hne. unfold comma_next. destruct (entry_src e) as [|x y] eqn:E; [contradiction|].
    rewrite mg_strchr_none by assumption.
    destruct (mg_strchr (x :: y) 61); destruct e; cbn [fst snd]; congruence.
  - unfold comma_next. destruct (entry_src e ++ 44 :: r) as [|x y] eqn:E.
    { destruct (entry_src e); discriminate. }
    rewrite <- E. clear E x y. rewrite mg_strchr_app by assumption.
    destruct (sub_app_c (entry_src e) 44 r) as [-> ->].
    destruct (mg_strchr (entry_src e) 61); destruct e; cbn [fst snd]; congruence.
Qed.

Lemma entry_src_nonempty e : entry_ok e -> entry_src e <> [].
Proof.
  intros (_ & _ & H). unfold entry_src. destruct (snd e); [destruct (fst e); discriminate|assumption].
Qed.

Theorem comma_all_spec l : Forall entry_ok l -> forall f, (length l < f)%nat ->
  comma_all f (entries_src l) = l.
Proof.
  intros H. induction H as [|e l He Hl IH]; intros f Hf.
  - destruct f; reflexivity.
  - destruct f as [|f]; [cbn [length] in Hf; lia|]. cbn [comma_all].
    destruct (comma_next_step e (entries_src l) He) as [S1 S2]. pose proof (entry_src_nonempty e He) as Hne.
    destruct l as [|e2 l].
    + change (entries_src [e]) with (entry_src e). rewrite S1 by (auto; reflexivity).
      rewrite <- surjective_pairing. destruct f; reflexivity.
    + change (entries_src (e :: e2 :: l)) with (entry_src e ++ 44 :: entries_src (e2 :: l)).
      rewrite S2. rewrite IH by (cbn [length] in *; lia). rewrite <- surjective_pairing. reflexivity.
Qed.

(** mg_strcmp is a total order. *)
Lemma mg_strcmp_eq a : forall b, bytes_ok a -> bytes_ok b -> (mg_strcmp a b = 0 <-> a = b).
Proof.
  induction a as [|x a IH]; intros [|y b] Ha Hb; cbn [mg_strcmp]; try (split; [lia|discriminate]); [tauto|].
  pose proof (Forall_inv Ha) as Hx. pose proof (Forall_inv Hb) as Hy. unfold is_byte in *.
  assert (S : schar x = schar y <-> x = y) by (unfold schar; destruct (x <? 128) eqn:?; destruct (y <? 128) eqn:?; lia).
  destruct (schar x <? schar y) eqn:E1; [split; [lia|intros Q; injection Q as -> _; lia]|].
  destruct (schar x >? schar y) eqn:E2; [split; [lia|intros Q; injection Q as -> _; lia]|].
  rewrite IH by (eapply Forall_inv_tail; eassumption).
  assert (x = y) by (apply S; lia). subst y. split; [congruence|intros Q; injection Q; auto].
Qed.
Lemma mg_strcmp_antisym a : forall b, mg_strcmp a b = - mg_strcmp b a.
Proof.
  induction a as [|x a IH]; intros [|y b]; cbn [mg_strcmp]; try reflexivity.
  destruct (schar x <? schar y) eqn:E1; destruct (schar y <? schar x) eqn:E2;
  destruct (schar x >? schar y) eqn:E3; destruct (schar y >? schar x) eqn:E4; try lia.
Qed.
Lemma mg_strcmp_trans a : forall b c, mg_strcmp a b < 0 -> mg_strcmp b c < 0 -> mg_strcmp a c < 0.
Proof.
  induction a as [|x a IH]; intros [|y b] [|z c]; cbn [mg_strcmp]; try lia.
  destruct (schar x <? schar y) eqn:E1; destruct (schar y <? schar z) eqn:E2;
  destruct (schar x >? schar y) eqn:E3; destruct (schar y >? schar z) eqn:E4;
  destruct (schar x <? schar z) eqn:E5; destruct (schar x >? schar z) eqn:E6; try lia. apply IH.
Qed.

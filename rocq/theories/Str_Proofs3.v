From Verif Require Import Base BaseFacts Varint_Model Mbuf_Model
  Value_Model Str_Model Str_Spec Str_Proofs Str_Proofs2.
Ltac Zify.zify_post_hook ::= Z.div_mod_to_equations.

Lemma nextesc_consumes s i k : nextesc s = OK (i, k) -> (1 <= k)%nat.
Proof.
  unfold nextesc. destruct s as [|c r]; [discriminate|]. intros H.
  repeat match type of H with
  | (if ?c then _ else _) = _ => destruct c; [try (injection H as <- <-; lia)|]
  end.
  - destruct (all_xdigit 4 r) as [[]| | |]; cbn [bind] in H; try discriminate H; injection H as <- <-; lia.
  - destruct (all_xdigit 2 r) as [[]| | |]; cbn [bind] in H; try discriminate H; injection H as <- <-; lia.
  - injection H as <- <-; lia.
Qed.

(** The two passes agree, and never produce more than they read. *)
Lemma unescape_passes f : forall s rem n d, unescape f s rem = OK d ->
  unescape_count f s rem n = OK (n + zlen d) /\ (0 <= rem -> zlen d <= rem).
Proof.
  induction f as [|f IH]; intros s rem n d H.
  - cbn [unescape unescape_count] in *. destruct (rem <=? 0); [|discriminate H].
    injection H as <-. cbn. split; [f_equal; lia|lia].
  - cbn [unescape unescape_count] in *. destruct (rem <=? 0) eqn:ER.
    { injection H as <-. cbn. split; [f_equal; lia|lia]. }
    destruct s as [|r s1]; [discriminate H|].
    destruct ((r =? 92) && (0 <? rem - 1)) eqn:EB.
    + destruct s1 as [|c s2]; [discriminate H|].
      destruct (c =? 34) eqn:E1; cbn [orb].
      { destruct (unescape f s2 (rem - 2)) eqn:EU; cbn [bind] in H; try discriminate H.
        injection H as <-. destruct (IH _ _ (n + 1) _ EU) as [I1 I2]. rewrite I1, zlen_cons. split; [f_equal; lia|lia]. }
      destruct (c =? 39) eqn:E2; cbn [orb].
      { destruct (unescape f s2 (rem - 2)) eqn:EU; cbn [bind] in H; try discriminate H.
        injection H as <-. destruct (IH _ _ (n + 1) _ EU) as [I1 I2]. rewrite I1, zlen_cons. split; [f_equal; lia|lia]. }
      destruct (c =? 10) eqn:E3; cbn [orb].
      { destruct (unescape f s2 (rem - 2)) eqn:EU; cbn [bind] in H; try discriminate H.
        injection H as <-. destruct (IH _ _ (n + 1) _ EU) as [I1 I2]. rewrite I1, zlen_cons. split; [f_equal; lia|lia]. }
      destruct (nextesc (c :: s2)) as [[i k]| | |] eqn:EN; cbn [bind] in *; try discriminate H.
      pose proof (nextesc_consumes _ _ _ EN) as HK.
      destruct (i =? -1) eqn:EI.
      * destruct (unescape f s2 (rem - 2)) eqn:EU; cbn [bind] in H; try discriminate H.
        injection H as <-. destruct (IH _ _ (n + 2) _ EU) as [I1 I2]. rewrite I1, !zlen_cons. split; [f_equal; lia|lia].
      * destruct (unescape f (skipn k (c :: s2)) (rem - 1 - Z.of_nat k)) eqn:EU; cbn [bind] in H; try discriminate H.
        injection H as <-. destruct (IH _ _ (n + 1) _ EU) as [I1 I2]. rewrite I1, !zlen_cons. split; [f_equal; lia|].
        destruct (Z.leb_spec 0 (rem - 1 - Z.of_nat k)) as [L|L]; [lia|].
        intros _. destruct f; cbn [unescape] in EU; replace (rem - 1 - Z.of_nat k <=? 0) with true in EU by lia;
          injection EU as <-; cbn; lia.
    + destruct (unescape f s1 (rem - 1)) eqn:EU; cbn [bind] in H; try discriminate H.
      injection H as <-. destruct (IH _ _ (n + 1) _ EU) as [I1 I2]. rewrite I1, zlen_cons. split; [f_equal; lia|lia].
Qed.

(** No read outside the body and the byte following it. *)
Lemma all_xdigit_safe k : forall s q rest, is_xdigit q = false -> exists b, all_xdigit k (s ++ q :: rest) = OK b /\
  (b = true -> (k <= length s)%nat).
Proof.
  induction k as [|k IH]; intros s q rest Hq; cbn [all_xdigit].
  - exists true. split; [reflexivity|lia].
  - destruct s as [|c s]; cbn [app].
    + rewrite Hq. exists false. split; [reflexivity|discriminate].
    + destruct (is_xdigit c); [|exists false; split; [reflexivity|discriminate]].
      destruct (IH s q rest Hq) as (b & H1 & H2). exists b. split; [exact H1|]. intros Hb. specialize (H2 Hb). cbn [length]. lia.
Qed.
Lemma nextesc_safe c s q rest : is_xdigit q = false ->
  exists i k, nextesc (c :: s ++ q :: rest) = OK (i, k) /\ (k <= S (length s) \/ k = 2)%nat.
Proof.
  intros Hq. unfold nextesc.
  repeat match goal with |- context [if c =? ?x then _ else _] => destruct (c =? x); [try (eexists; eexists; split; [reflexivity|lia])|] end.
  - destruct (all_xdigit_safe 4 s q rest Hq) as (b & H1 & H2). rewrite H1. cbn [bind]. destruct b.
    + specialize (H2 eq_refl). eexists; eexists; split; [reflexivity|lia].
    + eexists; eexists; split; [reflexivity|lia].
  - destruct (all_xdigit_safe 2 s q rest Hq) as (b & H1 & H2). rewrite H1. cbn [bind]. destruct b.
    + specialize (H2 eq_refl). eexists; eexists; split; [reflexivity|lia].
    + eexists; eexists; split; [reflexivity|lia].
  - eexists; eexists; split; [reflexivity|lia].
Qed.

Lemma unescape_done f s rem : rem <= 0 -> unescape f s rem = OK [].
Proof. intros H. destruct f; cbn [unescape]; replace (rem <=? 0) with true by lia; reflexivity. Qed.

Lemma unescape_safe f : forall body q rest, is_xdigit q = false -> (length body <= f)%nat ->
  exists d, unescape f (body ++ q :: rest) (zlen body) = OK d.
Proof.
  induction f as [|f IH]; intros body q rest Hq Hf.
  - destruct body; cbn [length] in Hf; [|lia]. exists []. apply unescape_done. cbn. lia.
  - destruct body as [|r s1]; [exists []; apply unescape_done; cbn; lia|].
    cbn [app unescape length] in *. rewrite zlen_cons. pose proof (zlen_nonneg s1).
    replace (1 + zlen s1 <=? 0) with false by lia.
    destruct ((r =? 92) && (0 <? 1 + zlen s1 - 1)) eqn:EB.
    + destruct s1 as [|c s2]; [cbn in EB; lia|]. cbn [app length] in *. rewrite zlen_cons in *.
      replace (1 + (1 + zlen s2) - 2) with (zlen s2) by lia.
      destruct (IH s2 q rest Hq ltac:(lia)) as [d Hd]. rewrite Hd. cbn [bind].
      destruct (c =? 34); [eexists; reflexivity|]. destruct (c =? 39); [eexists; reflexivity|].
      destruct (c =? 10); [eexists; reflexivity|].
      destruct (nextesc_safe c s2 q rest Hq) as (i & k & HN & HK). rewrite HN. cbn [bind].
      pose proof (nextesc_consumes _ _ _ HN) as K1.
      destruct (i =? -1); [eexists; reflexivity|].
      destruct (Nat.le_gt_cases k (S (length s2))) as [L|L].
      * destruct k as [|k]; [lia|]. cbn [skipn]. rewrite skipn_app_le by lia.
        destruct (IH (skipn k s2) q rest Hq) as [d' Hd']; [rewrite skipn_length; lia|].
        replace (1 + (1 + zlen s2) - 1 - Z.of_nat (S k)) with (zlen (skipn k s2)) by (unfold zlen; rewrite skipn_length; lia).
        rewrite Hd'. eexists; reflexivity.
      * rewrite unescape_done by (unfold zlen; lia). eexists; reflexivity.
    + replace (1 + zlen s1 - 1) with (zlen s1) by lia.
      destruct (IH s1 q rest Hq ltac:(lia)) as [d Hd]. rewrite Hd. eexists; reflexivity.
Qed.

(** Escapes denote what the grammar says. *)
Lemma hexd_xdigit c : hexd c <> None -> is_xdigit c = true /\ hex c = hv c.
Proof.
  unfold hexd, hv, is_xdigit, hex, is_digit, hexd.
  destruct ((48 <=? c) && (c <=? 57)) eqn:E1; [intros _; cbn; split; [reflexivity|lia]|].
  destruct ((97 <=? c) && (c <=? 102)) eqn:E2; [intros _; cbn; split; [reflexivity|lia]|].
  destruct ((65 <=? c) && (c <=? 70)) eqn:E3; [intros _; cbn; split; [reflexivity|lia]|congruence].
Qed.
Lemma hv_range c : 0 <= hv c < 16.
Proof.
  unfold hv, hexd. destruct ((48 <=? c) && (c <=? 57)) eqn:E1; [lia|].
  destruct ((97 <=? c) && (c <=? 102)) eqn:E2; [lia|].
  destruct ((65 <=? c) && (c <=? 70)) eqn:E3; lia.
Qed.

Lemma simple_cases c n : simple_val c = Some n -> In (c, n)
  [(98,8);(116,9);(110,10);(118,11);(102,12);(114,13);(92,92);(34,34);(39,39);(10,10)].
Proof.
  unfold simple_val. intros H.
  assert (D : c = 98 \/ c = 116 \/ c = 110 \/ c = 118 \/ c = 102 \/ c = 114 \/ c = 92 \/ c = 34 \/ c = 39 \/ c = 10).
  { destruct (Z.eq_dec c 98); [tauto|]. destruct (Z.eq_dec c 116); [tauto|]. destruct (Z.eq_dec c 110); [tauto|].
    destruct (Z.eq_dec c 118); [tauto|]. destruct (Z.eq_dec c 102); [tauto|]. destruct (Z.eq_dec c 114); [tauto|].
    destruct (Z.eq_dec c 92); [tauto|]. destruct (Z.eq_dec c 34); [tauto|]. destruct (Z.eq_dec c 39); [tauto|].
    destruct (Z.eq_dec c 10); [tauto|]. exfalso.
    destruct c as [|p|p]; try discriminate H.
    do 7 (try (destruct p as [p|p|])); cbn in H; try discriminate H; try congruence. }
  repeat (destruct D as [D|D]; [subst c; injection H as <-; cbn; tauto|]).
  subst c; injection H as <-; cbn; tauto.
Qed.
Lemma simple_none c : simple_val c = None ->
  c <> 98 /\ c <> 116 /\ c <> 110 /\ c <> 118 /\ c <> 102 /\ c <> 114 /\ c <> 92 /\ c <> 34 /\ c <> 39 /\ c <> 10.
Proof. intros H. repeat split; intros ->; discriminate H. Qed.

Lemma rune_small b : 0 <= b < 256 -> rune_byte b = b.
Proof. unfold rune_byte. intros. rewrite (Z.mod_small b 65536) by lia. apply Z.mod_small. lia. Qed.

Lemma unescape_lit l f tail rem : lit_ok l -> zlen (lit_src l) <= rem ->
  unescape (S f) (lit_src l ++ tail) rem = (o <- unescape f tail (rem - zlen (lit_src l)) ;; OK (lit_val l ++ o)).
Proof.
  intros Hl Hr. destruct l as [b|c|a b|a b c d|c]; cbn [lit_src lit_val app lit_ok] in *;
    rewrite ?zlen_cons in *; change (zlen (@nil Z)) with 0 in *; cbn [unescape];
    replace (rem <=? 0) with false by lia.
  - destruct Hl as [Hb H92]. replace (b =? 92) with false by lia. cbn [andb]. replace (rem - (1 + 0)) with (rem - 1) by lia. reflexivity.
  - destruct (simple_val c) as [n|] eqn:ES; [|congruence].
    replace ((92 =? 92) && (0 <? rem - 1)) with true by lia.
    replace (rem - (1 + (1 + 0))) with (rem - 2) by lia.
    apply simple_cases in ES. cbn [In] in ES.
    assert (HK : rem - 1 - Z.of_nat 1 = rem - 2) by lia.
    repeat (destruct ES as [ES|ES]; [injection ES as <- <-; cbn [Z.eqb Pos.eqb nextesc bind skipn]; rewrite ?HK; reflexivity|]).
    contradiction.
  - destruct Hl as [Ha Hb]. apply hexd_xdigit in Ha as [Xa Va]. apply hexd_xdigit in Hb as [Xb Vb].
    replace ((92 =? 92) && (0 <? rem - 1)) with true by lia.
    pose proof (hv_range a). pose proof (hv_range b).
    cbn [Z.eqb Pos.eqb nextesc all_xdigit]. rewrite Xa, Xb. cbn [bind firstn hex_val].
    unfold hex_val. cbn [fold_left]. rewrite Va, Vb. cbn [skipn].
    replace ((0 * 16 + hv a) * 16 + hv b =? -1) with false by lia.
    replace (rem - 1 - Z.of_nat 3) with (rem - (1 + (1 + (1 + (1 + 0))))) by lia.
    replace (rune_byte ((0 * 16 + hv a) * 16 + hv b)) with (16 * hv a + hv b); [reflexivity|].
    rewrite rune_small by lia. lia.
  - destruct Hl as (Ha & Hb & Hc & Hd). apply hexd_xdigit in Ha as [Xa Va]. apply hexd_xdigit in Hb as [Xb Vb].
    apply hexd_xdigit in Hc as [Xc Vc]. apply hexd_xdigit in Hd as [Xd Vd].
    replace ((92 =? 92) && (0 <? rem - 1)) with true by lia.
    pose proof (hv_range a). pose proof (hv_range b). pose proof (hv_range c). pose proof (hv_range d).
    cbn [Z.eqb Pos.eqb nextesc all_xdigit]. rewrite Xa, Xb, Xc, Xd. cbn [bind firstn hex_val].
    unfold hex_val. cbn [fold_left]. rewrite Va, Vb, Vc, Vd. cbn [skipn].
    set (w := (((0 * 16 + hv a) * 16 + hv b) * 16 + hv c) * 16 + hv d).
    replace (w =? -1) with false by (unfold w; lia).
    replace (rem - 1 - Z.of_nat 5) with (rem - (1 + (1 + (1 + (1 + (1 + (1 + 0))))))) by lia.
    replace (rune_byte w) with (16 * hv c + hv d); [reflexivity|].
    unfold rune_byte, w. rewrite (Z.mod_small _ 65536) by lia. lia.
  - destruct Hl as (Hc & HS & H0 & H99 & H117 & H120). apply simple_none in HS.
    destruct HS as (? & ? & ? & ? & ? & ? & ? & ? & ? & ?).
    replace ((92 =? 92) && (0 <? rem - 1)) with true by lia.
    unfold nextesc. 
    replace (c =? 34) with false by lia. replace (c =? 39) with false by lia. replace (c =? 10) with false by lia.
    replace (c =? 0) with false by lia. replace (c =? 99) with false by lia. replace (c =? 98) with false by lia.
    replace (c =? 116) with false by lia. replace (c =? 110) with false by lia. replace (c =? 118) with false by lia.
    replace (c =? 102) with false by lia. replace (c =? 114) with false by lia. replace (c =? 92) with false by lia.
    replace (c =? 117) with false by lia. replace (c =? 120) with false by lia.
    cbn [bind]. change (-1 =? -1) with true. cbn iota. replace (rem - (1 + (1 + 0))) with (rem - 2) by lia. reflexivity.
Qed.

Lemma lit_src_pos l : 1 <= zlen (lit_src l).
Proof. destruct l; cbn; lia. Qed.

Lemma unescape_lits ls : forall f tail, Forall lit_ok ls -> zlen (lits_src ls) <= Z.of_nat f ->
  unescape f (lits_src ls ++ tail) (zlen (lits_src ls)) = OK (lits_val ls).
Proof.
  induction ls as [|l ls IH]; intros f tail H Hf.
  - apply unescape_done. cbn. lia.
  - unfold lits_src, lits_val in *. cbn [map concat] in *. rewrite zlen_app in *.
    pose proof (lit_src_pos l). pose proof (zlen_nonneg (concat (map lit_src ls))).
    destruct f as [|f]; [lia|]. rewrite <- app_assoc.
    rewrite unescape_lit by (try apply (Forall_inv H); lia).
    replace (zlen (lit_src l) + zlen (concat (map lit_src ls)) - zlen (lit_src l)) with (zlen (concat (map lit_src ls))) by lia.
    rewrite IH by (try apply (Forall_inv_tail H); lia). reflexivity.
Qed.

Lemma unescape_str_lits ls tail : Forall lit_ok ls ->
  unescape_str (lits_src ls ++ tail) (zlen (lits_src ls)) = OK (lits_val ls).
Proof. intros H. unfold unescape_str. apply unescape_lits; [exact H|]. pose proof (zlen_nonneg (lits_src ls)). lia. Qed.

Lemma plain_lits d : lits_src (map LPlain d) = d /\ lits_val (map LPlain d) = d.
Proof.
  unfold lits_src, lits_val. rewrite !map_map. cbn [lit_src lit_val].
  induction d as [|b d [I1 I2]]; [split; reflexivity|]. cbn [map concat app]. rewrite I1. split; reflexivity.
Qed.
Lemma hexchar_hv n : 0 <= n < 16 -> hexd (hexchar n) = Some n.
Proof.
  intros H. unfold hexd, hexchar. destruct (n <? 10) eqn:E.
  - replace ((48 <=? 48 + n) && (48 + n <=? 57)) with true by lia. f_equal. lia.
  - replace ((48 <=? 87 + n) && (87 + n <=? 57)) with false by lia.
    replace ((97 <=? 87 + n) && (87 + n <=? 102)) with true by lia. f_equal. lia.
Qed.
Lemma hex_lits d : bytes_ok d -> Forall lit_ok (map lit_of_byte d) /\ lits_val (map lit_of_byte d) = d.
Proof.
  unfold lits_val. induction d as [|b d IH]; intros H; [split; [constructor|reflexivity]|].
  pose proof (Forall_inv H) as Hb. unfold is_byte in Hb. destruct (IH (Forall_inv_tail H)) as [I1 I2].
  pose proof (hexchar_hv (b / 16) ltac:(lia)) as E1. pose proof (hexchar_hv (b mod 16) ltac:(lia)) as E2.
  split.
  - cbn [map]. constructor; [|exact I1]. cbn [lit_of_byte lit_ok]. rewrite E1, E2. split; discriminate.
  - cbn [map concat lit_of_byte lit_val]. rewrite I2. unfold hv. rewrite E1, E2. cbn [app]. f_equal. lia.
Qed.

Lemma embed_unescaped_spec buf txt len d : unescape_str txt len = OK d ->
  embed_unescaped buf txt len = OK (buf ++ varint_bytes (zlen d) ++ d ++ [0]).
Proof.
  intros H. unfold embed_unescaped. destruct (unescape_passes _ _ _ 0 _ H) as [P _].
  rewrite P. cbn [bind]. rewrite H. cbn [bind]. rewrite Z.add_0_l.
  replace (zlen d >? zlen d) with false by lia.
  replace (blit (repeat 0 (Z.to_nat (zlen d))) 0 d) with d; [reflexivity|].
  unfold blit, zlen. rewrite Nat2Z.id. change (Z.to_nat 0) with 0%nat. cbn [firstn app]. rewrite Nat.add_0_l.
  rewrite skipn_all2 by (rewrite repeat_length; lia). rewrite app_nil_r. reflexivity.
Qed.

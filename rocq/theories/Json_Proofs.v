(** Quoting, decoding and scanning of strings. *)
From Verif Require Import Base BaseFacts Value_Model Str_Model Str_Spec SUtil_Model SUtil_Proofs Json_Model Json_Spec.
Ltac Zify.zify_post_hook ::= Z.div_mod_to_equations.

Lemma forall_bytes (P : Z -> bool) : forallb P (map Z.of_nat (seq 0 256)) = true -> forall c, 0 <= c < 256 -> P c = true.
Proof.
  intros H c Hc. rewrite forallb_forall in H. apply H. apply in_map_iff. exists (Z.to_nat c).
  split; [lia|apply in_seq; lia].
Qed.

(** * snquote *)
Lemma bput_firstn size t c : 0 <= size -> bput size (firstn (Z.to_nat size) t) c = firstn (Z.to_nat size) (t ++ [c]).
Proof.
  intros H. unfold bput. rewrite firstn_app. unfold zlen. rewrite firstn_length.
  destruct (Z.of_nat (Nat.min (Z.to_nat size) (length t)) <? size) eqn:E.
  - replace (Z.to_nat size - length t)%nat with (S (Z.to_nat size - length t - 1)) by lia. cbn [firstn]. rewrite firstn_nil. reflexivity.
  - replace (Z.to_nat size - length t)%nat with 0%nat by lia. cbn [firstn]. rewrite app_nil_r. reflexivity.
Qed.
Lemma bputs_firstn size cs : 0 <= size -> forall t,
  fold_left (bput size) cs (firstn (Z.to_nat size) t) = firstn (Z.to_nat size) (t ++ cs).
Proof.
  intros H. induction cs as [|c r IH]; intros t; cbn [fold_left].
  - rewrite app_nil_r. reflexivity.
  - rewrite bput_firstn by assumption. rewrite IH, <- app_assoc. reflexivity.
Qed.

Definition snq_byte (c : Z) : list Z :=
  let sc := schar c in
  if (sc =? 34) || (sc =? 92) then [92; c]
  else if (8 <=? sc) && (sc <=? 13) then [92; nth (Z.to_nat (sc - 8)) specials 0]
  else if (c <? 8) || ((13 <? sc) && (sc <? 32)) then
    [92; 117; 48; 48; hex_digit_of (Z.shiftr c 4 mod 15); hex_digit_of (Z.land c 15)]
  else [c].
Lemma snq_byte_quote c : 0 <= c < 256 -> snq_byte c = quote_byte c.
Proof.
  intros H. apply bytes_eqb_eq. revert c H. apply forall_bytes. vm_compute. reflexivity.
Qed.

Lemma snq_loop_spec size s : 0 <= size -> bytes_ok s -> forall t i,
  snq_loop size (firstn (Z.to_nat size) t) i s = (firstn (Z.to_nat size) (t ++ quote_bytes s), i + zlen (quote_bytes s)).
Proof.
  intros Hs Hb. induction Hb as [|c r Hc Hr IH]; intros t i.
  - cbn [snq_loop quote_bytes]. rewrite app_nil_r, zlen_nil. f_equal. lia.
  - cbn [snq_loop quote_bytes]. rewrite <- (snq_byte_quote c Hc). unfold snq_byte. cbv zeta.
    destruct ((schar c =? 34) || (schar c =? 92)); [|destruct ((8 <=? schar c) && (schar c <=? 13));
      [|destruct ((c <? 8) || ((13 <? schar c) && (schar c <? 32)))]].
    + rewrite !bput_firstn by assumption. rewrite IH. rewrite <- !app_assoc. cbn [app]. rewrite !zlen_cons. f_equal. lia.
    + rewrite !bput_firstn by assumption. rewrite IH. rewrite <- !app_assoc. cbn [app]. rewrite !zlen_cons. f_equal. lia.
    + unfold append_hex. rewrite !bput_firstn by assumption. rewrite bputs_firstn by assumption. rewrite IH.
      rewrite <- !app_assoc. cbn [app]. rewrite !zlen_cons. f_equal. lia.
    + rewrite !bput_firstn by assumption. rewrite IH. rewrite <- !app_assoc. cbn [app]. rewrite !zlen_cons. f_equal. lia.
Qed.

Lemma removelast_firstn' {A} (l : list A) n : (S n <= length l)%nat -> removelast (firstn (S n) l) = firstn n l.
Proof. intros H. apply removelast_firstn. lia. Qed.

Lemma snquote_spec size s : 0 <= size -> bytes_ok s -> zlen (quoted s) < 2 ^ 31 ->
  snquote size s = (clipped size (quoted s), zlen (quoted s)).
Proof.
  intros Hs Hb H31. unfold snquote.
  replace (bput size [] 34) with (firstn (Z.to_nat size) [34]).
  2:{ symmetry. pose proof (bput_firstn size [] 34 Hs) as E. rewrite firstn_nil in E. exact E. }
  rewrite snq_loop_spec by assumption. cbv iota beta. rewrite bput_firstn by assumption.
  replace (([34] ++ quote_bytes s) ++ [34]) with (quoted s) by reflexivity.
  assert (L : 1 + zlen (quote_bytes s) + 1 = zlen (quoted s)).
  { unfold quoted. rewrite zlen_cons, zlen_app, zlen_cons, zlen_nil. lia. }
  rewrite L, s32_id by (pose proof (zlen_nonneg (quoted s)); lia). f_equal. unfold clipped. 
  set (q := quoted s) in *. clearbody q.
  unfold zlen. rewrite firstn_length. destruct (Z.eq_dec size 0) as [->|Hz].
  - reflexivity.
  - replace (size =? 0) with false by lia. cbn [negb].
    destruct (Z.of_nat (Nat.min (Z.to_nat size) (length q)) <? size) eqn:E.
    + f_equal. rewrite !firstn_all2 by lia. reflexivity.
    + f_equal. replace (Z.to_nat size) with (S (Z.to_nat (size - 1))) by lia. apply removelast_firstn'. lia.
Qed.

(** * unescape *)
Lemma hexdec_spec a b : hexd a <> None -> hexd b <> None -> is_byte a -> is_byte b -> hexdec a b = 16 * hv a + hv b.
Proof.
  intros Ha Hb Ba Bb.
  assert (G : forall a, 0 <= a < 256 -> forall b, 0 <= b < 256 ->
     match hexd a, hexd b with Some _, Some _ => hexdec a b =? 16 * hv a + hv b | _, _ => true end = true).
  { intros x Hx. apply forall_bytes. revert x Hx. apply forall_bytes. vm_compute. reflexivity. }
  specialize (G a Ba b Bb). destruct (hexd a); [|congruence]. destruct (hexd b); [|congruence]. lia.
Qed.

(** A raw character does not contain a backslash and is copied. *)
Lemma raw_no_bs c : raw_char c -> Forall (fun b => b <> 92 /\ b <> 34 /\ 32 <= b < 256) c.
Proof.
  intros (U & H1 & H2 & H3). destruct U; unfold cont in *; repeat constructor; try lia; try congruence; specialize (H3 a eq_refl); lia.
Qed.
Lemma unescape_raw c r : Forall (fun b => b <> 92) c ->
  unescape (c ++ r) = match unescape r with UDone d => UDone (c ++ d) | e => e end.
Proof.
  induction 1 as [|b c Hb _ IH]; cbn [app].
  - destruct (unescape r); reflexivity.
  - cbn [unescape]. replace (b =? 92) with false by lia. rewrite IH. destruct (unescape r); reflexivity.
Qed.
Lemma hexd_byte a : hexd a <> None -> is_byte a.
Proof.
  unfold hexd, is_byte. destruct ((48 <=? a) && (a <=? 57)) eqn:E1; [lia|].
  destruct ((97 <=? a) && (a <=? 102)) eqn:E2; [lia|]. destruct ((65 <=? a) && (a <=? 70)) eqn:E3; [lia|congruence].
Qed.
Lemma short_esc_find c v : short_esc c = Some v -> esc_find esc1 esc2 c = Some v /\ (c =? 117) = false /\ is_byte c.
Proof.
  intros H.
  assert (c = 34 \/ c = 92 \/ c = 47 \/ c = 98 \/ c = 102 \/ c = 110 \/ c = 114 \/ c = 116) as D.
  { unfold short_esc in H. destruct c as [|p|p]; try discriminate.
    repeat (destruct p as [p|p|]; try discriminate); lia. }
  repeat (destruct D as [->|D]; [cbv in H; injection H as <-; split; [reflexivity|split; [reflexivity|unfold is_byte; lia]]|]).
  subst. cbv in H. injection H as <-. split; [reflexivity|split; [reflexivity|unfold is_byte; lia]].
Qed.
Lemma unescape_items l : Forall sitem_ok l -> unescape (flat_map sitem_src l) = UDone (flat_map sitem_val l).
Proof.
  induction 1 as [|i l Hi _ IH]; [reflexivity|]. cbn [flat_map].
  destruct i as [c|c|a b]; cbn [sitem_ok sitem_src sitem_val] in *.
  - rewrite unescape_raw. + rewrite IH. reflexivity.
    + eapply Forall_impl; [|exact (raw_no_bs c Hi)]. cbv beta. intros; tauto.
  - destruct (short_esc c) as [v|] eqn:E; [|congruence]. destruct (short_esc_find c v E) as (F & N & _).
    cbn [app unescape]. change (92 =? 92) with true. cbv iota. rewrite N, F, IH. reflexivity.
  - destruct Hi as [Ha Hb]. cbn [app unescape]. change (92 =? 92) with true. change (117 =? 117) with true. change (48 =? 48) with true.
    cbn [andb]. rewrite IH. cbn [ucons]. rewrite hexdec_spec by (auto using hexd_byte). reflexivity.
Qed.

Lemma quote_plain c : 32 <= c < 256 -> c <> 34 -> c <> 92 -> quote_byte c = [c].
Proof.
  intros H A B. assert (0 <= c < 256) as Hc by lia.
  assert (G : (c <? 32) || (c =? 34) || (c =? 92) || bytes_eqb (quote_byte c) [c] = true).
  { clear H A B. revert c Hc. apply (forall_bytes (fun c => (c <? 32) || (c =? 34) || (c =? 92) || bytes_eqb (quote_byte c) [c])). vm_compute. reflexivity. }
  replace (c <? 32) with false in G by lia. replace (c =? 34) with false in G by lia. replace (c =? 92) with false in G by lia.
  apply bytes_eqb_eq. exact G.
Qed.
Lemma quote_ctl c : 0 <= c < 32 -> c < 8 \/ 13 < c -> quote_byte c = [92; 117; 48; 48; hexchar (c / 16); hexchar (c mod 16)].
Proof.
  intros H D.
  assert (c = 0 \/ c = 1 \/ c = 2 \/ c = 3 \/ c = 4 \/ c = 5 \/ c = 6 \/ c = 7 \/ c = 14
        \/ c = 15 \/ c = 16 \/ c = 17 \/ c = 18 \/ c = 19 \/ c = 20 \/ c = 21 \/ c = 22 \/ c = 23 \/ c = 24 \/ c = 25 \/ c = 26
        \/ c = 27 \/ c = 28 \/ c = 29 \/ c = 30 \/ c = 31) as X by lia.
  clear -X. repeat (destruct X as [->|X]; [reflexivity|]). subst. reflexivity.
Qed.

(** What snquote writes decodes to the original unless there is a vertical tab. *)
Lemma unescape_quote_byte c r : 0 <= c < 256 -> c <> 11 -> unescape (quote_byte c ++ r) = ucons c (unescape r).
Proof.
  intros Hc H11.
  destruct (Z.eq_dec c 34) as [->|]; [reflexivity|]. destruct (Z.eq_dec c 92) as [->|]; [reflexivity|].
  destruct (Z_lt_dec c 32).
  - assert (c = 0 \/ c = 1 \/ c = 2 \/ c = 3 \/ c = 4 \/ c = 5 \/ c = 6 \/ c = 7 \/ c = 8 \/ c = 9 \/ c = 10 \/ c = 12 \/ c = 13 \/ c = 14
      \/ c = 15 \/ c = 16 \/ c = 17 \/ c = 18 \/ c = 19 \/ c = 20 \/ c = 21 \/ c = 22 \/ c = 23 \/ c = 24 \/ c = 25 \/ c = 26
      \/ c = 27 \/ c = 28 \/ c = 29 \/ c = 30 \/ c = 31) as D by lia.
    clear -D. repeat (destruct D as [->|D]; [reflexivity|]). subst. reflexivity.
  - assert (E : quote_byte c = [c]).
    { apply quote_plain; lia. }
    rewrite E. cbn [app unescape]. replace (c =? 92) with false by lia. reflexivity.
Qed.
Lemma unescape_quote s : bytes_ok s -> ~ In 11 s -> unescape (quote_bytes s) = UDone s.
Proof.
  induction 1 as [|c s Hc _ IH]; intros N; [reflexivity|]. cbn [quote_bytes].
  rewrite unescape_quote_byte by (unfold is_byte in *; cbn [In] in N; intuition). rewrite IH by (cbn [In] in N; tauto). reflexivity.
Qed.
Lemma unescape_quote_vt s : bytes_ok s -> In 11 s -> unescape (quote_bytes s) = UErr J_INVALID.
Proof.
  induction 1 as [|c s Hc _ IH]; intros N; [destruct N|]. cbn [quote_bytes].
  destruct (Z.eq_dec c 11) as [->|Hn].
  - reflexivity.
  - rewrite unescape_quote_byte by assumption. rewrite IH by (cbn [In] in N; intuition). reflexivity.
Qed.

(** * The string scanner *)
Lemma land_high a b : 0 <= a < 256 -> utf8_len a = b -> b = utf8_len a. Proof. congruence. Qed.
Lemma utf8_len_cases a : 0 <= a < 256 ->
  utf8_len a = if a <? 128 then 1 else if a <? 224 then 2 else if a <? 240 then 3 else 4.
Proof.
  intros H. apply Z.eqb_eq. revert a H.
  apply (forall_bytes (fun a => utf8_len a =? (if a <? 128 then 1 else if a <? 224 then 2 else if a <? 240 then 3 else 4))).
  vm_compute. reflexivity.
Qed.
Lemma uchar_len c : uchar c -> exists a r, c = a :: r /\ 0 <= a < 256 /\ utf8_len a = zlen c.
Proof.
  intros U. destruct U; eexists; eexists; (split; [reflexivity|]); (split; [lia|]);
    (rewrite utf8_len_cases by lia); rewrite ?zlen_cons, ?zlen_nil.
  - replace (a <? 128) with true by lia. reflexivity.
  - replace (a <? 128) with false by lia. replace (a <? 224) with true by lia. reflexivity.
  - replace (a <? 128) with false by lia. replace (a <? 224) with false by lia. replace (a <? 240) with true by lia. reflexivity.
  - replace (a <? 128) with false by lia. replace (a <? 224) with false by lia. replace (a <? 240) with false by lia. reflexivity.
Qed.
Lemma firstn_exact {A} (c r : list A) k : k = length c -> firstn k (c ++ r) = c.
Proof. intros ->. apply firstn_app_len. reflexivity. Qed.
Lemma skipn_exact {A} (c r : list A) k : k = length c -> skipn k (c ++ r) = r.
Proof. intros ->. rewrite skipn_app, skipn_all, Nat.sub_diag. reflexivity. Qed.

Lemma scan_raw fuel g acc c r : raw_char c -> str_scan (S fuel) g acc (c ++ r) = str_scan fuel g (acc ++ c) r.
Proof.
  intros H. pose proof (raw_no_bs c H) as F. destruct H as (U & _). destruct (uchar_len c U) as (a & c' & -> & Ha & L).
  apply Forall_inv in F. cbn [app str_scan]. cbv zeta. rewrite L.
  replace (a <? 32) with false by lia. replace (a =? 92) with false by lia. replace (a =? 34) with false by lia.
  replace (zlen (a :: c' ++ r) <? zlen (a :: c')) with false
    by (rewrite !zlen_cons, zlen_app; pose proof (zlen_nonneg r); lia).
  change (a :: c' ++ r) with ((a :: c') ++ r).
  rewrite firstn_exact, skipn_exact by (unfold zlen; lia). reflexivity.
Qed.
Lemma xdigit_hexd a : hexd a <> None -> j_xdigit a = true.
Proof.
  unfold hexd, j_xdigit, j_digit. destruct ((48 <=? a) && (a <=? 57)); [reflexivity|].
  destruct ((97 <=? a) && (a <=? 102)); [reflexivity|]. destruct ((65 <=? a) && (a <=? 70)); [reflexivity|congruence].
Qed.
Lemma zlen6 {A} (a b c d e f : A) r : (zlen (a :: b :: c :: d :: e :: f :: r) <? 6) = false.
Proof. rewrite !zlen_cons. pose proof (zlen_nonneg r). lia. Qed.
Lemma zlen2 {A} (a b : A) r : (zlen (a :: b :: r) <? 2) = false.
Proof. rewrite !zlen_cons. pose proof (zlen_nonneg r). lia. Qed.
Lemma zlen1 {A} (a : A) r : (zlen (a :: r) <? 1) = false.
Proof. rewrite !zlen_cons. pose proof (zlen_nonneg r). lia. Qed.
Lemma scan_item fuel g acc i r : sitem_ok i -> str_scan (S fuel) g acc (sitem_src i ++ r) = str_scan fuel g (acc ++ sitem_src i) r.
Proof.
  destruct i as [c|c|a b]; cbn [sitem_ok sitem_src]; intros H.
  - apply scan_raw. assumption.
  - destruct (short_esc c) as [v|] eqn:E; [|congruence].
    assert (c = 34 \/ c = 92 \/ c = 47 \/ c = 98 \/ c = 102 \/ c = 110 \/ c = 114 \/ c = 116) as D.
    { unfold short_esc in E. destruct c as [|p|p]; try discriminate.
      repeat (destruct p as [p|p|]; try discriminate); lia. }
    cbn [app str_scan]. change (utf8_len 92) with 1. change (92 <? 32) with false. change (92 =? 92) with true. cbv zeta iota.
    rewrite zlen1. unfold escape_len. cbn [bind]. rewrite zlen2.
    assert (X : (c =? 117) = false /\ (c =? 34) || (c =? 92) || (c =? 47) || (c =? 98) || (c =? 102) || (c =? 110) || (c =? 114) || (c =? 116) = true) by lia.
    destruct X as [-> ->]. reflexivity.
  - destruct H as [Ha Hb]. cbn [app str_scan]. change (utf8_len 92) with 1. change (92 <? 32) with false. change (92 =? 92) with true. cbv zeta iota.
    rewrite zlen1. unfold escape_len. cbn [bind]. change (117 =? 117) with true. cbv iota. rewrite zlen6.
    rewrite (xdigit_hexd a Ha), (xdigit_hexd b Hb). reflexivity.
Qed.
Lemma scan_items g l : Forall sitem_ok l -> forall fuel acc r, (length l < fuel)%nat ->
  str_scan fuel g acc (flat_map sitem_src l ++ 34 :: r) = OK (SDone (acc ++ flat_map sitem_src l) r).
Proof.
  induction 1 as [|i l Hi _ IH]; intros fuel acc r Hf; cbn [flat_map].
  - destruct fuel as [|fuel]; [cbn in Hf; lia|]. cbn [app str_scan]. change (utf8_len 34) with 1. cbv zeta. rewrite zlen1.
    change (34 <? 32) with false. change (34 =? 92) with false. change (34 =? 34) with true. cbv iota. rewrite app_nil_r. reflexivity.
  - destruct fuel as [|fuel]; [cbn in Hf; lia|]. rewrite <- app_assoc, scan_item by assumption. rewrite IH by (cbn [length] in Hf; lia).
    rewrite <- app_assoc. reflexivity.
Qed.
Lemma items_length l : Forall sitem_ok l -> (length l <= length (flat_map sitem_src l))%nat.
Proof.
  induction 1 as [|i l Hi _ IH]; cbn [flat_map length]; [lia|]. rewrite app_length.
  assert (1 <= length (sitem_src i))%nat; [|lia].
  destruct i as [c|c|a b]; cbn [sitem_src length]; try lia. destruct Hi as (U & _). destruct U; cbn [length]; lia.
Qed.
(** A plain name is a list of raw characters. *)
Lemma plain_items k : plain k -> exists l, Forall sitem_ok l /\ flat_map sitem_src l = k /\ flat_map sitem_val l = k.
Proof.
  induction 1 as [|c r Hc _ (l & F & E1 & E2)].
  - exists []. repeat split; constructor.
  - exists (SRaw c :: l). split; [constructor; assumption|]. cbn [flat_map sitem_src sitem_val]. rewrite E1, E2. auto.
Qed.
(** So is what snquote writes for UTF-8 text without vertical tabs, but for escapes. *)
Lemma hexchar_ok n : 0 <= n < 16 -> hexd (hexchar n) <> None /\ hv (hexchar n) = n.
Proof.
  intros H. assert (n = 0 \/ n = 1 \/ n = 2 \/ n = 3 \/ n = 4 \/ n = 5 \/ n = 6 \/ n = 7 \/ n = 8 \/ n = 9 \/ n = 10 \/ n = 11 \/ n = 12 \/ n = 13
    \/ n = 14 \/ n = 15) as D by lia.
  repeat (destruct D as [->|D]; [split; [discriminate|reflexivity]|]). subst. split; [discriminate|reflexivity].
Qed.
Lemma quote_uchar c : uchar c -> ~ In 11 c -> exists i, sitem_ok i /\ sitem_src i = quote_bytes c /\ sitem_val i = c.
Proof.
  intros U N.
  assert (H : forall a, 128 <= a < 256 -> quote_byte a = [a]).
  { intros a Ha. apply quote_plain; lia. }
  assert (M : forall c, uchar c -> zlen c <> 1 -> quote_bytes c = c -> exists i, sitem_ok i /\ sitem_src i = quote_bytes c /\ sitem_val i = c).
  { intros k Uk L E. exists (SRaw k). rewrite E. split; [|split; reflexivity].
    split; [assumption|]. repeat split; try (intros ->; apply L; reflexivity). intros x ->. exfalso. apply L. reflexivity. }
  pose proof U as U0. destruct U as [a Ha|a b Ha Hb|a b c Ha Hb Hc|a b c d Ha Hb Hc Hd]; unfold cont in *;
    try (apply M; [assumption|rewrite ?zlen_cons, ?zlen_nil; lia|cbn [quote_bytes app]; rewrite !H by lia; reflexivity]).
  cbn [quote_bytes]. rewrite app_nil_r.
  destruct (Z_lt_dec a 32).
  - assert (a <> 11) by (cbn [In] in N; tauto).
    assert (D : (8 <= a <= 13) \/ (a < 8 \/ 13 < a)) by lia. destruct D as [D|D].
    + assert (a = 8 \/ a = 9 \/ a = 10 \/ a = 12 \/ a = 13) as X by lia.
      destruct X as [->|[->|[->|[->| ->]]]];
        [exists (SEsc 98)|exists (SEsc 116)|exists (SEsc 110)|exists (SEsc 102)|exists (SEsc 114)];
        (split; [discriminate|split; reflexivity]).
    + exists (SHex (hexchar (a / 16)) (hexchar (a mod 16))).
      destruct (hexchar_ok (a / 16)) as [A1 A2]; [lia|]. destruct (hexchar_ok (a mod 16)) as [B1 B2]; [lia|].
      split; [split; assumption|]. cbn [sitem_src sitem_val]. rewrite A2, B2. split; [|f_equal; lia].
      symmetry. apply quote_ctl; lia.
  - destruct (Z.eq_dec a 34) as [->|]; [exists (SEsc 34); split; [discriminate|split; reflexivity]|].
    destruct (Z.eq_dec a 92) as [->|]; [exists (SEsc 92); split; [discriminate|split; reflexivity]|].
    exists (SRaw [a]). split; [|split; [|reflexivity]].
    + split; [assumption|]. split; [congruence|]. split; [congruence|]. intros x E. injection E as <-. lia.
    + cbn [sitem_src]. symmetry. apply quote_plain; lia.
Qed.
Lemma quote_bytes_app a b : quote_bytes (a ++ b) = quote_bytes a ++ quote_bytes b.
Proof. induction a as [|c a IH]; cbn [app quote_bytes]; [reflexivity|]. rewrite IH, app_assoc. reflexivity. Qed.
Lemma quote_items s : utf8 s -> ~ In 11 s ->
  exists l, Forall sitem_ok l /\ flat_map sitem_src l = quote_bytes s /\ flat_map sitem_val l = s.
Proof.
  induction 1 as [|c r Hc _ IH]; intros N.
  - exists []. repeat split; constructor.
  - rewrite in_app_iff in N. destruct IH as (l & F & E1 & E2); [tauto|].
    destruct (quote_uchar c Hc) as (i & Ho & S1 & S2); [tauto|].
    exists (i :: l). split; [constructor; assumption|]. cbn [flat_map]. rewrite S1, S2, E1, E2, quote_bytes_app. auto.
Qed.

(** C109: escaped JSON strings. *)
From Verif Require Import Base BaseFacts Json_Model Escape_Model Escape_Spec.
From Coq Require Import ZifyBool.
Ltac Zify.zify_post_hook ::= idtac.

(** Byte by byte *)
Fixpoint below (n : nat) : list Z := match n with O => [] | S n => below n ++ [Z.of_nat n] end.
Lemma below_all n c : 0 <= c < Z.of_nat n -> In c (below n).
Proof. induction n as [|n IH]; intros H; [lia|]. cbn [below]. apply in_or_app. destruct (Z.eq_dec c (Z.of_nat n)) as [->|N]; [right; left; reflexivity|left; apply IH; lia]. Qed.
Lemma by_cases n (f : Z -> bool) : forallb f (below n) = true -> forall c, 0 <= c < Z.of_nat n -> f c = true.
Proof. intros H c B. rewrite forallb_forall in H. apply H, below_all, B. Qed.
Lemma len_low c : 0 <= c < 128 -> utf8_len c = 1.
Proof. intros B. pose proof (by_cases 128 (fun c => utf8_len c =? 1) ltac:(vm_compute; reflexivity) c ltac:(lia)) as H. cbv beta in H. lia. Qed.
Lemma len_group c k : group c k -> utf8_len c = 1 + zlen k /\ 192 <= c < 256.
Proof.
  intros (_ & G). assert (0 <= c < 256) as B by lia.
  pose proof (by_cases 256 (fun c => (c <? 192) || (utf8_len c =? (if c <? 224 then 2 else if c <? 240 then 3 else 4))) ltac:(vm_compute; reflexivity) c ltac:(lia)) as H. cbv beta in H.
  destruct (c <? 224) eqn:E1; [|destruct (c <? 240) eqn:E2]; lia.
Qed.
Lemma escape_copies k : forall s rest, escape (length k) (k ++ s) rest = (t <- escape O s rest ;; OK (k ++ t)).
Proof.
  induction k as [|c k IH]; intros s rest; cbn [length app].
  - destruct (escape 0 s rest); reflexivity.
  - cbn [escape]. rewrite IH. destruct (escape 0 s rest); reflexivity.
Qed.
Lemma escape_group c k s rest : group c k -> escape O (c :: k ++ s) rest = (t <- escape O s rest ;; OK (c :: k ++ t)).
Proof.
  intros G. destruct (len_group c k G) as (L & _). cbn [escape]. rewrite L. assert (1 + zlen k =? 1 = false) as -> by (destruct G as (_ & G); lia).
  replace (Z.to_nat (1 + zlen k - 1)) with (length k) by (unfold zlen; lia). rewrite escape_copies. destruct (escape 0 s rest); reflexivity.
Qed.
Lemma escape_low c s rest : 0 <= c < 128 -> escape O (c :: s) rest = (t <- escape O s rest ;; OK (escape_byte c ++ t)).
Proof. intros B. cbn [escape]. rewrite (len_low c B). reflexivity. Qed.
Lemma low_cases c : 0 <= c < 128 -> c = 34 \/ c = 92 \/ (32 <= c < 127 /\ c <> 34 /\ c <> 92 /\ escape_byte c = [c]) \/ c = 127 \/ In c (below 32).
Proof.
  intros B. destruct (Z_lt_dec c 32) as [H|H]; [right; right; right; right; apply below_all; lia|].
  destruct (Z.eq_dec c 34); [tauto|]. destruct (Z.eq_dec c 92); [tauto|]. destruct (Z.eq_dec c 127); [tauto|]. right. right. left. repeat split; try lia.
  unfold escape_byte. replace ((c =? 34) || (c =? 92)) with false by lia. replace ((8 <=? c) && (c <=? 13)) with false by lia. replace ((32 <=? c) && (c <=? 126)) with true by lia. reflexivity.
Qed.
Lemma body_byte c t : 0 <= c < 128 -> body t -> body (escape_byte c ++ t).
Proof.
  intros B T. destruct (low_cases c B) as [->|[->|[(_ & N1 & N2 & ->)|[->|I]]]]; [apply bd_esc, T|apply bd_esc, T|apply bd_byte; assumption| |].
  - apply bd_esc. repeat (apply bd_byte; [discriminate|discriminate|]). exact T.
  - cbn in I. repeat (destruct I as [<-|I]; [apply bd_esc; cbn; repeat (apply bd_byte; [discriminate|discriminate|]); exact T|]). contradiction.
Qed.
Lemma body_bytes k t : Forall (fun d => 128 <= d < 192) k -> body t -> body (k ++ t).
Proof. intros F T. induction F as [|d k D _ IH]; [exact T|]. cbn [app]. apply bd_byte; [lia|lia|exact IH]. Qed.
(** C109. Every text of whole characters is escaped without a look at what follows it, and no quotation mark in it ends the string. *)
Theorem escaped_stays_inside s rest : utf8_text (fun _ => True) s -> exists t, json_escape s rest = OK t /\ body t.
Proof.
  unfold json_escape. induction 1 as [|c s B _ _ (t & E & T)|c k s G _ (t & E & T)].
  - exists []. split; [reflexivity|constructor].
  - rewrite (escape_low c s rest B), E. cbn [bind]. exists (escape_byte c ++ t). split; [reflexivity|apply body_byte; assumption].
  - rewrite (escape_group c k s rest G), E. cbn [bind]. exists (c :: k ++ t). split; [reflexivity|]. destruct (len_group c k G) as (_ & R). apply bd_byte; [lia|lia|]. apply body_bytes; [apply G|exact T].
Qed.
Print Assumptions escaped_stays_inside.
Lemma decode_byte c t : 0 <= c < 128 -> spared c -> unescape (escape_byte c ++ t) = ucons c (unescape t).
Proof.
  intros B (N1 & N2 & N3). destruct (low_cases c B) as [->|[->|[(R1 & _ & N & ->)|[->|I]]]]; [reflexivity|reflexivity| |contradiction N3; reflexivity|].
  - cbn [app unescape]. replace (c =? 92) with false by lia. reflexivity.
  - cbn in I. repeat (destruct I as [<-|I]; [first [reflexivity|exfalso; lia]|]). contradiction.
Qed.
Lemma decode_bytes k t d : Forall (fun d => 128 <= d < 192) k -> unescape t = UDone d -> unescape (k ++ t) = UDone (k ++ d).
Proof. intros F T. induction F as [|c k D _ IH]; [exact T|]. cbn [app unescape]. replace (c =? 92) with false by lia. rewrite IH. reflexivity. Qed.
(** C109. Texts of whole characters and spared bytes come back from json_unescape. *)
Theorem escaped_comes_back s rest : utf8_text spared s -> exists t, json_escape s rest = OK t /\ unescape t = UDone s.
Proof.
  unfold json_escape. induction 1 as [|c s B P _ (t & E & T)|c k s G _ (t & E & T)].
  - exists []. split; reflexivity.
  - rewrite (escape_low c s rest B), E. cbn [bind]. exists (escape_byte c ++ t). split; [reflexivity|]. rewrite (decode_byte c t B P), T. reflexivity.
  - rewrite (escape_group c k s rest G), E. cbn [bind]. exists (c :: k ++ t). split; [reflexivity|]. destruct (len_group c k G) as (_ & R). cbn [unescape]. replace (c =? 92) with false by lia.
    rewrite (decode_bytes k t s); [reflexivity|apply G|exact T].
Qed.
Print Assumptions escaped_comes_back.
(** C109. None of the other bytes comes back: the hexadecimal digits are taken modulo 15, and the decoder does not know \v. *)
Theorem other_bytes_change c rest : 0 <= c < 128 -> ~ spared c -> exists t, json_escape [c] rest = OK t /\ unescape t <> UDone [c].
Proof.
  intros B N. unfold json_escape. rewrite (escape_low c [] rest B). cbn [escape copy bind]. exists (escape_byte c ++ []). split; [reflexivity|].
  assert (c = 127 \/ In c (below 32)) as [->|I] by (destruct (low_cases c B) as [->|[->|[(R1 & _)|H]]]; [contradiction N; unfold spared; lia|contradiction N; unfold spared; lia| |exact H];
    destruct (Z.eq_dec c 127); [tauto|contradiction N; unfold spared; lia]); [vm_compute; discriminate|].
  cbn in I. repeat (destruct I as [<-|I]; [first [vm_compute; discriminate|contradiction N; unfold spared; lia]|]). contradiction.
Qed.
Print Assumptions other_bytes_change.

(** C109. Bytes that have a short form are written in it. *)
Theorem short_forms_used c e s rest t : short c e -> json_escape s rest = OK t -> json_escape (c :: s) rest = OK (92 :: e :: t).
Proof. unfold json_escape. intros H E. destruct H; rewrite escape_low, E by lia; reflexivity. Qed.
Print Assumptions short_forms_used.
Lemma copy_all k rest : copy (length k) (k ++ rest) = OK k.
Proof. induction k as [|c k IH]; [reflexivity|]. cbn [length app copy]. rewrite IH. reflexivity. Qed.
Lemma escape_cut k1 : forall k2 rest, escape (length (k1 ++ k2)) k1 (k2 ++ rest) = OK (k1 ++ k2).
Proof. induction k1 as [|c k1 IH]; intros k2 rest; cbn [length app escape]; [apply copy_all|]. rewrite IH. reflexivity. Qed.
(** C109. A text that ends in part of a character shows the bytes that lie after it in memory, as many as are missing. *)
Theorem cut_character_shows_memory c k1 k2 rest : zlen (k1 ++ k2) = utf8_len c - 1 -> k1 ++ k2 <> [] -> json_escape (c :: k1) (k2 ++ rest) = OK (c :: k1 ++ k2).
Proof.
  intros L N. unfold json_escape. cbn [escape]. assert (0 < zlen (k1 ++ k2)) as P by (destruct (k1 ++ k2) as [|x l]; [contradiction|rewrite zlen_cons; pose proof (zlen_nonneg l); lia]).
  replace (utf8_len c =? 1) with false by lia. rewrite <- L. replace (Z.to_nat (zlen (k1 ++ k2))) with (length (k1 ++ k2)) by (unfold zlen; lia). rewrite escape_cut. reflexivity.
Qed.
Print Assumptions cut_character_shows_memory.
Example ex_shows : json_escape [226] ([115; 101] ++ [1]) = OK (226 :: [115; 101]).
Proof. apply (cut_character_shows_memory 226 [] [115; 101] [1]); [reflexivity|discriminate]. Qed.
Example ex_short : json_escape [9; 97] [] = OK [92; 116; 97].
Proof. apply (short_forms_used 9 116 [97] [] [97]); [constructor|reflexivity]. Qed.

Definition ex_text : list Z := [72; 34; 10; 92; 1; 195; 164; 226; 130; 172; 33].
Example ex_text_ok : utf8_text spared ex_text.
Proof.
  repeat (apply ut_byte; [lia|unfold spared; lia|]). apply (ut_group _ 195 [164]); [split; [repeat constructor; lia|left; split; [lia|reflexivity]]|].
  apply (ut_group _ 226 [130; 172]); [split; [repeat constructor; lia|right; left; split; [lia|reflexivity]]|]. apply ut_byte; [lia|unfold spared; lia|constructor].
Qed.
Example ex_text_back : exists t, json_escape ex_text [] = OK t /\ unescape t = UDone ex_text.
Proof. exact (escaped_comes_back ex_text [] ex_text_ok). Qed.
(** Escaped texts decode to the original: false. *)
Theorem escape_inverts_refuted : exists s t, utf8_text (fun _ => True) s /\ json_escape s [] = OK t /\ unescape t = UDone [17] /\ s = [31].
Proof. exists [31], [92; 117; 48; 48; 49; 49]. split; [apply ut_byte; [lia|exact I|constructor]|]. repeat split; vm_compute; reflexivity. Qed.
Print Assumptions escape_inverts_refuted.
(** An escaped text cannot end the string it stands in: false for texts with part of a character. *)
Theorem escape_hides_quotes_refuted : exists s t, bytes_ok s /\ json_escape s [] = OK t /\ ~ body t.
Proof.
  exists [195; 34], [195; 34]. split; [repeat constructor; unfold is_byte; lia|]. split; [vm_compute; reflexivity|]. intros B. inversion B; subst. match goal with H : body [34] |- _ => inversion H; subst; congruence end.
Qed.
Print Assumptions escape_hides_quotes_refuted.
(** Only the text is read: false for texts that end in part of a character. *)
Theorem escape_reads_only_text_refuted : exists s, bytes_ok s /\ json_escape s [] = UB.
Proof. exists [97; 226]. split; [repeat constructor; unfold is_byte; lia|]. vm_compute. reflexivity. Qed.
Print Assumptions escape_reads_only_text_refuted.

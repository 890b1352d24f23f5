(** C32, C33: the tokenizer. *)
From Verif Require Import Base BaseFacts TokNum_Model Txt_Model Tok_Model Tok_Spec Tok_Proofs Tok_Proofs2 Tok_Proofs3.

(** C32. On every NUL-terminated text the tokenizer has a defined result: it skips exactly
    the blanks and comments, counts their newlines, and takes one token off the front, or
    reports the end of the source exactly when nothing else is left. The token's text lies
    inside the source. *)
Theorem pnext_takes_one_token s : c_text (t_pos s) ->
  exists s' blank lex, pnext s = OK s' /\ t_pos s = blank ++ lex ++ t_pos s' /\
    gap blank (lex ++ t_pos s') /\ t_line s' = t_line s + newlines blank /\
    (t_tok s' = TOK_EOF <-> lex = []) /\ (lex = [] -> t_pos s' = []) /\
    (lex <> [] -> exists body, token lex (t_pos s') (t_tok s') body /\ t_len s' = zlen body /\
       exists before after, lex = before ++ body ++ after /\ t_ptr s' = body ++ after ++ t_pos s').
Proof.
  intros T. destruct (pnext_spec s T) as (s' & g & lex & body & E & Ep & G & L & _ & H).
  exists s', g, lex. split; [exact E|]. split; [exact Ep|]. split; [exact G|]. split; [exact L|].
  destruct H as [(H1 & H2 & H3)|(H1 & H2 & H3 & H4)].
  - split; [tauto|]. split; [tauto|]. intros C. destruct (C H1).
  - split; [split; [intros C; destruct (token_not_eof _ _ _ _ H2 C)|tauto]|]. split; [tauto|].
    intros _. exists body. split; [exact H2|]. split; [exact H3|]. exact H4.
Qed.
Print Assumptions pnext_takes_one_token.

(** [n] calls of pnext in a row *)
Fixpoint pnext_times (n : nat) (s : tstate) : R tstate :=
  match n with O => OK s | S n => s' <- pnext s ;; pnext_times n s' end.

(** C32. Tokenizing any source reaches the end of the source after at most one call per
    byte and one more, having counted at most the newlines that are in the source. *)
Theorem tokenizing_reaches_the_end src : c_text src ->
  exists n s', (n <= S (length src))%nat /\ pnext_times n (pinit src) = OK s' /\ t_tok s' = TOK_EOF /\
    t_pos s' = [] /\ 1 <= t_line s' <= 1 + newlines src.
Proof.
  intros T.
  assert (G : forall k s, c_text (t_pos s) -> (length (t_pos s) <= k)%nat ->
    exists n s', (n <= S (length (t_pos s)))%nat /\ pnext_times n s = OK s' /\ t_tok s' = TOK_EOF /\
      t_pos s' = [] /\ t_line s <= t_line s' <= t_line s + newlines (t_pos s)).
  { induction k as [|k IH]; intros s Ts Hk;
      destruct (pnext_takes_one_token s Ts) as (s' & g & lex & E & Ep & _ & L & EOFi & EOFp & _);
      assert (Nn : forall l, 0 <= newlines l) by (intros l; apply zlen_nonneg);
      assert (Na : newlines (t_pos s) = newlines g + newlines lex + newlines (t_pos s'))
        by (rewrite Ep; unfold newlines; rewrite !filter_app, !zlen_app; lia);
      pose proof (Nn g); pose proof (Nn lex); pose proof (Nn (t_pos s')).
    - destruct lex as [|c lex]; [|rewrite Ep, !app_length in Hk; cbn in Hk; lia].
      exists 1%nat, s'. split; [lia|]. split; [cbn [pnext_times]; rewrite E; reflexivity|].
      split; [apply EOFi; reflexivity|]. split; [apply EOFp; reflexivity|]. lia.
    - destruct lex as [|c lex].
      + exists 1%nat, s'. split; [lia|]. split; [cbn [pnext_times]; rewrite E; reflexivity|].
        split; [apply EOFi; reflexivity|]. split; [apply EOFp; reflexivity|]. lia.
      + assert (Len : (length (t_pos s') < length (t_pos s))%nat) by (rewrite Ep, !app_length; cbn; lia).
        assert (Ts' : c_text (t_pos s')) by (rewrite Ep in Ts; apply c_text_app in Ts as [_ Ts]; apply c_text_app in Ts; apply Ts).
        destruct (IH s' Ts' ltac:(lia)) as (n & s2 & Hn & E2 & R1 & R2 & R3).
        exists (S n), s2. split; [lia|]. split; [cbn [pnext_times]; rewrite E; exact E2|]. split; [exact R1|]. split; [exact R2|]. lia. }
  destruct (G (length src) (pinit src) T (le_n _)) as (n & s' & H1 & H2 & H3 & H4 & H5). exists n, s'.
  cbn [pinit t_line t_pos] in *. tauto.
Qed.
Print Assumptions tokenizing_reaches_the_end.

Example tokens_of_a_line :
  pnext_times 4 (pinit (bs "let x = 5; // five")) =
  OK {| t_pos := bs "; // five"; t_line := 1; t_tok := TOK_NUM; t_len := 1; t_ptr := bs "5; // five"; t_prev := TOK_ASSIGN |}.
Proof. vm_compute. reflexivity. Qed.
Example comment_is_blank : gap (bs " /* a */ ") (bs "x").
Proof.
  change (bs " /* a */ ") with (32 :: [47; 42] ++ bs " a " ++ [42; 47] ++ [32]).
  apply gap_space; [cbn; tauto|]. apply gap_block.
  - intros a b H. destruct a as [|? [|? [|? [|? [|? a]]]]]; cbn in H; try discriminate H; injection H; intros; destruct a; discriminate.
  - apply gap_space; [cbn; tauto|]. apply gap_end.
    + intros c r H K. change (bs "x") with [120] in H. assert (c = 120) by congruence. subst c. cbn in K. lia.
    + intros [r H]. discriminate H.
    + intros [r H]. discriminate H.
Qed.

Lemma gap_nothing g rest : gap g rest ->
  (forall c r, g ++ rest = c :: r -> ~ blank_char c) -> ~ starts [47; 47] (g ++ rest) -> ~ starts [47; 42] (g ++ rest) -> g = [].
Proof.
  intros H N1 N2 N3. destruct H; [reflexivity| | | |].
  - exfalso. eapply N1; [reflexivity|assumption].
  - exfalso. apply N2. eexists. rewrite <- app_assoc. reflexivity.
  - exfalso. apply N3. eexists. rewrite <- app_assoc. reflexivity.
  - exfalso. apply N3. eexists. rewrite <- app_assoc. reflexivity.
Qed.

(** C33. Where some operator of the language starts (and no comment, and not the two
    characters [~=]), the token is the longest operator that starts there. *)
Theorem operator_is_the_longest s o n : c_text (t_pos s) -> In (o, n) operators -> starts o (t_pos s) ->
  ~ starts (bs "//") (t_pos s) -> ~ starts (bs "/*") (t_pos s) -> ~ starts (bs "~=") (t_pos s) ->
  exists s' o', pnext s = OK s' /\ longest_operator (t_pos s) o' (t_tok s') /\ t_pos s = o' ++ t_pos s' /\
    (length o <= length o')%nat.
Proof.
  intros T I [r S] N1 N2 N3.
  assert (Hd : exists c p, t_pos s = c :: p /\ (op_char c || in_set ",.:;{}[]()?" c = true)).
  { pose proof op_heads as A. rewrite forallb_forall in A. specialize (A _ I). cbn [fst] in A.
    destruct o as [|c o]; [discriminate A|]. exists c, (o ++ r). split; [exact S|exact A]. }
  destruct Hd as (c & p & Ec & Hc).
  assert (Hin : In c (bs "^~+-%/*<>=!|&,.:;{}[]()?")).
  { unfold op_char, in_set in Hc. rewrite <- existsb_app in Hc. apply existsb_exists in Hc as (x & Hx & E). apply Z.eqb_eq in E. subst x. exact Hx. }
  assert (Hcc : ~ letter c /\ ~ (48 <= c <= 57) /\ c <> 34 /\ c <> 39 /\ ~ blank_char c).
  { clear -Hin. unfold letter, blank_char. cbn in Hin.
    repeat (destruct Hin as [<-|Hin]; [repeat split; cbn [In]; lia|]). destruct Hin. }
  destruct (pnext_takes_one_token s T) as (s' & g & lex & E & Ep & G & _ & _ & NE & H).
  assert (g = []).
  { apply (gap_nothing _ _ G); rewrite <- Ep; [|exact N1|exact N2].
    intros x q Q. assert (x = c) by congruence. subst x. tauto. }
  subst g. cbn [app] in *. destruct lex as [|c' lex].
  { rewrite (NE eq_refl) in Ep. rewrite Ep in Ec. discriminate Ec. }
  assert (c' = c) by (cbn in Ep; congruence). subst c'. destruct (H ltac:(discriminate)) as (body & Tk & _).
  exists s', (c :: lex). split; [exact E|].
  assert (L : longest_operator (t_pos s) (c :: lex) (t_tok s')).
  { destruct Tk as [x w m K1 K2 K3 K4|x w K1 K2|q b K0 K1 K2|q b K0 K1 K2 K3|m K|K|x K1 K2 K3 K4 K5 K6].
    - exfalso. assert (x = c) by congruence. subst x. tauto.
    - exfalso. assert (x = c) by congruence. subst x. tauto.
    - exfalso. assert (q = c) by congruence. lia.
    - exfalso. assert (q = c) by congruence. lia.
    - rewrite Ep. exact K.
    - exfalso. apply N3. exists (t_pos s'). rewrite <- K. exact Ep.
    - exfalso. apply (K6 o n I). exists r. rewrite <- Ep. exact S. }
  split; [exact L|]. split; [exact Ep|]. destruct L as (_ & _ & L). apply (L o n I). exists r. exact S.
Qed.
Print Assumptions operator_is_the_longest.
Example longest_of_four : exists s', pnext (pinit (bs ">>>=1")) = OK s' /\ t_tok s' = TOK_URSHIFT_ASSIGN /\ t_pos s' = bs "1".
Proof. eexists. split; [vm_compute; reflexivity|]. split; reflexivity. Qed.

(** C33 fails for one pair of characters: [~=] is taken as one token, which is no operator,
    although [~] is one. *)
Theorem longest_operator_refuted :
  exists src, c_text src /\ longest_operator src (bs "~") TOK_TILDA /\ ~ starts (bs "//") src /\ ~ starts (bs "/*") src /\
    exists s', pnext (pinit src) = OK s' /\ t_len s' = 2 /\ forall o, ~ In (o, t_tok s') operators.
Proof.
  exists (bs "~=1;"). split; [repeat constructor|]. split; [apply (longest_intro [126] TOK_TILDA (bs "=1;")); [in_ops|intros b r _ H; vm_compute in H; exact H]|].
  split; [intros [r H]; discriminate H|]. split; [intros [r H]; discriminate H|].
  eexists. split; [vm_compute; reflexivity|]. split; [reflexivity|]. cbn [t_tok].
  intros o H. assert (A : forallb (fun k => negb (snd k =? 32317)) operators = true) by (vm_compute; reflexivity).
  rewrite forallb_forall in A. specialize (A _ H). discriminate A.
Qed.
Print Assumptions longest_operator_refuted.

(** C33. Where a letter starts, the token is the whole identifier, and it is a reserved word
    exactly when the whole identifier is one. *)
Theorem words_are_whole s c p : c_text (t_pos s) -> t_pos s = c :: p -> letter c ->
  exists s' w, pnext s = OK s' /\ whole_ident (t_pos s) w /\ t_pos s = w ++ t_pos s' /\
    t_ptr s' = t_pos s /\ t_len s' = zlen w /\
    (forall n, In (w, n) keywords -> t_tok s' = n) /\
    ((forall n, ~ In (w, n) keywords) -> t_tok s' = TOK_IDENT).
Proof.
  intros T Ec Lc. destruct (pnext_takes_one_token s T) as (s' & g & lex & E & Ep & G & _ & _ & NE & H).
  assert (g = []).
  { apply (gap_nothing _ _ G); rewrite <- Ep, Ec; unfold letter, blank_char in *.
    - intros x q Q K. assert (x = c) by congruence. subst x. cbn in K. lia.
    - intros [r R]. assert (c = 47) by (cbn in R; congruence). lia.
    - intros [r R]. assert (c = 47) by (cbn in R; congruence). lia. }
  subst g. cbn [app] in *. destruct lex as [|c' lex].
  { rewrite (NE eq_refl) in Ep. rewrite Ep in Ec. discriminate Ec. }
  assert (c' = c) by (cbn in Ep; congruence). subst c'. destruct (H ltac:(discriminate)) as (body & Tk & Ln & b & a & A1 & A2).
  exists s', (c :: lex). split; [exact E|].
  destruct Tk as [x w m K1 K2 K3 K4|x w K1 K2|q bb K0 K1 K2|q bb K0 K1 K2 K3|m K|K|x K1 K2 K3 K4 K5 K6].
  - assert (b = []) as ->.
    { apply length_zero_iff_nil. apply (f_equal (@length Z)) in A1. rewrite !app_length in A1. lia. }
    assert (a = []) as ->.
    { apply length_zero_iff_nil. apply (f_equal (@length Z)) in A1. rewrite !app_length in A1. lia. }
    split; [rewrite Ep; exact K3|]. split; [exact Ep|]. split; [rewrite A2, Ep; reflexivity|]. split; [exact Ln|].
    split.
    + intros n I. destruct K4 as [K4|[K4 _]]; [|destruct (K4 n I)].
      rewrite <- (keyword_tok_in _ _ I). symmetry. apply keyword_tok_in. exact K4.
    + intros N. destruct K4 as [K4|[_ K4]]; [destruct (N _ K4)|exact K4].
  - exfalso. assert (x = c) by congruence. unfold letter in Lc. lia.
  - exfalso. assert (q = c) by congruence. unfold letter in Lc. lia.
  - exfalso. assert (q = c) by congruence. unfold letter in Lc. lia.
  - exfalso. destruct K as [K _]. pose proof op_heads as A. rewrite forallb_forall in A. specialize (A _ K). cbn [fst] in A.
    unfold op_char, in_set in A. rewrite <- existsb_app in A. apply existsb_exists in A as (x & Hx & Ex). apply Z.eqb_eq in Ex. subst x.
    clear -Hx Lc. unfold letter in Lc. cbn in Hx. repeat (destruct Hx as [<-|Hx]; [lia|]). destruct Hx.
  - exfalso. assert (c = 126) by (change (bs "~=") with [126; 61] in K; congruence). unfold letter in Lc. lia.
  - exfalso. assert (x = c) by congruence. subst x. exact (K2 Lc).
Qed.
Print Assumptions words_are_whole.
Example prefix_is_not_a_keyword : exists s', pnext (pinit (bs "format")) = OK s' /\ t_tok s' = TOK_IDENT /\ t_len s' = 6 /\
  In (bs "for", TOK_KEYWORD_FOR) keywords.
Proof. eexists. split; [vm_compute; reflexivity|]. split; [reflexivity|]. split; [reflexivity|]. vm_compute. tauto. Qed.

(** The tokenizer finds the tokens of a text. *)
From Verif Require Import Base BaseFacts Str_Model TokNum_Model Num_Model Txt_Model Str_Spec Tok_Model Tok_Spec Tok_Proofs Tok_Proofs2 Tok_Proofs3
  Parse_Model Expr_Spec Expr_Proofs Lit_Proofs.

Lemma app_split_newline (b b' x y : list Z) : b ++ x = b' ++ y -> no_newline b -> no_newline b' ->
  (x = [] \/ starts [10] x) -> (y = [] \/ starts [10] y) -> b = b'.
Proof.
  revert b'. induction b as [|c b IH]; intros [|c' b'] E N N' X Y; [reflexivity| | |].
  - exfalso. cbn [app] in E. subst x. destruct X as [X|[r X]]; [discriminate X|].
    assert (c' = 10) by (cbn [app] in X; congruence). subst c'. apply N'. left. reflexivity.
  - exfalso. cbn [app] in E. subst y. destruct Y as [Y|[r Y]]; [discriminate Y|].
    assert (c = 10) by (cbn [app] in Y; congruence). subst c. apply N. left. reflexivity.
  - cbn [app] in E. assert (c = c') by congruence. subst c'. f_equal. apply IH; try assumption; [congruence| |].
    + intros K. apply N. right. exact K.
    + intros K. apply N'. right. exact K.
Qed.
Lemma no_close_tail c b : no_close (c :: b) -> no_close b.
Proof. intros H x y E. apply (H (c :: x) y). rewrite E. reflexivity. Qed.
Lemma app_split_close (b b' x y : list Z) : b ++ [42; 47] ++ x = b' ++ [42; 47] ++ y ->
  no_close (b ++ [42]) -> no_close (b' ++ [42]) -> b = b'.
Proof.
  revert b'. induction b as [|c b IH]; intros [|c' b'] E N N'; [reflexivity| | |].
  - exfalso. cbn [app] in E. assert (c' = 42) by congruence. subst c'. destruct b' as [|d b'].
    + cbn [app] in E. assert (42 = 47) by congruence. lia.
    + assert (d = 47) by (cbn [app] in E; congruence). subst d. apply (N' [] (b' ++ [42])). reflexivity.
  - exfalso. cbn [app] in E. assert (c = 42) by congruence. subst c. destruct b as [|d b].
    + cbn [app] in E. assert (47 = 42) by congruence. lia.
    + assert (d = 47) by (cbn [app] in E; congruence). subst d. apply (N [] (b ++ [42])). reflexivity.
  - cbn [app] in E. assert (c = c') by congruence. subst c'. f_equal. apply IH.
    + cbn [app]. congruence.
    + exact (no_close_tail _ _ N).
    + exact (no_close_tail _ _ N').
Qed.
Lemma blank_47 : ~ blank_char 47. Proof. unfold blank_char. cbn [In]. lia. Qed.

Lemma gap_unique g r : gap g r -> forall g' r', gap g' r' -> g ++ r = g' ++ r' -> g = g'.
Proof.
  induction 1 as [rest N1 N2 N3|c g rest B H IH|body g rest N X H IH|body g rest N H IH|body N]; intros g' r' H' E.
  - destruct H' as [|c g' r' B _|body g' r' _ _ _|body g' r' _ _|body _]; [reflexivity| | | |]; exfalso.
    + cbn [app] in E. apply (N1 c (g' ++ r') E B).
    + apply N2. eexists. cbn [app] in E. rewrite <- ?app_assoc in E. exact E.
    + apply N3. eexists. cbn [app] in E. rewrite <- ?app_assoc in E. exact E.
    + apply N3. eexists. cbn [app] in E. rewrite <- ?app_assoc in E. exact E.
  - destruct H' as [r' N1 N2 N3|c' g' r' B' H'|body g' r' N X H'|body g' r' N H'|body N]; cbn [app] in E.
    + exfalso. apply (N1 c (g ++ rest)); [symmetry; exact E|exact B].
    + assert (c = c') by congruence. subst c'. f_equal. apply (IH _ _ H'). congruence.
    + exfalso. assert (c = 47) by congruence. subst c. exact (blank_47 B).
    + exfalso. assert (c = 47) by congruence. subst c. exact (blank_47 B).
    + exfalso. assert (c = 47) by congruence. subst c. exact (blank_47 B).
  - destruct H' as [r' N1 N2 N3|c' g' r' B' H'|body' g' r' N' X' H'|body' g' r' N' H'|body' N'].
    + exfalso. apply N2. eexists. cbn [app] in E. rewrite <- ?app_assoc in E. symmetry. exact E.
    + exfalso. cbn [app] in E. assert (c' = 47) by congruence. subst c'. exact (blank_47 B').
    + rewrite <- !app_assoc in E. apply app_inv_head in E. assert (body = body') by (eapply app_split_newline; eassumption). subst body'.
      apply app_inv_head in E. rewrite (IH _ _ H' E). reflexivity.
    + exfalso. cbn [app] in E. assert (47 = 42) by congruence. lia.
    + exfalso. cbn [app] in E. assert (47 = 42) by congruence. lia.
  - destruct H' as [r' N1 N2 N3|c' g' r' B' H'|body' g' r' N' X' H'|body' g' r' N' H'|body' N'].
    + exfalso. apply N3. eexists. cbn [app] in E. rewrite <- ?app_assoc in E. symmetry. exact E.
    + exfalso. cbn [app] in E. assert (c' = 47) by congruence. subst c'. exact (blank_47 B').
    + exfalso. cbn [app] in E. assert (47 = 42) by congruence. lia.
    + rewrite <- !app_assoc in E. apply app_inv_head in E. assert (body = body') by (eapply app_split_close; eassumption). subst body'.
      apply app_inv_head in E. apply app_inv_head in E. rewrite (IH _ _ H' E). reflexivity.
    + exfalso. rewrite app_nil_r, <- !app_assoc in E. apply app_inv_head in E. apply (N' body (g ++ rest)). rewrite <- E. reflexivity.
  - destruct H' as [r' N1 N2 N3|c' g' r' B' H'|body' g' r' N' X' H'|body' g' r' N' H'|body' N'].
    + exfalso. apply N3. eexists. rewrite app_nil_r in E. cbn [app] in E. symmetry. exact E.
    + exfalso. cbn [app] in E. assert (c' = 47) by congruence. subst c'. exact (blank_47 B').
    + exfalso. cbn [app] in E. assert (47 = 42) by congruence. lia.
    + exfalso. rewrite app_nil_r, <- !app_assoc in E. apply app_inv_head in E. apply (N body' (g' ++ r')). exact E.
    + rewrite !app_nil_r in E. exact E.
Qed.

(** The inside of a string literal. *)
Lemma str_body_unique q b r : q = 34 \/ q = 39 -> str_body q b r -> forall b' r', str_body q b' r' -> b ++ r = b' ++ r' -> b = b'.
Proof.
  intros Q. induction 1 as [rest N|e l rest Nq X H IH|c l rest Nc X H IH]; intros b' r' H' E.
  - destruct H' as [|e' l' r' _ _ _|c' l' r' Nc _ _]; [reflexivity| |]; exfalso; cbn [app] in E.
    + assert (92 = q) by (eapply N; exact E). lia.
    + assert (c' = q) by (eapply N; exact E). lia.
  - destruct H' as [r' N|e' l' r' Nq' X' H'|c' l' r' Nc X' H']; cbn [app] in E.
    + exfalso. assert (92 = q) by (eapply N; symmetry; exact E). lia.
    + assert (e = e') by congruence. subst e'. do 2 f_equal. apply (IH _ _ H'). congruence.
    + exfalso. assert (c' = 92) by congruence. subst c'. apply (X' eq_refl e (l ++ rest)); [congruence|exact X].
  - destruct H' as [r' N|e' l' r' Nq' X' H'|c' l' r' Nc' X' H']; cbn [app] in E.
    + exfalso. assert (c = q) by (eapply N; symmetry; exact E). lia.
    + exfalso. assert (c = 92) by congruence. subst c. apply (X eq_refl e' (l' ++ r')); [congruence|exact X'].
    + assert (c = c') by congruence. subst c'. f_equal. apply (IH _ _ H'). congruence.
Qed.

Lemma prefix_same {A} (a b x y : list A) : a ++ x = b ++ y -> length a = length b -> a = b.
Proof.
  revert b. induction a as [|c a IH]; intros [|d b] E L; try discriminate L; [reflexivity|]. cbn in E, L. injection E as -> E. f_equal. apply IH; [exact E|lia].
Qed.
Lemma op_number o n n' : In (o, n) operators -> In (o, n') operators -> n = n'.
Proof.
  assert (A : forallb (fun x => forallb (fun y => negb (bytes_eqb (fst x) (fst y)) || (snd x =? snd y)) operators) operators = true)
    by (vm_compute; reflexivity).
  intros H H'. rewrite forallb_forall in A. specialize (A _ H). rewrite forallb_forall in A. specialize (A _ H'). cbn [fst snd] in A.
  assert (B : bytes_eqb o o = true) by (apply bytes_eqb_eq; reflexivity). rewrite B in A. cbn [negb orb] in A. lia.
Qed.
Lemma keyword_number w n n' : In (w, n) keywords -> In (w, n') keywords -> n = n'.
Proof. intros H H'. rewrite <- (keyword_tok_in _ _ H). apply keyword_tok_in. exact H'. Qed.
Lemma op_head o n p : In (o, n) operators -> starts o p ->
  exists c q, p = c :: q /\ ~ letter c /\ ~ 48 <= c <= 57 /\ c <> 34 /\ c <> 39.
Proof.
  intros I [r S]. pose proof op_heads as A. rewrite forallb_forall in A. specialize (A _ I). cbn [fst] in A.
  destruct o as [|c o]; [discriminate A|]. exists c, (o ++ r). split; [exact S|].
  assert (Hin : In c (bs "^~+-%/*<>=!|&,.:;{}[]()?")).
  { unfold op_char, in_set in A. rewrite <- existsb_app in A. apply existsb_exists in A as (x & Hx & E). apply Z.eqb_eq in E. subst x. exact Hx. }
  clear -Hin. unfold letter. cbn in Hin.
  repeat (destruct Hin as [<-|Hin]; [repeat split; lia|]). destruct Hin.
Qed.

Lemma token_unique lex rest n body lex' rest' n' body' : token lex rest n body -> token lex' rest' n' body' ->
  lex ++ rest = lex' ++ rest' -> ~ starts (bs "~=") (lex ++ rest) -> (n = TOK_NUM -> lex = lex') ->
  lex = lex' /\ n = n' /\ body = body'.
Proof.
  intros T T' E NT EN.
  destruct T as [c w n H1 H2 H3 H4|c w H1 H2|q b H0 H1 H2|q b H0 H1 H2 H3|n K|K|x K1 K2 K3 K4 K5 K6];
  destruct T' as [c' w' n' H1' H2' H3' H4'|c' w' H1' H2'|q' b' H0' H1' H2'|q' b' H0' H1' H2' H3'|n' K'|K'|x' K1' K2' K3' K4' K5' K6'];
  try (exfalso; apply NT; subst lex; exists rest; reflexivity);
  try (exfalso; apply NT; rewrite E; subst lex'; exists rest'; reflexivity);
  try (exfalso; destruct K as (I & S & _); destruct (op_head _ _ _ I S) as (z & p & Ez & Z1 & Z2 & Z3 & Z4);
       rewrite E in Ez; subst lex'; cbn [app] in Ez; injection Ez as <- _; tauto);
  try (exfalso; destruct K' as (I & S & _); destruct (op_head _ _ _ I S) as (z & p & Ez & Z1 & Z2 & Z3 & Z4);
       rewrite <- E in Ez; subst lex; cbn [app] in Ez; injection Ez as <- _; tauto);
  try (exfalso; subst lex lex'; cbn [app] in E; injection E as <- _; first [tauto|unfold letter in *; lia]).
  - rewrite E in H3. assert (lex = lex') by (eapply whole_ident_unique; eassumption). split; [assumption|]. clear H1 H1'. subst lex'. split; [|reflexivity].
    destruct H4 as [H4|[H4 ->]], H4' as [H4'|[H4' ->]]; [exact (keyword_number _ _ _ H4 H4')| | |reflexivity]; exfalso.
    + exact (H4' _ H4).
    + exact (H4 _ H4').
  - assert (lex = lex') by (apply EN; reflexivity). split; [assumption|]. split; [reflexivity|assumption].
  - subst lex lex'. cbn [app] in E. injection E as <- E. rewrite <- !app_assoc in E. cbn [app] in E.
    assert (b = b') by (eapply str_body_unique; [exact H0|exact H2|exact H2'|exact E]). subst b'. split; [reflexivity|]. split; reflexivity.
  - subst lex lex' rest'. cbn [app] in E. injection E as <- E. rewrite <- !app_assoc, ?app_nil_r in E. cbn [app] in E.
    assert (EB : b = b') by (eapply str_body_unique; [exact H0|exact H2|exact H3'|rewrite app_nil_r; exact E]).
    exfalso. rewrite <- EB in E. apply (f_equal (@List.length Z)) in E. rewrite app_length in E. cbn [List.length] in E. lia.
  - subst lex lex' rest. cbn [app] in E. injection E as <- E. rewrite <- !app_assoc, ?app_nil_r in E. cbn [app] in E.
    assert (EB : b = b') by (eapply str_body_unique; [exact H0|exact H3|exact H2'|rewrite app_nil_r; exact E]).
    exfalso. rewrite <- EB in E. apply (f_equal (@List.length Z)) in E. rewrite app_length in E. cbn [List.length] in E. lia.
  - subst lex lex' rest rest'. rewrite !app_nil_r in E. injection E as <- E. subst b'. repeat split.
  - destruct K as (I & S & L), K' as (I' & S' & L').
    assert (Len : length lex = length lex').
    { apply Nat.le_antisymm; [apply (L' lex n I); rewrite <- E; exact S|apply (L lex' n' I'); rewrite E; exact S']. }
    assert (lex = lex') by (eapply prefix_same; eassumption). subst lex'. split; [reflexivity|]. split; [eapply op_number; eassumption|reflexivity].
  - exfalso. destruct K as (I & S & L). rewrite E in S. exact (K6' _ _ I S).
  - exfalso. destruct K' as (I & S & L). rewrite <- E in S. exact (K6 _ _ I S).
  - subst lex lex'. cbn [app] in E. injection E as <- _. repeat split.
Qed.

(** Numbers. *)
Lemma pnext_number s g ds p q : c_text (t_pos s) -> t_pos s = g ++ ds ++ q -> gap g (ds ++ q) -> literal ds p -> num_end ds q ->
  exists s', pnext s = OK s' /\ t_pos s' = q.
Proof.
  intros T E G D NE. rewrite pnext_eq.
  destruct (skip_loop_spec (S (length (t_pos s))) (t_line s) (t_pos s) T ltac:(lia)) as (l' & p' & g' & -> & E' & G' & EL).
  assert (g = g') by (eapply gap_unique; [exact G|exact G'|congruence]). subst g'.
  assert (p' = ds ++ q) by (rewrite E in E'; apply app_inv_head in E'; congruence). subst p'.
  cbn [bind]. pose proof (getnum_lit ds p q D NE) as GN. destruct (literal_head _ _ D) as (z & w & -> & Fz). rename w into ds.
  unfold scan. cbn [app]. rewrite pk_0. cbn [bind]. replace (z =? 0) with false by lia.
  replace (is_digit z) with true by (unfold is_digit; lia). cbn [app] in GN. rewrite GN. cbn [bind List.length].
  assert (Tq : c_text ((z :: ds) ++ q)) by (rewrite E in T; apply c_text_app in T; apply T).
  rewrite (finish_ok l' (t_tok s) (z :: ds ++ q) TOK_NUM _ _ (z :: ds) q (length ds) Tq eq_refl eq_refl). cbn [bind].
  eexists. split; [reflexivity|]. reflexivity.
Qed.

Definition eof_tok : tokn := {| lx_tok := TOK_EOF; lx_text := [] |}.

Lemma pnext_token s g lex rest t : c_text (t_pos s) -> t_pos s = g ++ lex ++ rest -> gap g (lex ++ rest) ->
  token lex rest (lx_tok t) (lx_text t) -> ~ starts (bs "~=") (lex ++ rest) -> (lx_tok t = TOK_NUM -> (exists p, literal lex p) /\ num_end lex rest) ->
  exists s', pnext s = OK s' /\ t_pos s' = rest /\ t_prev s' = t_tok s /\ shows s' t.
Proof.
  intros T E G Tk NT Num.
  destruct (pnext_spec s T) as (s' & g' & lex' & body' & P & E' & G' & _ & Pv & H).
  exists s'. split; [exact P|].
  assert (g = g') by (eapply gap_unique; [exact G|exact G'|congruence]). subst g'.
  assert (E2 : lex ++ rest = lex' ++ t_pos s') by (rewrite E in E'; apply app_inv_head in E'; exact E').
  assert (Nl : lex <> []).
  { intros ->. destruct Tk as [c w n H1|c w H1|q b H0 H1|q b H0 H1|n K|K|x K1]; try discriminate.
    destruct K as (I & _). pose proof op_heads as A. rewrite forallb_forall in A. specialize (A _ I). discriminate A. }
  destruct H as [(-> & H2 & _)|(_ & H2 & H3 & (q1 & q2 & H4 & H5))].
  { rewrite H2 in E2. destruct lex; [congruence|discriminate E2]. }
  assert (U : lex = lex' /\ lx_tok t = t_tok s' /\ lx_text t = body').
  { apply (token_unique _ _ _ _ _ _ _ _ Tk H2 E2 NT). intros Hn. destruct (Num Hn) as [[p D] NE].
    destruct (pnext_number s g lex p rest T E G D NE) as (s2 & P2 & R2).
    assert (s2 = s') by congruence. subst s2. rewrite R2 in E2. apply app_inv_tail in E2. exact E2. }
  destruct U as (<- & U2 & <-). apply app_inv_head in E2. split; [congruence|]. split; [exact Pv|].
  split; [congruence|]. intros _. split; [exact H3|]. exists (q2 ++ t_pos s'). split; [exact H5|].
  intros Hn. destruct (Num Hn) as [[p D] NE]. destruct (literal_head _ _ D) as (c0 & w0 & El & Hc). rewrite <- E2.
  assert (q2 = []).
  { destruct Tk as [c w n H1 H1' _ [H1''|[_ ->]]|c w H1|q b H0 H1|q b H0 H1|n (K & _)|K|x K1]; try discriminate Hn.
    - exfalso. assert (c0 = c) by congruence. subst c0. unfold letter in H1'. lia.
    - assert (Ln : zlen lex = zlen q1 + (zlen lex + zlen q2)) by (rewrite H4 at 1; rewrite !zlen_app; reflexivity).
      pose proof (zlen_nonneg q1). pose proof (zlen_nonneg q2). destruct q2; [reflexivity|]. rewrite zlen_cons in *. pose proof (zlen_nonneg q2). lia.
    - exfalso. destruct (op_head _ _ lex K ltac:(exists []; rewrite app_nil_r; reflexivity)) as (z & p' & Ez & _ & Zd & _). assert (c0 = z) by congruence. lia. }
  subst q2.
  assert (Tx : lx_text t = lex).
  { clear - Tk Hn El Hc. inversion Tk as [c w n H1 H1' _ HK|c w H1|q b H0 H1|q b H0 H1|n KO|K|x K1]; try congruence.
    - exfalso. assert (c0 = 34 \/ c0 = 39) by (destruct H0; [left|right]; congruence). lia.
    - exfalso. assert (c0 = 34 \/ c0 = 39) by (destruct H0; [left|right]; congruence). lia. }
  rewrite Tx. exact NE.
Qed.

Theorem source_ahead p ts : source p ts -> forall t, c_text p -> t_pos t = p ->
  exists t', pnext t = OK t' /\ t_prev t' = t_tok t /\ ahead t' (ts ++ [eof_tok]).
Proof.
  assert (End : forall t g, c_text (t_pos t) -> t_pos t = g -> gap g [] -> exists t', pnext t = OK t' /\ t_prev t' = t_tok t /\ t_tok t' = TOK_EOF /\ t_pos t' = []).
  { intros t g T E G. destruct (pnext_spec t T) as (s' & g' & lex' & body' & P & E' & G' & _ & Pv & H).
    assert (g = g') by (eapply gap_unique; [exact G|exact G'|rewrite app_nil_r; congruence]). subst g'.
    assert (K : lex' ++ t_pos s' = []) by (rewrite E in E'; rewrite <- (app_nil_r g) in E' at 1; apply app_inv_head in E'; congruence).
    apply app_eq_nil in K as [-> K]. destruct H as [(_ & H2 & H3)|(H & _)]; [|congruence].
    exists s'. split; [exact P|]. split; [exact Pv|]. split; [exact H3|exact H2]. }
  assert (Gn : gap [] []).
  { apply gap_end; [discriminate| |]; intros [r Q]; discriminate Q. }
  induction 1 as [g G|g lex rest k ts G Tk NT Num H IH]; intros t T E.
  - rewrite <- E in T. destruct (End t g T E G) as (t' & P & Pv & Tk & Ps). exists t'. split; [exact P|]. split; [exact Pv|].
    cbn [app ahead]. split; [split; [exact Tk|intros C; destruct (C eq_refl)]|].
    destruct (End t' [] ltac:(rewrite Ps; constructor) Ps Gn) as (t2 & P2 & Pv2 & _). exists t2. split; [exact P2|]. split; [exact Pv2|exact I].
  - pose proof T as T0. rewrite <- E in T.
    destruct (pnext_token t g lex rest k T E G Tk NT Num) as (t1 & P & R1 & Pv & Sh).
    exists t1. split; [exact P|]. split; [exact Pv|]. cbn [app ahead]. split; [exact Sh|]. apply IH; [|exact R1].
    apply c_text_app in T0 as [_ T0]. apply c_text_app in T0. apply T0.
Qed.

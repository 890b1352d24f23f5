(** Properties of the parser beyond expressions. *)
From Verif Require Import Base BaseFacts Value_Model Str_Model Str_Spec TokNum_Model Txt_Model Tok_Model Tok_Spec Tok_Proofs2
  Bcode_Model Bcode_Proofs Parse_Model Expr_Spec Expr_Proofs Expr_Proofs1 Expr_Proofs2 Lex_Proofs Expr_Proofs6.
Ltac Zify.zify_post_hook ::= Z.div_mod_to_equations.

(** ** C50. Consecutive blocks *)
Definition open_tok : tokn := {| lx_tok := TOK_OPEN_CURLY; lx_text := [123] |}.
Definition close_tok : tokn := {| lx_tok := TOK_CLOSE_CURLY; lx_text := [125] |}.
Fixpoint blocks (n : nat) : list tokn := match n with O => [] | S n => open_tok :: close_tok :: blocks n end.
(** The run ends with a syntax error. *)
Definition fails (m : nat -> pres) : Prop := exists f s, (forall f', (f <= f')%nat -> m f' = OK (s, E_SYNTAX)) /\ exists a, cursor (p_g s) a [].
Lemma fails_parse n s : fails (fun f => rule (parse f) n s) -> fails (fun f => parse f n s).
Proof. intros (f & s' & H & C). exists (S f), s'. split; [|exact C]. intros [|f'] Hf; [lia|]. cbn [parse]. apply H. lia. Qed.
Lemma fails_rec2 m (k : nat -> ps * Z -> pres) Q : reach m Q -> (forall s', Q s' -> fails (fun f => k f (s', E_OK))) ->
  fails (fun f => bind (m f) (k f)).
Proof.
  intros (f1 & s1 & H1 & HQ) HK. destruct (HK s1 HQ) as (f2 & s2 & H2 & C).
  exists (f1 + f2)%nat, s2. split; [|exact C]. intros f' Hf. rewrite H1 by lia. cbn [bind]. apply H2. lia.
Qed.
Lemma block_parsed s t k rest a dp : st s t a [] dp -> ahead t (open_tok :: close_tok :: k :: rest) -> dp < DEPTH_LIMIT ->
  reach (fun f => parse f NStmt s) (fun s' => exists a', done a' [] (dp + 1) k rest s').
Proof.
  intros S A L. cbn [ahead] in A. destruct A as ((K0 & _) & t1 & N1 & _ & (K1 & _) & t2 & N2 & _ & A).
  apply reach_parse. cbn [rule]. unfold parse_statement. rewrite (st_tk _ _ _ _ _ S), K0. cbn [open_tok lx_tok]. tokc.
  apply reach_parse. cbn [rule]. unfold parse_block. pose proof (st_depth _ _ _ _ _ (dp + 1) S) as S1.
  replace (p_depth s + 1) with (dp + 1) by (destruct S as (_ & _ & ->); reflexivity). cbn [with_depth p_depth] in *.
  replace (DEPTH_LIMIT <? dp + 1) with false by lia. eb.
  eapply (reach_rec2 _ _ (fun s' => exists a', st s' t1 a' [] (dp + 1))).
  - apply reach_parse. cbn [rule]. unfold parse_statement_list. eb. apply reach_parse. cbn [rule]. unfold parse_stmts.
    rewrite (st_tk _ _ _ _ _ H0), K1. cbn [close_tok lx_tok]. tokc. cbn [orb]. eb. apply reach_ok. eauto.
  - intros s' (a' & S'). unfold expect. rewrite (st_tk _ _ _ _ _ S'), K1. cbn [close_tok lx_tok]. tokc. eb. unfold pok. cbnb.
    change (E_OK =? E_OK) with true. cbv iota. eb. apply reach_ok. eexists. exists t2. split; [exact H1|exact A].
Qed.
Lemma no_semis_parsed s k rest a b dp : done a b dp k rest s -> lx_tok k <> TOK_SEMICOLON -> reach (fun f => parse f NSemis s) (fun s' => s' = s).
Proof.
  intros (t & S & A) N. apply reach_parse. cbn [rule]. unfold parse_semis. rewrite (st_tk _ _ _ _ _ S), (ahead_tok _ _ _ A).
  replace (lx_tok k =? TOK_SEMICOLON) with false by lia. apply reach_ok. reflexivity.
Qed.
Lemma blocks_next n : exists k rest, blocks n ++ [eof_tok] = k :: rest /\ lx_tok k <> TOK_SEMICOLON.
Proof. destruct n; cbn [blocks app]; eexists; eexists; (split; [reflexivity|discriminate]). Qed.
Lemma blocks_stmts n : forall s t a dp drop, st s t a [] dp -> ahead t (blocks n ++ [eof_tok]) -> dp <= DEPTH_LIMIT ->
  (dp + Z.of_nat n <= DEPTH_LIMIT -> reach (fun f => parse f (NStmts TOK_EOF drop) s) (fun s' => exists a', cursor (p_g s') a' [])) /\
  (DEPTH_LIMIT < dp + Z.of_nat n -> fails (fun f => parse f (NStmts TOK_EOF drop) s)).
Proof.
  induction n as [|n IH]; intros s t a dp drop S A L.
  - split; [intros _|lia]. apply reach_parse. cbn [rule]. unfold parse_stmts. rewrite (st_tk _ _ _ _ _ S). cbn [blocks app ahead] in A.
    destruct A as ((-> & _) & _). cbn [eof_tok lx_tok]. tokc. cbn [orb].
    destruct drop; [apply reach_ok; destruct S as (_ & C & _); eauto|]. eb. apply reach_ok. destruct H as (_ & C & _). eauto.
  - destruct (blocks_next n) as (k & rest & Ek & Nk). cbn [blocks app] in A. rewrite Ek in A.
    assert (T : t_tok t = TOK_OPEN_CURLY) by (destruct A as ((-> & _) & _); reflexivity).
    assert (X : exists s1 a1, (if drop then e_byte s OP_DROP else OK s) = OK s1 /\ st s1 t a1 [] dp).
    { destruct drop; [|exists s, a; split; [reflexivity|exact S]].
      destruct (e_byte_st _ _ _ _ _ OP_DROP S ltac:(vm_compute; intuition congruence)) as (s1 & E & S1). eauto. }
    destruct X as (s1 & a1 & E1 & S1).
    destruct (Z.lt_ge_cases dp DEPTH_LIMIT) as [Ld|Ld].
    + pose proof (block_parsed s1 t k rest a1 dp S1 A Ld) as B. split; intros Hn.
      * apply reach_parse. cbn [rule]. unfold parse_stmts. rewrite (st_tk _ _ _ _ _ S), T. tokc. cbn [orb]. rewrite E1. cbnb.
        eapply reach_rec2; [exact B|]. intros s2 (a2 & D2). eapply reach_rec2; [apply (no_semis_parsed _ _ _ _ _ _ D2 Nk)|].
        intros s3 ->. change (E_OK =? E_OK) with true. cbv iota. destruct D2 as (t2 & S2 & A2). rewrite <- Ek in A2.
        apply (IH s2 t2 a2 (dp + 1) true S2 A2 ltac:(lia)). lia.
      * apply fails_parse. cbn [rule]. unfold parse_stmts. rewrite (st_tk _ _ _ _ _ S), T. tokc. cbn [orb]. rewrite E1. cbnb.
        eapply fails_rec2; [exact B|]. intros s2 (a2 & D2). eapply fails_rec2; [apply (no_semis_parsed _ _ _ _ _ _ D2 Nk)|].
        intros s3 ->. change (E_OK =? E_OK) with true. cbv iota. destruct D2 as (t2 & S2 & A2). rewrite <- Ek in A2.
        apply (IH s2 t2 a2 (dp + 1) true S2 A2 ltac:(lia)). lia.
    + split; intros Hn; [lia|].
      assert (Sd : p_depth s1 = dp) by (destruct S1 as (_ & _ & X); exact X).
      set (s2 := with_depth s1 (dp + 1)).
      assert (T2 : tk s2 = TOK_OPEN_CURLY) by (unfold s2; rewrite (st_tk _ _ _ _ _ (st_depth _ _ _ _ _ (dp + 1) S1)); exact T).
      exists 3%nat, s2. split; [|exists a1; destruct S1 as (_ & C & _); exact C]. intros f' Hf. destruct f' as [|[|[|f']]]; try lia. cbn [parse rule]. unfold parse_stmts at 1.
      rewrite (st_tk _ _ _ _ _ S), T. tokc. cbn [orb]. rewrite E1. cbnb. cbn [parse rule]. unfold parse_statement at 1.
      rewrite (st_tk _ _ _ _ _ S1), T. tokc. cbn [parse rule]. unfold parse_block at 1. rewrite Sd. cbn [with_depth p_depth].
      replace (DEPTH_LIMIT <? dp + 1) with true by lia. unfold syntax_error. cbnb. unfold parse_semis at 1. fold s2.
      change (with_depth s1 (dp + 1)) with s2. rewrite T2. tokc. reflexivity.
Qed.

(** C50. A program of [n] empty blocks one after the other (with any blanks and comments
    between them) is accepted exactly when [n] is at most the nesting limit: the depth is
    never counted down after a block. *)
Theorem sequential_blocks path src n : c_text src -> source src (blocks n) ->
  exists f code e, (forall f', (f <= f')%nat -> mjs_parse f' path src = OK (code, e)) /\
    (e = E_OK <-> (n <= nesting_limit)%nat) /\ (e = E_SYNTAX <-> (nesting_limit < n)%nat).
Proof.
  intros T Sr. destruct (source_ahead _ _ Sr (pinit src) T eq_refl) as (t1 & N1 & P1 & A1).
  set (pre := OP_BCODE_HEADER :: repeat 0 12 ++ path ++ [0]).
  set (g := {| g_code := pre; g_cur := zlen pre; g_start := zlen pre; g_map := []; g_last := 1 |}).
  set (s0 := {| p_t := pinit src; p_g := g; p_depth := 0 |}).
  assert (Hs0 : st s0 (pinit src) pre [] 0) by (split; [reflexivity|split; [split; [rewrite app_nil_r; reflexivity|reflexivity]|reflexivity]]).
  destruct (pnext1_st _ _ _ _ _ _ Hs0 N1) as (s1 & E1 & S1).
  assert (LE : DEPTH_LIMIT = Z.of_nat nesting_limit) by (vm_compute; reflexivity).
  destruct (blocks_stmts n s1 t1 pre 0 false S1 A1 ltac:(vm_compute; discriminate)) as [H1 H2].
  assert (G : exists f s e, (forall f', (f <= f')%nat -> parse f' (NStmtList TOK_EOF) s0 = OK (s, e)) /\
     (e = E_OK <-> (n <= nesting_limit)%nat) /\ (e = E_SYNTAX <-> (nesting_limit < n)%nat) /\ exists g', e_byte s OP_EXIT = OK g').
  { destruct (le_lt_dec n nesting_limit) as [L|L].
    - destruct (H1 ltac:(lia)) as (f & s & R & a' & C). exists (1 + f)%nat, s, E_OK. split.
      { intros [|f'] Hf; [lia|]. cbn [parse rule]. unfold parse_statement_list. rewrite E1. cbnb. apply R. lia. }
      split; [split; auto|]. split; [split; [discriminate|lia]|].
      destruct (e_byte_st s (p_t s) a' [] (p_depth s) OP_EXIT) as (s' & -> & _); [split; [reflexivity|split; [exact C|reflexivity]]|vm_compute; intuition congruence|eauto].
    - destruct (H2 ltac:(lia)) as (f & s & R & a' & C). exists (1 + f)%nat, s, E_SYNTAX. split.
      { intros [|f'] Hf; [lia|]. cbn [parse rule]. unfold parse_statement_list. rewrite E1. cbnb. apply R. lia. }
      split; [split; [discriminate|lia]|]. split; [split; auto|]. destruct (e_byte_st s (p_t s) a' [] (p_depth s) OP_EXIT) as (s' & -> & _); [split; [reflexivity|split; [exact C|reflexivity]]|vm_compute; intuition congruence|eauto]. }
  destruct G as (f & s & e & R & I1 & I2 & s' & E). exists f. eexists. exists e. split; [|split; [exact I1|exact I2]].
  intros f' Hf. unfold mjs_parse. fold pre. fold g. fold s0. rewrite R by exact Hf. cbn [bind]. rewrite E. cbn [bind]. cbv zeta. reflexivity.
Qed.
Print Assumptions sequential_blocks.
(** Such sources exist for every [n]. *)
Lemma blocks_source n : c_text (concat (repeat (bs "{}") n)) /\ source (concat (repeat (bs "{}") n)) (blocks n).
Proof.
  induction n as [|n [IT IS]]; [split; [constructor|]|].
  - apply src_end, gap_end; [intros c r H; discriminate H|intros [r H]; discriminate H|intros [r H]; discriminate H].
  - cbn [repeat concat blocks]. set (p := concat _) in *. split.
    + apply Forall_app. split; [repeat (apply Forall_cons; [vm_compute; split; reflexivity|]); apply Forall_nil|exact IT].
    + change (bs "{}" ++ p) with ([] ++ [123] ++ ([] ++ [125] ++ p)).
      apply src_tok; [|apply (tk_op _ _ TOK_OPEN_CURLY); apply longest_intro; [in_ops|not_in]|intros [r H]; discriminate H|discriminate|].
      { apply gap_end; [|intros [r H]; discriminate H|intros [r H]; discriminate H]. intros c r H B. cbn [app] in H. assert (c = 123) by congruence. subst c. cbv in B. intuition discriminate. }
      apply src_tok; [|apply (tk_op _ _ TOK_CLOSE_CURLY); apply longest_intro; [in_ops|not_in]|intros [r H]; discriminate H|discriminate|exact IS].
      apply gap_end; [|intros [r H]; discriminate H|intros [r H]; discriminate H]. intros c r H B. cbn [app] in H. assert (c = 125) by congruence. subst c. cbv in B. intuition discriminate.
Qed.
(** So nesting of depth one can be rejected as too deep. *)
Theorem flat_program_accepted_refuted : exists n, forall path, exists f code,
  forall f', (f <= f')%nat -> mjs_parse f' path (concat (repeat (bs "{}") n)) = OK (code, E_SYNTAX).
Proof.
  exists (S nesting_limit). intros path. destruct (blocks_source (S nesting_limit)) as [T Sr].
  destruct (sequential_blocks path _ _ T Sr) as (f & code & e & R & _ & I2). exists f, code. intros f' Hf. rewrite R by exact Hf.
  rewrite (proj2 I2 (Nat.lt_succ_diag_r _)). reflexivity.
Qed.
Print Assumptions flat_program_accepted_refuted.
Example sequential_blocks_ex : match mjs_parse 60 (bs "f") (bs "{} /* */ {} {}") with OK (_, e) => e = E_OK | _ => False end.
Proof. vm_compute. reflexivity. Qed.

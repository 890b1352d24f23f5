(** Programs run in a new engine with all its names, with no hypothesis about the engine left. *)
From Verif Require Import Base Value_Model Value_Spec Str_Model Str_Spec TokNum_Model Txt_Model Tok_Model Tok_Spec Num_Model NumText_Spec Lit_Proofs Obj_Model Obj_Spec Bcode_Model Bcode_Proofs Vm_Model Vm_Spec Parse_Model Run_Model Expr_Spec Run_Spec
  Tok_Proofs2 Obj_Proofs Obj_Proofs2 Props_Obj Props_Vm Props_Expr Lang_Spec Lang_Code Lang_Spec2 Lang_Spec3 Props_Lang Props_Lang2 Init_Model Init_Spec Props_Init.
From Coq Require Import ZifyBool.
Ltac Zify.zify_post_hook ::= idtac.

(** C83. mjs_create and then mjs_exec of any number of programs: if the interpreter, started
    with the names of the new engine, gives them values, so does the engine. *)
Theorem new_engine_runs w p n ps codes rounds depth vs s' : addresses_ok p -> 0 <= n < 2 ^ 45 ->
  Forall well_formed ps -> Forall2 compiles ps codes -> total codes < 2 ^ 31 - 1 -> Z.of_nat depth <= 46000 ->
  run_all rounds depth [0%nat] undef ps (new_state p n) = Some (vs, s') ->
  exists m f m' rs W', create_all p = OK m /\ (forall f', (f <= f')%nat -> exec_all f' w m ps = OK (m', rs)) /\
    in_state m' W' s' [0%nat] undef /\ Forall2 (vrep (m_code m') (m_ext m') W') rs vs /\ same_stacks m m'.
Proof.
  intros Ha Hn F F2 Ht Hd Hr. destruct (created_with_names p n Ha Hn) as (m & W & E & I & S1 & S2 & S3 & S4 & S5 & _ & C).
  destruct (session_result w [0%nat] undef rounds depth ps codes F F2 m W (new_state p n) vs s' Hr) as (f & m' & rs & W' & H1 & H2 & _ & H3 & H4 & _).
  - exists []. split; [exact C|]. change (zlen (concat [])) with 0. lia.
  - unfold stack_room. rewrite S1, S4, S5. change (zlen []) with 0. cbv zeta. nia.
  - exact I.
  - exists m, f, m', rs, W'. auto.
Qed.
Print Assumptions new_engine_runs.


Definition five_src : list Z := bs "let a = NaN; global.b = 2; let c = JSON === global.JSON ? b : 0; c + (a === a ? 1 : 0);".
Definition five_tree : list stmt :=
  [(SLet [((bs "a"), Some (XVar (bs "NaN")))]);
   (SExprs [(XAsg TOK_ASSIGN (XDot (XVar (bs "global")) (bs "b")) (XConst (EInt 2)))]);
   (SLet [((bs "c"), Some (XCond (XBin TOK_EQ_EQ (XVar (bs "JSON")) (XDot (XVar (bs "global")) (bs "JSON"))) (XVar (bs "b")) (XConst (EInt 0))))]);
   (SExprs [(XBin TOK_PLUS (XVar (bs "c")) (XCond (XBin TOK_EQ_EQ (XVar (bs "a")) (XVar (bs "a"))) (XConst (EInt 1)) (XConst (EInt 0))))])].
Definition five_t0 : tokn := tk1 TOK_KEYWORD_LET "let".
Definition five_t1 : tokn := tk1 TOK_IDENT "a".
Definition five_t2 : tokn := tk1 TOK_ASSIGN "=".
Definition five_t3 : tokn := tk1 TOK_IDENT "NaN".
Definition five_t4 : tokn := tk1 TOK_SEMICOLON ";".
Definition five_t5 : tokn := tk1 TOK_IDENT "global".
Definition five_t6 : tokn := tk1 TOK_DOT ".".
Definition five_t7 : tokn := tk1 TOK_IDENT "b".
Definition five_t8 : tokn := tk1 TOK_ASSIGN "=".
Definition five_t9 : tokn := tk1 TOK_NUM "2".
Definition five_t10 : tokn := tk1 TOK_SEMICOLON ";".
Definition five_t11 : tokn := tk1 TOK_KEYWORD_LET "let".
Definition five_t12 : tokn := tk1 TOK_IDENT "c".
Definition five_t13 : tokn := tk1 TOK_ASSIGN "=".
Definition five_t14 : tokn := tk1 TOK_IDENT "JSON".
Definition five_t15 : tokn := tk1 TOK_EQ_EQ "===".
Definition five_t16 : tokn := tk1 TOK_IDENT "global".
Definition five_t17 : tokn := tk1 TOK_DOT ".".
Definition five_t18 : tokn := tk1 TOK_IDENT "JSON".
Definition five_t19 : tokn := tk1 TOK_QUESTION "?".
Definition five_t20 : tokn := tk1 TOK_IDENT "b".
Definition five_t21 : tokn := tk1 TOK_COLON ":".
Definition five_t22 : tokn := tk1 TOK_NUM "0".
Definition five_t23 : tokn := tk1 TOK_SEMICOLON ";".
Definition five_t24 : tokn := tk1 TOK_IDENT "c".
Definition five_t25 : tokn := tk1 TOK_PLUS "+".
Definition five_t26 : tokn := tk1 TOK_OPEN_PAREN "(".
Definition five_t27 : tokn := tk1 TOK_IDENT "a".
Definition five_t28 : tokn := tk1 TOK_EQ_EQ "===".
Definition five_t29 : tokn := tk1 TOK_IDENT "a".
Definition five_t30 : tokn := tk1 TOK_QUESTION "?".
Definition five_t31 : tokn := tk1 TOK_NUM "1".
Definition five_t32 : tokn := tk1 TOK_COLON ":".
Definition five_t33 : tokn := tk1 TOK_NUM "0".
Definition five_t34 : tokn := tk1 TOK_CLOSE_PAREN ")".
Definition five_t35 : tokn := tk1 TOK_SEMICOLON ";".
Definition five_toks : list tokn := [five_t0; five_t1; five_t2; five_t3; five_t4; five_t5; five_t6; five_t7; five_t8; five_t9; five_t10; five_t11; five_t12; five_t13; five_t14; five_t15; five_t16; five_t17; five_t18; five_t19; five_t20; five_t21; five_t22; five_t23; five_t24; five_t25; five_t26; five_t27; five_t28; five_t29; five_t30; five_t31; five_t32; five_t33; five_t34; five_t35].
Lemma five_source : source five_src five_toks.
Proof.
  unfold five_src, five_toks.
  keyword (bs "let") (bs " a = NaN; global.b = 2; let c = JSON === global.JSON ? b : 0; c + (a === a ? 1 : 0);").
  apply source_blank; [cbn; tauto|].
  word (bs "a") (bs " = NaN; global.b = 2; let c = JSON === global.JSON ? b : 0; c + (a === a ? 1 : 0);"). { intros n H. vm_compute in H. intuition discriminate. }
  apply source_blank; [cbn; tauto|].
  opr (bs "=") (bs " NaN; global.b = 2; let c = JSON === global.JSON ? b : 0; c + (a === a ? 1 : 0);") TOK_ASSIGN.
  apply source_blank; [cbn; tauto|].
  word (bs "NaN") (bs "; global.b = 2; let c = JSON === global.JSON ? b : 0; c + (a === a ? 1 : 0);"). { intros n H. vm_compute in H. intuition discriminate. }
  opr (bs ";") (bs " global.b = 2; let c = JSON === global.JSON ? b : 0; c + (a === a ? 1 : 0);") TOK_SEMICOLON.
  apply source_blank; [cbn; tauto|].
  word (bs "global") (bs ".b = 2; let c = JSON === global.JSON ? b : 0; c + (a === a ? 1 : 0);"). { intros n H. vm_compute in H. intuition discriminate. }
  opr (bs ".") (bs "b = 2; let c = JSON === global.JSON ? b : 0; c + (a === a ? 1 : 0);") TOK_DOT.
  word (bs "b") (bs " = 2; let c = JSON === global.JSON ? b : 0; c + (a === a ? 1 : 0);"). { intros n H. vm_compute in H. intuition discriminate. }
  apply source_blank; [cbn; tauto|].
  opr (bs "=") (bs " 2; let c = JSON === global.JSON ? b : 0; c + (a === a ? 1 : 0);") TOK_ASSIGN.
  apply source_blank; [cbn; tauto|].
  number (bs "2") (bs "; let c = JSON === global.JSON ? b : 0; c + (a === a ? 1 : 0);") lit_2.
  opr (bs ";") (bs " let c = JSON === global.JSON ? b : 0; c + (a === a ? 1 : 0);") TOK_SEMICOLON.
  apply source_blank; [cbn; tauto|].
  keyword (bs "let") (bs " c = JSON === global.JSON ? b : 0; c + (a === a ? 1 : 0);").
  apply source_blank; [cbn; tauto|].
  word (bs "c") (bs " = JSON === global.JSON ? b : 0; c + (a === a ? 1 : 0);"). { intros n H. vm_compute in H. intuition discriminate. }
  apply source_blank; [cbn; tauto|].
  opr (bs "=") (bs " JSON === global.JSON ? b : 0; c + (a === a ? 1 : 0);") TOK_ASSIGN.
  apply source_blank; [cbn; tauto|].
  word (bs "JSON") (bs " === global.JSON ? b : 0; c + (a === a ? 1 : 0);"). { intros n H. vm_compute in H. intuition discriminate. }
  apply source_blank; [cbn; tauto|].
  opr (bs "===") (bs " global.JSON ? b : 0; c + (a === a ? 1 : 0);") TOK_EQ_EQ.
  apply source_blank; [cbn; tauto|].
  word (bs "global") (bs ".JSON ? b : 0; c + (a === a ? 1 : 0);"). { intros n H. vm_compute in H. intuition discriminate. }
  opr (bs ".") (bs "JSON ? b : 0; c + (a === a ? 1 : 0);") TOK_DOT.
  word (bs "JSON") (bs " ? b : 0; c + (a === a ? 1 : 0);"). { intros n H. vm_compute in H. intuition discriminate. }
  apply source_blank; [cbn; tauto|].
  opr (bs "?") (bs " b : 0; c + (a === a ? 1 : 0);") TOK_QUESTION.
  apply source_blank; [cbn; tauto|].
  word (bs "b") (bs " : 0; c + (a === a ? 1 : 0);"). { intros n H. vm_compute in H. intuition discriminate. }
  apply source_blank; [cbn; tauto|].
  opr (bs ":") (bs " 0; c + (a === a ? 1 : 0);") TOK_COLON.
  apply source_blank; [cbn; tauto|].
  number (bs "0") (bs "; c + (a === a ? 1 : 0);") lit_0.
  opr (bs ";") (bs " c + (a === a ? 1 : 0);") TOK_SEMICOLON.
  apply source_blank; [cbn; tauto|].
  word (bs "c") (bs " + (a === a ? 1 : 0);"). { intros n H. vm_compute in H. intuition discriminate. }
  apply source_blank; [cbn; tauto|].
  opr (bs "+") (bs " (a === a ? 1 : 0);") TOK_PLUS.
  apply source_blank; [cbn; tauto|].
  opr (bs "(") (bs "a === a ? 1 : 0);") TOK_OPEN_PAREN.
  word (bs "a") (bs " === a ? 1 : 0);"). { intros n H. vm_compute in H. intuition discriminate. }
  apply source_blank; [cbn; tauto|].
  opr (bs "===") (bs " a ? 1 : 0);") TOK_EQ_EQ.
  apply source_blank; [cbn; tauto|].
  word (bs "a") (bs " ? 1 : 0);"). { intros n H. vm_compute in H. intuition discriminate. }
  apply source_blank; [cbn; tauto|].
  opr (bs "?") (bs " 1 : 0);") TOK_QUESTION.
  apply source_blank; [cbn; tauto|].
  number (bs "1") (bs " : 0);") lit_1.
  apply source_blank; [cbn; tauto|].
  opr (bs ":") (bs " 0);") TOK_COLON.
  apply source_blank; [cbn; tauto|].
  number (bs "0") (bs ");") lit_0.
  opr (bs ")") (bs ";") TOK_CLOSE_PAREN.
  opr (bs ";") (bs "") TOK_SEMICOLON.
  apply src_end, gap_end; [intros c r H; discriminate|no_start|no_start].
Qed.
Lemma five_stmts : stmts TOK_EOF 0 0 five_toks five_tree.
Proof.
  unfold five_toks, five_tree.
  eapply (ss_cons TOK_EOF 0 0 0 [five_t0; five_t1; five_t2; five_t3] [five_t4] [five_t5; five_t6; five_t7; five_t8; five_t9; five_t10; five_t11; five_t12; five_t13; five_t14; five_t15; five_t16; five_t17; five_t18; five_t19; five_t20; five_t21; five_t22; five_t23; five_t24; five_t25; five_t26; five_t27; five_t28; five_t29; five_t30; five_t31; five_t32; five_t33; five_t34; five_t35] _ _); [eapply (s_let 0 0 five_t0 [five_t1; five_t2; five_t3] TOK_SEMICOLON _); [side|eapply (l_one 0 0 five_t1 [five_t2; five_t3] _); [side|eapply (i_some 0 0 five_t2 [five_t3] _); [side|eapply (from8 12 0 0 2 2 [five_t3] _); [side|side|side|side|eapply (lift 0 8 2 2 10 10 [five_t3] _); [side|side|side|side|eapply (x_mem _ 10 10 [five_t3] _); [eapply (m_intro _ _ 10 10 10 [five_t3] [] _ _); [eapply (p_var 10 five_t3); [side]|eapply (t_none _ 10 _)]]]]]]|side]|side|side|side|side|right; side|eapply (ss_cons TOK_EOF 0 0 0 [five_t5; five_t6; five_t7; five_t8; five_t9] [five_t10] [five_t11; five_t12; five_t13; five_t14; five_t15; five_t16; five_t17; five_t18; five_t19; five_t20; five_t21; five_t22; five_t23; five_t24; five_t25; five_t26; five_t27; five_t28; five_t29; five_t30; five_t31; five_t32; five_t33; five_t34; five_t35] _ _); [eapply (s_exprs 0 0 [five_t5; five_t6; five_t7; five_t8; five_t9] TOK_SEMICOLON _); [eapply (c_one 0 0 [five_t5; five_t6; five_t7; five_t8; five_t9] _); [eapply (x_assign 0 0 0 [five_t5; five_t6; five_t7] five_t8 [five_t9] _ _); [side|side|eapply (m_intro _ _ 10 10 10 [five_t5] [five_t6; five_t7] _ _); [eapply (p_var 10 five_t5); [side]|eapply (t_dot _ _ 10 10 _ five_t6 five_t7 [] _); [side|side|eapply (t_none _ 10 _)]]|eapply (from8 12 0 0 2 2 [five_t9] _); [side|side|side|side|eapply (lift 0 8 2 2 10 10 [five_t9] _); [side|side|side|side|eapply (x_mem _ 10 10 [five_t9] _); [eapply (m_intro _ _ 10 10 10 [five_t9] [] _ _); [eapply (p_const 10 five_t9 _); [exact num_2|side]|eapply (t_none _ 10 _)]]]]]]|side|side|side]|side|side|side|side|right; side|eapply (ss_cons TOK_EOF 0 0 0 [five_t11; five_t12; five_t13; five_t14; five_t15; five_t16; five_t17; five_t18; five_t19; five_t20; five_t21; five_t22] [five_t23] [five_t24; five_t25; five_t26; five_t27; five_t28; five_t29; five_t30; five_t31; five_t32; five_t33; five_t34; five_t35] _ _); [eapply (s_let 0 0 five_t11 [five_t12; five_t13; five_t14; five_t15; five_t16; five_t17; five_t18; five_t19; five_t20; five_t21; five_t22] TOK_SEMICOLON _); [side|eapply (l_one 0 0 five_t12 [five_t13; five_t14; five_t15; five_t16; five_t17; five_t18; five_t19; five_t20; five_t21; five_t22] _); [side|eapply (i_some 0 0 five_t13 [five_t14; five_t15; five_t16; five_t17; five_t18; five_t19; five_t20; five_t21; five_t22] _); [side|eapply (x_assign1 0 0 [five_t14; five_t15; five_t16; five_t17; five_t18; five_t19; five_t20; five_t21; five_t22] _); [eapply (x_cond 0 0 0 0 [five_t14; five_t15; five_t16; five_t17; five_t18] five_t19 [five_t20] five_t21 [five_t22] _ _ _); [side|side|eapply (from8 10 0 0 2 2 [five_t14; five_t15; five_t16; five_t17; five_t18] _); [side|side|side|side|eapply (lift 5 8 2 2 5 5 [five_t14; five_t15; five_t16; five_t17; five_t18] _); [side|side|side|side|eapply (x_level 5 5 5 6 [five_t14] [five_t15; five_t16; five_t17; five_t18] _ _); [side|side|eapply (lift 0 4 6 6 10 10 [five_t14] _); [side|side|side|side|eapply (x_mem _ 10 10 [five_t14] _); [eapply (m_intro _ _ 10 10 10 [five_t14] [] _ _); [eapply (p_var 10 five_t14); [side]|eapply (t_none _ 10 _)]]]|eapply (o_one 5 6 6 7 _ five_t15 [five_t16; five_t17; five_t18] [] _ _); [side|side|eapply (lift 0 4 7 7 11 11 [five_t16; five_t17; five_t18] _); [side|side|side|side|eapply (x_mem _ 11 11 [five_t16; five_t17; five_t18] _); [eapply (m_intro _ _ 11 11 11 [five_t16] [five_t17; five_t18] _ _); [eapply (p_var 11 five_t16); [side]|eapply (t_dot _ _ 11 11 _ five_t17 five_t18 [] _); [side|side|eapply (t_none _ 11 _)]]]]|eapply (o_none 5 7 _)]]]]|eapply (from8 11 0 0 2 2 [five_t20] _); [side|side|side|side|eapply (lift 0 8 2 2 10 10 [five_t20] _); [side|side|side|side|eapply (x_mem _ 10 10 [five_t20] _); [eapply (m_intro _ _ 10 10 10 [five_t20] [] _ _); [eapply (p_var 10 five_t20); [side]|eapply (t_none _ 10 _)]]]]|eapply (from8 11 0 0 2 2 [five_t22] _); [side|side|side|side|eapply (lift 0 8 2 2 10 10 [five_t22] _); [side|side|side|side|eapply (x_mem _ 10 10 [five_t22] _); [eapply (m_intro _ _ 10 10 10 [five_t22] [] _ _); [eapply (p_const 10 five_t22 _); [exact num_0|side]|eapply (t_none _ 10 _)]]]]]]]]|side]|side|side|side|side|right; side|eapply (ss_cons TOK_EOF 0 0 0 [five_t24; five_t25; five_t26; five_t27; five_t28; five_t29; five_t30; five_t31; five_t32; five_t33; five_t34] [five_t35] [] _ _); [eapply (s_exprs 0 0 [five_t24; five_t25; five_t26; five_t27; five_t28; five_t29; five_t30; five_t31; five_t32; five_t33; five_t34] TOK_SEMICOLON _); [eapply (c_one 0 0 [five_t24; five_t25; five_t26; five_t27; five_t28; five_t29; five_t30; five_t31; five_t32; five_t33; five_t34] _); [eapply (from8 12 0 0 2 2 [five_t24; five_t25; five_t26; five_t27; five_t28; five_t29; five_t30; five_t31; five_t32; five_t33; five_t34] _); [side|side|side|side|eapply (lift 2 8 2 2 8 8 [five_t24; five_t25; five_t26; five_t27; five_t28; five_t29; five_t30; five_t31; five_t32; five_t33; five_t34] _); [side|side|side|side|eapply (x_level 2 8 8 9 [five_t24] [five_t25; five_t26; five_t27; five_t28; five_t29; five_t30; five_t31; five_t32; five_t33; five_t34] _ _); [side|side|eapply (lift 0 1 9 9 10 10 [five_t24] _); [side|side|side|side|eapply (x_mem _ 10 10 [five_t24] _); [eapply (m_intro _ _ 10 10 10 [five_t24] [] _ _); [eapply (p_var 10 five_t24); [side]|eapply (t_none _ 10 _)]]]|eapply (o_one 2 9 9 10 _ five_t25 [five_t26; five_t27; five_t28; five_t29; five_t30; five_t31; five_t32; five_t33; five_t34] [] _ _); [side|side|eapply (lift 0 1 10 10 11 11 [five_t26; five_t27; five_t28; five_t29; five_t30; five_t31; five_t32; five_t33; five_t34] _); [side|side|side|side|eapply (x_mem _ 11 11 [five_t26; five_t27; five_t28; five_t29; five_t30; five_t31; five_t32; five_t33; five_t34] _); [eapply (m_intro _ _ 11 11 11 [five_t26; five_t27; five_t28; five_t29; five_t30; five_t31; five_t32; five_t33; five_t34] [] _ _); [eapply (p_paren 11 11 five_t26 [five_t27; five_t28; five_t29; five_t30; five_t31; five_t32; five_t33] five_t34 _); [side|side|eapply (x_assign1 11 11 [five_t27; five_t28; five_t29; five_t30; five_t31; five_t32; five_t33] _); [eapply (x_cond 11 11 11 11 [five_t27; five_t28; five_t29] five_t30 [five_t31] five_t32 [five_t33] _ _ _); [side|side|eapply (from8 10 11 11 13 13 [five_t27; five_t28; five_t29] _); [side|side|side|side|eapply (lift 5 8 13 13 16 16 [five_t27; five_t28; five_t29] _); [side|side|side|side|eapply (x_level 5 16 16 17 [five_t27] [five_t28; five_t29] _ _); [side|side|eapply (lift 0 4 17 17 21 21 [five_t27] _); [side|side|side|side|eapply (x_mem _ 21 21 [five_t27] _); [eapply (m_intro _ _ 21 21 21 [five_t27] [] _ _); [eapply (p_var 21 five_t27); [side]|eapply (t_none _ 21 _)]]]|eapply (o_one 5 17 17 18 _ five_t28 [five_t29] [] _ _); [side|side|eapply (lift 0 4 18 18 22 22 [five_t29] _); [side|side|side|side|eapply (x_mem _ 22 22 [five_t29] _); [eapply (m_intro _ _ 22 22 22 [five_t29] [] _ _); [eapply (p_var 22 five_t29); [side]|eapply (t_none _ 22 _)]]]|eapply (o_none 5 18 _)]]]]|eapply (from8 11 11 11 13 13 [five_t31] _); [side|side|side|side|eapply (lift 0 8 13 13 21 21 [five_t31] _); [side|side|side|side|eapply (x_mem _ 21 21 [five_t31] _); [eapply (m_intro _ _ 21 21 21 [five_t31] [] _ _); [eapply (p_const 21 five_t31 _); [exact num_1|side]|eapply (t_none _ 21 _)]]]]|eapply (from8 11 11 11 13 13 [five_t33] _); [side|side|side|side|eapply (lift 0 8 13 13 21 21 [five_t33] _); [side|side|side|side|eapply (x_mem _ 21 21 [five_t33] _); [eapply (m_intro _ _ 21 21 21 [five_t33] [] _ _); [eapply (p_const 21 five_t33 _); [exact num_0|side]|eapply (t_none _ 21 _)]]]]]]]|eapply (t_none _ 11 _)]]]|eapply (o_none 2 10 _)]]]]]|side|side|side]|side|side|side|side|exact (or_introl eq_refl)|eapply (ss_nil TOK_EOF 0)]]]].
Qed.
Definition prog_five : prog := {| g_path := bs "e.js"; g_src := five_src; g_toks := five_toks; g_tree := five_tree |}.
Example five_well_formed : well_formed prog_five.
Proof. split; [unfold c_text; cbn [prog_five g_src]; unfold five_src; c_bytes|]. split; [apply five_source|eexists; apply five_stmts]. Qed.
Definition ex_natives : natives := {| n_load := 4096; n_print := 4112; n_ffi := 4128; n_cb_free := 4144; n_mkstr := 4160; n_get_mjs := 4176; n_die := 4192; n_gc := 4208;
  n_chr := 4224; n_s2o := 4240; n_stringify := 4256; n_parse := 4272; n_create := 4288; n_isnan := 4304 |}.
Example natives_ok : addresses_ok ex_natives.
Proof. unfold addresses_ok, ex_natives. repeat (apply Forall_cons; [cbn; lia|]). apply Forall_nil. Qed.
(** The interpreter's value and the engine's. *)
Example five_value : option_map (fun r => map (fun v => match v with VPrim a => Some a | _ => None end) (fst r)) (run_all 10 50 [0%nat] undef [prog_five] (new_state ex_natives 1000000)) = Some [Some (ANum (vnum 2))].
Proof. vm_compute. reflexivity. Qed.
Definition full_engine : vm := Props_Obj.R_get Props_Vm.ex_m (create_all ex_natives).
Example five_engine : (r <- exec_all 1500 Props_Vm.w0 full_engine [prog_five] ;; OK (m_err (fst r), snd r)) = OK (E_OK, [vnum 2]).
Proof. vm_compute. reflexivity. Qed.
(** The hypotheses of [new_engine_runs] are met. *)
Example five_holds : exists codes vs s', Forall well_formed [prog_five] /\ Forall2 compiles [prog_five] codes /\ total codes < 2 ^ 31 - 1 /\
  run_all 10 50 [0%nat] undef [prog_five] (new_state ex_natives 1000000) = Some (vs, s').
Proof.
  destruct (run_all 10 50 [0%nat] undef [prog_five] (new_state ex_natives 1000000)) as [[vs s']|] eqn:R; [|pose proof five_value as V; rewrite R in V; discriminate V].
  exists [code_of prog_five], vs, s'. split; [apply Forall_cons; [exact five_well_formed|apply Forall_nil]|]. split.
  { apply Forall2_cons; [apply (compiles_at 500); vm_compute; reflexivity|constructor]. }
  split; [vm_compute; reflexivity|reflexivity].
Qed.

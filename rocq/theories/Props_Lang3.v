(** A program with arrays and methods of arrays and strings: an example for C68 to C70. *)
From Verif Require Import Base Value_Model Value_Spec Str_Model Str_Spec TokNum_Model Txt_Model Tok_Model Tok_Spec Num_Model NumText_Spec Lit_Proofs Obj_Model Obj_Spec Bcode_Model Bcode_Proofs Vm_Model Vm_Spec Parse_Model Run_Model Expr_Spec Run_Spec
  Tok_Proofs2 Obj_Proofs Obj_Proofs2 Props_Obj Props_Vm Props_Expr Lang_Spec Lang_Code Lang_Spec2 Lang_Spec3 Props_Lang Props_Lang2.
From Coq Require Import ZifyBool.
Ltac Zify.zify_post_hook ::= idtac.

Lemma lit_3 : literal (bs "3") (scale10 3 0).
Proof. apply (lit_dec (bs "3") [] [] [] 0); [split; [discriminate|numbers]|left; split; reflexivity|left; split; reflexivity]. Qed.
Lemma num_3 : leaf (tk1 TOK_NUM "3") (EInt 3).
Proof. apply (leaf_int (tk1 TOK_NUM "3") _ 3 eq_refl lit_3); [apply (W_down _ false (3 * 2 ^ 51)%positive (-51) 3); [vm_compute; reflexivity|lia|reflexivity]|lia]. Qed.
Lemma str_hello : leaf (tk1 TOK_STR "hello") (EStr (bs "hello")).
Proof. apply (leaf_str _ [LPlain 104; LPlain 101; LPlain 108; LPlain 108; LPlain 111]); [reflexivity|repeat (apply Forall_cons; [split; [unfold is_byte; lia|lia]|]); apply Forall_nil|reflexivity]. Qed.
Lemma str_l : leaf (tk1 TOK_STR "l") (EStr (bs "l")).
Proof. apply (leaf_str _ [LPlain 108]); [reflexivity|repeat (apply Forall_cons; [split; [unfold is_byte; lia|lia]|]); apply Forall_nil|reflexivity]. Qed.
Definition three_src : list Z := bs "let a = [2, 'hello']; a.push(4, a[0]); let t = a[1].slice(1, a.length); a[1] = t.indexOf('l'); a[1] + a[3] === t.length ? t : 'small';".
Definition three_tree : list stmt :=
  [(SLet [((bs "a"), Some (XArr [(XConst (EInt 2)); (XConst (EStr (bs "hello")))]))]);
   (SExprs [(XCall (XDot (XVar (bs "a")) (bs "push")) [(XConst (EInt 4)); (XIdx (XVar (bs "a")) (XConst (EInt 0)))])]);
   (SLet [((bs "t"), Some (XCall (XDot (XIdx (XVar (bs "a")) (XConst (EInt 1))) (bs "slice")) [(XConst (EInt 1)); (XDot (XVar (bs "a")) (bs "length"))]))]);
   (SExprs [(XAsg TOK_ASSIGN (XIdx (XVar (bs "a")) (XConst (EInt 1))) (XCall (XDot (XVar (bs "t")) (bs "indexOf")) [(XConst (EStr (bs "l")))]))]);
   (SExprs [(XCond (XBin TOK_EQ_EQ (XBin TOK_PLUS (XIdx (XVar (bs "a")) (XConst (EInt 1))) (XIdx (XVar (bs "a")) (XConst (EInt 3)))) (XDot (XVar (bs "t")) (bs "length"))) (XVar (bs "t")) (XConst (EStr (bs "small"))))])].
Definition three_t0 : tokn := tk1 TOK_KEYWORD_LET "let".
Definition three_t1 : tokn := tk1 TOK_IDENT "a".
Definition three_t2 : tokn := tk1 TOK_ASSIGN "=".
Definition three_t3 : tokn := tk1 TOK_OPEN_BRACKET "[".
Definition three_t4 : tokn := tk1 TOK_NUM "2".
Definition three_t5 : tokn := tk1 TOK_COMMA ",".
Definition three_t6 : tokn := tk1 TOK_STR "hello".
Definition three_t7 : tokn := tk1 TOK_CLOSE_BRACKET "]".
Definition three_t8 : tokn := tk1 TOK_SEMICOLON ";".
Definition three_t9 : tokn := tk1 TOK_IDENT "a".
Definition three_t10 : tokn := tk1 TOK_DOT ".".
Definition three_t11 : tokn := tk1 TOK_IDENT "push".
Definition three_t12 : tokn := tk1 TOK_OPEN_PAREN "(".
Definition three_t13 : tokn := tk1 TOK_NUM "4".
Definition three_t14 : tokn := tk1 TOK_COMMA ",".
Definition three_t15 : tokn := tk1 TOK_IDENT "a".
Definition three_t16 : tokn := tk1 TOK_OPEN_BRACKET "[".
Definition three_t17 : tokn := tk1 TOK_NUM "0".
Definition three_t18 : tokn := tk1 TOK_CLOSE_BRACKET "]".
Definition three_t19 : tokn := tk1 TOK_CLOSE_PAREN ")".
Definition three_t20 : tokn := tk1 TOK_SEMICOLON ";".
Definition three_t21 : tokn := tk1 TOK_KEYWORD_LET "let".
Definition three_t22 : tokn := tk1 TOK_IDENT "t".
Definition three_t23 : tokn := tk1 TOK_ASSIGN "=".
Definition three_t24 : tokn := tk1 TOK_IDENT "a".
Definition three_t25 : tokn := tk1 TOK_OPEN_BRACKET "[".
Definition three_t26 : tokn := tk1 TOK_NUM "1".
Definition three_t27 : tokn := tk1 TOK_CLOSE_BRACKET "]".
Definition three_t28 : tokn := tk1 TOK_DOT ".".
Definition three_t29 : tokn := tk1 TOK_IDENT "slice".
Definition three_t30 : tokn := tk1 TOK_OPEN_PAREN "(".
Definition three_t31 : tokn := tk1 TOK_NUM "1".
Definition three_t32 : tokn := tk1 TOK_COMMA ",".
Definition three_t33 : tokn := tk1 TOK_IDENT "a".
Definition three_t34 : tokn := tk1 TOK_DOT ".".
Definition three_t35 : tokn := tk1 TOK_IDENT "length".
Definition three_t36 : tokn := tk1 TOK_CLOSE_PAREN ")".
Definition three_t37 : tokn := tk1 TOK_SEMICOLON ";".
Definition three_t38 : tokn := tk1 TOK_IDENT "a".
Definition three_t39 : tokn := tk1 TOK_OPEN_BRACKET "[".
Definition three_t40 : tokn := tk1 TOK_NUM "1".
Definition three_t41 : tokn := tk1 TOK_CLOSE_BRACKET "]".
Definition three_t42 : tokn := tk1 TOK_ASSIGN "=".
Definition three_t43 : tokn := tk1 TOK_IDENT "t".
Definition three_t44 : tokn := tk1 TOK_DOT ".".
Definition three_t45 : tokn := tk1 TOK_IDENT "indexOf".
Definition three_t46 : tokn := tk1 TOK_OPEN_PAREN "(".
Definition three_t47 : tokn := tk1 TOK_STR "l".
Definition three_t48 : tokn := tk1 TOK_CLOSE_PAREN ")".
Definition three_t49 : tokn := tk1 TOK_SEMICOLON ";".
Definition three_t50 : tokn := tk1 TOK_IDENT "a".
Definition three_t51 : tokn := tk1 TOK_OPEN_BRACKET "[".
Definition three_t52 : tokn := tk1 TOK_NUM "1".
Definition three_t53 : tokn := tk1 TOK_CLOSE_BRACKET "]".
Definition three_t54 : tokn := tk1 TOK_PLUS "+".
Definition three_t55 : tokn := tk1 TOK_IDENT "a".
Definition three_t56 : tokn := tk1 TOK_OPEN_BRACKET "[".
Definition three_t57 : tokn := tk1 TOK_NUM "3".
Definition three_t58 : tokn := tk1 TOK_CLOSE_BRACKET "]".
Definition three_t59 : tokn := tk1 TOK_EQ_EQ "===".
Definition three_t60 : tokn := tk1 TOK_IDENT "t".
Definition three_t61 : tokn := tk1 TOK_DOT ".".
Definition three_t62 : tokn := tk1 TOK_IDENT "length".
Definition three_t63 : tokn := tk1 TOK_QUESTION "?".
Definition three_t64 : tokn := tk1 TOK_IDENT "t".
Definition three_t65 : tokn := tk1 TOK_COLON ":".
Definition three_t66 : tokn := tk1 TOK_STR "small".
Definition three_t67 : tokn := tk1 TOK_SEMICOLON ";".
Definition three_toks : list tokn := [three_t0; three_t1; three_t2; three_t3; three_t4; three_t5; three_t6; three_t7; three_t8; three_t9; three_t10; three_t11; three_t12; three_t13; three_t14; three_t15; three_t16; three_t17; three_t18; three_t19; three_t20; three_t21; three_t22; three_t23; three_t24; three_t25; three_t26; three_t27; three_t28; three_t29; three_t30; three_t31; three_t32; three_t33; three_t34; three_t35; three_t36; three_t37; three_t38; three_t39; three_t40; three_t41; three_t42; three_t43; three_t44; three_t45; three_t46; three_t47; three_t48; three_t49; three_t50; three_t51; three_t52; three_t53; three_t54; three_t55; three_t56; three_t57; three_t58; three_t59; three_t60; three_t61; three_t62; three_t63; three_t64; three_t65; three_t66; three_t67].
Lemma three_source : source three_src three_toks.
Proof.
  unfold three_src, three_toks.
  keyword (bs "let") (bs " a = [2, 'hello']; a.push(4, a[0]); let t = a[1].slice(1, a.length); a[1] = t.indexOf('l'); a[1] + a[3] === t.length ? t : 'small';").
  apply source_blank; [cbn; tauto|].
  word (bs "a") (bs " = [2, 'hello']; a.push(4, a[0]); let t = a[1].slice(1, a.length); a[1] = t.indexOf('l'); a[1] + a[3] === t.length ? t : 'small';"). { intros n H. vm_compute in H. intuition discriminate. }
  apply source_blank; [cbn; tauto|].
  opr (bs "=") (bs " [2, 'hello']; a.push(4, a[0]); let t = a[1].slice(1, a.length); a[1] = t.indexOf('l'); a[1] + a[3] === t.length ? t : 'small';") TOK_ASSIGN.
  apply source_blank; [cbn; tauto|].
  opr (bs "[") (bs "2, 'hello']; a.push(4, a[0]); let t = a[1].slice(1, a.length); a[1] = t.indexOf('l'); a[1] + a[3] === t.length ? t : 'small';") TOK_OPEN_BRACKET.
  number (bs "2") (bs ", 'hello']; a.push(4, a[0]); let t = a[1].slice(1, a.length); a[1] = t.indexOf('l'); a[1] + a[3] === t.length ? t : 'small';") lit_2.
  opr (bs ",") (bs " 'hello']; a.push(4, a[0]); let t = a[1].slice(1, a.length); a[1] = t.indexOf('l'); a[1] + a[3] === t.length ? t : 'small';") TOK_COMMA.
  apply source_blank; [cbn; tauto|].
  quoted (bs "'hello'") (bs "hello") (bs "]; a.push(4, a[0]); let t = a[1].slice(1, a.length); a[1] = t.indexOf('l'); a[1] + a[3] === t.length ? t : 'small';").
  opr (bs "]") (bs "; a.push(4, a[0]); let t = a[1].slice(1, a.length); a[1] = t.indexOf('l'); a[1] + a[3] === t.length ? t : 'small';") TOK_CLOSE_BRACKET.
  opr (bs ";") (bs " a.push(4, a[0]); let t = a[1].slice(1, a.length); a[1] = t.indexOf('l'); a[1] + a[3] === t.length ? t : 'small';") TOK_SEMICOLON.
  apply source_blank; [cbn; tauto|].
  word (bs "a") (bs ".push(4, a[0]); let t = a[1].slice(1, a.length); a[1] = t.indexOf('l'); a[1] + a[3] === t.length ? t : 'small';"). { intros n H. vm_compute in H. intuition discriminate. }
  opr (bs ".") (bs "push(4, a[0]); let t = a[1].slice(1, a.length); a[1] = t.indexOf('l'); a[1] + a[3] === t.length ? t : 'small';") TOK_DOT.
  word (bs "push") (bs "(4, a[0]); let t = a[1].slice(1, a.length); a[1] = t.indexOf('l'); a[1] + a[3] === t.length ? t : 'small';"). { intros n H. vm_compute in H. intuition discriminate. }
  opr (bs "(") (bs "4, a[0]); let t = a[1].slice(1, a.length); a[1] = t.indexOf('l'); a[1] + a[3] === t.length ? t : 'small';") TOK_OPEN_PAREN.
  number (bs "4") (bs ", a[0]); let t = a[1].slice(1, a.length); a[1] = t.indexOf('l'); a[1] + a[3] === t.length ? t : 'small';") lit_4.
  opr (bs ",") (bs " a[0]); let t = a[1].slice(1, a.length); a[1] = t.indexOf('l'); a[1] + a[3] === t.length ? t : 'small';") TOK_COMMA.
  apply source_blank; [cbn; tauto|].
  word (bs "a") (bs "[0]); let t = a[1].slice(1, a.length); a[1] = t.indexOf('l'); a[1] + a[3] === t.length ? t : 'small';"). { intros n H. vm_compute in H. intuition discriminate. }
  opr (bs "[") (bs "0]); let t = a[1].slice(1, a.length); a[1] = t.indexOf('l'); a[1] + a[3] === t.length ? t : 'small';") TOK_OPEN_BRACKET.
  number (bs "0") (bs "]); let t = a[1].slice(1, a.length); a[1] = t.indexOf('l'); a[1] + a[3] === t.length ? t : 'small';") lit_0.
  opr (bs "]") (bs "); let t = a[1].slice(1, a.length); a[1] = t.indexOf('l'); a[1] + a[3] === t.length ? t : 'small';") TOK_CLOSE_BRACKET.
  opr (bs ")") (bs "; let t = a[1].slice(1, a.length); a[1] = t.indexOf('l'); a[1] + a[3] === t.length ? t : 'small';") TOK_CLOSE_PAREN.
  opr (bs ";") (bs " let t = a[1].slice(1, a.length); a[1] = t.indexOf('l'); a[1] + a[3] === t.length ? t : 'small';") TOK_SEMICOLON.
  apply source_blank; [cbn; tauto|].
  keyword (bs "let") (bs " t = a[1].slice(1, a.length); a[1] = t.indexOf('l'); a[1] + a[3] === t.length ? t : 'small';").
  apply source_blank; [cbn; tauto|].
  word (bs "t") (bs " = a[1].slice(1, a.length); a[1] = t.indexOf('l'); a[1] + a[3] === t.length ? t : 'small';"). { intros n H. vm_compute in H. intuition discriminate. }
  apply source_blank; [cbn; tauto|].
  opr (bs "=") (bs " a[1].slice(1, a.length); a[1] = t.indexOf('l'); a[1] + a[3] === t.length ? t : 'small';") TOK_ASSIGN.
  apply source_blank; [cbn; tauto|].
  word (bs "a") (bs "[1].slice(1, a.length); a[1] = t.indexOf('l'); a[1] + a[3] === t.length ? t : 'small';"). { intros n H. vm_compute in H. intuition discriminate. }
  opr (bs "[") (bs "1].slice(1, a.length); a[1] = t.indexOf('l'); a[1] + a[3] === t.length ? t : 'small';") TOK_OPEN_BRACKET.
  number (bs "1") (bs "].slice(1, a.length); a[1] = t.indexOf('l'); a[1] + a[3] === t.length ? t : 'small';") lit_1.
  opr (bs "]") (bs ".slice(1, a.length); a[1] = t.indexOf('l'); a[1] + a[3] === t.length ? t : 'small';") TOK_CLOSE_BRACKET.
  opr (bs ".") (bs "slice(1, a.length); a[1] = t.indexOf('l'); a[1] + a[3] === t.length ? t : 'small';") TOK_DOT.
  word (bs "slice") (bs "(1, a.length); a[1] = t.indexOf('l'); a[1] + a[3] === t.length ? t : 'small';"). { intros n H. vm_compute in H. intuition discriminate. }
  opr (bs "(") (bs "1, a.length); a[1] = t.indexOf('l'); a[1] + a[3] === t.length ? t : 'small';") TOK_OPEN_PAREN.
  number (bs "1") (bs ", a.length); a[1] = t.indexOf('l'); a[1] + a[3] === t.length ? t : 'small';") lit_1.
  opr (bs ",") (bs " a.length); a[1] = t.indexOf('l'); a[1] + a[3] === t.length ? t : 'small';") TOK_COMMA.
  apply source_blank; [cbn; tauto|].
  word (bs "a") (bs ".length); a[1] = t.indexOf('l'); a[1] + a[3] === t.length ? t : 'small';"). { intros n H. vm_compute in H. intuition discriminate. }
  opr (bs ".") (bs "length); a[1] = t.indexOf('l'); a[1] + a[3] === t.length ? t : 'small';") TOK_DOT.
  word (bs "length") (bs "); a[1] = t.indexOf('l'); a[1] + a[3] === t.length ? t : 'small';"). { intros n H. vm_compute in H. intuition discriminate. }
  opr (bs ")") (bs "; a[1] = t.indexOf('l'); a[1] + a[3] === t.length ? t : 'small';") TOK_CLOSE_PAREN.
  opr (bs ";") (bs " a[1] = t.indexOf('l'); a[1] + a[3] === t.length ? t : 'small';") TOK_SEMICOLON.
  apply source_blank; [cbn; tauto|].
  word (bs "a") (bs "[1] = t.indexOf('l'); a[1] + a[3] === t.length ? t : 'small';"). { intros n H. vm_compute in H. intuition discriminate. }
  opr (bs "[") (bs "1] = t.indexOf('l'); a[1] + a[3] === t.length ? t : 'small';") TOK_OPEN_BRACKET.
  number (bs "1") (bs "] = t.indexOf('l'); a[1] + a[3] === t.length ? t : 'small';") lit_1.
  opr (bs "]") (bs " = t.indexOf('l'); a[1] + a[3] === t.length ? t : 'small';") TOK_CLOSE_BRACKET.
  apply source_blank; [cbn; tauto|].
  opr (bs "=") (bs " t.indexOf('l'); a[1] + a[3] === t.length ? t : 'small';") TOK_ASSIGN.
  apply source_blank; [cbn; tauto|].
  word (bs "t") (bs ".indexOf('l'); a[1] + a[3] === t.length ? t : 'small';"). { intros n H. vm_compute in H. intuition discriminate. }
  opr (bs ".") (bs "indexOf('l'); a[1] + a[3] === t.length ? t : 'small';") TOK_DOT.
  word (bs "indexOf") (bs "('l'); a[1] + a[3] === t.length ? t : 'small';"). { intros n H. vm_compute in H. intuition discriminate. }
  opr (bs "(") (bs "'l'); a[1] + a[3] === t.length ? t : 'small';") TOK_OPEN_PAREN.
  quoted (bs "'l'") (bs "l") (bs "); a[1] + a[3] === t.length ? t : 'small';").
  opr (bs ")") (bs "; a[1] + a[3] === t.length ? t : 'small';") TOK_CLOSE_PAREN.
  opr (bs ";") (bs " a[1] + a[3] === t.length ? t : 'small';") TOK_SEMICOLON.
  apply source_blank; [cbn; tauto|].
  word (bs "a") (bs "[1] + a[3] === t.length ? t : 'small';"). { intros n H. vm_compute in H. intuition discriminate. }
  opr (bs "[") (bs "1] + a[3] === t.length ? t : 'small';") TOK_OPEN_BRACKET.
  number (bs "1") (bs "] + a[3] === t.length ? t : 'small';") lit_1.
  opr (bs "]") (bs " + a[3] === t.length ? t : 'small';") TOK_CLOSE_BRACKET.
  apply source_blank; [cbn; tauto|].
  opr (bs "+") (bs " a[3] === t.length ? t : 'small';") TOK_PLUS.
  apply source_blank; [cbn; tauto|].
  word (bs "a") (bs "[3] === t.length ? t : 'small';"). { intros n H. vm_compute in H. intuition discriminate. }
  opr (bs "[") (bs "3] === t.length ? t : 'small';") TOK_OPEN_BRACKET.
  number (bs "3") (bs "] === t.length ? t : 'small';") lit_3.
  opr (bs "]") (bs " === t.length ? t : 'small';") TOK_CLOSE_BRACKET.
  apply source_blank; [cbn; tauto|].
  opr (bs "===") (bs " t.length ? t : 'small';") TOK_EQ_EQ.
  apply source_blank; [cbn; tauto|].
  word (bs "t") (bs ".length ? t : 'small';"). { intros n H. vm_compute in H. intuition discriminate. }
  opr (bs ".") (bs "length ? t : 'small';") TOK_DOT.
  word (bs "length") (bs " ? t : 'small';"). { intros n H. vm_compute in H. intuition discriminate. }
  apply source_blank; [cbn; tauto|].
  opr (bs "?") (bs " t : 'small';") TOK_QUESTION.
  apply source_blank; [cbn; tauto|].
  word (bs "t") (bs " : 'small';"). { intros n H. vm_compute in H. intuition discriminate. }
  apply source_blank; [cbn; tauto|].
  opr (bs ":") (bs " 'small';") TOK_COLON.
  apply source_blank; [cbn; tauto|].
  quoted (bs "'small'") (bs "small") (bs ";").
  opr (bs ";") (bs "") TOK_SEMICOLON.
  apply src_end, gap_end; [intros c r H; discriminate|no_start|no_start].
Qed.
Lemma three_stmts : stmts TOK_EOF 0 0 three_toks three_tree.
Proof.
  unfold three_toks, three_tree.
  eapply (ss_cons TOK_EOF 0 0 0 [three_t0; three_t1; three_t2; three_t3; three_t4; three_t5; three_t6; three_t7] [three_t8] [three_t9; three_t10; three_t11; three_t12; three_t13; three_t14; three_t15; three_t16; three_t17; three_t18; three_t19; three_t20; three_t21; three_t22; three_t23; three_t24; three_t25; three_t26; three_t27; three_t28; three_t29; three_t30; three_t31; three_t32; three_t33; three_t34; three_t35; three_t36; three_t37; three_t38; three_t39; three_t40; three_t41; three_t42; three_t43; three_t44; three_t45; three_t46; three_t47; three_t48; three_t49; three_t50; three_t51; three_t52; three_t53; three_t54; three_t55; three_t56; three_t57; three_t58; three_t59; three_t60; three_t61; three_t62; three_t63; three_t64; three_t65; three_t66; three_t67] _ _); [eapply (s_let 0 0 three_t0 [three_t1; three_t2; three_t3; three_t4; three_t5; three_t6; three_t7] TOK_SEMICOLON _); [side|eapply (l_one 0 0 three_t1 [three_t2; three_t3; three_t4; three_t5; three_t6; three_t7] _); [side|eapply (i_some 0 0 three_t2 [three_t3; three_t4; three_t5; three_t6; three_t7] _); [side|eapply (from8 12 0 0 2 2 [three_t3; three_t4; three_t5; three_t6; three_t7] _); [side|side|side|side|eapply (lift 0 8 2 2 10 10 [three_t3; three_t4; three_t5; three_t6; three_t7] _); [side|side|side|side|eapply (x_mem _ 10 10 [three_t3; three_t4; three_t5; three_t6; three_t7] _); [eapply (m_intro _ _ 10 10 10 [three_t3; three_t4; three_t5; three_t6; three_t7] [] _ _); [eapply (p_arr 10 10 three_t3 [three_t4; three_t5; three_t6] three_t7 _); [side|side|eapply (a_more 10 10 10 [three_t4] three_t5 [three_t6] _ _); [eapply (from8 12 10 10 12 12 [three_t4] _); [side|side|side|side|eapply (lift 0 8 12 12 20 20 [three_t4] _); [side|side|side|side|eapply (x_mem _ 20 20 [three_t4] _); [eapply (m_intro _ _ 20 20 20 [three_t4] [] _ _); [eapply (p_const 20 three_t4 _); [exact num_2|side]|eapply (t_none _ 20 _)]]]]|side|eapply (a_one 10 10 [three_t6] _); [eapply (from8 12 10 10 12 12 [three_t6] _); [side|side|side|side|eapply (lift 0 8 12 12 20 20 [three_t6] _); [side|side|side|side|eapply (x_mem _ 20 20 [three_t6] _); [eapply (m_intro _ _ 20 20 20 [three_t6] [] _ _); [eapply (p_const 20 three_t6 _); [exact str_hello|side]|eapply (t_none _ 20 _)]]]]]]]|eapply (t_none _ 10 _)]]]]]]|side]|side|side|side|side|right; side|eapply (ss_cons TOK_EOF 0 0 0 [three_t9; three_t10; three_t11; three_t12; three_t13; three_t14; three_t15; three_t16; three_t17; three_t18; three_t19] [three_t20] [three_t21; three_t22; three_t23; three_t24; three_t25; three_t26; three_t27; three_t28; three_t29; three_t30; three_t31; three_t32; three_t33; three_t34; three_t35; three_t36; three_t37; three_t38; three_t39; three_t40; three_t41; three_t42; three_t43; three_t44; three_t45; three_t46; three_t47; three_t48; three_t49; three_t50; three_t51; three_t52; three_t53; three_t54; three_t55; three_t56; three_t57; three_t58; three_t59; three_t60; three_t61; three_t62; three_t63; three_t64; three_t65; three_t66; three_t67] _ _); [eapply (s_exprs 0 0 [three_t9; three_t10; three_t11; three_t12; three_t13; three_t14; three_t15; three_t16; three_t17; three_t18; three_t19] TOK_SEMICOLON _); [eapply (c_one 0 0 [three_t9; three_t10; three_t11; three_t12; three_t13; three_t14; three_t15; three_t16; three_t17; three_t18; three_t19] _); [eapply (from8 12 0 0 2 2 [three_t9; three_t10; three_t11; three_t12; three_t13; three_t14; three_t15; three_t16; three_t17; three_t18; three_t19] _); [side|side|side|side|eapply (lift 0 8 2 2 10 10 [three_t9; three_t10; three_t11; three_t12; three_t13; three_t14; three_t15; three_t16; three_t17; three_t18; three_t19] _); [side|side|side|side|eapply (x_mem _ 10 10 [three_t9; three_t10; three_t11; three_t12; three_t13; three_t14; three_t15; three_t16; three_t17; three_t18; three_t19] _); [eapply (m_intro _ _ 10 10 10 [three_t9] [three_t10; three_t11; three_t12; three_t13; three_t14; three_t15; three_t16; three_t17; three_t18; three_t19] _ _); [eapply (p_var 10 three_t9); [side]|eapply (t_dot _ _ 10 10 _ three_t10 three_t11 [three_t12; three_t13; three_t14; three_t15; three_t16; three_t17; three_t18; three_t19] _); [side|side|eapply (t_call _ _ 10 10 10 _ three_t12 [three_t13; three_t14; three_t15; three_t16; three_t17; three_t18] three_t19 [] _ _); [side|side|eapply (a_more 10 10 10 [three_t13] three_t14 [three_t15; three_t16; three_t17; three_t18] _ _); [eapply (from8 12 10 10 12 12 [three_t13] _); [side|side|side|side|eapply (lift 0 8 12 12 20 20 [three_t13] _); [side|side|side|side|eapply (x_mem _ 20 20 [three_t13] _); [eapply (m_intro _ _ 20 20 20 [three_t13] [] _ _); [eapply (p_const 20 three_t13 _); [exact num_4|side]|eapply (t_none _ 20 _)]]]]|side|eapply (a_one 10 10 [three_t15; three_t16; three_t17; three_t18] _); [eapply (from8 12 10 10 12 12 [three_t15; three_t16; three_t17; three_t18] _); [side|side|side|side|eapply (lift 0 8 12 12 20 20 [three_t15; three_t16; three_t17; three_t18] _); [side|side|side|side|eapply (x_mem _ 20 20 [three_t15; three_t16; three_t17; three_t18] _); [eapply (m_intro _ _ 20 20 20 [three_t15] [three_t16; three_t17; three_t18] _ _); [eapply (p_var 20 three_t15); [side]|eapply (t_idx _ _ 20 20 20 _ three_t16 [three_t17] three_t18 [] _ _); [side|side|eapply (from8 12 20 20 22 22 [three_t17] _); [side|side|side|side|eapply (lift 0 8 22 22 30 30 [three_t17] _); [side|side|side|side|eapply (x_mem _ 30 30 [three_t17] _); [eapply (m_intro _ _ 30 30 30 [three_t17] [] _ _); [eapply (p_const 30 three_t17 _); [exact num_0|side]|eapply (t_none _ 30 _)]]]]|eapply (t_none _ 20 _)]]]]]]]|eapply (t_none _ 10 _)]]]]]]]|side|side|side]|side|side|side|side|right; side|eapply (ss_cons TOK_EOF 0 0 0 [three_t21; three_t22; three_t23; three_t24; three_t25; three_t26; three_t27; three_t28; three_t29; three_t30; three_t31; three_t32; three_t33; three_t34; three_t35; three_t36] [three_t37] [three_t38; three_t39; three_t40; three_t41; three_t42; three_t43; three_t44; three_t45; three_t46; three_t47; three_t48; three_t49; three_t50; three_t51; three_t52; three_t53; three_t54; three_t55; three_t56; three_t57; three_t58; three_t59; three_t60; three_t61; three_t62; three_t63; three_t64; three_t65; three_t66; three_t67] _ _); [eapply (s_let 0 0 three_t21 [three_t22; three_t23; three_t24; three_t25; three_t26; three_t27; three_t28; three_t29; three_t30; three_t31; three_t32; three_t33; three_t34; three_t35; three_t36] TOK_SEMICOLON _); [side|eapply (l_one 0 0 three_t22 [three_t23; three_t24; three_t25; three_t26; three_t27; three_t28; three_t29; three_t30; three_t31; three_t32; three_t33; three_t34; three_t35; three_t36] _); [side|eapply (i_some 0 0 three_t23 [three_t24; three_t25; three_t26; three_t27; three_t28; three_t29; three_t30; three_t31; three_t32; three_t33; three_t34; three_t35; three_t36] _); [side|eapply (from8 12 0 0 2 2 [three_t24; three_t25; three_t26; three_t27; three_t28; three_t29; three_t30; three_t31; three_t32; three_t33; three_t34; three_t35; three_t36] _); [side|side|side|side|eapply (lift 0 8 2 2 10 10 [three_t24; three_t25; three_t26; three_t27; three_t28; three_t29; three_t30; three_t31; three_t32; three_t33; three_t34; three_t35; three_t36] _); [side|side|side|side|eapply (x_mem _ 10 10 [three_t24; three_t25; three_t26; three_t27; three_t28; three_t29; three_t30; three_t31; three_t32; three_t33; three_t34; three_t35; three_t36] _); [eapply (m_intro _ _ 10 10 10 [three_t24] [three_t25; three_t26; three_t27; three_t28; three_t29; three_t30; three_t31; three_t32; three_t33; three_t34; three_t35; three_t36] _ _); [eapply (p_var 10 three_t24); [side]|eapply (t_idx _ _ 10 10 10 _ three_t25 [three_t26] three_t27 [three_t28; three_t29; three_t30; three_t31; three_t32; three_t33; three_t34; three_t35; three_t36] _ _); [side|side|eapply (from8 12 10 10 12 12 [three_t26] _); [side|side|side|side|eapply (lift 0 8 12 12 20 20 [three_t26] _); [side|side|side|side|eapply (x_mem _ 20 20 [three_t26] _); [eapply (m_intro _ _ 20 20 20 [three_t26] [] _ _); [eapply (p_const 20 three_t26 _); [exact num_1|side]|eapply (t_none _ 20 _)]]]]|eapply (t_dot _ _ 10 10 _ three_t28 three_t29 [three_t30; three_t31; three_t32; three_t33; three_t34; three_t35; three_t36] _); [side|side|eapply (t_call _ _ 10 10 10 _ three_t30 [three_t31; three_t32; three_t33; three_t34; three_t35] three_t36 [] _ _); [side|side|eapply (a_more 10 10 10 [three_t31] three_t32 [three_t33; three_t34; three_t35] _ _); [eapply (from8 12 10 10 12 12 [three_t31] _); [side|side|side|side|eapply (lift 0 8 12 12 20 20 [three_t31] _); [side|side|side|side|eapply (x_mem _ 20 20 [three_t31] _); [eapply (m_intro _ _ 20 20 20 [three_t31] [] _ _); [eapply (p_const 20 three_t31 _); [exact num_1|side]|eapply (t_none _ 20 _)]]]]|side|eapply (a_one 10 10 [three_t33; three_t34; three_t35] _); [eapply (from8 12 10 10 12 12 [three_t33; three_t34; three_t35] _); [side|side|side|side|eapply (lift 0 8 12 12 20 20 [three_t33; three_t34; three_t35] _); [side|side|side|side|eapply (x_mem _ 20 20 [three_t33; three_t34; three_t35] _); [eapply (m_intro _ _ 20 20 20 [three_t33] [three_t34; three_t35] _ _); [eapply (p_var 20 three_t33); [side]|eapply (t_dot _ _ 20 20 _ three_t34 three_t35 [] _); [side|side|eapply (t_none _ 20 _)]]]]]]]|eapply (t_none _ 10 _)]]]]]]]]]|side]|side|side|side|side|right; side|eapply (ss_cons TOK_EOF 0 0 0 [three_t38; three_t39; three_t40; three_t41; three_t42; three_t43; three_t44; three_t45; three_t46; three_t47; three_t48] [three_t49] [three_t50; three_t51; three_t52; three_t53; three_t54; three_t55; three_t56; three_t57; three_t58; three_t59; three_t60; three_t61; three_t62; three_t63; three_t64; three_t65; three_t66; three_t67] _ _); [eapply (s_exprs 0 0 [three_t38; three_t39; three_t40; three_t41; three_t42; three_t43; three_t44; three_t45; three_t46; three_t47; three_t48] TOK_SEMICOLON _); [eapply (c_one 0 0 [three_t38; three_t39; three_t40; three_t41; three_t42; three_t43; three_t44; three_t45; three_t46; three_t47; three_t48] _); [eapply (x_assign 0 0 0 [three_t38; three_t39; three_t40; three_t41] three_t42 [three_t43; three_t44; three_t45; three_t46; three_t47; three_t48] _ _); [side|side|eapply (m_intro _ _ 10 10 10 [three_t38] [three_t39; three_t40; three_t41] _ _); [eapply (p_var 10 three_t38); [side]|eapply (t_idx _ _ 10 10 10 _ three_t39 [three_t40] three_t41 [] _ _); [side|side|eapply (from8 12 10 10 12 12 [three_t40] _); [side|side|side|side|eapply (lift 0 8 12 12 20 20 [three_t40] _); [side|side|side|side|eapply (x_mem _ 20 20 [three_t40] _); [eapply (m_intro _ _ 20 20 20 [three_t40] [] _ _); [eapply (p_const 20 three_t40 _); [exact num_1|side]|eapply (t_none _ 20 _)]]]]|eapply (t_none _ 10 _)]]|eapply (from8 12 0 0 2 2 [three_t43; three_t44; three_t45; three_t46; three_t47; three_t48] _); [side|side|side|side|eapply (lift 0 8 2 2 10 10 [three_t43; three_t44; three_t45; three_t46; three_t47; three_t48] _); [side|side|side|side|eapply (x_mem _ 10 10 [three_t43; three_t44; three_t45; three_t46; three_t47; three_t48] _); [eapply (m_intro _ _ 10 10 10 [three_t43] [three_t44; three_t45; three_t46; three_t47; three_t48] _ _); [eapply (p_var 10 three_t43); [side]|eapply (t_dot _ _ 10 10 _ three_t44 three_t45 [three_t46; three_t47; three_t48] _); [side|side|eapply (t_call _ _ 10 10 10 _ three_t46 [three_t47] three_t48 [] _ _); [side|side|eapply (a_one 10 10 [three_t47] _); [eapply (from8 12 10 10 12 12 [three_t47] _); [side|side|side|side|eapply (lift 0 8 12 12 20 20 [three_t47] _); [side|side|side|side|eapply (x_mem _ 20 20 [three_t47] _); [eapply (m_intro _ _ 20 20 20 [three_t47] [] _ _); [eapply (p_const 20 three_t47 _); [exact str_l|side]|eapply (t_none _ 20 _)]]]]]|eapply (t_none _ 10 _)]]]]]]]]|side|side|side]|side|side|side|side|right; side|eapply (ss_cons TOK_EOF 0 0 0 [three_t50; three_t51; three_t52; three_t53; three_t54; three_t55; three_t56; three_t57; three_t58; three_t59; three_t60; three_t61; three_t62; three_t63; three_t64; three_t65; three_t66] [three_t67] [] _ _); [eapply (s_exprs 0 0 [three_t50; three_t51; three_t52; three_t53; three_t54; three_t55; three_t56; three_t57; three_t58; three_t59; three_t60; three_t61; three_t62; three_t63; three_t64; three_t65; three_t66] TOK_SEMICOLON _); [eapply (c_one 0 0 [three_t50; three_t51; three_t52; three_t53; three_t54; three_t55; three_t56; three_t57; three_t58; three_t59; three_t60; three_t61; three_t62; three_t63; three_t64; three_t65; three_t66] _); [eapply (x_assign1 0 0 [three_t50; three_t51; three_t52; three_t53; three_t54; three_t55; three_t56; three_t57; three_t58; three_t59; three_t60; three_t61; three_t62; three_t63; three_t64; three_t65; three_t66] _); [eapply (x_cond 0 0 0 0 [three_t50; three_t51; three_t52; three_t53; three_t54; three_t55; three_t56; three_t57; three_t58; three_t59; three_t60; three_t61; three_t62] three_t63 [three_t64] three_t65 [three_t66] _ _ _); [side|side|eapply (from8 10 0 0 2 2 [three_t50; three_t51; three_t52; three_t53; three_t54; three_t55; three_t56; three_t57; three_t58; three_t59; three_t60; three_t61; three_t62] _); [side|side|side|side|eapply (lift 5 8 2 2 5 5 [three_t50; three_t51; three_t52; three_t53; three_t54; three_t55; three_t56; three_t57; three_t58; three_t59; three_t60; three_t61; three_t62] _); [side|side|side|side|eapply (x_level 5 5 5 6 [three_t50; three_t51; three_t52; three_t53; three_t54; three_t55; three_t56; three_t57; three_t58] [three_t59; three_t60; three_t61; three_t62] _ _); [side|side|eapply (lift 2 4 6 6 8 8 [three_t50; three_t51; three_t52; three_t53; three_t54; three_t55; three_t56; three_t57; three_t58] _); [side|side|side|side|eapply (x_level 2 8 8 9 [three_t50; three_t51; three_t52; three_t53] [three_t54; three_t55; three_t56; three_t57; three_t58] _ _); [side|side|eapply (lift 0 1 9 9 10 10 [three_t50; three_t51; three_t52; three_t53] _); [side|side|side|side|eapply (x_mem _ 10 10 [three_t50; three_t51; three_t52; three_t53] _); [eapply (m_intro _ _ 10 10 10 [three_t50] [three_t51; three_t52; three_t53] _ _); [eapply (p_var 10 three_t50); [side]|eapply (t_idx _ _ 10 10 10 _ three_t51 [three_t52] three_t53 [] _ _); [side|side|eapply (from8 12 10 10 12 12 [three_t52] _); [side|side|side|side|eapply (lift 0 8 12 12 20 20 [three_t52] _); [side|side|side|side|eapply (x_mem _ 20 20 [three_t52] _); [eapply (m_intro _ _ 20 20 20 [three_t52] [] _ _); [eapply (p_const 20 three_t52 _); [exact num_1|side]|eapply (t_none _ 20 _)]]]]|eapply (t_none _ 10 _)]]]]|eapply (o_one 2 9 9 10 _ three_t54 [three_t55; three_t56; three_t57; three_t58] [] _ _); [side|side|eapply (lift 0 1 10 10 11 11 [three_t55; three_t56; three_t57; three_t58] _); [side|side|side|side|eapply (x_mem _ 11 11 [three_t55; three_t56; three_t57; three_t58] _); [eapply (m_intro _ _ 11 11 11 [three_t55] [three_t56; three_t57; three_t58] _ _); [eapply (p_var 11 three_t55); [side]|eapply (t_idx _ _ 11 11 11 _ three_t56 [three_t57] three_t58 [] _ _); [side|side|eapply (from8 12 11 11 13 13 [three_t57] _); [side|side|side|side|eapply (lift 0 8 13 13 21 21 [three_t57] _); [side|side|side|side|eapply (x_mem _ 21 21 [three_t57] _); [eapply (m_intro _ _ 21 21 21 [three_t57] [] _ _); [eapply (p_const 21 three_t57 _); [exact num_3|side]|eapply (t_none _ 21 _)]]]]|eapply (t_none _ 11 _)]]]]|eapply (o_none 2 10 _)]]]|eapply (o_one 5 6 6 7 _ three_t59 [three_t60; three_t61; three_t62] [] _ _); [side|side|eapply (lift 0 4 7 7 11 11 [three_t60; three_t61; three_t62] _); [side|side|side|side|eapply (x_mem _ 11 11 [three_t60; three_t61; three_t62] _); [eapply (m_intro _ _ 11 11 11 [three_t60] [three_t61; three_t62] _ _); [eapply (p_var 11 three_t60); [side]|eapply (t_dot _ _ 11 11 _ three_t61 three_t62 [] _); [side|side|eapply (t_none _ 11 _)]]]]|eapply (o_none 5 7 _)]]]]|eapply (from8 11 0 0 2 2 [three_t64] _); [side|side|side|side|eapply (lift 0 8 2 2 10 10 [three_t64] _); [side|side|side|side|eapply (x_mem _ 10 10 [three_t64] _); [eapply (m_intro _ _ 10 10 10 [three_t64] [] _ _); [eapply (p_var 10 three_t64); [side]|eapply (t_none _ 10 _)]]]]|eapply (from8 11 0 0 2 2 [three_t66] _); [side|side|side|side|eapply (lift 0 8 2 2 10 10 [three_t66] _); [side|side|side|side|eapply (x_mem _ 10 10 [three_t66] _); [eapply (m_intro _ _ 10 10 10 [three_t66] [] _ _); [eapply (p_const 10 three_t66 _); [exact str_small|side]|eapply (t_none _ 10 _)]]]]]]]|side|side|side]|side|side|side|side|exact (or_introl eq_refl)|eapply (ss_nil TOK_EOF 0)]]]]].
Qed.
Definition prog_three : prog := {| g_path := bs "c.js"; g_src := three_src; g_toks := three_toks; g_tree := three_tree |}.
Example three_well_formed : well_formed prog_three.
Proof. split; [unfold c_text; cbn [prog_three g_src]; unfold three_src; c_bytes|]. split; [apply three_source|eexists; apply three_stmts]. Qed.
(** The interpreter's value and the engine's. *)
Example three_value : option_map (fun r => map (fun v => match v with VPrim a => Some a | _ => None end) (fst r)) (run_all 10 50 [0%nat] undef [prog_three] start_state) = Some [Some (AStr (bs "ell"))].
Proof. vm_compute. reflexivity. Qed.
Example three_engine : (r <- exec_all 1500 Props_Vm.w0 new_engine [prog_three] ;; text_of (OK (fst r, last (snd r) 0))) = OK (E_OK, bs "ell").
Proof. vm_compute. reflexivity. Qed.
(** The hypotheses of [session_result] are met. *)
Example three_holds : exists m codes W vs s', create = OK m /\ Forall2 compiles [prog_three] codes /\
  run_all 10 50 [0%nat] undef [prog_three] start_state = Some (vs, s') /\
  in_state m W start_state [0%nat] undef /\ stack_room m 50 /\ code_room m (total codes).
Proof.
  destruct (created_engine 1000000 ltac:(lia)) as (m & W & E & I & S1 & S2 & S3 & C).
  destruct (run_all 10 50 [0%nat] undef [prog_three] start_state) as [[vs s']|] eqn:R; [|pose proof three_value as V; rewrite R in V; discriminate V].
  exists m, [code_of prog_three], W, vs, s'. split; [exact E|]. split.
  { apply Forall2_cons; [apply (compiles_at 500); vm_compute; reflexivity|constructor]. }
  split; [reflexivity|]. split; [exact I|]. split.
  - unfold stack_room. rewrite S1, S2, S3. vm_compute. repeat split; reflexivity.
  - exists []. split; [exact C|]. vm_compute. reflexivity.
Qed.

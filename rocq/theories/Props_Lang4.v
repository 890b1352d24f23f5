(** A program with for-in statements: an example for C68 to C70. *)
From Verif Require Import Base Value_Model Value_Spec Str_Model Str_Spec TokNum_Model Txt_Model Tok_Model Tok_Spec Num_Model NumText_Spec Lit_Proofs Obj_Model Obj_Spec Bcode_Model Bcode_Proofs Vm_Model Vm_Spec Parse_Model Run_Model Expr_Spec Run_Spec
  Tok_Proofs2 Obj_Proofs Obj_Proofs2 Props_Obj Props_Vm Props_Expr Lang_Spec Lang_Code Lang_Spec2 Lang_Spec3 Props_Lang Props_Lang2.
From Coq Require Import ZifyBool.
Ltac Zify.zify_post_hook ::= idtac.

Lemma str_b : leaf (tk1 TOK_STR "b") (EStr (bs "b")).
Proof. apply (leaf_str _ [LPlain 98]); [reflexivity|repeat (apply Forall_cons; [split; [unfold is_byte; lia|lia]|]); apply Forall_nil|reflexivity]. Qed.
Lemma str_x : leaf (tk1 TOK_STR "x") (EStr (bs "x")).
Proof. apply (leaf_str _ [LPlain 120]); [reflexivity|repeat (apply Forall_cons; [split; [unfold is_byte; lia|lia]|]); apply Forall_nil|reflexivity]. Qed.
Lemma str_z : leaf (tk1 TOK_STR "z") (EStr (bs "z")).
Proof. apply (leaf_str _ [LPlain 122]); [reflexivity|repeat (apply Forall_cons; [split; [unfold is_byte; lia|lia]|]); apply Forall_nil|reflexivity]. Qed.
Definition four_src : list Z := bs "let k = 'z'; let o = {b: 1, a: 2}; let t = 'x'; for (let k in o) { if (o[k] > 5) break; t += k; } for (k in o) { if (k === 'b') continue; t += k; } t + k;".
Definition four_tree : list stmt :=
  [(SLet [((bs "k"), Some (XConst (EStr (bs "z"))))]);
   (SLet [((bs "o"), Some (XObj [((bs "b"), (XConst (EInt 1))); ((bs "a"), (XConst (EInt 2)))]))]);
   (SLet [((bs "t"), Some (XConst (EStr (bs "x"))))]);
   (SForIn true (bs "k") (XVar (bs "o")) [(SIf (XBin TOK_GT (XIdx (XVar (bs "o")) (XVar (bs "k"))) (XConst (EInt 5))) SBreak None); (SExprs [(XAsg TOK_PLUS_ASSIGN (XVar (bs "t")) (XVar (bs "k")))])]);
   (SForIn false (bs "k") (XVar (bs "o")) [(SIf (XBin TOK_EQ_EQ (XVar (bs "k")) (XConst (EStr (bs "b")))) SContinue None); (SExprs [(XAsg TOK_PLUS_ASSIGN (XVar (bs "t")) (XVar (bs "k")))])]);
   (SExprs [(XBin TOK_PLUS (XVar (bs "t")) (XVar (bs "k")))])].
Definition four_t0 : tokn := tk1 TOK_KEYWORD_LET "let".
Definition four_t1 : tokn := tk1 TOK_IDENT "k".
Definition four_t2 : tokn := tk1 TOK_ASSIGN "=".
Definition four_t3 : tokn := tk1 TOK_STR "z".
Definition four_t4 : tokn := tk1 TOK_SEMICOLON ";".
Definition four_t5 : tokn := tk1 TOK_KEYWORD_LET "let".
Definition four_t6 : tokn := tk1 TOK_IDENT "o".
Definition four_t7 : tokn := tk1 TOK_ASSIGN "=".
Definition four_t8 : tokn := tk1 TOK_OPEN_CURLY "{".
Definition four_t9 : tokn := tk1 TOK_IDENT "b".
Definition four_t10 : tokn := tk1 TOK_COLON ":".
Definition four_t11 : tokn := tk1 TOK_NUM "1".
Definition four_t12 : tokn := tk1 TOK_COMMA ",".
Definition four_t13 : tokn := tk1 TOK_IDENT "a".
Definition four_t14 : tokn := tk1 TOK_COLON ":".
Definition four_t15 : tokn := tk1 TOK_NUM "2".
Definition four_t16 : tokn := tk1 TOK_CLOSE_CURLY "}".
Definition four_t17 : tokn := tk1 TOK_SEMICOLON ";".
Definition four_t18 : tokn := tk1 TOK_KEYWORD_LET "let".
Definition four_t19 : tokn := tk1 TOK_IDENT "t".
Definition four_t20 : tokn := tk1 TOK_ASSIGN "=".
Definition four_t21 : tokn := tk1 TOK_STR "x".
Definition four_t22 : tokn := tk1 TOK_SEMICOLON ";".
Definition four_t23 : tokn := tk1 TOK_KEYWORD_FOR "for".
Definition four_t24 : tokn := tk1 TOK_OPEN_PAREN "(".
Definition four_t25 : tokn := tk1 TOK_KEYWORD_LET "let".
Definition four_t26 : tokn := tk1 TOK_IDENT "k".
Definition four_t27 : tokn := tk1 TOK_KEYWORD_IN "in".
Definition four_t28 : tokn := tk1 TOK_IDENT "o".
Definition four_t29 : tokn := tk1 TOK_CLOSE_PAREN ")".
Definition four_t30 : tokn := tk1 TOK_OPEN_CURLY "{".
Definition four_t31 : tokn := tk1 TOK_KEYWORD_IF "if".
Definition four_t32 : tokn := tk1 TOK_OPEN_PAREN "(".
Definition four_t33 : tokn := tk1 TOK_IDENT "o".
Definition four_t34 : tokn := tk1 TOK_OPEN_BRACKET "[".
Definition four_t35 : tokn := tk1 TOK_IDENT "k".
Definition four_t36 : tokn := tk1 TOK_CLOSE_BRACKET "]".
Definition four_t37 : tokn := tk1 TOK_GT ">".
Definition four_t38 : tokn := tk1 TOK_NUM "5".
Definition four_t39 : tokn := tk1 TOK_CLOSE_PAREN ")".
Definition four_t40 : tokn := tk1 TOK_KEYWORD_BREAK "break".
Definition four_t41 : tokn := tk1 TOK_SEMICOLON ";".
Definition four_t42 : tokn := tk1 TOK_IDENT "t".
Definition four_t43 : tokn := tk1 TOK_PLUS_ASSIGN "+=".
Definition four_t44 : tokn := tk1 TOK_IDENT "k".
Definition four_t45 : tokn := tk1 TOK_SEMICOLON ";".
Definition four_t46 : tokn := tk1 TOK_CLOSE_CURLY "}".
Definition four_t47 : tokn := tk1 TOK_KEYWORD_FOR "for".
Definition four_t48 : tokn := tk1 TOK_OPEN_PAREN "(".
Definition four_t49 : tokn := tk1 TOK_IDENT "k".
Definition four_t50 : tokn := tk1 TOK_KEYWORD_IN "in".
Definition four_t51 : tokn := tk1 TOK_IDENT "o".
Definition four_t52 : tokn := tk1 TOK_CLOSE_PAREN ")".
Definition four_t53 : tokn := tk1 TOK_OPEN_CURLY "{".
Definition four_t54 : tokn := tk1 TOK_KEYWORD_IF "if".
Definition four_t55 : tokn := tk1 TOK_OPEN_PAREN "(".
Definition four_t56 : tokn := tk1 TOK_IDENT "k".
Definition four_t57 : tokn := tk1 TOK_EQ_EQ "===".
Definition four_t58 : tokn := tk1 TOK_STR "b".
Definition four_t59 : tokn := tk1 TOK_CLOSE_PAREN ")".
Definition four_t60 : tokn := tk1 TOK_KEYWORD_CONTINUE "continue".
Definition four_t61 : tokn := tk1 TOK_SEMICOLON ";".
Definition four_t62 : tokn := tk1 TOK_IDENT "t".
Definition four_t63 : tokn := tk1 TOK_PLUS_ASSIGN "+=".
Definition four_t64 : tokn := tk1 TOK_IDENT "k".
Definition four_t65 : tokn := tk1 TOK_SEMICOLON ";".
Definition four_t66 : tokn := tk1 TOK_CLOSE_CURLY "}".
Definition four_t67 : tokn := tk1 TOK_IDENT "t".
Definition four_t68 : tokn := tk1 TOK_PLUS "+".
Definition four_t69 : tokn := tk1 TOK_IDENT "k".
Definition four_t70 : tokn := tk1 TOK_SEMICOLON ";".
Definition four_toks : list tokn := [four_t0; four_t1; four_t2; four_t3; four_t4; four_t5; four_t6; four_t7; four_t8; four_t9; four_t10; four_t11; four_t12; four_t13; four_t14; four_t15; four_t16; four_t17; four_t18; four_t19; four_t20; four_t21; four_t22; four_t23; four_t24; four_t25; four_t26; four_t27; four_t28; four_t29; four_t30; four_t31; four_t32; four_t33; four_t34; four_t35; four_t36; four_t37; four_t38; four_t39; four_t40; four_t41; four_t42; four_t43; four_t44; four_t45; four_t46; four_t47; four_t48; four_t49; four_t50; four_t51; four_t52; four_t53; four_t54; four_t55; four_t56; four_t57; four_t58; four_t59; four_t60; four_t61; four_t62; four_t63; four_t64; four_t65; four_t66; four_t67; four_t68; four_t69; four_t70].
Lemma four_source : source four_src four_toks.
Proof.
  unfold four_src, four_toks.
  keyword (bs "let") (bs " k = 'z'; let o = {b: 1, a: 2}; let t = 'x'; for (let k in o) { if (o[k] > 5) break; t += k; } for (k in o) { if (k === 'b') continue; t += k; } t + k;").
  apply source_blank; [cbn; tauto|].
  word (bs "k") (bs " = 'z'; let o = {b: 1, a: 2}; let t = 'x'; for (let k in o) { if (o[k] > 5) break; t += k; } for (k in o) { if (k === 'b') continue; t += k; } t + k;"). { intros n H. vm_compute in H. intuition discriminate. }
  apply source_blank; [cbn; tauto|].
  opr (bs "=") (bs " 'z'; let o = {b: 1, a: 2}; let t = 'x'; for (let k in o) { if (o[k] > 5) break; t += k; } for (k in o) { if (k === 'b') continue; t += k; } t + k;") TOK_ASSIGN.
  apply source_blank; [cbn; tauto|].
  quoted (bs "'z'") (bs "z") (bs "; let o = {b: 1, a: 2}; let t = 'x'; for (let k in o) { if (o[k] > 5) break; t += k; } for (k in o) { if (k === 'b') continue; t += k; } t + k;").
  opr (bs ";") (bs " let o = {b: 1, a: 2}; let t = 'x'; for (let k in o) { if (o[k] > 5) break; t += k; } for (k in o) { if (k === 'b') continue; t += k; } t + k;") TOK_SEMICOLON.
  apply source_blank; [cbn; tauto|].
  keyword (bs "let") (bs " o = {b: 1, a: 2}; let t = 'x'; for (let k in o) { if (o[k] > 5) break; t += k; } for (k in o) { if (k === 'b') continue; t += k; } t + k;").
  apply source_blank; [cbn; tauto|].
  word (bs "o") (bs " = {b: 1, a: 2}; let t = 'x'; for (let k in o) { if (o[k] > 5) break; t += k; } for (k in o) { if (k === 'b') continue; t += k; } t + k;"). { intros n H. vm_compute in H. intuition discriminate. }
  apply source_blank; [cbn; tauto|].
  opr (bs "=") (bs " {b: 1, a: 2}; let t = 'x'; for (let k in o) { if (o[k] > 5) break; t += k; } for (k in o) { if (k === 'b') continue; t += k; } t + k;") TOK_ASSIGN.
  apply source_blank; [cbn; tauto|].
  opr (bs "{") (bs "b: 1, a: 2}; let t = 'x'; for (let k in o) { if (o[k] > 5) break; t += k; } for (k in o) { if (k === 'b') continue; t += k; } t + k;") TOK_OPEN_CURLY.
  word (bs "b") (bs ": 1, a: 2}; let t = 'x'; for (let k in o) { if (o[k] > 5) break; t += k; } for (k in o) { if (k === 'b') continue; t += k; } t + k;"). { intros n H. vm_compute in H. intuition discriminate. }
  opr (bs ":") (bs " 1, a: 2}; let t = 'x'; for (let k in o) { if (o[k] > 5) break; t += k; } for (k in o) { if (k === 'b') continue; t += k; } t + k;") TOK_COLON.
  apply source_blank; [cbn; tauto|].
  number (bs "1") (bs ", a: 2}; let t = 'x'; for (let k in o) { if (o[k] > 5) break; t += k; } for (k in o) { if (k === 'b') continue; t += k; } t + k;") lit_1.
  opr (bs ",") (bs " a: 2}; let t = 'x'; for (let k in o) { if (o[k] > 5) break; t += k; } for (k in o) { if (k === 'b') continue; t += k; } t + k;") TOK_COMMA.
  apply source_blank; [cbn; tauto|].
  word (bs "a") (bs ": 2}; let t = 'x'; for (let k in o) { if (o[k] > 5) break; t += k; } for (k in o) { if (k === 'b') continue; t += k; } t + k;"). { intros n H. vm_compute in H. intuition discriminate. }
  opr (bs ":") (bs " 2}; let t = 'x'; for (let k in o) { if (o[k] > 5) break; t += k; } for (k in o) { if (k === 'b') continue; t += k; } t + k;") TOK_COLON.
  apply source_blank; [cbn; tauto|].
  number (bs "2") (bs "}; let t = 'x'; for (let k in o) { if (o[k] > 5) break; t += k; } for (k in o) { if (k === 'b') continue; t += k; } t + k;") lit_2.
  opr (bs "}") (bs "; let t = 'x'; for (let k in o) { if (o[k] > 5) break; t += k; } for (k in o) { if (k === 'b') continue; t += k; } t + k;") TOK_CLOSE_CURLY.
  opr (bs ";") (bs " let t = 'x'; for (let k in o) { if (o[k] > 5) break; t += k; } for (k in o) { if (k === 'b') continue; t += k; } t + k;") TOK_SEMICOLON.
  apply source_blank; [cbn; tauto|].
  keyword (bs "let") (bs " t = 'x'; for (let k in o) { if (o[k] > 5) break; t += k; } for (k in o) { if (k === 'b') continue; t += k; } t + k;").
  apply source_blank; [cbn; tauto|].
  word (bs "t") (bs " = 'x'; for (let k in o) { if (o[k] > 5) break; t += k; } for (k in o) { if (k === 'b') continue; t += k; } t + k;"). { intros n H. vm_compute in H. intuition discriminate. }
  apply source_blank; [cbn; tauto|].
  opr (bs "=") (bs " 'x'; for (let k in o) { if (o[k] > 5) break; t += k; } for (k in o) { if (k === 'b') continue; t += k; } t + k;") TOK_ASSIGN.
  apply source_blank; [cbn; tauto|].
  quoted (bs "'x'") (bs "x") (bs "; for (let k in o) { if (o[k] > 5) break; t += k; } for (k in o) { if (k === 'b') continue; t += k; } t + k;").
  opr (bs ";") (bs " for (let k in o) { if (o[k] > 5) break; t += k; } for (k in o) { if (k === 'b') continue; t += k; } t + k;") TOK_SEMICOLON.
  apply source_blank; [cbn; tauto|].
  keyword (bs "for") (bs " (let k in o) { if (o[k] > 5) break; t += k; } for (k in o) { if (k === 'b') continue; t += k; } t + k;").
  apply source_blank; [cbn; tauto|].
  opr (bs "(") (bs "let k in o) { if (o[k] > 5) break; t += k; } for (k in o) { if (k === 'b') continue; t += k; } t + k;") TOK_OPEN_PAREN.
  keyword (bs "let") (bs " k in o) { if (o[k] > 5) break; t += k; } for (k in o) { if (k === 'b') continue; t += k; } t + k;").
  apply source_blank; [cbn; tauto|].
  word (bs "k") (bs " in o) { if (o[k] > 5) break; t += k; } for (k in o) { if (k === 'b') continue; t += k; } t + k;"). { intros n H. vm_compute in H. intuition discriminate. }
  apply source_blank; [cbn; tauto|].
  keyword (bs "in") (bs " o) { if (o[k] > 5) break; t += k; } for (k in o) { if (k === 'b') continue; t += k; } t + k;").
  apply source_blank; [cbn; tauto|].
  word (bs "o") (bs ") { if (o[k] > 5) break; t += k; } for (k in o) { if (k === 'b') continue; t += k; } t + k;"). { intros n H. vm_compute in H. intuition discriminate. }
  opr (bs ")") (bs " { if (o[k] > 5) break; t += k; } for (k in o) { if (k === 'b') continue; t += k; } t + k;") TOK_CLOSE_PAREN.
  apply source_blank; [cbn; tauto|].
  opr (bs "{") (bs " if (o[k] > 5) break; t += k; } for (k in o) { if (k === 'b') continue; t += k; } t + k;") TOK_OPEN_CURLY.
  apply source_blank; [cbn; tauto|].
  keyword (bs "if") (bs " (o[k] > 5) break; t += k; } for (k in o) { if (k === 'b') continue; t += k; } t + k;").
  apply source_blank; [cbn; tauto|].
  opr (bs "(") (bs "o[k] > 5) break; t += k; } for (k in o) { if (k === 'b') continue; t += k; } t + k;") TOK_OPEN_PAREN.
  word (bs "o") (bs "[k] > 5) break; t += k; } for (k in o) { if (k === 'b') continue; t += k; } t + k;"). { intros n H. vm_compute in H. intuition discriminate. }
  opr (bs "[") (bs "k] > 5) break; t += k; } for (k in o) { if (k === 'b') continue; t += k; } t + k;") TOK_OPEN_BRACKET.
  word (bs "k") (bs "] > 5) break; t += k; } for (k in o) { if (k === 'b') continue; t += k; } t + k;"). { intros n H. vm_compute in H. intuition discriminate. }
  opr (bs "]") (bs " > 5) break; t += k; } for (k in o) { if (k === 'b') continue; t += k; } t + k;") TOK_CLOSE_BRACKET.
  apply source_blank; [cbn; tauto|].
  opr (bs ">") (bs " 5) break; t += k; } for (k in o) { if (k === 'b') continue; t += k; } t + k;") TOK_GT.
  apply source_blank; [cbn; tauto|].
  number (bs "5") (bs ") break; t += k; } for (k in o) { if (k === 'b') continue; t += k; } t + k;") lit_5.
  opr (bs ")") (bs " break; t += k; } for (k in o) { if (k === 'b') continue; t += k; } t + k;") TOK_CLOSE_PAREN.
  apply source_blank; [cbn; tauto|].
  keyword (bs "break") (bs "; t += k; } for (k in o) { if (k === 'b') continue; t += k; } t + k;").
  opr (bs ";") (bs " t += k; } for (k in o) { if (k === 'b') continue; t += k; } t + k;") TOK_SEMICOLON.
  apply source_blank; [cbn; tauto|].
  word (bs "t") (bs " += k; } for (k in o) { if (k === 'b') continue; t += k; } t + k;"). { intros n H. vm_compute in H. intuition discriminate. }
  apply source_blank; [cbn; tauto|].
  opr (bs "+=") (bs " k; } for (k in o) { if (k === 'b') continue; t += k; } t + k;") TOK_PLUS_ASSIGN.
  apply source_blank; [cbn; tauto|].
  word (bs "k") (bs "; } for (k in o) { if (k === 'b') continue; t += k; } t + k;"). { intros n H. vm_compute in H. intuition discriminate. }
  opr (bs ";") (bs " } for (k in o) { if (k === 'b') continue; t += k; } t + k;") TOK_SEMICOLON.
  apply source_blank; [cbn; tauto|].
  opr (bs "}") (bs " for (k in o) { if (k === 'b') continue; t += k; } t + k;") TOK_CLOSE_CURLY.
  apply source_blank; [cbn; tauto|].
  keyword (bs "for") (bs " (k in o) { if (k === 'b') continue; t += k; } t + k;").
  apply source_blank; [cbn; tauto|].
  opr (bs "(") (bs "k in o) { if (k === 'b') continue; t += k; } t + k;") TOK_OPEN_PAREN.
  word (bs "k") (bs " in o) { if (k === 'b') continue; t += k; } t + k;"). { intros n H. vm_compute in H. intuition discriminate. }
  apply source_blank; [cbn; tauto|].
  keyword (bs "in") (bs " o) { if (k === 'b') continue; t += k; } t + k;").
  apply source_blank; [cbn; tauto|].
  word (bs "o") (bs ") { if (k === 'b') continue; t += k; } t + k;"). { intros n H. vm_compute in H. intuition discriminate. }
  opr (bs ")") (bs " { if (k === 'b') continue; t += k; } t + k;") TOK_CLOSE_PAREN.
  apply source_blank; [cbn; tauto|].
  opr (bs "{") (bs " if (k === 'b') continue; t += k; } t + k;") TOK_OPEN_CURLY.
  apply source_blank; [cbn; tauto|].
  keyword (bs "if") (bs " (k === 'b') continue; t += k; } t + k;").
  apply source_blank; [cbn; tauto|].
  opr (bs "(") (bs "k === 'b') continue; t += k; } t + k;") TOK_OPEN_PAREN.
  word (bs "k") (bs " === 'b') continue; t += k; } t + k;"). { intros n H. vm_compute in H. intuition discriminate. }
  apply source_blank; [cbn; tauto|].
  opr (bs "===") (bs " 'b') continue; t += k; } t + k;") TOK_EQ_EQ.
  apply source_blank; [cbn; tauto|].
  quoted (bs "'b'") (bs "b") (bs ") continue; t += k; } t + k;").
  opr (bs ")") (bs " continue; t += k; } t + k;") TOK_CLOSE_PAREN.
  apply source_blank; [cbn; tauto|].
  keyword (bs "continue") (bs "; t += k; } t + k;").
  opr (bs ";") (bs " t += k; } t + k;") TOK_SEMICOLON.
  apply source_blank; [cbn; tauto|].
  word (bs "t") (bs " += k; } t + k;"). { intros n H. vm_compute in H. intuition discriminate. }
  apply source_blank; [cbn; tauto|].
  opr (bs "+=") (bs " k; } t + k;") TOK_PLUS_ASSIGN.
  apply source_blank; [cbn; tauto|].
  word (bs "k") (bs "; } t + k;"). { intros n H. vm_compute in H. intuition discriminate. }
  opr (bs ";") (bs " } t + k;") TOK_SEMICOLON.
  apply source_blank; [cbn; tauto|].
  opr (bs "}") (bs " t + k;") TOK_CLOSE_CURLY.
  apply source_blank; [cbn; tauto|].
  word (bs "t") (bs " + k;"). { intros n H. vm_compute in H. intuition discriminate. }
  apply source_blank; [cbn; tauto|].
  opr (bs "+") (bs " k;") TOK_PLUS.
  apply source_blank; [cbn; tauto|].
  word (bs "k") (bs ";"). { intros n H. vm_compute in H. intuition discriminate. }
  opr (bs ";") (bs "") TOK_SEMICOLON.
  apply src_end, gap_end; [intros c r H; discriminate|no_start|no_start].
Qed.
Lemma four_stmts : stmts TOK_EOF 0 0 four_toks four_tree.
Proof.
  unfold four_toks, four_tree.
  eapply (ss_cons TOK_EOF 0 0 0 [four_t0; four_t1; four_t2; four_t3] [four_t4] [four_t5; four_t6; four_t7; four_t8; four_t9; four_t10; four_t11; four_t12; four_t13; four_t14; four_t15; four_t16; four_t17; four_t18; four_t19; four_t20; four_t21; four_t22; four_t23; four_t24; four_t25; four_t26; four_t27; four_t28; four_t29; four_t30; four_t31; four_t32; four_t33; four_t34; four_t35; four_t36; four_t37; four_t38; four_t39; four_t40; four_t41; four_t42; four_t43; four_t44; four_t45; four_t46; four_t47; four_t48; four_t49; four_t50; four_t51; four_t52; four_t53; four_t54; four_t55; four_t56; four_t57; four_t58; four_t59; four_t60; four_t61; four_t62; four_t63; four_t64; four_t65; four_t66; four_t67; four_t68; four_t69; four_t70] _ _); [eapply (s_let 0 0 four_t0 [four_t1; four_t2; four_t3] TOK_SEMICOLON _); [side|eapply (l_one 0 0 four_t1 [four_t2; four_t3] _); [side|eapply (i_some 0 0 four_t2 [four_t3] _); [side|eapply (from8 12 0 0 2 2 [four_t3] _); [side|side|side|side|eapply (lift 0 8 2 2 10 10 [four_t3] _); [side|side|side|side|eapply (x_mem _ 10 10 [four_t3] _); [eapply (m_intro _ _ 10 10 10 [four_t3] [] _ _); [eapply (p_const 10 four_t3 _); [exact str_z|side]|eapply (t_none _ 10 _)]]]]]]|side]|side|side|side|side|right; side|eapply (ss_cons TOK_EOF 0 0 0 [four_t5; four_t6; four_t7; four_t8; four_t9; four_t10; four_t11; four_t12; four_t13; four_t14; four_t15; four_t16] [four_t17] [four_t18; four_t19; four_t20; four_t21; four_t22; four_t23; four_t24; four_t25; four_t26; four_t27; four_t28; four_t29; four_t30; four_t31; four_t32; four_t33; four_t34; four_t35; four_t36; four_t37; four_t38; four_t39; four_t40; four_t41; four_t42; four_t43; four_t44; four_t45; four_t46; four_t47; four_t48; four_t49; four_t50; four_t51; four_t52; four_t53; four_t54; four_t55; four_t56; four_t57; four_t58; four_t59; four_t60; four_t61; four_t62; four_t63; four_t64; four_t65; four_t66; four_t67; four_t68; four_t69; four_t70] _ _); [eapply (s_let 0 0 four_t5 [four_t6; four_t7; four_t8; four_t9; four_t10; four_t11; four_t12; four_t13; four_t14; four_t15; four_t16] TOK_SEMICOLON _); [side|eapply (l_one 0 0 four_t6 [four_t7; four_t8; four_t9; four_t10; four_t11; four_t12; four_t13; four_t14; four_t15; four_t16] _); [side|eapply (i_some 0 0 four_t7 [four_t8; four_t9; four_t10; four_t11; four_t12; four_t13; four_t14; four_t15; four_t16] _); [side|eapply (from8 12 0 0 2 2 [four_t8; four_t9; four_t10; four_t11; four_t12; four_t13; four_t14; four_t15; four_t16] _); [side|side|side|side|eapply (lift 0 8 2 2 10 10 [four_t8; four_t9; four_t10; four_t11; four_t12; four_t13; four_t14; four_t15; four_t16] _); [side|side|side|side|eapply (x_mem _ 10 10 [four_t8; four_t9; four_t10; four_t11; four_t12; four_t13; four_t14; four_t15; four_t16] _); [eapply (m_intro _ _ 10 10 10 [four_t8; four_t9; four_t10; four_t11; four_t12; four_t13; four_t14; four_t15; four_t16] [] _ _); [eapply (p_obj 10 10 four_t8 [four_t9; four_t10; four_t11; four_t12; four_t13; four_t14; four_t15] four_t16 _); [side|side|eapply (pr_more 10 10 10 four_t9 four_t10 [four_t11] four_t12 [four_t13; four_t14; four_t15] _ _); [exact (or_introl eq_refl)|side|eapply (from8 12 10 10 12 12 [four_t11] _); [side|side|side|side|eapply (lift 0 8 12 12 20 20 [four_t11] _); [side|side|side|side|eapply (x_mem _ 20 20 [four_t11] _); [eapply (m_intro _ _ 20 20 20 [four_t11] [] _ _); [eapply (p_const 20 four_t11 _); [exact num_1|side]|eapply (t_none _ 20 _)]]]]|side|eapply (pr_one 10 10 four_t13 four_t14 [four_t15] _); [exact (or_introl eq_refl)|side|eapply (from8 12 10 10 12 12 [four_t15] _); [side|side|side|side|eapply (lift 0 8 12 12 20 20 [four_t15] _); [side|side|side|side|eapply (x_mem _ 20 20 [four_t15] _); [eapply (m_intro _ _ 20 20 20 [four_t15] [] _ _); [eapply (p_const 20 four_t15 _); [exact num_2|side]|eapply (t_none _ 20 _)]]]]]]]|eapply (t_none _ 10 _)]]]]]]|side]|side|side|side|side|right; side|eapply (ss_cons TOK_EOF 0 0 0 [four_t18; four_t19; four_t20; four_t21] [four_t22] [four_t23; four_t24; four_t25; four_t26; four_t27; four_t28; four_t29; four_t30; four_t31; four_t32; four_t33; four_t34; four_t35; four_t36; four_t37; four_t38; four_t39; four_t40; four_t41; four_t42; four_t43; four_t44; four_t45; four_t46; four_t47; four_t48; four_t49; four_t50; four_t51; four_t52; four_t53; four_t54; four_t55; four_t56; four_t57; four_t58; four_t59; four_t60; four_t61; four_t62; four_t63; four_t64; four_t65; four_t66; four_t67; four_t68; four_t69; four_t70] _ _); [eapply (s_let 0 0 four_t18 [four_t19; four_t20; four_t21] TOK_SEMICOLON _); [side|eapply (l_one 0 0 four_t19 [four_t20; four_t21] _); [side|eapply (i_some 0 0 four_t20 [four_t21] _); [side|eapply (from8 12 0 0 2 2 [four_t21] _); [side|side|side|side|eapply (lift 0 8 2 2 10 10 [four_t21] _); [side|side|side|side|eapply (x_mem _ 10 10 [four_t21] _); [eapply (m_intro _ _ 10 10 10 [four_t21] [] _ _); [eapply (p_const 10 four_t21 _); [exact str_x|side]|eapply (t_none _ 10 _)]]]]]]|side]|side|side|side|side|right; side|eapply (ss_cons TOK_EOF 0 0 0 [four_t23; four_t24; four_t25; four_t26; four_t27; four_t28; four_t29; four_t30; four_t31; four_t32; four_t33; four_t34; four_t35; four_t36; four_t37; four_t38; four_t39; four_t40; four_t41; four_t42; four_t43; four_t44; four_t45; four_t46] [] [four_t47; four_t48; four_t49; four_t50; four_t51; four_t52; four_t53; four_t54; four_t55; four_t56; four_t57; four_t58; four_t59; four_t60; four_t61; four_t62; four_t63; four_t64; four_t65; four_t66; four_t67; four_t68; four_t69; four_t70] _ _); [eapply (s_forlet 0 0 0 four_t23 four_t24 four_t25 four_t26 four_t27 [four_t28] four_t29 [four_t30; four_t31; four_t32; four_t33; four_t34; four_t35; four_t36; four_t37; four_t38; four_t39; four_t40; four_t41; four_t42; four_t43; four_t44; four_t45; four_t46] TOK_KEYWORD_FOR _ _); [side|side|side|side|side|side|eapply (from8 12 0 0 2 2 [four_t28] _); [side|side|side|side|eapply (lift 0 8 2 2 10 10 [four_t28] _); [side|side|side|side|eapply (x_mem _ 10 10 [four_t28] _); [eapply (m_intro _ _ 10 10 10 [four_t28] [] _ _); [eapply (p_var 10 four_t28); [side]|eapply (t_none _ 10 _)]]]]|eapply (b_list 0 0 four_t30 [four_t31; four_t32; four_t33; four_t34; four_t35; four_t36; four_t37; four_t38; four_t39; four_t40; four_t41; four_t42; four_t43; four_t44; four_t45] four_t46 TOK_KEYWORD_FOR _); [side|side|eapply (ss_cons TOK_CLOSE_CURLY 0 0 0 [four_t31; four_t32; four_t33; four_t34; four_t35; four_t36; four_t37; four_t38; four_t39; four_t40] [four_t41] [four_t42; four_t43; four_t44; four_t45] _ _); [eapply (s_if 0 0 0 four_t31 four_t32 [four_t33; four_t34; four_t35; four_t36; four_t37; four_t38] four_t39 [four_t40] TOK_SEMICOLON _ _); [side|side|side|eapply (from8 12 0 0 2 2 [four_t33; four_t34; four_t35; four_t36; four_t37; four_t38] _); [side|side|side|side|eapply (lift 4 8 2 2 6 6 [four_t33; four_t34; four_t35; four_t36; four_t37; four_t38] _); [side|side|side|side|eapply (x_level 4 6 6 7 [four_t33; four_t34; four_t35; four_t36] [four_t37; four_t38] _ _); [side|side|eapply (lift 0 3 7 7 10 10 [four_t33; four_t34; four_t35; four_t36] _); [side|side|side|side|eapply (x_mem _ 10 10 [four_t33; four_t34; four_t35; four_t36] _); [eapply (m_intro _ _ 10 10 10 [four_t33] [four_t34; four_t35; four_t36] _ _); [eapply (p_var 10 four_t33); [side]|eapply (t_idx _ _ 10 10 10 _ four_t34 [four_t35] four_t36 [] _ _); [side|side|eapply (from8 12 10 10 12 12 [four_t35] _); [side|side|side|side|eapply (lift 0 8 12 12 20 20 [four_t35] _); [side|side|side|side|eapply (x_mem _ 20 20 [four_t35] _); [eapply (m_intro _ _ 20 20 20 [four_t35] [] _ _); [eapply (p_var 20 four_t35); [side]|eapply (t_none _ 20 _)]]]]|eapply (t_none _ 10 _)]]]]|eapply (o_one 4 7 7 8 _ four_t37 [four_t38] [] _ _); [side|side|eapply (lift 0 3 8 8 11 11 [four_t38] _); [side|side|side|side|eapply (x_mem _ 11 11 [four_t38] _); [eapply (m_intro _ _ 11 11 11 [four_t38] [] _ _); [eapply (p_const 11 four_t38 _); [exact num_5|side]|eapply (t_none _ 11 _)]]]|eapply (o_none 4 8 _)]]]]|eapply (s_break 0 four_t40 TOK_SEMICOLON); [side]|side|side]|side|side|side|side|right; side|eapply (ss_cons TOK_CLOSE_CURLY 0 0 0 [four_t42; four_t43; four_t44] [four_t45] [] _ _); [eapply (s_exprs 0 0 [four_t42; four_t43; four_t44] TOK_SEMICOLON _); [eapply (c_one 0 0 [four_t42; four_t43; four_t44] _); [eapply (x_assign 0 0 0 [four_t42] four_t43 [four_t44] _ _); [side|side|eapply (m_intro _ _ 10 10 10 [four_t42] [] _ _); [eapply (p_var 10 four_t42); [side]|eapply (t_none _ 10 _)]|eapply (from8 12 0 0 2 2 [four_t44] _); [side|side|side|side|eapply (lift 0 8 2 2 10 10 [four_t44] _); [side|side|side|side|eapply (x_mem _ 10 10 [four_t44] _); [eapply (m_intro _ _ 10 10 10 [four_t44] [] _ _); [eapply (p_var 10 four_t44); [side]|eapply (t_none _ 10 _)]]]]]]|side|side|side]|side|side|side|side|exact (or_introl eq_refl)|eapply (ss_nil TOK_CLOSE_CURLY 0)]]]]|side|side|side|side|right; side|eapply (ss_cons TOK_EOF 0 0 0 [four_t47; four_t48; four_t49; four_t50; four_t51; four_t52; four_t53; four_t54; four_t55; four_t56; four_t57; four_t58; four_t59; four_t60; four_t61; four_t62; four_t63; four_t64; four_t65; four_t66] [] [four_t67; four_t68; four_t69; four_t70] _ _); [eapply (s_forin 0 0 0 four_t47 four_t48 four_t49 four_t50 [four_t51] four_t52 [four_t53; four_t54; four_t55; four_t56; four_t57; four_t58; four_t59; four_t60; four_t61; four_t62; four_t63; four_t64; four_t65; four_t66] TOK_IDENT _ _); [side|side|side|side|side|eapply (from8 12 0 0 2 2 [four_t51] _); [side|side|side|side|eapply (lift 0 8 2 2 10 10 [four_t51] _); [side|side|side|side|eapply (x_mem _ 10 10 [four_t51] _); [eapply (m_intro _ _ 10 10 10 [four_t51] [] _ _); [eapply (p_var 10 four_t51); [side]|eapply (t_none _ 10 _)]]]]|eapply (b_list 0 0 four_t53 [four_t54; four_t55; four_t56; four_t57; four_t58; four_t59; four_t60; four_t61; four_t62; four_t63; four_t64; four_t65] four_t66 TOK_IDENT _); [side|side|eapply (ss_cons TOK_CLOSE_CURLY 0 0 0 [four_t54; four_t55; four_t56; four_t57; four_t58; four_t59; four_t60] [four_t61] [four_t62; four_t63; four_t64; four_t65] _ _); [eapply (s_if 0 0 0 four_t54 four_t55 [four_t56; four_t57; four_t58] four_t59 [four_t60] TOK_SEMICOLON _ _); [side|side|side|eapply (from8 12 0 0 2 2 [four_t56; four_t57; four_t58] _); [side|side|side|side|eapply (lift 5 8 2 2 5 5 [four_t56; four_t57; four_t58] _); [side|side|side|side|eapply (x_level 5 5 5 6 [four_t56] [four_t57; four_t58] _ _); [side|side|eapply (lift 0 4 6 6 10 10 [four_t56] _); [side|side|side|side|eapply (x_mem _ 10 10 [four_t56] _); [eapply (m_intro _ _ 10 10 10 [four_t56] [] _ _); [eapply (p_var 10 four_t56); [side]|eapply (t_none _ 10 _)]]]|eapply (o_one 5 6 6 7 _ four_t57 [four_t58] [] _ _); [side|side|eapply (lift 0 4 7 7 11 11 [four_t58] _); [side|side|side|side|eapply (x_mem _ 11 11 [four_t58] _); [eapply (m_intro _ _ 11 11 11 [four_t58] [] _ _); [eapply (p_const 11 four_t58 _); [exact str_b|side]|eapply (t_none _ 11 _)]]]|eapply (o_none 5 7 _)]]]]|eapply (s_continue 0 four_t60 TOK_SEMICOLON); [side]|side|side]|side|side|side|side|right; side|eapply (ss_cons TOK_CLOSE_CURLY 0 0 0 [four_t62; four_t63; four_t64] [four_t65] [] _ _); [eapply (s_exprs 0 0 [four_t62; four_t63; four_t64] TOK_SEMICOLON _); [eapply (c_one 0 0 [four_t62; four_t63; four_t64] _); [eapply (x_assign 0 0 0 [four_t62] four_t63 [four_t64] _ _); [side|side|eapply (m_intro _ _ 10 10 10 [four_t62] [] _ _); [eapply (p_var 10 four_t62); [side]|eapply (t_none _ 10 _)]|eapply (from8 12 0 0 2 2 [four_t64] _); [side|side|side|side|eapply (lift 0 8 2 2 10 10 [four_t64] _); [side|side|side|side|eapply (x_mem _ 10 10 [four_t64] _); [eapply (m_intro _ _ 10 10 10 [four_t64] [] _ _); [eapply (p_var 10 four_t64); [side]|eapply (t_none _ 10 _)]]]]]]|side|side|side]|side|side|side|side|exact (or_introl eq_refl)|eapply (ss_nil TOK_CLOSE_CURLY 0)]]]]|side|side|side|side|right; side|eapply (ss_cons TOK_EOF 0 0 0 [four_t67; four_t68; four_t69] [four_t70] [] _ _); [eapply (s_exprs 0 0 [four_t67; four_t68; four_t69] TOK_SEMICOLON _); [eapply (c_one 0 0 [four_t67; four_t68; four_t69] _); [eapply (from8 12 0 0 2 2 [four_t67; four_t68; four_t69] _); [side|side|side|side|eapply (lift 2 8 2 2 8 8 [four_t67; four_t68; four_t69] _); [side|side|side|side|eapply (x_level 2 8 8 9 [four_t67] [four_t68; four_t69] _ _); [side|side|eapply (lift 0 1 9 9 10 10 [four_t67] _); [side|side|side|side|eapply (x_mem _ 10 10 [four_t67] _); [eapply (m_intro _ _ 10 10 10 [four_t67] [] _ _); [eapply (p_var 10 four_t67); [side]|eapply (t_none _ 10 _)]]]|eapply (o_one 2 9 9 10 _ four_t68 [four_t69] [] _ _); [side|side|eapply (lift 0 1 10 10 11 11 [four_t69] _); [side|side|side|side|eapply (x_mem _ 11 11 [four_t69] _); [eapply (m_intro _ _ 11 11 11 [four_t69] [] _ _); [eapply (p_var 11 four_t69); [side]|eapply (t_none _ 11 _)]]]|eapply (o_none 2 10 _)]]]]]|side|side|side]|side|side|side|side|exact (or_introl eq_refl)|eapply (ss_nil TOK_EOF 0)]]]]]].
Qed.
Definition prog_four : prog := {| g_path := bs "d.js"; g_src := four_src; g_toks := four_toks; g_tree := four_tree |}.
Example four_well_formed : well_formed prog_four.
Proof. split; [unfold c_text; cbn [prog_four g_src]; unfold four_src; c_bytes|]. split; [apply four_source|eexists; apply four_stmts]. Qed.
(** The interpreter's value and the engine's. *)
Example four_value : option_map (fun r => map (fun v => match v with VPrim a => Some a | _ => None end) (fst r)) (run_all 10 50 [0%nat] undef [prog_four] start_state) = Some [Some (AStr (bs "xabab"))].
Proof. vm_compute. reflexivity. Qed.
Example four_engine : (r <- exec_all 1500 Props_Vm.w0 new_engine [prog_four] ;; text_of (OK (fst r, last (snd r) 0))) = OK (E_OK, bs "xabab").
Proof. vm_compute. reflexivity. Qed.
(** The hypotheses of [session_result] are met. *)
Example four_holds : exists m codes W vs s', create = OK m /\ Forall2 compiles [prog_four] codes /\
  run_all 10 50 [0%nat] undef [prog_four] start_state = Some (vs, s') /\
  in_state m W start_state [0%nat] undef /\ stack_room m 50 /\ code_room m (total codes).
Proof.
  destruct (created_engine 1000000 ltac:(lia)) as (m & W & E & I & S1 & S2 & S3 & C).
  destruct (run_all 10 50 [0%nat] undef [prog_four] start_state) as [[vs s']|] eqn:R; [|pose proof four_value as V; rewrite R in V; discriminate V].
  exists m, [code_of prog_four], W, vs, s'. split; [exact E|]. split.
  { apply Forall2_cons; [apply (compiles_at 500); vm_compute; reflexivity|constructor]. }
  split; [reflexivity|]. split; [exact I|]. split.
  - unfold stack_room. rewrite S1, S2, S3. vm_compute. repeat split; reflexivity.
  - exists []. split; [exact C|]. vm_compute. reflexivity.
Qed.

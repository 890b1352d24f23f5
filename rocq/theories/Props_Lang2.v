(** A session of two programs: examples for C68 to C70. *)
From Verif Require Import Base Value_Model Value_Spec Str_Model Str_Spec TokNum_Model Txt_Model Tok_Model Tok_Spec Num_Model NumText_Spec Lit_Proofs Obj_Model Obj_Spec Bcode_Model Bcode_Proofs Vm_Model Vm_Spec Parse_Model Run_Model Expr_Spec Run_Spec
  Tok_Proofs2 Obj_Proofs Obj_Proofs2 Props_Obj Props_Vm Props_Expr Lang_Spec Lang_Code Lang_Spec2 Lang_Spec3 Props_Lang.
From Coq Require Import ZifyBool.
Ltac Zify.zify_post_hook ::= idtac.

Ltac keyword l r := let l := eval vm_compute in l in let r := eval vm_compute in r in lazymatch goal with |- source _ ?ts => change (source (l ++ r) ts) end;
  apply source_at; [not_blank|no_start|no_start
  |eapply tk_word; [reflexivity|unfold letter; nrm; lia|exists r; split; [reflexivity|split; [chars|next_char]]|left; vm_compute; tauto]|no_start|discriminate|].
Ltac side := first [reflexivity|lia|solve [vm_compute; intuition discriminate]|solve [repeat constructor]].
Lemma lift l l' p q p' q' ts e : (l <= l' <= 8)%nat -> p' = p + Z.of_nat (l' - l) -> q' = q + Z.of_nat (l' - l) -> p' <= 512 -> xp l p' q' ts e -> xp l' p q ts e.
Proof.
  intros H. remember (l' - l)%nat as n eqn:En. revert l' p q H En. induction n as [|n IH]; intros l' p q H En -> -> L X.
  - replace l' with l by lia. rewrite !Z.add_0_r in X. exact X.
  - destruct l' as [|l']; [lia|]. rewrite <- (app_nil_r ts). apply (x_level (S l') p q (q + 1) ts [] e e); [lia|lia| |apply o_none].
    cbn [Nat.sub]. rewrite Nat.sub_0_r. apply (IH l' (p + 1) (q + 1)); try lia. exact X.
Qed.
Lemma from8 c p q p' q' ts e : (10 <= c <= 12)%nat -> p' = p + 2 -> q' = q + 2 -> p' <= 512 -> xp 8 p' q' ts e -> xp c p q ts e.
Proof.
  intros H -> -> L X. assert (Y : xp 10 p q ts e) by (apply x_or1; [lia|]; apply x_and1; [lia|]; rewrite <- !Z.add_assoc; exact X).
  assert (C : (c = 10 \/ c = 11 \/ c = 12)%nat) by lia. destruct C as [->|[->| ->]]; [exact Y|apply x_cond1, Y|apply x_assign1, x_cond1, Y].
Qed.
Lemma lit_0 : literal (bs "0") (scale10 0 0).
Proof. apply (lit_dec (bs "0") [] [] [] 0); [split; [discriminate|numbers]|left; split; reflexivity|left; split; reflexivity]. Qed.
Lemma num_0 : leaf (tk1 TOK_NUM "0") (EInt 0).
Proof. apply (leaf_int (tk1 TOK_NUM "0") _ 0 eq_refl lit_0); [apply (W_zero _ false); vm_compute; reflexivity|lia]. Qed.
Lemma lit_1 : literal (bs "1") (scale10 1 0).
Proof. apply (lit_dec (bs "1") [] [] [] 0); [split; [discriminate|numbers]|left; split; reflexivity|left; split; reflexivity]. Qed.
Lemma num_1 : leaf (tk1 TOK_NUM "1") (EInt 1).
Proof. apply (leaf_int (tk1 TOK_NUM "1") _ 1 eq_refl lit_1); [apply (W_down _ false (1 * 2 ^ 52)%positive (-52) 1); [vm_compute; reflexivity|lia|reflexivity]|lia]. Qed.
Lemma lit_2 : literal (bs "2") (scale10 2 0).
Proof. apply (lit_dec (bs "2") [] [] [] 0); [split; [discriminate|numbers]|left; split; reflexivity|left; split; reflexivity]. Qed.
Lemma num_2 : leaf (tk1 TOK_NUM "2") (EInt 2).
Proof. apply (leaf_int (tk1 TOK_NUM "2") _ 2 eq_refl lit_2); [apply (W_down _ false (2 * 2 ^ 51)%positive (-51) 2); [vm_compute; reflexivity|lia|reflexivity]|lia]. Qed.
Lemma lit_4 : literal (bs "4") (scale10 4 0).
Proof. apply (lit_dec (bs "4") [] [] [] 0); [split; [discriminate|numbers]|left; split; reflexivity|left; split; reflexivity]. Qed.
Lemma num_4 : leaf (tk1 TOK_NUM "4") (EInt 4).
Proof. apply (leaf_int (tk1 TOK_NUM "4") _ 4 eq_refl lit_4); [apply (W_down _ false (4 * 2 ^ 50)%positive (-50) 4); [vm_compute; reflexivity|lia|reflexivity]|lia]. Qed.
Lemma lit_5 : literal (bs "5") (scale10 5 0).
Proof. apply (lit_dec (bs "5") [] [] [] 0); [split; [discriminate|numbers]|left; split; reflexivity|left; split; reflexivity]. Qed.
Lemma num_5 : leaf (tk1 TOK_NUM "5") (EInt 5).
Proof. apply (leaf_int (tk1 TOK_NUM "5") _ 5 eq_refl lit_5); [apply (W_down _ false (5 * 2 ^ 50)%positive (-50) 5); [vm_compute; reflexivity|lia|reflexivity]|lia]. Qed.
Lemma str_big : leaf (tk1 TOK_STR "big") (EStr (bs "big")).
Proof. apply (leaf_str _ [LPlain 98; LPlain 105; LPlain 103]); [reflexivity|repeat (apply Forall_cons; [split; [unfold is_byte; lia|lia]|]); apply Forall_nil|reflexivity]. Qed.
Lemma str_small : leaf (tk1 TOK_STR "small") (EStr (bs "small")).
Proof. apply (leaf_str _ [LPlain 115; LPlain 109; LPlain 97; LPlain 108; LPlain 108]); [reflexivity|repeat (apply Forall_cons; [split; [unfold is_byte; lia|lia]|]); apply Forall_nil|reflexivity]. Qed.
Definition one_src : list Z := bs "let o = {n: 0, add: function(k) { this.n = this.n + k; return this.n; }}; let fac = function(k) { if (k < 2) { return 1; } return k * fac(k - 1); };".
Definition one_tree : list stmt :=
  [(SLet [((bs "o"), Some (XObj [((bs "n"), (XConst (EInt 0))); ((bs "add"), (XFun None [(bs "k")] [(SExprs [(XAsg TOK_ASSIGN (XDot XThis (bs "n")) (XBin TOK_PLUS (XDot XThis (bs "n")) (XVar (bs "k"))))]); (SReturn (Some (XDot XThis (bs "n"))))]))]))]);
   (SLet [((bs "fac"), Some (XFun None [(bs "k")] [(SIf (XBin TOK_LT (XVar (bs "k")) (XConst (EInt 2))) (SBlock [(SReturn (Some (XConst (EInt 1))))]) None); (SReturn (Some (XBin TOK_MUL (XVar (bs "k")) (XCall (XVar (bs "fac")) [(XBin TOK_MINUS (XVar (bs "k")) (XConst (EInt 1)))]))))]))])].
Definition one_t0 : tokn := tk1 TOK_KEYWORD_LET "let".
Definition one_t1 : tokn := tk1 TOK_IDENT "o".
Definition one_t2 : tokn := tk1 TOK_ASSIGN "=".
Definition one_t3 : tokn := tk1 TOK_OPEN_CURLY "{".
Definition one_t4 : tokn := tk1 TOK_IDENT "n".
Definition one_t5 : tokn := tk1 TOK_COLON ":".
Definition one_t6 : tokn := tk1 TOK_NUM "0".
Definition one_t7 : tokn := tk1 TOK_COMMA ",".
Definition one_t8 : tokn := tk1 TOK_IDENT "add".
Definition one_t9 : tokn := tk1 TOK_COLON ":".
Definition one_t10 : tokn := tk1 TOK_KEYWORD_FUNCTION "function".
Definition one_t11 : tokn := tk1 TOK_OPEN_PAREN "(".
Definition one_t12 : tokn := tk1 TOK_IDENT "k".
Definition one_t13 : tokn := tk1 TOK_CLOSE_PAREN ")".
Definition one_t14 : tokn := tk1 TOK_OPEN_CURLY "{".
Definition one_t15 : tokn := tk1 TOK_KEYWORD_THIS "this".
Definition one_t16 : tokn := tk1 TOK_DOT ".".
Definition one_t17 : tokn := tk1 TOK_IDENT "n".
Definition one_t18 : tokn := tk1 TOK_ASSIGN "=".
Definition one_t19 : tokn := tk1 TOK_KEYWORD_THIS "this".
Definition one_t20 : tokn := tk1 TOK_DOT ".".
Definition one_t21 : tokn := tk1 TOK_IDENT "n".
Definition one_t22 : tokn := tk1 TOK_PLUS "+".
Definition one_t23 : tokn := tk1 TOK_IDENT "k".
Definition one_t24 : tokn := tk1 TOK_SEMICOLON ";".
Definition one_t25 : tokn := tk1 TOK_KEYWORD_RETURN "return".
Definition one_t26 : tokn := tk1 TOK_KEYWORD_THIS "this".
Definition one_t27 : tokn := tk1 TOK_DOT ".".
Definition one_t28 : tokn := tk1 TOK_IDENT "n".
Definition one_t29 : tokn := tk1 TOK_SEMICOLON ";".
Definition one_t30 : tokn := tk1 TOK_CLOSE_CURLY "}".
Definition one_t31 : tokn := tk1 TOK_CLOSE_CURLY "}".
Definition one_t32 : tokn := tk1 TOK_SEMICOLON ";".
Definition one_t33 : tokn := tk1 TOK_KEYWORD_LET "let".
Definition one_t34 : tokn := tk1 TOK_IDENT "fac".
Definition one_t35 : tokn := tk1 TOK_ASSIGN "=".
Definition one_t36 : tokn := tk1 TOK_KEYWORD_FUNCTION "function".
Definition one_t37 : tokn := tk1 TOK_OPEN_PAREN "(".
Definition one_t38 : tokn := tk1 TOK_IDENT "k".
Definition one_t39 : tokn := tk1 TOK_CLOSE_PAREN ")".
Definition one_t40 : tokn := tk1 TOK_OPEN_CURLY "{".
Definition one_t41 : tokn := tk1 TOK_KEYWORD_IF "if".
Definition one_t42 : tokn := tk1 TOK_OPEN_PAREN "(".
Definition one_t43 : tokn := tk1 TOK_IDENT "k".
Definition one_t44 : tokn := tk1 TOK_LT "<".
Definition one_t45 : tokn := tk1 TOK_NUM "2".
Definition one_t46 : tokn := tk1 TOK_CLOSE_PAREN ")".
Definition one_t47 : tokn := tk1 TOK_OPEN_CURLY "{".
Definition one_t48 : tokn := tk1 TOK_KEYWORD_RETURN "return".
Definition one_t49 : tokn := tk1 TOK_NUM "1".
Definition one_t50 : tokn := tk1 TOK_SEMICOLON ";".
Definition one_t51 : tokn := tk1 TOK_CLOSE_CURLY "}".
Definition one_t52 : tokn := tk1 TOK_KEYWORD_RETURN "return".
Definition one_t53 : tokn := tk1 TOK_IDENT "k".
Definition one_t54 : tokn := tk1 TOK_MUL "*".
Definition one_t55 : tokn := tk1 TOK_IDENT "fac".
Definition one_t56 : tokn := tk1 TOK_OPEN_PAREN "(".
Definition one_t57 : tokn := tk1 TOK_IDENT "k".
Definition one_t58 : tokn := tk1 TOK_MINUS "-".
Definition one_t59 : tokn := tk1 TOK_NUM "1".
Definition one_t60 : tokn := tk1 TOK_CLOSE_PAREN ")".
Definition one_t61 : tokn := tk1 TOK_SEMICOLON ";".
Definition one_t62 : tokn := tk1 TOK_CLOSE_CURLY "}".
Definition one_t63 : tokn := tk1 TOK_SEMICOLON ";".
Definition one_toks : list tokn := [one_t0; one_t1; one_t2; one_t3; one_t4; one_t5; one_t6; one_t7; one_t8; one_t9; one_t10; one_t11; one_t12; one_t13; one_t14; one_t15; one_t16; one_t17; one_t18; one_t19; one_t20; one_t21; one_t22; one_t23; one_t24; one_t25; one_t26; one_t27; one_t28; one_t29; one_t30; one_t31; one_t32; one_t33; one_t34; one_t35; one_t36; one_t37; one_t38; one_t39; one_t40; one_t41; one_t42; one_t43; one_t44; one_t45; one_t46; one_t47; one_t48; one_t49; one_t50; one_t51; one_t52; one_t53; one_t54; one_t55; one_t56; one_t57; one_t58; one_t59; one_t60; one_t61; one_t62; one_t63].
Lemma one_source : source one_src one_toks.
Proof.
  unfold one_src, one_toks.
  keyword (bs "let") (bs " o = {n: 0, add: function(k) { this.n = this.n + k; return this.n; }}; let fac = function(k) { if (k < 2) { return 1; } return k * fac(k - 1); };").
  apply source_blank; [cbn; tauto|].
  word (bs "o") (bs " = {n: 0, add: function(k) { this.n = this.n + k; return this.n; }}; let fac = function(k) { if (k < 2) { return 1; } return k * fac(k - 1); };"). { intros n H. vm_compute in H. intuition discriminate. }
  apply source_blank; [cbn; tauto|].
  opr (bs "=") (bs " {n: 0, add: function(k) { this.n = this.n + k; return this.n; }}; let fac = function(k) { if (k < 2) { return 1; } return k * fac(k - 1); };") TOK_ASSIGN.
  apply source_blank; [cbn; tauto|].
  opr (bs "{") (bs "n: 0, add: function(k) { this.n = this.n + k; return this.n; }}; let fac = function(k) { if (k < 2) { return 1; } return k * fac(k - 1); };") TOK_OPEN_CURLY.
  word (bs "n") (bs ": 0, add: function(k) { this.n = this.n + k; return this.n; }}; let fac = function(k) { if (k < 2) { return 1; } return k * fac(k - 1); };"). { intros n H. vm_compute in H. intuition discriminate. }
  opr (bs ":") (bs " 0, add: function(k) { this.n = this.n + k; return this.n; }}; let fac = function(k) { if (k < 2) { return 1; } return k * fac(k - 1); };") TOK_COLON.
  apply source_blank; [cbn; tauto|].
  number (bs "0") (bs ", add: function(k) { this.n = this.n + k; return this.n; }}; let fac = function(k) { if (k < 2) { return 1; } return k * fac(k - 1); };") lit_0.
  opr (bs ",") (bs " add: function(k) { this.n = this.n + k; return this.n; }}; let fac = function(k) { if (k < 2) { return 1; } return k * fac(k - 1); };") TOK_COMMA.
  apply source_blank; [cbn; tauto|].
  word (bs "add") (bs ": function(k) { this.n = this.n + k; return this.n; }}; let fac = function(k) { if (k < 2) { return 1; } return k * fac(k - 1); };"). { intros n H. vm_compute in H. intuition discriminate. }
  opr (bs ":") (bs " function(k) { this.n = this.n + k; return this.n; }}; let fac = function(k) { if (k < 2) { return 1; } return k * fac(k - 1); };") TOK_COLON.
  apply source_blank; [cbn; tauto|].
  keyword (bs "function") (bs "(k) { this.n = this.n + k; return this.n; }}; let fac = function(k) { if (k < 2) { return 1; } return k * fac(k - 1); };").
  opr (bs "(") (bs "k) { this.n = this.n + k; return this.n; }}; let fac = function(k) { if (k < 2) { return 1; } return k * fac(k - 1); };") TOK_OPEN_PAREN.
  word (bs "k") (bs ") { this.n = this.n + k; return this.n; }}; let fac = function(k) { if (k < 2) { return 1; } return k * fac(k - 1); };"). { intros n H. vm_compute in H. intuition discriminate. }
  opr (bs ")") (bs " { this.n = this.n + k; return this.n; }}; let fac = function(k) { if (k < 2) { return 1; } return k * fac(k - 1); };") TOK_CLOSE_PAREN.
  apply source_blank; [cbn; tauto|].
  opr (bs "{") (bs " this.n = this.n + k; return this.n; }}; let fac = function(k) { if (k < 2) { return 1; } return k * fac(k - 1); };") TOK_OPEN_CURLY.
  apply source_blank; [cbn; tauto|].
  keyword (bs "this") (bs ".n = this.n + k; return this.n; }}; let fac = function(k) { if (k < 2) { return 1; } return k * fac(k - 1); };").
  opr (bs ".") (bs "n = this.n + k; return this.n; }}; let fac = function(k) { if (k < 2) { return 1; } return k * fac(k - 1); };") TOK_DOT.
  word (bs "n") (bs " = this.n + k; return this.n; }}; let fac = function(k) { if (k < 2) { return 1; } return k * fac(k - 1); };"). { intros n H. vm_compute in H. intuition discriminate. }
  apply source_blank; [cbn; tauto|].
  opr (bs "=") (bs " this.n + k; return this.n; }}; let fac = function(k) { if (k < 2) { return 1; } return k * fac(k - 1); };") TOK_ASSIGN.
  apply source_blank; [cbn; tauto|].
  keyword (bs "this") (bs ".n + k; return this.n; }}; let fac = function(k) { if (k < 2) { return 1; } return k * fac(k - 1); };").
  opr (bs ".") (bs "n + k; return this.n; }}; let fac = function(k) { if (k < 2) { return 1; } return k * fac(k - 1); };") TOK_DOT.
  word (bs "n") (bs " + k; return this.n; }}; let fac = function(k) { if (k < 2) { return 1; } return k * fac(k - 1); };"). { intros n H. vm_compute in H. intuition discriminate. }
  apply source_blank; [cbn; tauto|].
  opr (bs "+") (bs " k; return this.n; }}; let fac = function(k) { if (k < 2) { return 1; } return k * fac(k - 1); };") TOK_PLUS.
  apply source_blank; [cbn; tauto|].
  word (bs "k") (bs "; return this.n; }}; let fac = function(k) { if (k < 2) { return 1; } return k * fac(k - 1); };"). { intros n H. vm_compute in H. intuition discriminate. }
  opr (bs ";") (bs " return this.n; }}; let fac = function(k) { if (k < 2) { return 1; } return k * fac(k - 1); };") TOK_SEMICOLON.
  apply source_blank; [cbn; tauto|].
  keyword (bs "return") (bs " this.n; }}; let fac = function(k) { if (k < 2) { return 1; } return k * fac(k - 1); };").
  apply source_blank; [cbn; tauto|].
  keyword (bs "this") (bs ".n; }}; let fac = function(k) { if (k < 2) { return 1; } return k * fac(k - 1); };").
  opr (bs ".") (bs "n; }}; let fac = function(k) { if (k < 2) { return 1; } return k * fac(k - 1); };") TOK_DOT.
  word (bs "n") (bs "; }}; let fac = function(k) { if (k < 2) { return 1; } return k * fac(k - 1); };"). { intros n H. vm_compute in H. intuition discriminate. }
  opr (bs ";") (bs " }}; let fac = function(k) { if (k < 2) { return 1; } return k * fac(k - 1); };") TOK_SEMICOLON.
  apply source_blank; [cbn; tauto|].
  opr (bs "}") (bs "}; let fac = function(k) { if (k < 2) { return 1; } return k * fac(k - 1); };") TOK_CLOSE_CURLY.
  opr (bs "}") (bs "; let fac = function(k) { if (k < 2) { return 1; } return k * fac(k - 1); };") TOK_CLOSE_CURLY.
  opr (bs ";") (bs " let fac = function(k) { if (k < 2) { return 1; } return k * fac(k - 1); };") TOK_SEMICOLON.
  apply source_blank; [cbn; tauto|].
  keyword (bs "let") (bs " fac = function(k) { if (k < 2) { return 1; } return k * fac(k - 1); };").
  apply source_blank; [cbn; tauto|].
  word (bs "fac") (bs " = function(k) { if (k < 2) { return 1; } return k * fac(k - 1); };"). { intros n H. vm_compute in H. intuition discriminate. }
  apply source_blank; [cbn; tauto|].
  opr (bs "=") (bs " function(k) { if (k < 2) { return 1; } return k * fac(k - 1); };") TOK_ASSIGN.
  apply source_blank; [cbn; tauto|].
  keyword (bs "function") (bs "(k) { if (k < 2) { return 1; } return k * fac(k - 1); };").
  opr (bs "(") (bs "k) { if (k < 2) { return 1; } return k * fac(k - 1); };") TOK_OPEN_PAREN.
  word (bs "k") (bs ") { if (k < 2) { return 1; } return k * fac(k - 1); };"). { intros n H. vm_compute in H. intuition discriminate. }
  opr (bs ")") (bs " { if (k < 2) { return 1; } return k * fac(k - 1); };") TOK_CLOSE_PAREN.
  apply source_blank; [cbn; tauto|].
  opr (bs "{") (bs " if (k < 2) { return 1; } return k * fac(k - 1); };") TOK_OPEN_CURLY.
  apply source_blank; [cbn; tauto|].
  keyword (bs "if") (bs " (k < 2) { return 1; } return k * fac(k - 1); };").
  apply source_blank; [cbn; tauto|].
  opr (bs "(") (bs "k < 2) { return 1; } return k * fac(k - 1); };") TOK_OPEN_PAREN.
  word (bs "k") (bs " < 2) { return 1; } return k * fac(k - 1); };"). { intros n H. vm_compute in H. intuition discriminate. }
  apply source_blank; [cbn; tauto|].
  opr (bs "<") (bs " 2) { return 1; } return k * fac(k - 1); };") TOK_LT.
  apply source_blank; [cbn; tauto|].
  number (bs "2") (bs ") { return 1; } return k * fac(k - 1); };") lit_2.
  opr (bs ")") (bs " { return 1; } return k * fac(k - 1); };") TOK_CLOSE_PAREN.
  apply source_blank; [cbn; tauto|].
  opr (bs "{") (bs " return 1; } return k * fac(k - 1); };") TOK_OPEN_CURLY.
  apply source_blank; [cbn; tauto|].
  keyword (bs "return") (bs " 1; } return k * fac(k - 1); };").
  apply source_blank; [cbn; tauto|].
  number (bs "1") (bs "; } return k * fac(k - 1); };") lit_1.
  opr (bs ";") (bs " } return k * fac(k - 1); };") TOK_SEMICOLON.
  apply source_blank; [cbn; tauto|].
  opr (bs "}") (bs " return k * fac(k - 1); };") TOK_CLOSE_CURLY.
  apply source_blank; [cbn; tauto|].
  keyword (bs "return") (bs " k * fac(k - 1); };").
  apply source_blank; [cbn; tauto|].
  word (bs "k") (bs " * fac(k - 1); };"). { intros n H. vm_compute in H. intuition discriminate. }
  apply source_blank; [cbn; tauto|].
  opr (bs "*") (bs " fac(k - 1); };") TOK_MUL.
  apply source_blank; [cbn; tauto|].
  word (bs "fac") (bs "(k - 1); };"). { intros n H. vm_compute in H. intuition discriminate. }
  opr (bs "(") (bs "k - 1); };") TOK_OPEN_PAREN.
  word (bs "k") (bs " - 1); };"). { intros n H. vm_compute in H. intuition discriminate. }
  apply source_blank; [cbn; tauto|].
  opr (bs "-") (bs " 1); };") TOK_MINUS.
  apply source_blank; [cbn; tauto|].
  number (bs "1") (bs "); };") lit_1.
  opr (bs ")") (bs "; };") TOK_CLOSE_PAREN.
  opr (bs ";") (bs " };") TOK_SEMICOLON.
  apply source_blank; [cbn; tauto|].
  opr (bs "}") (bs ";") TOK_CLOSE_CURLY.
  opr (bs ";") (bs "") TOK_SEMICOLON.
  apply src_end, gap_end; [intros c r H; discriminate|no_start|no_start].
Qed.
Lemma one_stmts : stmts TOK_EOF 0 3 one_toks one_tree.
Proof.
  unfold one_toks, one_tree.
  eapply (ss_cons TOK_EOF 0 3 1 [one_t0; one_t1; one_t2; one_t3; one_t4; one_t5; one_t6; one_t7; one_t8; one_t9; one_t10; one_t11; one_t12; one_t13; one_t14; one_t15; one_t16; one_t17; one_t18; one_t19; one_t20; one_t21; one_t22; one_t23; one_t24; one_t25; one_t26; one_t27; one_t28; one_t29; one_t30; one_t31] [one_t32] [one_t33; one_t34; one_t35; one_t36; one_t37; one_t38; one_t39; one_t40; one_t41; one_t42; one_t43; one_t44; one_t45; one_t46; one_t47; one_t48; one_t49; one_t50; one_t51; one_t52; one_t53; one_t54; one_t55; one_t56; one_t57; one_t58; one_t59; one_t60; one_t61; one_t62; one_t63] _ _); [eapply (s_let 0 1 one_t0 [one_t1; one_t2; one_t3; one_t4; one_t5; one_t6; one_t7; one_t8; one_t9; one_t10; one_t11; one_t12; one_t13; one_t14; one_t15; one_t16; one_t17; one_t18; one_t19; one_t20; one_t21; one_t22; one_t23; one_t24; one_t25; one_t26; one_t27; one_t28; one_t29; one_t30; one_t31] TOK_SEMICOLON _); [side|eapply (l_one 0 1 one_t1 [one_t2; one_t3; one_t4; one_t5; one_t6; one_t7; one_t8; one_t9; one_t10; one_t11; one_t12; one_t13; one_t14; one_t15; one_t16; one_t17; one_t18; one_t19; one_t20; one_t21; one_t22; one_t23; one_t24; one_t25; one_t26; one_t27; one_t28; one_t29; one_t30; one_t31] _); [side|eapply (i_some 0 1 one_t2 [one_t3; one_t4; one_t5; one_t6; one_t7; one_t8; one_t9; one_t10; one_t11; one_t12; one_t13; one_t14; one_t15; one_t16; one_t17; one_t18; one_t19; one_t20; one_t21; one_t22; one_t23; one_t24; one_t25; one_t26; one_t27; one_t28; one_t29; one_t30; one_t31] _); [side|eapply (from8 12 0 1 2 3 [one_t3; one_t4; one_t5; one_t6; one_t7; one_t8; one_t9; one_t10; one_t11; one_t12; one_t13; one_t14; one_t15; one_t16; one_t17; one_t18; one_t19; one_t20; one_t21; one_t22; one_t23; one_t24; one_t25; one_t26; one_t27; one_t28; one_t29; one_t30; one_t31] _); [side|side|side|side|eapply (lift 0 8 2 3 10 11 [one_t3; one_t4; one_t5; one_t6; one_t7; one_t8; one_t9; one_t10; one_t11; one_t12; one_t13; one_t14; one_t15; one_t16; one_t17; one_t18; one_t19; one_t20; one_t21; one_t22; one_t23; one_t24; one_t25; one_t26; one_t27; one_t28; one_t29; one_t30; one_t31] _); [side|side|side|side|eapply (x_mem _ 10 11 [one_t3; one_t4; one_t5; one_t6; one_t7; one_t8; one_t9; one_t10; one_t11; one_t12; one_t13; one_t14; one_t15; one_t16; one_t17; one_t18; one_t19; one_t20; one_t21; one_t22; one_t23; one_t24; one_t25; one_t26; one_t27; one_t28; one_t29; one_t30; one_t31] _); [eapply (m_intro _ _ 10 11 11 [one_t3; one_t4; one_t5; one_t6; one_t7; one_t8; one_t9; one_t10; one_t11; one_t12; one_t13; one_t14; one_t15; one_t16; one_t17; one_t18; one_t19; one_t20; one_t21; one_t22; one_t23; one_t24; one_t25; one_t26; one_t27; one_t28; one_t29; one_t30; one_t31] [] _ _); [eapply (p_obj 10 11 one_t3 [one_t4; one_t5; one_t6; one_t7; one_t8; one_t9; one_t10; one_t11; one_t12; one_t13; one_t14; one_t15; one_t16; one_t17; one_t18; one_t19; one_t20; one_t21; one_t22; one_t23; one_t24; one_t25; one_t26; one_t27; one_t28; one_t29; one_t30] one_t31 _); [side|side|eapply (pr_more 10 11 10 one_t4 one_t5 [one_t6] one_t7 [one_t8; one_t9; one_t10; one_t11; one_t12; one_t13; one_t14; one_t15; one_t16; one_t17; one_t18; one_t19; one_t20; one_t21; one_t22; one_t23; one_t24; one_t25; one_t26; one_t27; one_t28; one_t29; one_t30] _ _); [exact (or_introl eq_refl)|side|eapply (from8 12 10 10 12 12 [one_t6] _); [side|side|side|side|eapply (lift 0 8 12 12 20 20 [one_t6] _); [side|side|side|side|eapply (x_mem _ 20 20 [one_t6] _); [eapply (m_intro _ _ 20 20 20 [one_t6] [] _ _); [eapply (p_const 20 one_t6 _); [exact num_0|side]|eapply (t_none _ 20 _)]]]]|side|eapply (pr_one 10 11 one_t8 one_t9 [one_t10; one_t11; one_t12; one_t13; one_t14; one_t15; one_t16; one_t17; one_t18; one_t19; one_t20; one_t21; one_t22; one_t23; one_t24; one_t25; one_t26; one_t27; one_t28; one_t29; one_t30] _); [exact (or_introl eq_refl)|side|eapply (from8 12 10 11 12 13 [one_t10; one_t11; one_t12; one_t13; one_t14; one_t15; one_t16; one_t17; one_t18; one_t19; one_t20; one_t21; one_t22; one_t23; one_t24; one_t25; one_t26; one_t27; one_t28; one_t29; one_t30] _); [side|side|side|side|eapply (lift 0 8 12 13 20 21 [one_t10; one_t11; one_t12; one_t13; one_t14; one_t15; one_t16; one_t17; one_t18; one_t19; one_t20; one_t21; one_t22; one_t23; one_t24; one_t25; one_t26; one_t27; one_t28; one_t29; one_t30] _); [side|side|side|side|eapply (x_mem _ 20 21 [one_t10; one_t11; one_t12; one_t13; one_t14; one_t15; one_t16; one_t17; one_t18; one_t19; one_t20; one_t21; one_t22; one_t23; one_t24; one_t25; one_t26; one_t27; one_t28; one_t29; one_t30] _); [eapply (m_intro _ _ 20 21 21 [one_t10; one_t11; one_t12; one_t13; one_t14; one_t15; one_t16; one_t17; one_t18; one_t19; one_t20; one_t21; one_t22; one_t23; one_t24; one_t25; one_t26; one_t27; one_t28; one_t29; one_t30] [] _ _); [eapply (p_fun 20 21 one_t10 [] _ one_t11 [one_t12] _ one_t13 one_t14 [one_t15; one_t16; one_t17; one_t18; one_t19; one_t20; one_t21; one_t22; one_t23; one_t24; one_t25; one_t26; one_t27; one_t28; one_t29] _ one_t30); [side|exact fn_none|side|exact (pa_one one_t12 eq_refl)|side|side|side|side|eapply (ss_cons TOK_CLOSE_CURLY 21 21 21 [one_t15; one_t16; one_t17; one_t18; one_t19; one_t20; one_t21; one_t22; one_t23] [one_t24] [one_t25; one_t26; one_t27; one_t28; one_t29] _ _); [eapply (s_exprs 21 21 [one_t15; one_t16; one_t17; one_t18; one_t19; one_t20; one_t21; one_t22; one_t23] TOK_SEMICOLON _); [eapply (c_one 21 21 [one_t15; one_t16; one_t17; one_t18; one_t19; one_t20; one_t21; one_t22; one_t23] _); [eapply (x_assign 21 21 21 [one_t15; one_t16; one_t17] one_t18 [one_t19; one_t20; one_t21; one_t22; one_t23] _ _); [side|side|eapply (m_intro _ _ 31 31 31 [one_t15] [one_t16; one_t17] _ _); [eapply (p_this 31 one_t15); [side]|eapply (t_dot _ _ 31 31 _ one_t16 one_t17 [] _); [side|side|eapply (t_none _ 31 _)]]|eapply (from8 12 21 21 23 23 [one_t19; one_t20; one_t21; one_t22; one_t23] _); [side|side|side|side|eapply (lift 2 8 23 23 29 29 [one_t19; one_t20; one_t21; one_t22; one_t23] _); [side|side|side|side|eapply (x_level 2 29 29 30 [one_t19; one_t20; one_t21] [one_t22; one_t23] _ _); [side|side|eapply (lift 0 1 30 30 31 31 [one_t19; one_t20; one_t21] _); [side|side|side|side|eapply (x_mem _ 31 31 [one_t19; one_t20; one_t21] _); [eapply (m_intro _ _ 31 31 31 [one_t19] [one_t20; one_t21] _ _); [eapply (p_this 31 one_t19); [side]|eapply (t_dot _ _ 31 31 _ one_t20 one_t21 [] _); [side|side|eapply (t_none _ 31 _)]]]]|eapply (o_one 2 30 30 31 _ one_t22 [one_t23] [] _ _); [side|side|eapply (lift 0 1 31 31 32 32 [one_t23] _); [side|side|side|side|eapply (x_mem _ 32 32 [one_t23] _); [eapply (m_intro _ _ 32 32 32 [one_t23] [] _ _); [eapply (p_var 32 one_t23); [side]|eapply (t_none _ 32 _)]]]|eapply (o_none 2 31 _)]]]]]]|side|side|side]|side|side|side|side|right; side|eapply (ss_cons TOK_CLOSE_CURLY 21 21 21 [one_t25; one_t26; one_t27; one_t28] [one_t29] [] _ _); [eapply (s_return 21 21 one_t25 [one_t26; one_t27; one_t28] TOK_SEMICOLON _); [side|eapply (from8 12 21 21 23 23 [one_t26; one_t27; one_t28] _); [side|side|side|side|eapply (lift 0 8 23 23 31 31 [one_t26; one_t27; one_t28] _); [side|side|side|side|eapply (x_mem _ 31 31 [one_t26; one_t27; one_t28] _); [eapply (m_intro _ _ 31 31 31 [one_t26] [one_t27; one_t28] _ _); [eapply (p_this 31 one_t26); [side]|eapply (t_dot _ _ 31 31 _ one_t27 one_t28 [] _); [side|side|eapply (t_none _ 31 _)]]]]]|side]|side|side|side|side|exact (or_introl eq_refl)|eapply (ss_nil TOK_CLOSE_CURLY 21)]]]|eapply (t_none _ 21 _)]]]]]]]|eapply (t_none _ 11 _)]]]]]]|side]|side|side|side|side|right; side|eapply (ss_cons TOK_EOF 1 3 3 [one_t33; one_t34; one_t35; one_t36; one_t37; one_t38; one_t39; one_t40; one_t41; one_t42; one_t43; one_t44; one_t45; one_t46; one_t47; one_t48; one_t49; one_t50; one_t51; one_t52; one_t53; one_t54; one_t55; one_t56; one_t57; one_t58; one_t59; one_t60; one_t61; one_t62] [one_t63] [] _ _); [eapply (s_let 1 3 one_t33 [one_t34; one_t35; one_t36; one_t37; one_t38; one_t39; one_t40; one_t41; one_t42; one_t43; one_t44; one_t45; one_t46; one_t47; one_t48; one_t49; one_t50; one_t51; one_t52; one_t53; one_t54; one_t55; one_t56; one_t57; one_t58; one_t59; one_t60; one_t61; one_t62] TOK_SEMICOLON _); [side|eapply (l_one 1 3 one_t34 [one_t35; one_t36; one_t37; one_t38; one_t39; one_t40; one_t41; one_t42; one_t43; one_t44; one_t45; one_t46; one_t47; one_t48; one_t49; one_t50; one_t51; one_t52; one_t53; one_t54; one_t55; one_t56; one_t57; one_t58; one_t59; one_t60; one_t61; one_t62] _); [side|eapply (i_some 1 3 one_t35 [one_t36; one_t37; one_t38; one_t39; one_t40; one_t41; one_t42; one_t43; one_t44; one_t45; one_t46; one_t47; one_t48; one_t49; one_t50; one_t51; one_t52; one_t53; one_t54; one_t55; one_t56; one_t57; one_t58; one_t59; one_t60; one_t61; one_t62] _); [side|eapply (from8 12 1 3 3 5 [one_t36; one_t37; one_t38; one_t39; one_t40; one_t41; one_t42; one_t43; one_t44; one_t45; one_t46; one_t47; one_t48; one_t49; one_t50; one_t51; one_t52; one_t53; one_t54; one_t55; one_t56; one_t57; one_t58; one_t59; one_t60; one_t61; one_t62] _); [side|side|side|side|eapply (lift 0 8 3 5 11 13 [one_t36; one_t37; one_t38; one_t39; one_t40; one_t41; one_t42; one_t43; one_t44; one_t45; one_t46; one_t47; one_t48; one_t49; one_t50; one_t51; one_t52; one_t53; one_t54; one_t55; one_t56; one_t57; one_t58; one_t59; one_t60; one_t61; one_t62] _); [side|side|side|side|eapply (x_mem _ 11 13 [one_t36; one_t37; one_t38; one_t39; one_t40; one_t41; one_t42; one_t43; one_t44; one_t45; one_t46; one_t47; one_t48; one_t49; one_t50; one_t51; one_t52; one_t53; one_t54; one_t55; one_t56; one_t57; one_t58; one_t59; one_t60; one_t61; one_t62] _); [eapply (m_intro _ _ 11 13 13 [one_t36; one_t37; one_t38; one_t39; one_t40; one_t41; one_t42; one_t43; one_t44; one_t45; one_t46; one_t47; one_t48; one_t49; one_t50; one_t51; one_t52; one_t53; one_t54; one_t55; one_t56; one_t57; one_t58; one_t59; one_t60; one_t61; one_t62] [] _ _); [eapply (p_fun 11 13 one_t36 [] _ one_t37 [one_t38] _ one_t39 one_t40 [one_t41; one_t42; one_t43; one_t44; one_t45; one_t46; one_t47; one_t48; one_t49; one_t50; one_t51; one_t52; one_t53; one_t54; one_t55; one_t56; one_t57; one_t58; one_t59; one_t60; one_t61] _ one_t62); [side|exact fn_none|side|exact (pa_one one_t38 eq_refl)|side|side|side|side|eapply (ss_cons TOK_CLOSE_CURLY 12 13 13 [one_t41; one_t42; one_t43; one_t44; one_t45; one_t46; one_t47; one_t48; one_t49; one_t50; one_t51] [] [one_t52; one_t53; one_t54; one_t55; one_t56; one_t57; one_t58; one_t59; one_t60; one_t61] _ _); [eapply (s_if 12 13 12 one_t41 one_t42 [one_t43; one_t44; one_t45] one_t46 [one_t47; one_t48; one_t49; one_t50; one_t51] TOK_KEYWORD_RETURN _ _); [side|side|side|eapply (from8 12 12 12 14 14 [one_t43; one_t44; one_t45] _); [side|side|side|side|eapply (lift 4 8 14 14 18 18 [one_t43; one_t44; one_t45] _); [side|side|side|side|eapply (x_level 4 18 18 19 [one_t43] [one_t44; one_t45] _ _); [side|side|eapply (lift 0 3 19 19 22 22 [one_t43] _); [side|side|side|side|eapply (x_mem _ 22 22 [one_t43] _); [eapply (m_intro _ _ 22 22 22 [one_t43] [] _ _); [eapply (p_var 22 one_t43); [side]|eapply (t_none _ 22 _)]]]|eapply (o_one 4 19 19 20 _ one_t44 [one_t45] [] _ _); [side|side|eapply (lift 0 3 20 20 23 23 [one_t45] _); [side|side|side|side|eapply (x_mem _ 23 23 [one_t45] _); [eapply (m_intro _ _ 23 23 23 [one_t45] [] _ _); [eapply (p_const 23 one_t45 _); [exact num_2|side]|eapply (t_none _ 23 _)]]]|eapply (o_none 4 20 _)]]]]|eapply (s_block 12 13 one_t47 [one_t48; one_t49; one_t50] one_t51 TOK_KEYWORD_RETURN _); [side|side|side|eapply (ss_cons TOK_CLOSE_CURLY 13 13 13 [one_t48; one_t49] [one_t50] [] _ _); [eapply (s_return 13 13 one_t48 [one_t49] TOK_SEMICOLON _); [side|eapply (from8 12 13 13 15 15 [one_t49] _); [side|side|side|side|eapply (lift 0 8 15 15 23 23 [one_t49] _); [side|side|side|side|eapply (x_mem _ 23 23 [one_t49] _); [eapply (m_intro _ _ 23 23 23 [one_t49] [] _ _); [eapply (p_const 23 one_t49 _); [exact num_1|side]|eapply (t_none _ 23 _)]]]]|side]|side|side|side|side|exact (or_introl eq_refl)|eapply (ss_nil TOK_CLOSE_CURLY 13)]]|side|side]|side|side|side|side|right; side|eapply (ss_cons TOK_CLOSE_CURLY 13 13 13 [one_t52; one_t53; one_t54; one_t55; one_t56; one_t57; one_t58; one_t59; one_t60] [one_t61] [] _ _); [eapply (s_return 13 13 one_t52 [one_t53; one_t54; one_t55; one_t56; one_t57; one_t58; one_t59; one_t60] TOK_SEMICOLON _); [side|eapply (from8 12 13 13 15 15 [one_t53; one_t54; one_t55; one_t56; one_t57; one_t58; one_t59; one_t60] _); [side|side|side|side|eapply (lift 1 8 15 15 22 22 [one_t53; one_t54; one_t55; one_t56; one_t57; one_t58; one_t59; one_t60] _); [side|side|side|side|eapply (x_level 1 22 22 23 [one_t53] [one_t54; one_t55; one_t56; one_t57; one_t58; one_t59; one_t60] _ _); [side|side|eapply (x_mem _ 23 23 [one_t53] _); [eapply (m_intro _ _ 23 23 23 [one_t53] [] _ _); [eapply (p_var 23 one_t53); [side]|eapply (t_none _ 23 _)]]|eapply (o_one 1 23 23 24 _ one_t54 [one_t55; one_t56; one_t57; one_t58; one_t59; one_t60] [] _ _); [side|side|eapply (x_mem _ 24 24 [one_t55; one_t56; one_t57; one_t58; one_t59; one_t60] _); [eapply (m_intro _ _ 24 24 24 [one_t55] [one_t56; one_t57; one_t58; one_t59; one_t60] _ _); [eapply (p_var 24 one_t55); [side]|eapply (t_call _ _ 24 24 24 _ one_t56 [one_t57; one_t58; one_t59] one_t60 [] _ _); [side|side|eapply (a_one 24 24 [one_t57; one_t58; one_t59] _); [eapply (from8 12 24 24 26 26 [one_t57; one_t58; one_t59] _); [side|side|side|side|eapply (lift 2 8 26 26 32 32 [one_t57; one_t58; one_t59] _); [side|side|side|side|eapply (x_level 2 32 32 33 [one_t57] [one_t58; one_t59] _ _); [side|side|eapply (lift 0 1 33 33 34 34 [one_t57] _); [side|side|side|side|eapply (x_mem _ 34 34 [one_t57] _); [eapply (m_intro _ _ 34 34 34 [one_t57] [] _ _); [eapply (p_var 34 one_t57); [side]|eapply (t_none _ 34 _)]]]|eapply (o_one 2 33 33 34 _ one_t58 [one_t59] [] _ _); [side|side|eapply (lift 0 1 34 34 35 35 [one_t59] _); [side|side|side|side|eapply (x_mem _ 35 35 [one_t59] _); [eapply (m_intro _ _ 35 35 35 [one_t59] [] _ _); [eapply (p_const 35 one_t59 _); [exact num_1|side]|eapply (t_none _ 35 _)]]]|eapply (o_none 2 34 _)]]]]]|eapply (t_none _ 24 _)]]]|eapply (o_none 1 24 _)]]]]|side]|side|side|side|side|exact (or_introl eq_refl)|eapply (ss_nil TOK_CLOSE_CURLY 13)]]]|eapply (t_none _ 13 _)]]]]]]|side]|side|side|side|side|exact (or_introl eq_refl)|eapply (ss_nil TOK_EOF 3)]].
Qed.
Definition two_src : list Z := bs "for (let i = 0; i < 4; i++) { if (i === 2) continue; o.add(fac(i)); } o.n > 5 ? 'big' : 'small';".
Definition two_tree : list stmt :=
  [(SFor (SLet [((bs "i"), Some (XConst (EInt 0)))]) (XBin TOK_LT (XVar (bs "i")) (XConst (EInt 4))) (XInc TOK_POSTFIX_PLUS (XVar (bs "i"))) [(SIf (XBin TOK_EQ_EQ (XVar (bs "i")) (XConst (EInt 2))) SContinue None); (SExprs [(XCall (XDot (XVar (bs "o")) (bs "add")) [(XCall (XVar (bs "fac")) [(XVar (bs "i"))])])])]);
   (SExprs [(XCond (XBin TOK_GT (XDot (XVar (bs "o")) (bs "n")) (XConst (EInt 5))) (XConst (EStr (bs "big"))) (XConst (EStr (bs "small"))))])].
Definition two_t0 : tokn := tk1 TOK_KEYWORD_FOR "for".
Definition two_t1 : tokn := tk1 TOK_OPEN_PAREN "(".
Definition two_t2 : tokn := tk1 TOK_KEYWORD_LET "let".
Definition two_t3 : tokn := tk1 TOK_IDENT "i".
Definition two_t4 : tokn := tk1 TOK_ASSIGN "=".
Definition two_t5 : tokn := tk1 TOK_NUM "0".
Definition two_t6 : tokn := tk1 TOK_SEMICOLON ";".
Definition two_t7 : tokn := tk1 TOK_IDENT "i".
Definition two_t8 : tokn := tk1 TOK_LT "<".
Definition two_t9 : tokn := tk1 TOK_NUM "4".
Definition two_t10 : tokn := tk1 TOK_SEMICOLON ";".
Definition two_t11 : tokn := tk1 TOK_IDENT "i".
Definition two_t12 : tokn := tk1 TOK_PLUS_PLUS "++".
Definition two_t13 : tokn := tk1 TOK_CLOSE_PAREN ")".
Definition two_t14 : tokn := tk1 TOK_OPEN_CURLY "{".
Definition two_t15 : tokn := tk1 TOK_KEYWORD_IF "if".
Definition two_t16 : tokn := tk1 TOK_OPEN_PAREN "(".
Definition two_t17 : tokn := tk1 TOK_IDENT "i".
Definition two_t18 : tokn := tk1 TOK_EQ_EQ "===".
Definition two_t19 : tokn := tk1 TOK_NUM "2".
Definition two_t20 : tokn := tk1 TOK_CLOSE_PAREN ")".
Definition two_t21 : tokn := tk1 TOK_KEYWORD_CONTINUE "continue".
Definition two_t22 : tokn := tk1 TOK_SEMICOLON ";".
Definition two_t23 : tokn := tk1 TOK_IDENT "o".
Definition two_t24 : tokn := tk1 TOK_DOT ".".
Definition two_t25 : tokn := tk1 TOK_IDENT "add".
Definition two_t26 : tokn := tk1 TOK_OPEN_PAREN "(".
Definition two_t27 : tokn := tk1 TOK_IDENT "fac".
Definition two_t28 : tokn := tk1 TOK_OPEN_PAREN "(".
Definition two_t29 : tokn := tk1 TOK_IDENT "i".
Definition two_t30 : tokn := tk1 TOK_CLOSE_PAREN ")".
Definition two_t31 : tokn := tk1 TOK_CLOSE_PAREN ")".
Definition two_t32 : tokn := tk1 TOK_SEMICOLON ";".
Definition two_t33 : tokn := tk1 TOK_CLOSE_CURLY "}".
Definition two_t34 : tokn := tk1 TOK_IDENT "o".
Definition two_t35 : tokn := tk1 TOK_DOT ".".
Definition two_t36 : tokn := tk1 TOK_IDENT "n".
Definition two_t37 : tokn := tk1 TOK_GT ">".
Definition two_t38 : tokn := tk1 TOK_NUM "5".
Definition two_t39 : tokn := tk1 TOK_QUESTION "?".
Definition two_t40 : tokn := tk1 TOK_STR "big".
Definition two_t41 : tokn := tk1 TOK_COLON ":".
Definition two_t42 : tokn := tk1 TOK_STR "small".
Definition two_t43 : tokn := tk1 TOK_SEMICOLON ";".
Definition two_toks : list tokn := [two_t0; two_t1; two_t2; two_t3; two_t4; two_t5; two_t6; two_t7; two_t8; two_t9; two_t10; two_t11; two_t12; two_t13; two_t14; two_t15; two_t16; two_t17; two_t18; two_t19; two_t20; two_t21; two_t22; two_t23; two_t24; two_t25; two_t26; two_t27; two_t28; two_t29; two_t30; two_t31; two_t32; two_t33; two_t34; two_t35; two_t36; two_t37; two_t38; two_t39; two_t40; two_t41; two_t42; two_t43].
Lemma two_source : source two_src two_toks.
Proof.
  unfold two_src, two_toks.
  keyword (bs "for") (bs " (let i = 0; i < 4; i++) { if (i === 2) continue; o.add(fac(i)); } o.n > 5 ? 'big' : 'small';").
  apply source_blank; [cbn; tauto|].
  opr (bs "(") (bs "let i = 0; i < 4; i++) { if (i === 2) continue; o.add(fac(i)); } o.n > 5 ? 'big' : 'small';") TOK_OPEN_PAREN.
  keyword (bs "let") (bs " i = 0; i < 4; i++) { if (i === 2) continue; o.add(fac(i)); } o.n > 5 ? 'big' : 'small';").
  apply source_blank; [cbn; tauto|].
  word (bs "i") (bs " = 0; i < 4; i++) { if (i === 2) continue; o.add(fac(i)); } o.n > 5 ? 'big' : 'small';"). { intros n H. vm_compute in H. intuition discriminate. }
  apply source_blank; [cbn; tauto|].
  opr (bs "=") (bs " 0; i < 4; i++) { if (i === 2) continue; o.add(fac(i)); } o.n > 5 ? 'big' : 'small';") TOK_ASSIGN.
  apply source_blank; [cbn; tauto|].
  number (bs "0") (bs "; i < 4; i++) { if (i === 2) continue; o.add(fac(i)); } o.n > 5 ? 'big' : 'small';") lit_0.
  opr (bs ";") (bs " i < 4; i++) { if (i === 2) continue; o.add(fac(i)); } o.n > 5 ? 'big' : 'small';") TOK_SEMICOLON.
  apply source_blank; [cbn; tauto|].
  word (bs "i") (bs " < 4; i++) { if (i === 2) continue; o.add(fac(i)); } o.n > 5 ? 'big' : 'small';"). { intros n H. vm_compute in H. intuition discriminate. }
  apply source_blank; [cbn; tauto|].
  opr (bs "<") (bs " 4; i++) { if (i === 2) continue; o.add(fac(i)); } o.n > 5 ? 'big' : 'small';") TOK_LT.
  apply source_blank; [cbn; tauto|].
  number (bs "4") (bs "; i++) { if (i === 2) continue; o.add(fac(i)); } o.n > 5 ? 'big' : 'small';") lit_4.
  opr (bs ";") (bs " i++) { if (i === 2) continue; o.add(fac(i)); } o.n > 5 ? 'big' : 'small';") TOK_SEMICOLON.
  apply source_blank; [cbn; tauto|].
  word (bs "i") (bs "++) { if (i === 2) continue; o.add(fac(i)); } o.n > 5 ? 'big' : 'small';"). { intros n H. vm_compute in H. intuition discriminate. }
  opr (bs "++") (bs ") { if (i === 2) continue; o.add(fac(i)); } o.n > 5 ? 'big' : 'small';") TOK_PLUS_PLUS.
  opr (bs ")") (bs " { if (i === 2) continue; o.add(fac(i)); } o.n > 5 ? 'big' : 'small';") TOK_CLOSE_PAREN.
  apply source_blank; [cbn; tauto|].
  opr (bs "{") (bs " if (i === 2) continue; o.add(fac(i)); } o.n > 5 ? 'big' : 'small';") TOK_OPEN_CURLY.
  apply source_blank; [cbn; tauto|].
  keyword (bs "if") (bs " (i === 2) continue; o.add(fac(i)); } o.n > 5 ? 'big' : 'small';").
  apply source_blank; [cbn; tauto|].
  opr (bs "(") (bs "i === 2) continue; o.add(fac(i)); } o.n > 5 ? 'big' : 'small';") TOK_OPEN_PAREN.
  word (bs "i") (bs " === 2) continue; o.add(fac(i)); } o.n > 5 ? 'big' : 'small';"). { intros n H. vm_compute in H. intuition discriminate. }
  apply source_blank; [cbn; tauto|].
  opr (bs "===") (bs " 2) continue; o.add(fac(i)); } o.n > 5 ? 'big' : 'small';") TOK_EQ_EQ.
  apply source_blank; [cbn; tauto|].
  number (bs "2") (bs ") continue; o.add(fac(i)); } o.n > 5 ? 'big' : 'small';") lit_2.
  opr (bs ")") (bs " continue; o.add(fac(i)); } o.n > 5 ? 'big' : 'small';") TOK_CLOSE_PAREN.
  apply source_blank; [cbn; tauto|].
  keyword (bs "continue") (bs "; o.add(fac(i)); } o.n > 5 ? 'big' : 'small';").
  opr (bs ";") (bs " o.add(fac(i)); } o.n > 5 ? 'big' : 'small';") TOK_SEMICOLON.
  apply source_blank; [cbn; tauto|].
  word (bs "o") (bs ".add(fac(i)); } o.n > 5 ? 'big' : 'small';"). { intros n H. vm_compute in H. intuition discriminate. }
  opr (bs ".") (bs "add(fac(i)); } o.n > 5 ? 'big' : 'small';") TOK_DOT.
  word (bs "add") (bs "(fac(i)); } o.n > 5 ? 'big' : 'small';"). { intros n H. vm_compute in H. intuition discriminate. }
  opr (bs "(") (bs "fac(i)); } o.n > 5 ? 'big' : 'small';") TOK_OPEN_PAREN.
  word (bs "fac") (bs "(i)); } o.n > 5 ? 'big' : 'small';"). { intros n H. vm_compute in H. intuition discriminate. }
  opr (bs "(") (bs "i)); } o.n > 5 ? 'big' : 'small';") TOK_OPEN_PAREN.
  word (bs "i") (bs ")); } o.n > 5 ? 'big' : 'small';"). { intros n H. vm_compute in H. intuition discriminate. }
  opr (bs ")") (bs "); } o.n > 5 ? 'big' : 'small';") TOK_CLOSE_PAREN.
  opr (bs ")") (bs "; } o.n > 5 ? 'big' : 'small';") TOK_CLOSE_PAREN.
  opr (bs ";") (bs " } o.n > 5 ? 'big' : 'small';") TOK_SEMICOLON.
  apply source_blank; [cbn; tauto|].
  opr (bs "}") (bs " o.n > 5 ? 'big' : 'small';") TOK_CLOSE_CURLY.
  apply source_blank; [cbn; tauto|].
  word (bs "o") (bs ".n > 5 ? 'big' : 'small';"). { intros n H. vm_compute in H. intuition discriminate. }
  opr (bs ".") (bs "n > 5 ? 'big' : 'small';") TOK_DOT.
  word (bs "n") (bs " > 5 ? 'big' : 'small';"). { intros n H. vm_compute in H. intuition discriminate. }
  apply source_blank; [cbn; tauto|].
  opr (bs ">") (bs " 5 ? 'big' : 'small';") TOK_GT.
  apply source_blank; [cbn; tauto|].
  number (bs "5") (bs " ? 'big' : 'small';") lit_5.
  apply source_blank; [cbn; tauto|].
  opr (bs "?") (bs " 'big' : 'small';") TOK_QUESTION.
  apply source_blank; [cbn; tauto|].
  quoted (bs "'big'") (bs "big") (bs " : 'small';").
  apply source_blank; [cbn; tauto|].
  opr (bs ":") (bs " 'small';") TOK_COLON.
  apply source_blank; [cbn; tauto|].
  quoted (bs "'small'") (bs "small") (bs ";").
  opr (bs ";") (bs "") TOK_SEMICOLON.
  apply src_end, gap_end; [intros c r H; discriminate|no_start|no_start].
Qed.
Lemma two_stmts : stmts TOK_EOF 0 0 two_toks two_tree.
Proof.
  unfold two_toks, two_tree.
  eapply (ss_cons TOK_EOF 0 0 0 [two_t0; two_t1; two_t2; two_t3; two_t4; two_t5; two_t6; two_t7; two_t8; two_t9; two_t10; two_t11; two_t12; two_t13; two_t14; two_t15; two_t16; two_t17; two_t18; two_t19; two_t20; two_t21; two_t22; two_t23; two_t24; two_t25; two_t26; two_t27; two_t28; two_t29; two_t30; two_t31; two_t32; two_t33] [] [two_t34; two_t35; two_t36; two_t37; two_t38; two_t39; two_t40; two_t41; two_t42; two_t43] _ _); [eapply (s_for 0 0 0 0 0 two_t0 two_t1 [two_t2; two_t3; two_t4; two_t5] two_t6 [two_t7; two_t8; two_t9] two_t10 [two_t11; two_t12] two_t13 [two_t14; two_t15; two_t16; two_t17; two_t18; two_t19; two_t20; two_t21; two_t22; two_t23; two_t24; two_t25; two_t26; two_t27; two_t28; two_t29; two_t30; two_t31; two_t32; two_t33] TOK_IDENT _ _ _ _); [side|side|side|side|side|eapply (st_let 0 0 two_t2 [two_t3; two_t4; two_t5] _); [side|eapply (l_one 0 0 two_t3 [two_t4; two_t5] _); [side|eapply (i_some 0 0 two_t4 [two_t5] _); [side|eapply (from8 12 0 0 2 2 [two_t5] _); [side|side|side|side|eapply (lift 0 8 2 2 10 10 [two_t5] _); [side|side|side|side|eapply (x_mem _ 10 10 [two_t5] _); [eapply (m_intro _ _ 10 10 10 [two_t5] [] _ _); [eapply (p_const 10 two_t5 _); [exact num_0|side]|eapply (t_none _ 10 _)]]]]]]|side]|eapply (from8 12 0 0 2 2 [two_t7; two_t8; two_t9] _); [side|side|side|side|eapply (lift 4 8 2 2 6 6 [two_t7; two_t8; two_t9] _); [side|side|side|side|eapply (x_level 4 6 6 7 [two_t7] [two_t8; two_t9] _ _); [side|side|eapply (lift 0 3 7 7 10 10 [two_t7] _); [side|side|side|side|eapply (x_mem _ 10 10 [two_t7] _); [eapply (m_intro _ _ 10 10 10 [two_t7] [] _ _); [eapply (p_var 10 two_t7); [side]|eapply (t_none _ 10 _)]]]|eapply (o_one 4 7 7 8 _ two_t8 [two_t9] [] _ _); [side|side|eapply (lift 0 3 8 8 11 11 [two_t9] _); [side|side|side|side|eapply (x_mem _ 11 11 [two_t9] _); [eapply (m_intro _ _ 11 11 11 [two_t9] [] _ _); [eapply (p_const 11 two_t9 _); [exact num_4|side]|eapply (t_none _ 11 _)]]]|eapply (o_none 4 8 _)]]]]|eapply (from8 12 0 0 2 2 [two_t11; two_t12] _); [side|side|side|side|eapply (lift 0 8 2 2 10 10 [two_t11; two_t12] _); [side|side|side|side|eapply (x_post 10 10 [two_t11] two_t12 _); [eapply (m_intro _ _ 10 10 10 [two_t11] [] _ _); [eapply (p_var 10 two_t11); [side]|eapply (t_none _ 10 _)]|side]]]|eapply (b_list 0 0 two_t14 [two_t15; two_t16; two_t17; two_t18; two_t19; two_t20; two_t21; two_t22; two_t23; two_t24; two_t25; two_t26; two_t27; two_t28; two_t29; two_t30; two_t31; two_t32] two_t33 TOK_IDENT _); [side|side|eapply (ss_cons TOK_CLOSE_CURLY 0 0 0 [two_t15; two_t16; two_t17; two_t18; two_t19; two_t20; two_t21] [two_t22] [two_t23; two_t24; two_t25; two_t26; two_t27; two_t28; two_t29; two_t30; two_t31; two_t32] _ _); [eapply (s_if 0 0 0 two_t15 two_t16 [two_t17; two_t18; two_t19] two_t20 [two_t21] TOK_SEMICOLON _ _); [side|side|side|eapply (from8 12 0 0 2 2 [two_t17; two_t18; two_t19] _); [side|side|side|side|eapply (lift 5 8 2 2 5 5 [two_t17; two_t18; two_t19] _); [side|side|side|side|eapply (x_level 5 5 5 6 [two_t17] [two_t18; two_t19] _ _); [side|side|eapply (lift 0 4 6 6 10 10 [two_t17] _); [side|side|side|side|eapply (x_mem _ 10 10 [two_t17] _); [eapply (m_intro _ _ 10 10 10 [two_t17] [] _ _); [eapply (p_var 10 two_t17); [side]|eapply (t_none _ 10 _)]]]|eapply (o_one 5 6 6 7 _ two_t18 [two_t19] [] _ _); [side|side|eapply (lift 0 4 7 7 11 11 [two_t19] _); [side|side|side|side|eapply (x_mem _ 11 11 [two_t19] _); [eapply (m_intro _ _ 11 11 11 [two_t19] [] _ _); [eapply (p_const 11 two_t19 _); [exact num_2|side]|eapply (t_none _ 11 _)]]]|eapply (o_none 5 7 _)]]]]|eapply (s_continue 0 two_t21 TOK_SEMICOLON); [side]|side|side]|side|side|side|side|right; side|eapply (ss_cons TOK_CLOSE_CURLY 0 0 0 [two_t23; two_t24; two_t25; two_t26; two_t27; two_t28; two_t29; two_t30; two_t31] [two_t32] [] _ _); [eapply (s_exprs 0 0 [two_t23; two_t24; two_t25; two_t26; two_t27; two_t28; two_t29; two_t30; two_t31] TOK_SEMICOLON _); [eapply (c_one 0 0 [two_t23; two_t24; two_t25; two_t26; two_t27; two_t28; two_t29; two_t30; two_t31] _); [eapply (from8 12 0 0 2 2 [two_t23; two_t24; two_t25; two_t26; two_t27; two_t28; two_t29; two_t30; two_t31] _); [side|side|side|side|eapply (lift 0 8 2 2 10 10 [two_t23; two_t24; two_t25; two_t26; two_t27; two_t28; two_t29; two_t30; two_t31] _); [side|side|side|side|eapply (x_mem _ 10 10 [two_t23; two_t24; two_t25; two_t26; two_t27; two_t28; two_t29; two_t30; two_t31] _); [eapply (m_intro _ _ 10 10 10 [two_t23] [two_t24; two_t25; two_t26; two_t27; two_t28; two_t29; two_t30; two_t31] _ _); [eapply (p_var 10 two_t23); [side]|eapply (t_dot _ _ 10 10 _ two_t24 two_t25 [two_t26; two_t27; two_t28; two_t29; two_t30; two_t31] _); [side|side|eapply (t_call _ _ 10 10 10 _ two_t26 [two_t27; two_t28; two_t29; two_t30] two_t31 [] _ _); [side|side|eapply (a_one 10 10 [two_t27; two_t28; two_t29; two_t30] _); [eapply (from8 12 10 10 12 12 [two_t27; two_t28; two_t29; two_t30] _); [side|side|side|side|eapply (lift 0 8 12 12 20 20 [two_t27; two_t28; two_t29; two_t30] _); [side|side|side|side|eapply (x_mem _ 20 20 [two_t27; two_t28; two_t29; two_t30] _); [eapply (m_intro _ _ 20 20 20 [two_t27] [two_t28; two_t29; two_t30] _ _); [eapply (p_var 20 two_t27); [side]|eapply (t_call _ _ 20 20 20 _ two_t28 [two_t29] two_t30 [] _ _); [side|side|eapply (a_one 20 20 [two_t29] _); [eapply (from8 12 20 20 22 22 [two_t29] _); [side|side|side|side|eapply (lift 0 8 22 22 30 30 [two_t29] _); [side|side|side|side|eapply (x_mem _ 30 30 [two_t29] _); [eapply (m_intro _ _ 30 30 30 [two_t29] [] _ _); [eapply (p_var 30 two_t29); [side]|eapply (t_none _ 30 _)]]]]]|eapply (t_none _ 20 _)]]]]]]|eapply (t_none _ 10 _)]]]]]]]|side|side|side]|side|side|side|side|exact (or_introl eq_refl)|eapply (ss_nil TOK_CLOSE_CURLY 0)]]]]|side|side|side|side|right; side|eapply (ss_cons TOK_EOF 0 0 0 [two_t34; two_t35; two_t36; two_t37; two_t38; two_t39; two_t40; two_t41; two_t42] [two_t43] [] _ _); [eapply (s_exprs 0 0 [two_t34; two_t35; two_t36; two_t37; two_t38; two_t39; two_t40; two_t41; two_t42] TOK_SEMICOLON _); [eapply (c_one 0 0 [two_t34; two_t35; two_t36; two_t37; two_t38; two_t39; two_t40; two_t41; two_t42] _); [eapply (x_assign1 0 0 [two_t34; two_t35; two_t36; two_t37; two_t38; two_t39; two_t40; two_t41; two_t42] _); [eapply (x_cond 0 0 0 0 [two_t34; two_t35; two_t36; two_t37; two_t38] two_t39 [two_t40] two_t41 [two_t42] _ _ _); [side|side|eapply (from8 10 0 0 2 2 [two_t34; two_t35; two_t36; two_t37; two_t38] _); [side|side|side|side|eapply (lift 4 8 2 2 6 6 [two_t34; two_t35; two_t36; two_t37; two_t38] _); [side|side|side|side|eapply (x_level 4 6 6 7 [two_t34; two_t35; two_t36] [two_t37; two_t38] _ _); [side|side|eapply (lift 0 3 7 7 10 10 [two_t34; two_t35; two_t36] _); [side|side|side|side|eapply (x_mem _ 10 10 [two_t34; two_t35; two_t36] _); [eapply (m_intro _ _ 10 10 10 [two_t34] [two_t35; two_t36] _ _); [eapply (p_var 10 two_t34); [side]|eapply (t_dot _ _ 10 10 _ two_t35 two_t36 [] _); [side|side|eapply (t_none _ 10 _)]]]]|eapply (o_one 4 7 7 8 _ two_t37 [two_t38] [] _ _); [side|side|eapply (lift 0 3 8 8 11 11 [two_t38] _); [side|side|side|side|eapply (x_mem _ 11 11 [two_t38] _); [eapply (m_intro _ _ 11 11 11 [two_t38] [] _ _); [eapply (p_const 11 two_t38 _); [exact num_5|side]|eapply (t_none _ 11 _)]]]|eapply (o_none 4 8 _)]]]]|eapply (from8 11 0 0 2 2 [two_t40] _); [side|side|side|side|eapply (lift 0 8 2 2 10 10 [two_t40] _); [side|side|side|side|eapply (x_mem _ 10 10 [two_t40] _); [eapply (m_intro _ _ 10 10 10 [two_t40] [] _ _); [eapply (p_const 10 two_t40 _); [exact str_big|side]|eapply (t_none _ 10 _)]]]]|eapply (from8 11 0 0 2 2 [two_t42] _); [side|side|side|side|eapply (lift 0 8 2 2 10 10 [two_t42] _); [side|side|side|side|eapply (x_mem _ 10 10 [two_t42] _); [eapply (m_intro _ _ 10 10 10 [two_t42] [] _ _); [eapply (p_const 10 two_t42 _); [exact str_small|side]|eapply (t_none _ 10 _)]]]]]]]|side|side|side]|side|side|side|side|exact (or_introl eq_refl)|eapply (ss_nil TOK_EOF 0)]].
Qed.
Ltac c_bytes := lazymatch goal with |- Forall _ ?x => let v := eval vm_compute in x in change x with v end; repeat (apply Forall_cons; [lia|]); apply Forall_nil.
Definition prog_one : prog := {| g_path := bs "a.js"; g_src := one_src; g_toks := one_toks; g_tree := one_tree |}.
Definition prog_two : prog := {| g_path := bs "b.js"; g_src := two_src; g_toks := two_toks; g_tree := two_tree |}.
Example programs_well_formed : Forall well_formed [prog_one; prog_two].
Proof.
  apply Forall_cons; [|apply Forall_cons; [|apply Forall_nil]].
  - split; [unfold c_text; cbn [prog_one g_src]; unfold one_src; c_bytes|]. split; [apply one_source|eexists; apply one_stmts].
  - split; [unfold c_text; cbn [prog_two g_src]; unfold two_src; c_bytes|]. split; [apply two_source|eexists; apply two_stmts].
Qed.
Definition start_state : state := {| Lang_Spec.objs := [[]]; left := 1000000 |}.
(** The interpreter's values: the function [fac] and the text. *)
Example session_values : option_map (fun r => map (fun v => match v with VPrim a => Some a | _ => None end) (fst r)) (run_all 10 50 [0%nat] undef [prog_one; prog_two] start_state) = Some [None; Some (AStr (bs "big"))].
Proof. vm_compute. reflexivity. Qed.
(** The engine's: no error, and the text. *)
Definition new_engine : vm := Props_Obj.R_get Props_Vm.ex_m create.
Example session_engine : (r <- exec_all 1500 Props_Vm.w0 new_engine [prog_one; prog_two] ;; text_of (OK (fst r, last (snd r) 0))) = OK (E_OK, bs "big").
Proof. vm_compute. reflexivity. Qed.
(** The hypotheses of [session_result] are met. *)
Definition code_of (p : prog) : list Z := match mjs_parse 500 (g_path p) (g_src p) with OK (c, _) => c | _ => [] end.
Example session_holds : exists m codes W vs s', create = OK m /\ Forall2 compiles [prog_one; prog_two] codes /\
  run_all 10 50 [0%nat] undef [prog_one; prog_two] start_state = Some (vs, s') /\
  in_state m W start_state [0%nat] undef /\ stack_room m 50 /\ code_room m (total codes).
Proof.
  destruct (created_engine 1000000 ltac:(lia)) as (m & W & E & I & S1 & S2 & S3 & C).
  destruct (run_all 10 50 [0%nat] undef [prog_one; prog_two] start_state) as [[vs s']|] eqn:R; [|pose proof session_values as V; rewrite R in V; discriminate V].
  exists m, [code_of prog_one; code_of prog_two], W, vs, s'. split; [exact E|]. split.
  { apply Forall2_cons; [apply (compiles_at 500); vm_compute; reflexivity|]. apply Forall2_cons; [apply (compiles_at 500); vm_compute; reflexivity|constructor]. }
  split; [reflexivity|]. split; [exact I|]. split.
  - unfold stack_room. rewrite S1, S2, S3. vm_compute. repeat split; reflexivity.
  - exists []. split; [exact C|]. vm_compute. reflexivity.
Qed.

(** C98: the disassembler on the code of programs. *)
From Verif Require Import Base BaseFacts Value_Model Value_Spec Value_Proofs Str_Model Str_Spec Str_Proofs
  TokNum_Model Txt_Model Tok_Model Tok_Spec Num_Model NumText_Spec Lit_Proofs Bcode_Model Bcode_Proofs Vm_Model Vm_Spec Parse_Model Run_Model Expr_Spec Run_Spec
  Tok_Proofs2 Props_Expr Lang_Spec Lang_Code Lang_Spec2 Lang_Spec3 Props_Lang Props_Lang2 Disasm_Model Disasm_Spec Disasm_Proofs Disasm_Proofs2.
From Coq Require Import ZifyBool.
Ltac Zify.zify_post_hook ::= idtac.


(** C98. The code of a program is a header, a sequence of instructions and the table of lines, and mjs_disasm
    shows the header, each instruction once and in order, and then - because the skip over the table stops one
    byte short - the last byte of the table as if it were an instruction. If that byte is the number of an
    operation with an operand, the operand is read from behind the code. *)
Theorem disasm_program p code : well_formed p -> compiles p code -> ~ In 0 (g_path p) -> zlen code < 2 ^ 32 ->
  exists is map b, Forall ins is /\ code = part_bytes (g_path p) is (map ++ [b]) /\
    forall f, (length is + 3 <= f)%nat ->
      mjs_disasm f code (zlen code) =
      if wants_operand b then UB else OK (0 :: ins_starts (14 + zlen (g_path p)) is ++ [zlen code - 1]).
Proof.
  intros Wp Cp Hz L. destruct (program_part p code Wp Cp L) as (is & m & F & E & Ec).
  assert (N : varint (zlen m) ++ m <> []).
  { intros X. apply (f_equal zlen) in X. rewrite zlen_app in X. pose proof (varint_zlen (zlen m)). pose proof (zlen_nonneg m). change (zlen (@nil Z)) with 0 in X. lia. }
  destruct (exists_last N) as (mp & b & Em). rewrite Em in Ec. exists is, mp, b. split; [exact F|]. split; [exact Ec|]. intros f Hf.
  subst code. apply disasm_part; try assumption; [|lia].
  intros ->. cbn [concat] in E. destruct (seqcode (map cst (g_tree p))); discriminate E.
Qed.
Print Assumptions disasm_program.

(** With the table's last byte harmless every index shown lies in the code. *)
Lemma starts_inside is : forall k i, Forall ins is -> In i (ins_starts k is) -> k <= i < k + zlen (concat is).
Proof.
  induction is as [|b is IH]; intros k i F H; cbn [ins_starts In] in H; [contradiction|]. inversion F as [|? ? F1 F2]; subst. cbn [concat]. rewrite zlen_app.
  pose proof (ins_pos b F1). pose proof (zlen_nonneg (concat is)). destruct H as [<-|H]; [lia|]. specialize (IH _ _ F2 H). lia.
Qed.
Theorem disasm_shows_code p code f l : well_formed p -> compiles p code -> ~ In 0 (g_path p) -> zlen code < 2 ^ 32 ->
  mjs_disasm f code (zlen code) = OK l -> Forall (fun i => 0 <= i < zlen code) l.
Proof.
  intros Wp Cp Hz L H. destruct (disasm_program p code Wp Cp Hz L) as (is & mp & b & F & Ec & G).
  pose proof (G (f + (length is + 3))%nat ltac:(lia)) as G1.
  assert (M : mjs_disasm (f + (length is + 3)) code (zlen code) = OK l).
  { unfold mjs_disasm in *. eapply loop_mono; [|exact H|discriminate]. lia. }
  rewrite M in G1. destruct (wants_operand b); [discriminate G1|].
  match type of G1 with OK _ = OK ?x => assert (El : l = x) by congruence end. clear G1 M. subst l.
  assert (L4 : forall n, zlen (le_bytes 4 n) = 4) by (intros n; unfold zlen; rewrite le_bytes_length; reflexivity).
  assert (Lc : zlen code = 14 + zlen (g_path p) + zlen (concat is) + zlen mp + 1).
  { rewrite Ec. unfold part_bytes. cbv zeta. rewrite zlen_cons, !zlen_app. change (zlen [0]) with 1. change (zlen [b]) with 1. rewrite !L4. lia. }
  pose proof (zlen_nonneg (g_path p)). pose proof (zlen_nonneg (concat is)). pose proof (zlen_nonneg mp).
  constructor; [lia|]. apply Forall_app. split; [|constructor; [lia|constructor]]. apply Forall_forall. intros i Hi. pose proof (starts_inside _ _ _ F Hi). lia.
Qed.
Print Assumptions disasm_shows_code.

Lemma lit_1 : literal (bs "1") (scale10 1 0).
Proof. apply (lit_dec (bs "1") [] [] [] 0); [split; [discriminate|numbers]|left; split; reflexivity|left; split; reflexivity]. Qed.
Lemma num_1 : leaf (tk1 TOK_NUM "1") (EInt 1).
Proof. apply (leaf_int (tk1 TOK_NUM "1") _ 1 eq_refl lit_1); [apply (W_down _ false (1 * 2 ^ 52)%positive (-52) 1); [vm_compute; reflexivity|lia|reflexivity]|lia]. Qed.
Lemma lit_2 : literal (bs "2") (scale10 2 0).
Proof. apply (lit_dec (bs "2") [] [] [] 0); [split; [discriminate|numbers]|left; split; reflexivity|left; split; reflexivity]. Qed.
Lemma num_2 : leaf (tk1 TOK_NUM "2") (EInt 2).
Proof. apply (leaf_int (tk1 TOK_NUM "2") _ 2 eq_refl lit_2); [apply (W_down _ false (2 * 2 ^ 51)%positive (-51) 2); [vm_compute; reflexivity|lia|reflexivity]|lia]. Qed.
Lemma lit_3 : literal (bs "3") (scale10 3 0).
Proof. apply (lit_dec (bs "3") [] [] [] 0); [split; [discriminate|numbers]|left; split; reflexivity|left; split; reflexivity]. Qed.
Lemma num_3 : leaf (tk1 TOK_NUM "3") (EInt 3).
Proof. apply (leaf_int (tk1 TOK_NUM "3") _ 3 eq_refl lit_3); [apply (W_down _ false (3 * 2 ^ 51)%positive (-51) 3); [vm_compute; reflexivity|lia|reflexivity]|lia]. Qed.
Definition dza_src : list Z := bs "let a = 1;
a;".
Definition dza_tree : list stmt :=
  [(SLet [((bs "a"), Some (XConst (EInt 1)))]);
   (SExprs [(XVar (bs "a"))])].
Definition dza_t0 : tokn := tk1 TOK_KEYWORD_LET "let".
Definition dza_t1 : tokn := tk1 TOK_IDENT "a".
Definition dza_t2 : tokn := tk1 TOK_ASSIGN "=".
Definition dza_t3 : tokn := tk1 TOK_NUM "1".
Definition dza_t4 : tokn := tk1 TOK_SEMICOLON ";".
Definition dza_t5 : tokn := tk1 TOK_IDENT "a".
Definition dza_t6 : tokn := tk1 TOK_SEMICOLON ";".
Definition dza_toks : list tokn := [dza_t0; dza_t1; dza_t2; dza_t3; dza_t4; dza_t5; dza_t6].
Lemma dza_source : source dza_src dza_toks.
Proof.
  unfold dza_src, dza_toks.
  keyword (bs "let") (bs " a = 1;
a;").
  apply source_blank; [cbn; tauto|].
  word (bs "a") (bs " = 1;
a;"). { intros n H. vm_compute in H. intuition discriminate. }
  apply source_blank; [cbn; tauto|].
  opr (bs "=") (bs " 1;
a;") TOK_ASSIGN.
  apply source_blank; [cbn; tauto|].
  number (bs "1") (bs ";
a;") lit_1.
  opr (bs ";") (bs "
a;") TOK_SEMICOLON.
  apply source_blank; [cbn; tauto|].
  word (bs "a") (bs ";"). { intros n H. vm_compute in H. intuition discriminate. }
  opr (bs ";") (bs "") TOK_SEMICOLON.
  apply src_end, gap_end; [intros c r H; discriminate|no_start|no_start].
Qed.
Lemma dza_stmts : stmts TOK_EOF 0 0 dza_toks dza_tree.
Proof.
  unfold dza_toks, dza_tree.
  eapply (ss_cons TOK_EOF 0 0 0 [dza_t0; dza_t1; dza_t2; dza_t3] [dza_t4] [dza_t5; dza_t6] _ _); [eapply (s_let 0 0 dza_t0 [dza_t1; dza_t2; dza_t3] TOK_SEMICOLON _); [side|eapply (l_one 0 0 dza_t1 [dza_t2; dza_t3] _); [side|eapply (i_some 0 0 dza_t2 [dza_t3] _); [side|eapply (from8 12 0 0 2 2 [dza_t3] _); [side|side|side|side|eapply (lift 0 8 2 2 10 10 [dza_t3] _); [side|side|side|side|eapply (x_mem _ 10 10 [dza_t3] _); [eapply (m_intro _ _ 10 10 10 [dza_t3] [] _ _); [eapply (p_const 10 dza_t3 _); [exact num_1|side]|eapply (t_none _ 10 _)]]]]]]|side]|side|side|side|side|right; side|eapply (ss_cons TOK_EOF 0 0 0 [dza_t5] [dza_t6] [] _ _); [eapply (s_exprs 0 0 [dza_t5] TOK_SEMICOLON _); [eapply (c_one 0 0 [dza_t5] _); [eapply (from8 12 0 0 2 2 [dza_t5] _); [side|side|side|side|eapply (lift 0 8 2 2 10 10 [dza_t5] _); [side|side|side|side|eapply (x_mem _ 10 10 [dza_t5] _); [eapply (m_intro _ _ 10 10 10 [dza_t5] [] _ _); [eapply (p_var 10 dza_t5); [side]|eapply (t_none _ 10 _)]]]]]|side|side|side]|side|side|side|side|exact (or_introl eq_refl)|eapply (ss_nil TOK_EOF 0)]].
Qed.
Definition dzb_src : list Z := bs "let a = 1;
let b = 2;
let c = 3;
a;".
Definition dzb_tree : list stmt :=
  [(SLet [((bs "a"), Some (XConst (EInt 1)))]);
   (SLet [((bs "b"), Some (XConst (EInt 2)))]);
   (SLet [((bs "c"), Some (XConst (EInt 3)))]);
   (SExprs [(XVar (bs "a"))])].
Definition dzb_t0 : tokn := tk1 TOK_KEYWORD_LET "let".
Definition dzb_t1 : tokn := tk1 TOK_IDENT "a".
Definition dzb_t2 : tokn := tk1 TOK_ASSIGN "=".
Definition dzb_t3 : tokn := tk1 TOK_NUM "1".
Definition dzb_t4 : tokn := tk1 TOK_SEMICOLON ";".
Definition dzb_t5 : tokn := tk1 TOK_KEYWORD_LET "let".
Definition dzb_t6 : tokn := tk1 TOK_IDENT "b".
Definition dzb_t7 : tokn := tk1 TOK_ASSIGN "=".
Definition dzb_t8 : tokn := tk1 TOK_NUM "2".
Definition dzb_t9 : tokn := tk1 TOK_SEMICOLON ";".
Definition dzb_t10 : tokn := tk1 TOK_KEYWORD_LET "let".
Definition dzb_t11 : tokn := tk1 TOK_IDENT "c".
Definition dzb_t12 : tokn := tk1 TOK_ASSIGN "=".
Definition dzb_t13 : tokn := tk1 TOK_NUM "3".
Definition dzb_t14 : tokn := tk1 TOK_SEMICOLON ";".
Definition dzb_t15 : tokn := tk1 TOK_IDENT "a".
Definition dzb_t16 : tokn := tk1 TOK_SEMICOLON ";".
Definition dzb_toks : list tokn := [dzb_t0; dzb_t1; dzb_t2; dzb_t3; dzb_t4; dzb_t5; dzb_t6; dzb_t7; dzb_t8; dzb_t9; dzb_t10; dzb_t11; dzb_t12; dzb_t13; dzb_t14; dzb_t15; dzb_t16].
Lemma dzb_source : source dzb_src dzb_toks.
Proof.
  unfold dzb_src, dzb_toks.
  keyword (bs "let") (bs " a = 1;
let b = 2;
let c = 3;
a;").
  apply source_blank; [cbn; tauto|].
  word (bs "a") (bs " = 1;
let b = 2;
let c = 3;
a;"). { intros n H. vm_compute in H. intuition discriminate. }
  apply source_blank; [cbn; tauto|].
  opr (bs "=") (bs " 1;
let b = 2;
let c = 3;
a;") TOK_ASSIGN.
  apply source_blank; [cbn; tauto|].
  number (bs "1") (bs ";
let b = 2;
let c = 3;
a;") lit_1.
  opr (bs ";") (bs "
let b = 2;
let c = 3;
a;") TOK_SEMICOLON.
  apply source_blank; [cbn; tauto|].
  keyword (bs "let") (bs " b = 2;
let c = 3;
a;").
  apply source_blank; [cbn; tauto|].
  word (bs "b") (bs " = 2;
let c = 3;
a;"). { intros n H. vm_compute in H. intuition discriminate. }
  apply source_blank; [cbn; tauto|].
  opr (bs "=") (bs " 2;
let c = 3;
a;") TOK_ASSIGN.
  apply source_blank; [cbn; tauto|].
  number (bs "2") (bs ";
let c = 3;
a;") lit_2.
  opr (bs ";") (bs "
let c = 3;
a;") TOK_SEMICOLON.
  apply source_blank; [cbn; tauto|].
  keyword (bs "let") (bs " c = 3;
a;").
  apply source_blank; [cbn; tauto|].
  word (bs "c") (bs " = 3;
a;"). { intros n H. vm_compute in H. intuition discriminate. }
  apply source_blank; [cbn; tauto|].
  opr (bs "=") (bs " 3;
a;") TOK_ASSIGN.
  apply source_blank; [cbn; tauto|].
  number (bs "3") (bs ";
a;") lit_3.
  opr (bs ";") (bs "
a;") TOK_SEMICOLON.
  apply source_blank; [cbn; tauto|].
  word (bs "a") (bs ";"). { intros n H. vm_compute in H. intuition discriminate. }
  opr (bs ";") (bs "") TOK_SEMICOLON.
  apply src_end, gap_end; [intros c r H; discriminate|no_start|no_start].
Qed.
Lemma dzb_stmts : stmts TOK_EOF 0 0 dzb_toks dzb_tree.
Proof.
  unfold dzb_toks, dzb_tree.
  eapply (ss_cons TOK_EOF 0 0 0 [dzb_t0; dzb_t1; dzb_t2; dzb_t3] [dzb_t4] [dzb_t5; dzb_t6; dzb_t7; dzb_t8; dzb_t9; dzb_t10; dzb_t11; dzb_t12; dzb_t13; dzb_t14; dzb_t15; dzb_t16] _ _); [eapply (s_let 0 0 dzb_t0 [dzb_t1; dzb_t2; dzb_t3] TOK_SEMICOLON _); [side|eapply (l_one 0 0 dzb_t1 [dzb_t2; dzb_t3] _); [side|eapply (i_some 0 0 dzb_t2 [dzb_t3] _); [side|eapply (from8 12 0 0 2 2 [dzb_t3] _); [side|side|side|side|eapply (lift 0 8 2 2 10 10 [dzb_t3] _); [side|side|side|side|eapply (x_mem _ 10 10 [dzb_t3] _); [eapply (m_intro _ _ 10 10 10 [dzb_t3] [] _ _); [eapply (p_const 10 dzb_t3 _); [exact num_1|side]|eapply (t_none _ 10 _)]]]]]]|side]|side|side|side|side|right; side|eapply (ss_cons TOK_EOF 0 0 0 [dzb_t5; dzb_t6; dzb_t7; dzb_t8] [dzb_t9] [dzb_t10; dzb_t11; dzb_t12; dzb_t13; dzb_t14; dzb_t15; dzb_t16] _ _); [eapply (s_let 0 0 dzb_t5 [dzb_t6; dzb_t7; dzb_t8] TOK_SEMICOLON _); [side|eapply (l_one 0 0 dzb_t6 [dzb_t7; dzb_t8] _); [side|eapply (i_some 0 0 dzb_t7 [dzb_t8] _); [side|eapply (from8 12 0 0 2 2 [dzb_t8] _); [side|side|side|side|eapply (lift 0 8 2 2 10 10 [dzb_t8] _); [side|side|side|side|eapply (x_mem _ 10 10 [dzb_t8] _); [eapply (m_intro _ _ 10 10 10 [dzb_t8] [] _ _); [eapply (p_const 10 dzb_t8 _); [exact num_2|side]|eapply (t_none _ 10 _)]]]]]]|side]|side|side|side|side|right; side|eapply (ss_cons TOK_EOF 0 0 0 [dzb_t10; dzb_t11; dzb_t12; dzb_t13] [dzb_t14] [dzb_t15; dzb_t16] _ _); [eapply (s_let 0 0 dzb_t10 [dzb_t11; dzb_t12; dzb_t13] TOK_SEMICOLON _); [side|eapply (l_one 0 0 dzb_t11 [dzb_t12; dzb_t13] _); [side|eapply (i_some 0 0 dzb_t12 [dzb_t13] _); [side|eapply (from8 12 0 0 2 2 [dzb_t13] _); [side|side|side|side|eapply (lift 0 8 2 2 10 10 [dzb_t13] _); [side|side|side|side|eapply (x_mem _ 10 10 [dzb_t13] _); [eapply (m_intro _ _ 10 10 10 [dzb_t13] [] _ _); [eapply (p_const 10 dzb_t13 _); [exact num_3|side]|eapply (t_none _ 10 _)]]]]]]|side]|side|side|side|side|right; side|eapply (ss_cons TOK_EOF 0 0 0 [dzb_t15] [dzb_t16] [] _ _); [eapply (s_exprs 0 0 [dzb_t15] TOK_SEMICOLON _); [eapply (c_one 0 0 [dzb_t15] _); [eapply (from8 12 0 0 2 2 [dzb_t15] _); [side|side|side|side|eapply (lift 0 8 2 2 10 10 [dzb_t15] _); [side|side|side|side|eapply (x_mem _ 10 10 [dzb_t15] _); [eapply (m_intro _ _ 10 10 10 [dzb_t15] [] _ _); [eapply (p_var 10 dzb_t15); [side]|eapply (t_none _ 10 _)]]]]]|side|side|side]|side|side|side|side|exact (or_introl eq_refl)|eapply (ss_nil TOK_EOF 0)]]]].
Qed.
Definition prog_dza : prog := {| g_path := bs "a.js"; g_src := dza_src; g_toks := dza_toks; g_tree := dza_tree |}.
Example dza_well_formed : well_formed prog_dza.
Proof. split; [unfold Tok_Spec.c_text; cbn [prog_dza g_src]; unfold dza_src; c_bytes|]. split; [apply dza_source|eexists; apply dza_stmts]. Qed.
Definition prog_dzb : prog := {| g_path := bs "b.js"; g_src := dzb_src; g_toks := dzb_toks; g_tree := dzb_tree |}.
Example dzb_well_formed : well_formed prog_dzb.
Proof. split; [unfold Tok_Spec.c_text; cbn [prog_dzb g_src]; unfold dzb_src; c_bytes|]. split; [apply dzb_source|eexists; apply dzb_stmts]. Qed.
Definition code_at (p : prog) : list Z := match mjs_parse 500 (g_path p) (g_src p) with OK (c, _) => c | _ => [] end.
Example dza_compiles : compiles prog_dza (code_at prog_dza) /\ ~ In 0 (g_path prog_dza) /\ zlen (code_at prog_dza) < 2 ^ 32.
Proof. split; [apply (compiles_at 500); vm_compute; reflexivity|]. split; [vm_compute; intuition discriminate|vm_compute; reflexivity]. Qed.
(** A program of two lines: header, twelve instructions, and the last byte of the table (index 40). *)
Example dza_disasm : mjs_disasm 15 (code_at prog_dza) (zlen (code_at prog_dza)) = OK [0; 18; 21; 22; 23; 26; 27; 29; 31; 32; 35; 36; 37; 40].
Proof. vm_compute. reflexivity. Qed.
Example dza_holds : exists is map b, Forall ins is /\ code_at prog_dza = part_bytes (bs "a.js") is (map ++ [b]) /\
  forall f, (length is + 3 <= f)%nat -> mjs_disasm f (code_at prog_dza) (zlen (code_at prog_dza)) =
    if wants_operand b then UB else OK (0 :: ins_starts (14 + zlen (bs "a.js")) is ++ [zlen (code_at prog_dza) - 1]).
Proof. destruct dza_compiles as (C & Z & L). exact (disasm_program prog_dza _ dza_well_formed C Z L). Qed.
(** The disassembler stays inside the code of every program: false. A program whose last code comes from
    line 4 has 4 as the last byte of its table, the number of OP_JMP, and the jump's offset is read from behind
    the code, which mjs_bcode_commit has trimmed to its length. *)
Theorem disasm_stays_inside_refuted : exists p code, well_formed p /\ compiles p code /\ ~ In 0 (g_path p) /\ zlen code < 2 ^ 32 /\
  exists f0, forall f, (f0 <= f)%nat -> mjs_disasm f code (zlen code) = UB.
Proof.
  exists prog_dzb, (code_at prog_dzb). split; [exact dzb_well_formed|]. split; [apply (compiles_at 500); vm_compute; reflexivity|].
  split; [vm_compute; intuition discriminate|]. split; [vm_compute; reflexivity|]. exists 40%nat. intros f Hf. unfold mjs_disasm.
  eapply loop_mono; [exact Hf|vm_compute; reflexivity|discriminate].
Qed.
Print Assumptions disasm_stays_inside_refuted.

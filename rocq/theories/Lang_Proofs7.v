(** The parser emits the code of the tree: loops, and the theorem. *)
From Verif Require Import Base BaseFacts Value_Model Str_Model Str_Spec Ops_Model TokNum_Model Num_Model Txt_Model Tok_Spec Tok_Model
  Bcode_Model Bcode_Proofs Str_Proofs Parse_Model Parse_Proofs Expr_Spec Expr_Proofs Lit_Proofs Expr_Proofs1 Expr_Proofs2 Props_Str Str_Proofs3 Lang_Spec
  Lang_Proofs1 Lang_Proofs2 Lang_Proofs3 Lang_Proofs4 Lang_Proofs5 Lang_Proofs6 Lex_Proofs Expr_Proofs6.
Ltac Zify.zify_post_hook ::= Z.div_mod_to_equations.

(** ** The body of a loop *)
Lemma Pb_list p q lc ts rc k0 l : lx_tok lc = TOK_OPEN_CURLY -> lx_tok rc = TOK_CLOSE_CURLY -> P_stmts TOK_CLOSE_CURLY p q ts l -> P_body p q (lc :: ts ++ [rc]) k0 l.
Proof.
  intros Kl Kr IH s t k rest a b S A K P. ja A. aprev A. unfold body_part. tkr. rewrite Tk, Kl. tokc.
  eapply (reach_rec (fun f => parse f (NStmtList TOK_CLOSE_CURLY) s) _ (fun s' => st s' (adv (nxt t) ts) (a ++ seqcode (map cst l)) b q)).
  - apply reach_parse. cbn [rule]. unfold parse_statement_list. nx A. apply (IH (or_intror eq_refl) false _ _ _ _ _ _ H A0 Kr). right. pk Pv Kl.
  - intros s3 S3; cbv beta in *. pose proof (ahead_adv _ _ _ A0) as A1. nx A1. fin H.
Qed.
Lemma Pb_one p q ts k0 s0 : hd_tok ts k0 <> TOK_OPEN_CURLY -> P_sp p q ts k0 s0 -> P_body p q ts k0 [s0].
Proof.
  intros N [_ H] s t k rest a b S A K P. unfold body_part. tkr. rewrite (ahead_hd _ _ _ _ A), K. replace (hd_tok ts k0 =? TOK_OPEN_CURLY) with false by lia.
  eapply reach_weaken; [apply (H _ _ _ _ _ _ S A K P)|]. intros s' H'; cbv beta in *. eapply st_eq; [exact H'|reflexivity|cbn [map]; unfold seqcode, dropcode; lapp|reflexivity|reflexivity].
Qed.
Lemma body_eq rec s : loop_body rec s = andthen (body_part rec s) (fun s => (s <- e_bytes s [OP_DROP; OP_CONTINUE] ;; pok s)).
Proof. reflexivity. Qed.
Lemma loop_parsed p q ts k0 l s t k rest a b : P_body p q ts k0 l -> st s t a b p -> ahead t (ts ++ k :: rest) -> lx_tok k = k0 -> prev_ok (t_prev t) ->
  reach (fun f => loop_body (parse f) s) (fun s' => st s' (adv t ts) (a ++ seqcode (map cst l) ++ [OP_DROP; OP_CONTINUE]) b q).
Proof.
  intros H S A K P. eapply reach_ext; [intros f; apply body_eq|]. eapply reach_rec; [apply (H _ _ _ _ _ _ S A K P)|]. intros s1 S1; cbv beta in *.
  cbn [e_bytes]. eb. eb. fin H1.
Qed.

(** ** While *)
Lemma ins_at s t a x c b d off v w : st s t (a ++ x :: c) b d -> off = zlen a -> v = w ->
  exists s', ins s off v = OK (s', zlen (varint w) - 1) /\ st s' t (a ++ varint w ++ c) b d.
Proof. intros S E <-. apply (ins_st _ _ _ _ _ _ _ _ _ S E). Qed.
Ltac zl := repeat (rewrite zlen_app || rewrite zlen_cons); change (zlen []) with 0; lia.
Lemma Ps_while p q q1 t0 lp ts rp ts1 k0 c l : lx_tok t0 = TOK_KEYWORD_WHILE -> lx_tok lp = TOK_OPEN_PAREN -> lx_tok rp = TOK_CLOSE_PAREN ->
  P_xp 12 p q1 ts c -> P_body q1 q ts1 k0 l -> P_sp p q (t0 :: lp :: ts ++ rp :: ts1) k0 (SWhile c l).
Proof.
  intros Kt Kl Kr [_ Hc] Hb. split; [discriminate|]. intros s t k rest a b S A K P. ja A. aprev A. aprev A0.
  apply reach_parse. cbn [rule]. unfold parse_statement. tkr. rewrite Tk, Kt. tokc. apply reach_parse. cbn [rule]. unfold parse_while. expt A Kt. expt A0 Kl.
  cbn [e_bytes]. eb. eb. eb. eb.
  eapply (reach_rec (fun f => parse f NAssign s5)); [apply (Hc _ _ _ _ _ _ H4 A1); [pk Pv0 Kl|rk]|].
  intros s6 S6; cbv beta in *. pose proof (ahead_adv _ _ _ A1) as A2. expt A2 Kr. destruct (ahead_next _ _ _ A2) as (_ & P2 & A3 & _). eb. eb.
  eapply reach_rec; [apply (loop_parsed _ _ _ _ _ _ _ k rest _ _ Hb H7 A3 K); pk P2 Kr|].
  intros s9' S9; cbv beta in *. set (B := seqcode (map cst l)) in *.
  assert (S9' : st s9' (adv (nxt (adv (nxt (nxt t)) ts)) ts1) ((a ++ [OP_NEW_SCOPE; OP_LOOP; 0; 0] ++ cex c ++ [OP_JMP_FALSE]) ++ 0 :: B ++ [OP_DROP; OP_CONTINUE]) b q).
  { eapply st_eq; [exact S9|reflexivity|lapp|reflexivity|reflexivity]. }
  match goal with |- context [ins s9' ?o ?v] => destruct (ins_at _ _ _ _ _ _ _ o v (zlen B + 2) S9') as (s10 & E10 & S10) end.
  { zl. } { rewrite (st_cur _ _ _ _ _ S9'). zl. }
  rewrite E10. cbnb. eb.
  match type of H8 with st ?s' _ _ _ _ => assert (S11 : st s' (adv (nxt (adv (nxt (nxt t)) ts)) ts1) ((a ++ [OP_NEW_SCOPE; OP_LOOP]) ++ 0 :: while_rest (cex c) B) b q) end.
  { eapply st_eq; [exact H8|reflexivity|unfold while_rest; lapp|reflexivity|reflexivity]. }
  match goal with |- context [ins ?s' ?o ?v] => destruct (ins_at _ _ _ _ _ _ _ o v (zlen (while_rest (cex c) B)) S11) as (s12 & E12 & S12) end.
  { zl. } { rewrite (st_cur _ _ _ _ _ S11). zl. }
  rewrite E12. cbnb. eb. fin H9.
Qed.

(** ** For *)
Lemma Pst_let p q t0 ts l : lx_tok t0 = TOK_KEYWORD_LET -> P_lets p q ts l -> not_in ts TOK_SEMICOLON -> P_start p q (t0 :: ts) (SLet l).
Proof.
  intros Kt (_ & Hd & Hl) Ni s t k rest a b S A K P. cbn [app] in A. aprev A. split.
  - unfold check_for_in. tkr. rewrite Tk, Kt. tokc. nx A. rewrite (st_tk _ _ _ _ _ H), (ahead_hd _ _ _ _ A0), K.
    assert (Hd' : hd_tok ts TOK_SEMICOLON = TOK_IDENT) by (rewrite (hd_ne _ _ TOK_EOF); [exact Hd|rewrite Hd; discriminate]).
    rewrite Hd'. tokc. destruct ts as [|x ts]; [discriminate Hd|]. cbn [app] in A0. nx A0. destruct (ahead_next _ _ _ A0) as (_ & _ & A1 & _).
    rewrite (st_tk _ _ _ _ _ H0), (ahead_hd _ _ _ _ A1), K. specialize (Ni Hd'). cbn [List.tl] in Ni. f_equal. lia.
  - tkr. rewrite Tk, Kt. tokc. apply reach_parse. cbn [rule]. unfold parse_let. expt A Kt. cbn [adv]. rewrite slet_code. apply (Hl _ _ _ _ _ _ H A0). left. exact K.
Qed.
Lemma Pst_expr p q ts e : P_xp 12 p q ts e -> hd_tok ts TOK_SEMICOLON <> TOK_KEYWORD_LET -> not_in ts TOK_SEMICOLON -> P_start p q ts (SExprs [e]).
Proof.
  intros [Hs He] Nl Ni s t k rest a b S A K P. rewrite (st_tk _ _ _ _ _ S), (ahead_hd _ _ _ _ A), K. split.
  - unfold check_for_in. tkr. rewrite (ahead_hd _ _ _ _ A), K. replace (hd_tok ts TOK_SEMICOLON =? TOK_KEYWORD_LET) with false by lia. cbnb. tkr. rewrite (ahead_hd _ _ _ _ A), K.
    destruct (hd_tok ts TOK_SEMICOLON =? TOK_IDENT) eqn:E; [|reflexivity]. apply Z.eqb_eq in E. specialize (Ni E).
    destruct ts as [|x ts]; [discriminate E|]. cbn [app] in A. nx A. destruct (ahead_next _ _ _ A) as (_ & _ & A1 & _).
    rewrite (st_tk _ _ _ _ _ H), (ahead_hd _ _ _ _ A1), K. cbn [List.tl] in Ni. f_equal. lia.
  - replace (hd_tok ts TOK_SEMICOLON =? TOK_KEYWORD_LET) with false by lia.
    eapply reach_weaken; [apply (He _ _ _ _ _ _ S A P); rewrite K; apply Nat.leb_le; vm_compute; reflexivity|]. intros s' H'; cbv beta in *.
    eapply st_eq; [exact H'|reflexivity|cbn [cst map]; unfold seqcode, dropcode; lapp|reflexivity|reflexivity].
Qed.
Lemma Ps_for p q q1 q2 q3 t0 lp ts1 m1 ts2 m2 ts3 rp ts4 k0 i c u l : lx_tok t0 = TOK_KEYWORD_FOR -> lx_tok lp = TOK_OPEN_PAREN -> lx_tok rp = TOK_CLOSE_PAREN ->
  lx_tok m1 = TOK_SEMICOLON -> lx_tok m2 = TOK_SEMICOLON ->
  P_start p q1 ts1 i -> P_xp 12 q1 q2 ts2 c -> P_xp 12 q2 q3 ts3 u -> P_body q3 q ts4 k0 l ->
  P_sp p q (t0 :: lp :: ts1 ++ m1 :: ts2 ++ m2 :: ts3 ++ rp :: ts4) k0 (SFor i c u l).
Proof.
  intros Kt Kl Kr K1 K2 Hi [_ Hc] [_ Hu] Hb. split; [discriminate|]. intros s t k rest a b S A K P. ja A. aprev A. aprev A0.
  apply reach_parse. cbn [rule]. unfold parse_statement. tkr. rewrite Tk, Kt. tokc. apply reach_parse. cbn [rule]. unfold parse_for. expt A Kt. expt A0 Kl.
  assert (P0 : prev_ok (t_prev (nxt (nxt t)))) by pk Pv0 Kl.
  destruct (Hi _ _ _ _ _ _ H0 A1 K1 P0) as (-> & _). cbnb. cbn [e_bytes]. eb. eb. eb. eb.
  destruct (Hi _ _ _ _ _ _ H4 A1 K1 P0) as (_ & HI).
  eapply reach_rec; [exact HI|]. intros s6 S6; cbv beta in *. pose proof (ahead_adv _ _ _ A1) as A2. destruct (ahead_next _ _ _ A2) as (_ & P2 & A3 & _). expt A2 K1.
  eb. eb. eb. cbv zeta. rewrite (st_cur _ _ _ _ _ H8).
  set (I := cst i) in *.
  assert (S10 : st s10 (nxt (adv (nxt (nxt t)) ts1)) (a ++ [OP_NEW_SCOPE; OP_LOOP; 0; 0] ++ I ++ [OP_DROP; OP_JMP; 0]) b q1).
  { eapply st_eq; [exact H8|reflexivity|lapp|reflexivity|reflexivity]. }
  eapply (reach_rec (fun f => parse f NAssign s10)); [apply (Hc _ _ _ _ _ _ S10 A3); [pk P2 K1|rk]|].
  intros s11 S11; cbv beta in *. pose proof (ahead_adv _ _ _ A3) as A4. destruct (ahead_next _ _ _ A4) as (_ & P4 & A5 & _). expt A4 K2.
  match goal with |- context [set_cur s12 ?n] => replace n with (zlen (a ++ [OP_NEW_SCOPE; OP_LOOP; 0; 0] ++ I ++ [OP_DROP; OP_JMP; 0])) by zl end.
  rewrite (st_cur _ _ _ _ _ H9). pose proof (set_cur_st _ _ _ _ _ _ H9) as S12.
  eapply (reach_rec (fun f => parse f NAssign _)); [apply (Hu _ _ _ _ _ _ S12 A5); [pk P4 K2|rk]|].
  intros s13 S13; cbv beta in *. pose proof (ahead_adv _ _ _ A5) as A6. destruct (ahead_next _ _ _ A6) as (_ & P6 & A7 & _). expt A6 Kr. eb.
  rewrite (st_cur _ _ _ _ _ H11).
  match type of H11 with st ?s' ?tt ?aa _ ?dd => assert (S14 : st (set_cur s' (zlen (aa ++ cex c))) tt (aa ++ cex c) b dd) by (apply set_cur_fwd; exact H11) end.
  match goal with |- context [set_cur s15 ?n] => match type of S14 with st (set_cur _ ?m) _ _ _ _ => replace n with m by zl end end.
  eb. eb.
  eapply reach_rec; [apply (loop_parsed _ _ _ _ _ _ _ k rest _ _ Hb H13 A7 K); pk P6 Kr|].
  intros s18 S18; cbv beta in *. set (B := seqcode (map cst l)) in *.
  match type of S18 with st _ ?tt _ _ _ => set (T := tt) in * end.
  assert (S18' : st s18 T ((a ++ [OP_NEW_SCOPE; OP_LOOP; 0; 0] ++ I ++ [OP_DROP; OP_JMP; 0] ++ cex u ++ OP_DROP :: cex c ++ [OP_JMP_FALSE]) ++ 0 :: B ++ [OP_DROP; OP_CONTINUE]) b q).
  { eapply st_eq; [exact S18|reflexivity|lapp|reflexivity|reflexivity]. }
  match goal with |- context [ins s18 ?o ?v] => destruct (ins_at _ _ _ _ _ _ _ o v (zlen B + 2) S18') as (s19 & E19 & S19) end.
  { zl. } { rewrite (st_cur _ _ _ _ _ S18'). zl. }
  rewrite E19. cbnb.
  set (CB := cex c ++ OP_JMP_FALSE :: varint (zlen B + 2) ++ B ++ [OP_DROP; OP_CONTINUE]) in *.
  assert (S19' : st s19 T ((a ++ [OP_NEW_SCOPE; OP_LOOP; 0; 0] ++ I ++ [OP_DROP; OP_JMP]) ++ 0 :: cex u ++ OP_DROP :: CB) b q).
  { eapply st_eq; [exact S19|reflexivity|unfold CB; lapp|reflexivity|reflexivity]. }
  match goal with |- context [ins s19 ?o ?v] => destruct (ins_at _ _ _ _ _ _ _ o v (zlen (cex u) + 1) S19') as (s20 & E20 & S20) end.
  { zl. } { zl. }
  rewrite E20. cbnb.
  set (V := varint (zlen (cex u) + 1)) in *.
  assert (S20' : st s20 T ((a ++ [OP_NEW_SCOPE; OP_LOOP; 0]) ++ 0 :: I ++ OP_DROP :: OP_JMP :: V ++ cex u ++ OP_DROP :: CB) b q).
  { eapply st_eq; [exact S20|reflexivity|lapp|reflexivity|reflexivity]. }
  match goal with |- context [ins s20 ?o ?v] => destruct (ins_at _ _ _ _ _ _ _ o v (zlen I + 2 + zlen V) S20') as (s21 & E21 & S21) end.
  { zl. } { zl. }
  rewrite E21. cbnb. eb.
  match type of H14 with st ?s' _ _ _ _ => assert (S22 : st s' T ((a ++ [OP_NEW_SCOPE; OP_LOOP]) ++ 0 :: for_rest I (cex c) (cex u) B) b q) end.
  { eapply st_eq; [exact H14|reflexivity|unfold for_rest, CB, V; lapp|reflexivity|reflexivity]. }
  match goal with |- context [ins ?s' ?o ?v] => destruct (ins_at _ _ _ _ _ _ _ o v (zlen (for_rest I (cex c) (cex u) B)) S22) as (s23 & E23 & S23) end.
  { zl. } { rewrite (st_cur _ _ _ _ _ S22). zl. }
  rewrite E23. cbnb. eb. fin H15.
Qed.

(** ** For-in *)
Lemma forin_body p q ts k0 l s t k rest a b : P_body p q ts k0 l -> st s t a b p -> ahead t (ts ++ k :: rest) -> lx_tok k = k0 -> prev_ok (t_prev t) ->
  reach (fun f =>
    s <- e_bytes s [OP_PUSH_UNDEF; OP_LOOP] ;;
    '(s, off_b) <- emit_off s ;;
    s <- e_bytes s [0; OP_FOR_IN_NEXT; OP_DUP; OP_JMP_FALSE] ;;
    '(s, off_check_end) <- emit_off s ;;
    s <-- loop_body (parse f) s ;;
    '(s, _) <- ins s off_check_end (cur s - off_check_end - 1) ;;
    s <- e_byte s OP_BREAK ;;
    '(s, _) <- ins s off_b (cur s - off_b - 1) ;;
    s <- e_bytes s [OP_DROP; OP_DROP; OP_DROP; OP_DEL_SCOPE] ;;
    pok s) (fun s' => st s' (adv t ts) (a ++ OP_PUSH_UNDEF :: OP_LOOP :: varint (zlen (forin_rest (seqcode (map cst l)))) ++ forin_rest (seqcode (map cst l)) ++
      [OP_DROP; OP_DROP; OP_DROP; OP_DEL_SCOPE]) b q).
Proof.
  intros Hb S A K P. cbn [e_bytes]. eb. eb. eb. eb. eb. eb. eb. eb.
  eapply reach_rec; [apply (loop_parsed _ _ _ _ _ _ _ k rest _ _ Hb H6 A K P)|].
  intros s9' S9; cbv beta in *. set (B := seqcode (map cst l)) in *.
  assert (S9' : st s9' (adv t ts) ((a ++ [OP_PUSH_UNDEF; OP_LOOP; 0; 0; OP_FOR_IN_NEXT; OP_DUP; OP_JMP_FALSE]) ++ 0 :: B ++ [OP_DROP; OP_CONTINUE]) b q).
  { eapply st_eq; [exact S9|reflexivity|lapp|reflexivity|reflexivity]. }
  match goal with |- context [ins s9' ?o ?v] => destruct (ins_at _ _ _ _ _ _ _ o v (zlen B + 2) S9') as (s10 & E10 & S10) end.
  { zl. } { rewrite (st_cur _ _ _ _ _ S9'). zl. }
  rewrite E10. cbnb. eb.
  match type of H7 with st ?s' _ _ _ _ => assert (S11 : st s' (adv t ts) ((a ++ [OP_PUSH_UNDEF; OP_LOOP]) ++ 0 :: forin_rest B) b q) end.
  { eapply st_eq; [exact H7|reflexivity|unfold forin_rest; lapp|reflexivity|reflexivity]. }
  match goal with |- context [ins ?s' ?o ?v] => destruct (ins_at _ _ _ _ _ _ _ o v (zlen (forin_rest B)) S11) as (s12 & E12 & S12) end.
  { zl. } { rewrite (st_cur _ _ _ _ _ S11). zl. }
  rewrite E12. cbnb. eb. eb. eb. eb. fin H11.
Qed.
Lemma Ps_forin p q q1 t0 lp n u ts rp ts1 k0 e l : lx_tok t0 = TOK_KEYWORD_FOR -> lx_tok lp = TOK_OPEN_PAREN -> lx_tok rp = TOK_CLOSE_PAREN ->
  lx_tok n = TOK_IDENT -> lx_tok u = TOK_KEYWORD_IN -> P_xp 12 p q1 ts e -> P_body q1 q ts1 k0 l ->
  P_sp p q (t0 :: lp :: n :: u :: ts ++ rp :: ts1) k0 (SForIn false (lx_text n) e l).
Proof.
  intros Kt Kl Kr Kn Ku [_ He] Hb. split; [discriminate|]. intros s t k rest a b S A K P. ja A. aprev A. aprev A0. aprev A1. aprev A2.
  apply reach_parse. cbn [rule]. unfold parse_statement. tkr. rewrite Tk, Kt. tokc. apply reach_parse. cbn [rule]. unfold parse_for. expt A Kt. expt A0 Kl.
  assert (C : check_for_in s1 = OK true).
  { unfold check_for_in. tkr. rewrite Tk1, Kn. tokc. cbnb. tkr. rewrite Tk1, Kn. tokc. nx A1. tkr. rewrite Tk2, Ku. reflexivity. }
  rewrite C. cbnb. apply reach_parse. cbn [rule]. unfold parse_for_in. eb. tkr. rewrite Tk1, Kn. tokc. cbnb. unfold pok at 1; cbn [andthen bind]; change (E_OK =? E_OK) with true. cbv iota. eb.
  match goal with H : st ?s _ _ _ _ |- context [tok_text (p_t ?s)] => pose proof H as (E1 & _ & _); rewrite E1, Tx1 by (rewrite Kn; discriminate) end. eb.
  expt A1 Kn. expt A2 Ku.
  match goal with H : st ?s5 _ _ _ _ |- reach (fun f => x <- parse f NAssign ?s5 ;; @?k f x) _ => rename H into HH; eapply (reach_rec2 (fun f => parse f NAssign s5) k); [apply (He _ _ _ _ _ _ HH A3); [rewrite Pv2, Ku; split; [discriminate|reflexivity]|rk]|] end.
  intros s6' S6; cbv beta iota in *. pose proof (ahead_adv _ _ _ A3) as A4. destruct (ahead_next _ _ _ A4) as (_ & P4 & A5 & _).
  assert (Pk : prev_ok (t_prev (nxt (adv _ ts)))) by (rewrite P4, Kr; clear; split; [discriminate|reflexivity]).
  destruct (expect_st _ _ _ _ _ _ _ TOK_CLOSE_PAREN S6 A4 Kr) as (s7' & E7 & S7); rewrite E7; clear E7; cbnb; change (E_OK =? E_OK) with true; cbv iota.
  eapply reach_weaken; [exact (forin_body _ _ _ _ _ _ _ k rest _ _ Hb S7 A5 K Pk)|]. intros s' H'; cbv beta in *.
  eapply st_eq; [exact H'|tadv|cbn [cst]; unfold forincode; lapp|reflexivity|reflexivity].
Qed.
Lemma Ps_forlet p q q1 t0 lp lt n u ts rp ts1 k0 e l : lx_tok t0 = TOK_KEYWORD_FOR -> lx_tok lp = TOK_OPEN_PAREN -> lx_tok rp = TOK_CLOSE_PAREN ->
  lx_tok lt = TOK_KEYWORD_LET -> lx_tok n = TOK_IDENT -> lx_tok u = TOK_KEYWORD_IN -> P_xp 12 p q1 ts e -> P_body q1 q ts1 k0 l ->
  P_sp p q (t0 :: lp :: lt :: n :: u :: ts ++ rp :: ts1) k0 (SForIn true (lx_text n) e l).
Proof.
  intros Kt Kl Kr Kd Kn Ku [_ He] Hb. split; [discriminate|]. intros s t k rest a b S A K P. ja A. aprev A. aprev A0. aprev A1. aprev A2. aprev A3.
  apply reach_parse. cbn [rule]. unfold parse_statement. tkr. rewrite Tk, Kt. tokc. apply reach_parse. cbn [rule]. unfold parse_for. expt A Kt. expt A0 Kl.
  assert (C : check_for_in s1 = OK true).
  { unfold check_for_in. tkr. rewrite Tk1, Kd. tokc. nx A1. tkr. rewrite Tk2, Kn. tokc. nx A2. tkr. rewrite Tk3, Ku. reflexivity. }
  rewrite C. cbnb. apply reach_parse. cbn [rule]. unfold parse_for_in. eb. tkr. rewrite Tk1, Kd. tokc. expt A1 Kd. eb.
  match goal with H : st ?s _ _ _ _ |- context [tok_text (p_t ?s)] => pose proof H as (E1 & _ & _); rewrite E1, Tx2 by (rewrite Kn; discriminate) end. eb.
  cbn [e_bytes]. eb. eb. unfold pok at 1; cbn [andthen bind]; change (E_OK =? E_OK) with true. cbv iota. eb.
  match goal with H : st ?s _ _ _ _ |- context [tok_text (p_t ?s)] => pose proof H as (E2 & _ & _); rewrite E2, Tx2 by (rewrite Kn; discriminate) end. eb.
  expt A2 Kn. expt A3 Ku.
  match goal with H : st ?s5 _ _ _ _ |- reach (fun f => x <- parse f NAssign ?s5 ;; @?k f x) _ => rename H into HH; eapply (reach_rec2 (fun f => parse f NAssign s5) k); [apply (He _ _ _ _ _ _ HH A4); [rewrite Pv3, Ku; split; [discriminate|reflexivity]|rk]|] end.
  intros s6' S6; cbv beta iota in *. pose proof (ahead_adv _ _ _ A4) as A5. destruct (ahead_next _ _ _ A5) as (_ & P4 & A6 & _).
  assert (Pk : prev_ok (t_prev (nxt (adv _ ts)))) by (rewrite P4, Kr; clear; split; [discriminate|reflexivity]).
  destruct (expect_st _ _ _ _ _ _ _ TOK_CLOSE_PAREN S6 A5 Kr) as (s7' & E7 & S7); rewrite E7; clear E7; cbnb; change (E_OK =? E_OK) with true; cbv iota.
  eapply reach_weaken; [exact (forin_body _ _ _ _ _ _ _ k rest _ _ Hb S7 A6 K Pk)|]. intros s' H'; cbv beta in *.
  eapply st_eq; [exact H'|tadv|cbn [cst]; unfold forincode, declcode; lapp|reflexivity|reflexivity].
Qed.

(** ** Every phrase of the grammar *)
Lemma xstart_ne ts : In (hd_tok ts TOK_EOF) xstarts -> ts <> [].
Proof. intros H ->. vm_compute in H. intuition discriminate. Qed.
Theorem grammar_parsed :
  (forall c p q ts e, xp c p q ts e -> P_xp c p q ts e) /\
  (forall l p q acc ts e, more l p q acc ts e -> P_more l p q acc ts e) /\
  (forall r p q ts e, mem r p q ts e -> P_mem r p q ts e) /\
  (forall r p q ts e, prim r p q ts e -> P_prim r p q ts e) /\
  (forall r0 r p q acc ts e, tail r0 r p q acc ts e -> P_tail r0 r p q acc ts e) /\
  (forall p q ts l, args p q ts l -> P_args p q ts l) /\
  (forall p q ts l, props p q ts l -> P_props p q ts l) /\
  (forall p q ts l, commas p q ts l -> P_commas p q ts l /\ ts <> []) /\
  (forall p q ts l, lets p q ts l -> P_lets p q ts l) /\
  (forall p q ts e, init p q ts e -> P_init p q ts e) /\
  (forall p q ts k s, sp p q ts k s -> P_sp p q ts k s) /\
  (forall p q ts s, start p q ts s -> P_start p q ts s) /\
  (forall p q ts k l, body p q ts k l -> P_body p q ts k l) /\
  (forall et p q ts l, stmts et p q ts l -> P_stmts et p q ts l).
Proof.
  apply grammar_ind; intros.
  all: try solve [eauto using Px_mem, Px_post, Px_pre, Px_prefix, Px_level, Px_cond1, Px_cond, Px_assign1, Px_assign, Po_none, Po_one].
  all: try solve [eauto using Pm, Pp_const, Pp_var, Pp_this, Pp_paren, Pp_obj, Pp_arr, Pp_fun, Pt_none, Pt_dot, Pt_idx, Pt_call].
  all: try solve [eauto using Pa_nil, Pa_one, Pa_more, Pr_nil, Pr_one, Pr_more, Pl_one, Pl_more, Pi_none, Pi_some].
  all: try solve [eauto using Ps_empty, Ps_let, Ps_block, Ps_if, Ps_ifelse, Ps_while, Ps_for, Ps_forin, Ps_forlet, Ps_break, Ps_continue, Ps_return0, Ps_return].
  all: try solve [eauto using Pst_let, Pst_expr, Pb_list, Pb_one, Pss_nil, Pss_cons].
  - apply Px_up; auto.
  - refine (Px_short 9 p q q1 ts1 t ts2 a b OP_JMP_NEUTRAL_FALSE (XAnd a b) _ _ _ _ _ _ _ H2 H4 _); rewrite ?H; auto; try (vm_compute; intuition congruence); apply prev_lit; cbn [In]; tauto.
  - apply Px_up; auto.
  - refine (Px_short 10 p q q1 ts1 t ts2 a b OP_JMP_NEUTRAL_TRUE (XOr a b) _ _ _ _ _ _ _ H2 H4 _); rewrite ?H; auto; try (vm_compute; intuition congruence); apply prev_lit; cbn [In]; tauto.
  - split; [apply Pc_one; assumption|]. destruct H0. eapply xstart_ne; eassumption.
  - destruct H3. split; [eapply Pc_more; eassumption|]. destruct ts; discriminate.
  - destruct H0. apply Ps_exprs; assumption.
Qed.

(** * Programs *)
Lemma parse_program src ts l q a : c_text src -> source src ts -> stmts TOK_EOF 0 q ts l ->
  forall s, p_t s = pinit src -> cursor (p_g s) a [] -> p_depth s = 0 ->
  reach (fun f => parse f (NStmtList TOK_EOF) s) (fun s' => cursor (p_g s') (a ++ seqcode (map cst l)) []).
Proof.
  intros T Sr D s E1 C E2. destruct (source_ahead _ _ Sr (pinit src) T eq_refl) as (t1 & N1 & P1 & A1).
  assert (S : st s (pinit src) a [] 0) by (split; [exact E1|split; [exact C|exact E2]]).
  apply reach_parse. cbn [rule]. unfold parse_statement_list. eb.
  eapply reach_weaken; [apply (proj2 (proj2 (proj2 (proj2 (proj2 (proj2 (proj2 (proj2 (proj2 (proj2 (proj2 (proj2 (proj2 grammar_parsed)))))))))))) _ _ _ _ _ D (or_introl eq_refl) false _ _ _ _ _ _ H A1 eq_refl)|].
  - right. rewrite P1. split; [discriminate|reflexivity].
  - intros s' (_ & C' & _). exact C'.
Qed.
Lemma mjs_parse_program path src ts l q : c_text src -> source src ts -> stmts TOK_EOF 0 q ts l ->
  exists f a c tail, length a = 4%nat /\ length c = 4%nat /\
    forall f', (f <= f')%nat -> mjs_parse f' path src = OK (header path a (le32 (zlen path + 13)) c ++ seqcode (map cst l) ++ OP_EXIT :: tail, E_OK).
Proof.
  intros T Sr D. set (pre := OP_BCODE_HEADER :: repeat 0 12 ++ path ++ [0]).
  set (g := {| g_code := pre; g_cur := zlen pre; g_start := zlen pre; g_map := []; g_last := 1 |}).
  destruct (parse_program src ts l q pre T Sr D {| p_t := pinit src; p_g := g; p_depth := 0 |} eq_refl
    ltac:(split; [rewrite app_nil_r; reflexivity|reflexivity]) eq_refl) as (f & s & HR & C).
  assert (S : st s (p_t s) (pre ++ seqcode (map cst l)) [] (p_depth s)) by (split; [reflexivity|split; [exact C|reflexivity]]).
  destruct (e_byte_st _ _ _ _ _ OP_EXIT S ltac:(vm_compute; intuition congruence)) as (s1 & E1 & (_ & (C1 & _) & _)).
  rewrite app_nil_r in C1.
  set (m := g_map (p_g s1)) in *. set (all := g_code (p_g s1) ++ varint (zlen m) ++ m) in *.
  exists f, (le32 (zlen all - 1)), (le32 (zlen (g_code (p_g s1)) - 1)), (varint (zlen m) ++ m).
  split; [reflexivity|]. split; [reflexivity|]. intros f' Hf. unfold mjs_parse. fold pre. fold g. rewrite HR by exact Hf. cbn [bind].
  rewrite E1. cbn [bind]. cbv zeta. fold m. fold all. do 2 f_equal.
  assert (Lp : zlen pre - 1 = zlen path + 13).
  { unfold pre. rewrite zlen_cons, !zlen_app. change (zlen (repeat 0 12)) with 12. change (zlen [0]) with 1. lia. }
  rewrite Lp. replace all with ([OP_BCODE_HEADER] ++ repeat 0 12 ++ (path ++ [0] ++ seqcode (map cst l) ++ OP_EXIT :: varint (zlen m) ++ m)).
  2:{ unfold all. rewrite C1. unfold pre. cbn [app]. rewrite <- !app_assoc. reflexivity. }
  change 1 with (zlen [OP_BCODE_HEADER]) at 1. rewrite blit_app_mid by reflexivity.
  unfold header. cbn [app]. rewrite <- !app_assoc. reflexivity.
Qed.

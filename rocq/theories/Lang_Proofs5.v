(** The parser emits the code of the tree: functions and statements. *)
From Verif Require Import Base BaseFacts Value_Model Str_Model Str_Spec Ops_Model TokNum_Model Num_Model Txt_Model Tok_Spec Tok_Model
  Bcode_Model Bcode_Proofs Str_Proofs Parse_Model Parse_Proofs Expr_Spec Expr_Proofs Lit_Proofs Expr_Proofs1 Expr_Proofs2 Props_Str Str_Proofs3 Lang_Spec
  Lang_Proofs1 Lang_Proofs2 Lang_Proofs3 Lang_Proofs4.
Ltac Zify.zify_post_hook ::= Z.div_mod_to_equations.
Ltac ja A := repeat (cbn [app] in A; rewrite <- ?app_assoc in A).

Definition initcode (x : list Z) (e : option lx) : list Z :=
  match e with None => [OP_PUSH_UNDEF] | Some e => varcode x ++ cex e ++ [OP_EXPR; TOK_ASSIGN] end.
Definition letcode (p : list Z * option lx) : list Z := declcode (fst p) ++ initcode (fst p) (snd p).
Definition let_init (rec : nt -> ps -> pres) (name : list Z) (s : ps) : pres :=
  if tk s =? TOK_ASSIGN then
    s <- pnext1 s ;;
    s <- e_byte s OP_PUSH_STR ;; s <- e_str s name ;; s <- e_byte s OP_FIND_SCOPE ;;
    s <-- rec NAssign s ;;
    s <- emit_op s TOK_ASSIGN ;; pok s
  else s <- e_byte s OP_PUSH_UNDEF ;; pok s.
Definition body_part (rec : nt -> ps -> pres) (s : ps) : pres :=
  if tk s =? TOK_OPEN_CURLY then s <-- rec (NStmtList TOK_CLOSE_CURLY) s ;; s <- pnext1 s ;; pok s else rec NStmt s.

Definition P_commas (p q : Z) (ts : list tokn) (l : list lx) : Prop :=
  l <> [] /\ forall s t k rest a b, st s t a b p -> ahead t (ts ++ k :: rest) -> prev_ok (t_prev t) -> lrank (lx_tok k) = 13%nat -> lx_tok k <> TOK_COMMA ->
  gets NComma s t ts (a ++ seqcode (map cex l)) b q.
Definition P_init (p q : Z) (ts : list tokn) (e : option lx) : Prop :=
  forall x s t k rest a b, st s t a b p -> ahead t (ts ++ k :: rest) -> lrank (lx_tok k) = 13%nat ->
  reach (fun f => let_init (parse f) x s) (fun s' => st s' (adv t ts) (a ++ initcode x e) b q).
Definition P_lets (p q : Z) (ts : list tokn) (l : list (list Z * option lx)) : Prop :=
  l <> [] /\ hd_tok ts TOK_EOF = TOK_IDENT /\
  forall s t k rest a b, st s t a b p -> ahead t (ts ++ k :: rest) -> lx_tok k = TOK_SEMICOLON \/ lx_tok k = TOK_EOF ->
  gets NLetLoop s t ts (a ++ seqcode (map letcode l)) b q.
Definition P_sp (p q : Z) (ts : list tokn) (k0 : Z) (s0 : stmt) : Prop :=
  ts <> [] /\ forall s t k rest a b, st s t a b p -> ahead t (ts ++ k :: rest) -> lx_tok k = k0 -> prev_ok (t_prev t) ->
  gets NStmt s t ts (a ++ cst s0) b q.
Definition P_start (p q : Z) (ts : list tokn) (s0 : stmt) : Prop :=
  forall s t k rest a b, st s t a b p -> ahead t (ts ++ k :: rest) -> lx_tok k = TOK_SEMICOLON -> prev_ok (t_prev t) ->
  check_for_in s = OK false /\ gets (if tk s =? TOK_KEYWORD_LET then NLet else NAssign) s t ts (a ++ cst s0) b q.
Definition P_body (p q : Z) (ts : list tokn) (k0 : Z) (l : list stmt) : Prop :=
  forall s t k rest a b, st s t a b p -> ahead t (ts ++ k :: rest) -> lx_tok k = k0 -> prev_ok (t_prev t) ->
  reach (fun f => body_part (parse f) s) (fun s' => st s' (adv t ts) (a ++ seqcode (map cst l)) b q).
Definition P_stmts (et p q : Z) (ts : list tokn) (l : list stmt) : Prop :=
  et = TOK_EOF \/ et = TOK_CLOSE_CURLY ->
  forall drop s t k rest a b, st s t a b p -> ahead t (ts ++ k :: rest) -> lx_tok k = et -> (ts = [] \/ prev_ok (t_prev t)) ->
  gets (NStmts et drop) s t ts (a ++ (if drop then dropcode (map cst l) else seqcode (map cst l))) b q.

(** ** Functions *)
Lemma pars_parsed ts l : pars ts l -> forall n s t k rest a b d, st s t a b d -> ahead t (ts ++ k :: rest) -> lx_tok k = TOK_CLOSE_PAREN ->
  gets (NFunArgs n) s t ts (a ++ parcode n l) b d.
Proof.
  induction 1 as [|t0 K|t0 c ts l K Kc _ IH]; intros n s t k rest a b d S A Kk; apply reach_parse; cbn [rule]; unfold parse_fun_args; cbn [app] in A; aprev A; tkr; rewrite Tk.
  - rewrite Kk. tokc. fin S.
  - rewrite K. tokc. cbn [negb]. eb. eb. pose proof H0 as (E1 & _ & _). rewrite E1, Tx by (rewrite K; discriminate). eb.
    unfold ptest. pose proof H1 as (E2 & _ & _). destruct (ahead_next _ _ _ A) as (N & _). rewrite E2, N. cbnb.
    destruct (ahead_next _ _ _ A0) as (_ & _ & _ & Tk1 & _). rewrite Tk1, Kk. tokc. cbnb. nx A.
    apply reach_parse. cbn [rule]. unfold parse_fun_args. rewrite (st_tk _ _ _ _ _ H2), Tk1, Kk. tokc. fin H2. cbn [parcode]. lapp.
  - rewrite K. tokc. cbn [negb]. eb. eb. pose proof H0 as (E1 & _ & _). rewrite E1, Tx by (rewrite K; discriminate). eb.
    unfold ptest. pose proof H1 as (E2 & _ & _). destruct (ahead_next _ _ _ A) as (N & _). rewrite E2, N. cbnb.
    destruct (ahead_next _ _ _ A0) as (_ & _ & A2 & Tk1 & _). rewrite Tk1, Kc. tokc. cbnb. nx A. nx A0.
    eapply reach_weaken; [apply (IH _ _ _ _ _ _ _ _ H3 A2 Kk)|]. intros s' H'; cbv beta in *. eapply st_eq; [exact H'|reflexivity|cbn [parcode]; lapp|reflexivity|reflexivity].
Qed.
Lemma block_parsed mk p q lc ts rc l s t k rest a b : lx_tok lc = TOK_OPEN_CURLY -> lx_tok rc = TOK_CLOSE_CURLY -> p + 1 <= 512 ->
  P_stmts TOK_CLOSE_CURLY (p + 1) q ts l -> st s t a b p -> ahead t (lc :: ts ++ rc :: k :: rest) ->
  gets (NBlock mk) s t (lc :: ts ++ [rc]) (a ++ (if mk then [OP_NEW_SCOPE] else []) ++ seqcode (map cst l) ++ (if mk then [OP_DEL_SCOPE] else [])) b q.
Proof.
  intros Kl Kr D IH S A. aprev A. apply reach_parse. cbn [rule]. unfold parse_block. cbv zeta.
  pose proof S as (_ & _ & Dp). cbn [with_depth p_depth]. rewrite Dp, limit. replace (512 <? p + 1) with false by lia.
  pose proof (st_depth _ _ _ _ _ (p + 1) S) as S1.
  assert (X : exists s2, (if mk then e_byte (with_depth s (p + 1)) OP_NEW_SCOPE else OK (with_depth s (p + 1))) = OK s2 /\ st s2 t (a ++ (if mk then [OP_NEW_SCOPE] else [])) b (p + 1)).
  { destruct mk; [|eexists; split; [reflexivity|rewrite app_nil_r; exact S1]]. apply (e_byte_st _ _ _ _ _ OP_NEW_SCOPE S1). vm_compute. intuition congruence. }
  destruct X as (s2 & -> & S2). cbnb.
  eapply (reach_rec2 (fun f => parse f (NStmtList TOK_CLOSE_CURLY) s2) _ (fun s' => st s' (adv (nxt t) ts) ((a ++ (if mk then [OP_NEW_SCOPE] else [])) ++ seqcode (map cst l)) b q)).
  - apply reach_parse. cbn [rule]. unfold parse_statement_list. nx A.
    apply (IH (or_intror eq_refl) false _ _ _ _ _ _ H A0 Kr). right. pk Pv Kl.
  - intros s3 S3; cbv beta iota in *. pose proof (ahead_adv _ _ _ A0) as A1. expt A1 Kr.
    destruct mk; cbnb; [eb|]; cbnb.
    + fin H0.
    + apply reach_ok. eapply st_eq; [exact H|tadv|lapp|reflexivity|reflexivity].
Qed.
Lemma name_parsed fn name : fun_name fn name -> forall s t k rest a b d (K : ps -> bool -> nat -> pres) Q, st s t a b d -> ahead t (fn ++ k :: rest) -> lx_tok k = TOK_OPEN_PAREN ->
  (forall s', st s' (adv t fn) (a ++ match name with None => [] | Some f => declcode f ++ varcode f end) b d ->
     reach (fun f => K s' (match name with None => false | Some _ => true end) f) Q) ->
  reach (fun f =>
    let named := tk s =? TOK_IDENT in
    (s <- (if named then
          let name := tok_text (p_t s) in
          s <- e_byte s OP_PUSH_STR ;; s <- e_str s name ;;
          s <- e_bytes s [OP_PUSH_SCOPE; OP_CREATE; OP_PUSH_STR] ;; s <- e_str s name ;;
          s <- e_byte s OP_FIND_SCOPE ;; pnext1 s
        else OK s) ;; K s named f)) Q.
Proof.
  intros F s t k rest a b d K Q S A Kk HK. cbv zeta. destruct F as [|t0 Kt]; cbn [app] in A; aprev A; tkr; rewrite Tk.
  - rewrite Kk. tokc. cbnb. apply HK. rewrite app_nil_r. exact S.
  - rewrite Kt. tokc. pose proof S as (E1 & _ & _). rewrite E1, Tx by (rewrite Kt; discriminate). eb. eb. cbn [e_bytes]. eb. eb. eb. eb. eb. nx A.
    apply HK. eapply st_eq; [exact H6|reflexivity|unfold declcode, varcode; lapp|reflexivity|reflexivity].
Qed.
Lemma Pp_fun p q f fn name lp ps l rp lc ts b0 rc : lx_tok f = TOK_KEYWORD_FUNCTION -> fun_name fn name ->
  lx_tok lp = TOK_OPEN_PAREN -> pars ps l -> lx_tok rp = TOK_CLOSE_PAREN ->
  lx_tok lc = TOK_OPEN_CURLY -> lx_tok rc = TOK_CLOSE_CURLY -> p + 1 <= 512 -> P_stmts TOK_CLOSE_CURLY (p + 1) q ts b0 ->
  P_prim false p q (f :: fn ++ lp :: ps ++ rp :: lc :: ts ++ [rc]) (XFun name l b0).
Proof.
  intros Kf Fn Kl Ps Kr Kc Kd D IH. split; [|split].
  - cbn [hd_tok]. rewrite Kf. unfold prims. cbn [In]. tauto.
  - replace (f :: fn ++ lp :: ps ++ rp :: lc :: ts ++ [rc]) with ((f :: fn ++ lp :: ps ++ rp :: lc :: ts) ++ [rc]) by lapp. rewrite last_snoc, Kd. nst.
  - intros s t k rest a b S A P. ja A. aprev A.
    apply reach_parse. cbn [rule]. unfold parse_literal. tkr. rewrite Tk, Kf. tokc.
    eapply (reach_rec2 (fun f => parse f NFunction s) _ (fun s' => st s' (adv t (f :: fn ++ lp :: ps ++ rp :: lc :: ts ++ [rc])) (a ++ cex (XFun name l b0)) b q)).
    2:{ intros s1 S1; cbv beta iota in *. change (E_OK =? E_OK) with true. cbn [negb andb]. apply reach_ok. exact S1. }
    apply reach_parse. cbn [rule]. unfold parse_function. expt A Kf.
    eapply (name_parsed _ _ Fn s0 (nxt t) lp _ a b p (fun s named f =>
      (s <- e_byte s OP_JMP ;;
       '(s, off) <- emit_off s ;;
       let prologue := cur s in
       s <-- expect s TOK_OPEN_PAREN ;;
       s <- e_byte s OP_NEW_SCOPE ;;
       s <-- parse f (NFunArgs 0) s ;;
       s <-- expect s TOK_CLOSE_PAREN ;;
       s <-- parse f (NBlock false) s ;;
       s <- e_byte s OP_RETURN ;;
       '(s, d) <- ins s off (cur s - off - 1) ;;
       let prologue := prologue + d in
       s <- e_byte s OP_PUSH_FUNC ;;
       s <- e_int s (cur s - 1 - prologue) ;;
       s <- (if named then emit_op s TOK_ASSIGN else OK s) ;;
       pok s))); [exact H|exact A0|exact Kl|].
    intros s1 S1. pose proof (ahead_adv _ _ _ A0) as A1. destruct (ahead_next _ _ _ A1) as (_ & _ & A2 & _).
    set (pre := match name with None => [] | Some f => declcode f ++ varcode f end) in *.
    eb. eb. cbv zeta. rewrite (st_cur _ _ _ _ _ H1). expt A1 Kl. eb.
    eapply reach_rec; [apply (pars_parsed _ _ Ps _ _ _ _ _ _ _ _ H3 A2 Kr)|].
    intros s6 S6; cbv beta in *. pose proof (ahead_adv _ _ _ A2) as A3. expt A3 Kr. destruct (ahead_next _ _ _ A3) as (_ & _ & A4 & _).
    eapply reach_rec; [apply (block_parsed false _ _ _ _ _ _ _ _ k rest _ _ Kc Kd D IH H4); repeat (rewrite <- app_assoc; cbn [app]); exact A4|].
    intros s8 S8; cbv beta iota in *. eb.
    set (bk := bracket l (seqcode (map cst b0))).
    assert (S9 : st s9 (adv (nxt (adv (nxt (adv (nxt t) fn)) ps)) (lc :: ts ++ [rc])) ((a ++ pre ++ [OP_JMP]) ++ 0 :: bk) b q).
    { eapply st_eq; [exact H5|reflexivity|unfold bk, bracket; lapp|reflexivity|reflexivity]. }
    match goal with |- context [ins s9 ?o ?v] => destruct (ins_st _ _ _ _ _ _ _ o v S9) as (s10 & E10 & S10);
      [rewrite !zlen_app, ?zlen_cons; change (zlen []) with 0; lia|rewrite E10; cbnb; replace v with (zlen bk) in *
        by (rewrite (st_cur _ _ _ _ _ S9), !zlen_app, ?zlen_cons; change (zlen []) with 0; lia)] end.
    eb. rewrite (st_cur _ _ _ _ _ H6).
    match goal with |- context [e_int s11 ?v] => replace v with (zlen bk)
      by (rewrite !zlen_app, ?zlen_cons; change (zlen []) with 0; lia) end.
    eb. unfold pre in *. destruct name as [x|].
    + eop. fin H8. cbn [cex]. unfold funcode. fold bk. lapp.
    + cbnb. fin H7.
Qed.

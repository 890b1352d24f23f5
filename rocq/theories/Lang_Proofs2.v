(** The parser emits the code of the tree: expressions. *)
From Verif Require Import Base BaseFacts Value_Model Str_Model Str_Spec Ops_Model TokNum_Model Num_Model Txt_Model Tok_Spec Tok_Model
  Bcode_Model Bcode_Proofs Str_Proofs Parse_Model Parse_Proofs Expr_Spec Expr_Proofs Lit_Proofs Expr_Proofs1 Expr_Proofs2 Props_Str Str_Proofs3 Lang_Spec
  Lang_Proofs1.
Ltac Zify.zify_post_hook ::= Z.div_mod_to_equations.

Definition is_lhs (k : Z) : bool := findtok s_assign_ops k || findtok s_postfix_ops k.
(** An operand that is about to be assigned is left as a reference. *)
Definition cexk (r : bool) (e : lx) (k : Z) : list Z := if r && is_lhs k then cref e else cex e.
Definition mem_end (k : Z) : Prop := k <> TOK_OPEN_BRACKET /\ k <> TOK_OPEN_PAREN /\ k <> TOK_DOT.
Definition ntx (c : nat) : nt := match c with 12 => NAssign | _ => nt_of c end%nat.
Notation gets n s t ts a b q := (reach (fun f => parse f n s) (fun s' => st s' (adv t ts) a b q)).

Definition P_xp (c : nat) (p q : Z) (ts : list tokn) (e : lx) : Prop :=
  In (hd_tok ts TOK_EOF) xstarts /\
  forall s t k rest a b, st s t a b p -> ahead t (ts ++ k :: rest) -> prev_ok (t_prev t) -> (c < lrank (lx_tok k))%nat ->
  gets (ntx c) s t ts (a ++ cex e) b q.
Definition P_more (l : nat) (p q : Z) (acc : lx) (ts : list tokn) (e : lx) : Prop :=
  (1 <= l <= 8)%nat ->
  (ts = [] \/ exists t ts', ts = t :: ts' /\ lrank (lx_tok t) = l) /\
  forall s t k rest a b, st s t (a ++ cex acc) b p -> ahead t (ts ++ k :: rest) -> (l < lrank (lx_tok k))%nat ->
  reach (fun f => ltr_rest (parse f) (level_of l) s) (fun s' => st s' (adv t ts) (a ++ cex e) b q).
Definition P_mem (r : bool) (p q : Z) (ts : list tokn) (e : lx) : Prop :=
  In (hd_tok ts TOK_EOF) prims /\
  forall s t k rest a b, st s t a b p -> ahead t (ts ++ k :: rest) -> prev_ok (t_prev t) -> mem_end (lx_tok k) ->
  gets NMem s t ts (a ++ cexk r e (lx_tok k)) b q.
Definition P_prim (r : bool) (p q : Z) (ts : list tokn) (e : lx) : Prop :=
  In (hd_tok ts TOK_EOF) prims /\ ~ In (last_tok ts) inc_toks /\
  forall s t k rest a b, st s t a b p -> ahead t (ts ++ k :: rest) -> prev_ok (t_prev t) ->
  gets NLiteral s t ts (a ++ cexk r e (lx_tok k)) b q.
Definition P_tail (r0 r : bool) (p q : Z) (acc : lx) (ts : list tokn) (e : lx) : Prop :=
  forall s t k rest a b, st s t (a ++ cexk r0 acc (hd_tok ts (lx_tok k))) b p -> ahead t (ts ++ k :: rest) -> ~ In (t_prev t) inc_toks ->
  mem_end (lx_tok k) -> gets NMemLoop s t ts (a ++ cexk r e (lx_tok k)) b q.
Definition P_args (p q : Z) (ts : list tokn) (l : list lx) : Prop :=
  forall s t k rest a b, st s t a b p -> ahead t (ts ++ k :: rest) -> (ts = [] \/ prev_ok (t_prev t)) ->
  (lx_tok k = TOK_CLOSE_PAREN -> gets NArgsLoop s t ts (a ++ flat_map cex l) b q) /\
  (lx_tok k = TOK_CLOSE_BRACKET -> gets NArrLoop s t ts (a ++ flat_map (fun e => OP_DUP :: cex e ++ [OP_APPEND]) l) b q).
Definition P_props (p q : Z) (ts : list tokn) (l : list (list Z * lx)) : Prop :=
  forall s t k rest a b, st s t a b p -> ahead t (ts ++ k :: rest) -> lx_tok k = TOK_CLOSE_CURLY ->
  gets NObjLoop s t ts (a ++ flat_map (fun p => OP_DUP :: OP_PUSH_STR :: strb (fst p) ++ OP_SWAP :: cex (snd p) ++ [OP_EXPR; TOK_ASSIGN; OP_DROP]) l) b q.

(** Tactics: consume a token; expect a token. *)
Ltac aprev A := let P := fresh "Pv" in let A' := fresh "A" in let T := fresh "Tk" in let X := fresh "Tx" in
  destruct (ahead_next _ _ _ A) as (_ & P & A' & T & X).
Ltac nx A := match goal with
  | H : st ?s ?t ?a ?b ?d |- context [pnext1 ?s] =>
    let s' := fresh "s" in let E := fresh "E" in let H' := fresh "H" in
    destruct (next_st s t a b d _ _ H A) as (s' & E & H'); rewrite E; clear E; cbnb
  end.
Ltac expt A K := match goal with
  | H : st ?s ?t ?a ?b ?d |- context [expect ?s ?x] =>
    let s' := fresh "s" in let E := fresh "E" in let H' := fresh "H" in
    destruct (expect_st s t a b d _ _ x H A K) as (s' & E & H'); rewrite E; clear E; cbnb; change (E_OK =? E_OK) with true; cbv iota
  end.
Ltac eop := match goal with
  | H : st ?s ?t ?a ?b ?d |- context [emit_op ?s ?x] =>
    let s' := fresh "s" in let E := fresh "E" in let H' := fresh "H" in
    destruct (emit_op_st s t a b d x H ltac:(first [assumption | vm_compute; intuition congruence])) as (s' & E & H'); rewrite E; clear E; cbnb
  end.
Ltac ebs n := cbn [e_bytes]; do n eb.
Ltac lapp := repeat (rewrite <- ?app_assoc, ?app_nil_r; cbn [app flat_map fst snd]); try reflexivity.
Ltac tadv := repeat (rewrite ?adv_app; cbn [adv]); try reflexivity.
Ltac fin H := apply reach_ok; eapply st_eq; [exact H | tadv | lapp | try reflexivity | try lia].

Lemma prev_lit z : In z [TOK_OPEN_PAREN; TOK_COMMA; TOK_OPEN_BRACKET; TOK_COLON; TOK_QUESTION; TOK_LOGICAL_AND; TOK_LOGICAL_OR; TOK_SEMICOLON; TOK_OPEN_CURLY; TOK_CLOSE_CURLY;
  TOK_CLOSE_PAREN; TOK_KEYWORD_ELSE; TOK_KEYWORD_RETURN; TOK_EOF; TOK_IDENT] -> prev_ok z.
Proof. intros H. in_cases H; (split; [discriminate|reflexivity]). Qed.
Lemma prev_assign z : In z assign_toks -> prev_ok z.
Proof. intros H. unfold assign_toks in H. in_cases H; (split; [discriminate|reflexivity]). Qed.
Lemma prim_unary k : In k prims -> findtok s_unary_ops k = false.
Proof. intros H. unfold prims in H. in_cases H; reflexivity. Qed.
Lemma not_inc z : ~ In z inc_toks -> findtok s_postfix_ops z = false.
Proof. intros H. apply findtok_out. exact H. Qed.
Lemma cexk_plain r e k : (0 < lrank k)%nat -> cexk r e k = cex e.
Proof. intros H. unfold cexk, is_lhs. destruct (lrank_mem k H) as (-> & -> & _). rewrite andb_false_r. reflexivity. Qed.
Lemma mem_end_rank k : (0 < lrank k)%nat -> mem_end k.
Proof. intros H. destruct (lrank_mem k H) as (_ & _ & A & B & C & _). repeat split; lia. Qed.
Lemma mem_end_lhs k : is_lhs k = true -> mem_end k.
Proof.
  unfold is_lhs. intros H. apply orb_true_iff in H. rewrite !findtok_in in H. unfold s_assign_ops, s_postfix_ops in H.
  destruct H as [H|H]; in_cases H; repeat split; discriminate.
Qed.
Lemma wants_get_eq nx pv : ~ In pv inc_toks -> wants_get nx pv = negb (is_lhs nx).
Proof.
  intros H. unfold wants_get, is_lhs. rewrite (not_inc _ H), negb_orb. cbn [negb]. rewrite andb_true_r. reflexivity.
Qed.

(** ** Operands *)
Lemma leaf_const t e : leaf t e -> lx_tok t <> TOK_IDENT -> In (lx_tok t) [TOK_NUM; TOK_STR; TOK_KEYWORD_TRUE; TOK_KEYWORD_FALSE; TOK_KEYWORD_NULL; TOK_KEYWORD_UNDEFINED].
Proof. intros L N. destruct L as [? ? ? K|? ? ? ? ? K|? ? K|? K|? K|? K|? K|? K]; rewrite K in *; try contradiction; cbn [In]; tauto. Qed.
Lemma no_inc_in (l : list Z) z : In z l -> forallb (fun z => negb (findtok inc_toks z)) l = true -> ~ In z inc_toks.
Proof.
  intros I F J. rewrite forallb_forall in F. specialize (F z I). apply negb_true_iff in F. apply findtok_out in F. contradiction.
Qed.
Lemma Pp_const p t e : leaf t e -> lx_tok t <> TOK_IDENT -> P_prim false p p [t] (XConst e).
Proof.
  intros L NI. pose proof (leaf_const _ _ L NI) as LI. split; [|split].
  - cbn [hd_tok]. revert LI. generalize (lx_tok t). intros z LI. in_cases LI; vm_compute; tauto.
  - unfold last_tok. cbn [rev app]. exact (no_inc_in _ _ LI eq_refl).
  - intros s tt k rest a b S A P. cbn [app] in A. destruct (ahead_next _ _ _ A) as (N1 & P1 & A1 & Tk & Tx).
    cbn [ahead] in A. destruct A as (Sh & _).
    assert (NE : lx_tok t <> TOK_EOF) by (intros E; rewrite E in LI; vm_compute in LI; intuition discriminate).
    destruct Sh as (_ & Sh). destruct (Sh NE) as (Tl & q & Tp & Tn). pose proof (Tx NE) as TT.
    cbn [adv]. unfold cexk. cbn [andb]. change (cex (XConst e)) with (comp e).
    apply reach_parse. cbn [rule]. unfold parse_literal. tkr. rewrite Tk.
    assert (Fin : forall s' a', st s' tt a' b p -> a' = a ++ comp e -> exists s2, pnext1 s' = OK s2 /\ st s2 (nxt tt) (a ++ comp e) b p).
    { intros s' a' S' ->. exact (pnext1_st _ _ _ _ _ _ S' N1). }
    inversion L as [t0 pp n K D W V|t0 pp sg mm ee K D W NW|t0 ls K F X|t0 K|t0 K|t0 K|t0 K|t0 K]; subst t0 e; rewrite K; cbn [Z.eqb].
    + tokc.
      destruct S as (E1 & C & E2). assert (S : st s tt a b p) by (split; [exact E1|split; [exact C|exact E2]]).
      rewrite E1, Tp, (num_literal_lit _ _ q D (Tn K)). cbnb.
      pose proof (whole_nonneg _ _ _ D W) as V0.
      destruct (whole_int _ _ W ltac:(lia)) as [Wh I]. rewrite Wh. eb. rewrite I. cbnb. eb.
      unfold pok. cbnb. change (E_OK =? E_OK) with true. cbn [negb andb].
      destruct (Fin _ _ H0) as (s2 & E & DD); [cbn [comp]; rewrite <- app_assoc; reflexivity|]. rewrite E. cbnb. apply reach_ok. exact DD.
    + tokc.
      destruct S as (E1 & C & E2). assert (S : st s tt a b p) by (split; [exact E1|split; [exact C|exact E2]]).
      rewrite E1, Tp, (num_literal_lit _ _ q D (Tn K)). cbnb. rewrite (not_whole _ _ _ _ W NW). eb.
      pose proof H as (E1' & _ & _). rewrite E1', TT. eb.
      unfold pok. cbnb. change (E_OK =? E_OK) with true. cbn [negb andb].
      destruct (Fin _ _ H0) as (s2 & E & DD); [cbn [comp]; rewrite <- app_assoc; reflexivity|]. rewrite E. cbnb. apply reach_ok. exact DD.
    + tokc. eb.
      destruct H as (E1 & C & E2). rewrite E1, Tp, Tl, X, <- app_assoc.
      rewrite (unescape_str_lits ls _ F). cbnb.
      destruct (put_cursor _ _ _ (strb (lits_val ls)) C) as (g & E & Cg). fold (strb (lits_val ls)). rewrite E. cbnb.
      unfold pok. cbnb. change (E_OK =? E_OK) with true. cbn [negb andb].
      destruct (Fin (with_g s0 g) ((a ++ [OP_PUSH_STR]) ++ strb (lits_val ls))) as (s2 & E' & DD);
        [split; [exact E1|split; [exact Cg|exact E2]]|cbn [comp]; rewrite <- app_assoc; reflexivity|]. rewrite E'. cbnb. apply reach_ok. exact DD.
    + tokc. eb. unfold pok. cbnb. change (E_OK =? E_OK) with true. cbn [negb andb].
      destruct (Fin _ _ H) as (s2 & E & DD); [reflexivity|]. rewrite E. cbnb. apply reach_ok. exact DD.
    + tokc. eb. unfold pok. cbnb. change (E_OK =? E_OK) with true. cbn [negb andb].
      destruct (Fin _ _ H) as (s2 & E & DD); [reflexivity|]. rewrite E. cbnb. apply reach_ok. exact DD.
    + tokc. eb. unfold pok. cbnb. change (E_OK =? E_OK) with true. cbn [negb andb].
      destruct (Fin _ _ H) as (s2 & E & DD); [reflexivity|]. rewrite E. cbnb. apply reach_ok. exact DD.
    + tokc. eb. unfold pok. cbnb. change (E_OK =? E_OK) with true. cbn [negb andb].
      destruct (Fin _ _ H) as (s2 & E & DD); [reflexivity|]. rewrite E. cbnb. apply reach_ok. exact DD.
    + contradiction.
Qed.
(** A name: after a dot it is a property, otherwise a variable. *)
Lemma ident_parsed s t u k rest a b d : st s t a b d -> ahead t (u :: k :: rest) -> lx_tok u = TOK_IDENT -> ~ In (t_prev t) inc_toks ->
  gets NLiteral s t [u] (a ++ OP_PUSH_STR :: strb (lx_text u) ++ (if t_prev t =? TOK_DOT then OP_SWAP else OP_FIND_SCOPE) ::
    (if is_lhs (lx_tok k) then [] else [OP_GET])) b d.
Proof.
  intros S A K P. destruct (ahead_next _ _ _ A) as (N1 & P1 & A1 & Tk & Tx). pose proof (Tx ltac:(rewrite K; discriminate)) as TT.
  destruct (ahead_next _ _ _ A1) as (_ & _ & _ & Tk1 & _).
  apply reach_parse. cbn [rule]. unfold parse_literal. tkr. rewrite Tk, K. tokc. unfold ptest. pose proof S as (E1 & _ & _). rewrite E1, N1. cbnb. eb.
  pose proof H as (E1' & _ & _). rewrite E1', TT. eb.
  destruct (e_byte_st _ _ _ _ _ (if t_prev t =? TOK_DOT then OP_SWAP else OP_FIND_SCOPE) H0) as (s2 & E2 & S2).
  { destruct (t_prev t =? TOK_DOT); vm_compute; intuition congruence. }
  rewrite E2. cbnb. rewrite (wants_get_eq _ _ P), Tk1.
  destruct (is_lhs (lx_tok k)); cbn [negb].
  - unfold pok. cbnb. change (E_OK =? E_OK) with true. cbn [negb andb]. eb. fin H1.
  - eb. unfold pok. cbnb. change (E_OK =? E_OK) with true. cbn [negb andb]. eb. fin H2.
Qed.
Lemma prev_ok_inc z : prev_ok z -> ~ In z inc_toks.
Proof. intros [_ H]. apply findtok_out in H. exact H. Qed.
Lemma Pp_var p t : lx_tok t = TOK_IDENT -> P_prim true p p [t] (XVar (lx_text t)).
Proof.
  intros K. split; [|split].
  - cbn [hd_tok]. rewrite K. unfold prims. cbn [In]. tauto.
  - unfold last_tok. cbn [rev app]. rewrite K. cbn. intuition discriminate.
  - intros s tt k rest a b S A P. eapply reach_weaken; [apply (ident_parsed _ _ _ _ _ _ _ _ S A K (prev_ok_inc _ P))|].
    intros s' H. eapply st_eq; [exact H|reflexivity| |reflexivity|reflexivity]. destruct P as [Pd _].
    destruct (t_prev tt =? TOK_DOT) eqn:E; [lia|]. unfold cexk, cref. cbn [andb cex refcode]. unfold varcode.
    destruct (is_lhs (lx_tok k)); lapp.
Qed.
Lemma Pp_this p t : lx_tok t = TOK_KEYWORD_THIS -> P_prim false p p [t] XThis.
Proof.
  intros K. split; [|split].
  - cbn [hd_tok]. rewrite K. unfold prims. cbn [In]. tauto.
  - unfold last_tok. cbn [rev app]. rewrite K. cbn. intuition discriminate.
  - intros s tt k rest a b S A P. destruct (ahead_next _ _ _ A) as (N1 & P1 & A1 & Tk & Tx).
    apply reach_parse. cbn [rule]. unfold parse_literal. tkr. rewrite Tk, K. tokc. eb. unfold pok. cbnb. change (E_OK =? E_OK) with true. cbn [negb andb]. eb. fin H0.
Qed.
Lemma last_snoc ts k : last_tok (ts ++ [k]) = lx_tok k.
Proof. rewrite last_tok_app by discriminate. reflexivity. Qed.
Lemma Pp_paren p q lp ts rp e : lx_tok lp = TOK_OPEN_PAREN -> lx_tok rp = TOK_CLOSE_PAREN -> P_xp 12 p q ts e -> P_prim false p q (lp :: ts ++ [rp]) e.
Proof.
  intros Kl Kr [_ IH]. split; [|split].
  - cbn [hd_tok]. rewrite Kl. unfold prims. cbn [In]. tauto.
  - change (lp :: ts ++ [rp]) with ((lp :: ts) ++ [rp]). rewrite last_snoc, Kr. cbn. intuition discriminate.
  - intros s t k rest a b S A P. cbn [app] in A. rewrite <- app_assoc in A. cbn [app] in A. aprev A.
    apply reach_parse. cbn [rule]. unfold parse_literal. tkr. rewrite Tk, Kl. tokc. nx A.
    pose proof (IH s0 (nxt t) rp (k :: rest) a b H A0 ltac:(rewrite Pv, Kl; apply prev_lit; cbn [In]; tauto) ltac:(rewrite Kr; apply Nat.leb_le; vm_compute; reflexivity)) as (f & s' & HR & S2).
    pose proof (ahead_adv _ _ _ A0) as A2. destruct (ahead_next _ _ _ A2) as (_ & _ & _ & Tk2 & _).
    destruct (next_st _ _ _ _ _ _ _ S2 A2) as (s3 & E3 & S3).
    exists f, s3. split; [|eapply st_eq; [exact S3|tadv|reflexivity|reflexivity|reflexivity]].
    intros f' Hf. change (parse f' NAssign s0) with (parse f' (ntx 12) s0). rewrite HR by lia. cbnb.
    rewrite (st_tk _ _ _ _ _ S2), Tk2, Kr. tokc. cbn [negb andb bind]. rewrite (st_tk _ _ _ _ _ S2), Tk2, Kr. tokc. rewrite E3. reflexivity.
Qed.

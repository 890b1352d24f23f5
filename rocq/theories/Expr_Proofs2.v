From Verif Require Import Base BaseFacts Value_Model Str_Model Str_Spec Ops_Model TokNum_Model Num_Model Txt_Model Tok_Spec Tok_Model
  Bcode_Model Bcode_Proofs Str_Proofs Parse_Model Parse_Proofs Expr_Spec Expr_Proofs Lit_Proofs Expr_Proofs1 Props_Str Str_Proofs3.
Ltac Zify.zify_post_hook ::= Z.div_mod_to_equations.

Definition prev_ok (z : Z) : Prop := z <> TOK_DOT /\ findtok s_postfix_ops z = false.
(** After the expression: the code is appended, the tokens are consumed. *)
Definition done (a b : list Z) (dp : Z) (k : tokn) (rest : list tokn) (s : ps) : Prop :=
  exists t, st s t a b dp /\ ahead t (k :: rest).
Definition parsed (c : nat) (d : nat) (ts : list tokn) (e : expr) : Prop :=
  forall s t k rest a b dp, st s t a b dp -> ahead t (ts ++ k :: rest) -> prev_ok (t_prev t) ->
  (c < rank (lx_tok k))%nat -> dp + Z.of_nat d <= DEPTH_LIMIT ->
  reach (fun f => parse f (nt_of c) s) (done (a ++ comp e) b dp k rest).

(** The part of parse_ltr after the first operand. *)
Definition ltr_rest (rec : nt -> ps -> pres) (l : level) (s : ps) : pres :=
  if findtok (ops_of l) (tk s) then
    match short_op l with
    | Some j =>
      s <- e_byte s j ;; '(s, off) <- emit_off s ;; s <- e_byte s OP_DROP ;;
      s <- pnext1 s ;;
      s <-- rec (NBin l TOK_EOF) s ;;
      '(s, _) <- ins s off (cur s - off - 1) ;; pok s
    | None => s' <- pnext1 s ;; rec (NBin l (tk s)) s'
    end
  else pok s.
Lemma parse_ltr_eq rec l prev s : parse_ltr rec l prev s =
  undepth (if DEPTH_LIMIT <? p_depth s + 1 then syntax_error (with_depth s (p_depth s + 1))
           else s <-- rec (lower l) (with_depth s (p_depth s + 1)) ;; s <- opt_op s prev ;; ltr_rest rec l s).
Proof. reflexivity. Qed.
Definition continued (l d : nat) (acc : expr) (ts : list tokn) (e : expr) : Prop :=
  (1 <= l <= 8)%nat ->
  (ts = [] \/ exists t ts', ts = t :: ts' /\ rank (lx_tok t) = l) /\
  forall s t k rest a b dp, st s t (a ++ comp acc) b dp -> ahead t (ts ++ k :: rest) ->
  (l < rank (lx_tok k))%nat -> dp + Z.of_nat d <= DEPTH_LIMIT ->
  reach (fun f => ltr_rest (parse f) (level_of l) s) (done (a ++ comp e) b dp k rest).

Lemma ahead_tok t k ts : ahead t (k :: ts) -> t_tok t = lx_tok k.
Proof. intros [[E _] _]. exact E. Qed.
Lemma st_depth s t a b dp d : st s t a b dp -> st (with_depth s d) t a b d.
Proof. intros (E1 & C & _). split; [exact E1|]. split; [exact C|reflexivity]. Qed.
Lemma done_undepth a b dp k rest s : done a b (dp + 1) k rest s -> done a b dp k rest (with_depth s (p_depth s - 1)).
Proof.
  intros (t & S & A). exists t. split; [|exact A]. pose proof (st_depth _ _ _ _ _ (p_depth s - 1) S) as S'.
  destruct S as (_ & _ & D). rewrite D in *. replace (dp + 1 - 1) with dp in * by lia. exact S'.
Qed.
Lemma done_app a1 a2 b dp k rest s : a1 = a2 -> done a1 b dp k rest s -> done a2 b dp k rest s.
Proof. intros ->. auto. Qed.

(** Emitting steps in goals of the form [reach (fun f => ...) Q]. *)
Ltac cbnb := cbn [bind andthen fst snd].
Ltac eb := match goal with
  | H : st ?s ?t ?a ?b ?d |- context [e_byte ?s ?x] =>
    let s' := fresh "s" in let E := fresh "E" in let H' := fresh "H" in
    destruct (e_byte_st s t a b d x H ltac:(vm_compute; intuition congruence)) as (s' & E & H'); rewrite E; clear E; cbnb
  | H : st ?s ?t ?a ?b ?d |- context [e_int ?s ?x] =>
    let s' := fresh "s" in let E := fresh "E" in let H' := fresh "H" in
    destruct (e_int_st s t a b d x H) as (s' & E & H'); rewrite E; clear E; cbnb
  | H : st ?s ?t ?a ?b ?d |- context [e_str ?s ?x] =>
    let s' := fresh "s" in let E := fresh "E" in let H' := fresh "H" in
    destruct (e_str_st s t a b d x H) as (s' & E & H'); rewrite E; clear E; cbnb
  | H : st ?s ?t ?a ?b ?d |- context [emit_off ?s] =>
    let s' := fresh "s" in let E := fresh "E" in let H' := fresh "H" in
    destruct (emit_off_st s t a b d H) as (s' & E & H'); rewrite E; clear E; cbnb
  | H : st ?s ?t ?a ?b ?d, N : pnext ?t = OK ?t' |- context [pnext1 ?s] =>
    let s' := fresh "s" in let E := fresh "E" in let H' := fresh "H" in
    destruct (pnext1_st s t t' a b d H N) as (s' & E & H'); rewrite E; clear E; cbnb
  end.
Ltac tkr := match goal with H : st ?s ?t ?a ?b ?d |- context [tk ?s] => rewrite (st_tk s t a b d H) end.

Ltac tokc := repeat match goal with |- context [?a =? ?b] =>
    let v := eval vm_compute in (a =? b) in
    lazymatch v with true => change (a =? b) with true | false => change (a =? b) with false end end; cbv iota.

(** ** After a literal: no call, no member access, no postfix operator *)
Lemma literal_to_postfix s Q : reach (fun f => parse f NLiteral s) Q ->
  (forall s', Q s' -> exists k, tk s' = k /\ (0 < rank k)%nat) -> reach (fun f => parse f NPostfix s) Q.
Proof.
  intros R HQ. apply reach_parse. cbn [rule]. unfold parse_postfix.
  apply (reach_rec (fun f => parse f NMem s) _ Q).
  - apply reach_parse. cbn [rule]. unfold parse_call_dot_mem. eapply reach_rec; [exact R|].
    intros s' H. destruct (HQ s' H) as (k & E & K). destruct (rank_plain k K) as (_ & _ & F1 & F2 & F3 & _).
    apply reach_parse. cbn [rule]. unfold parse_mem_loop. rewrite E, F1, F2, F3. apply reach_ok. exact H.
  - intros s' H. destruct (HQ s' H) as (k & E & K). destruct (rank_plain k K) as (_ & _ & _ & _ & _ & F1 & F2).
    rewrite E, F1, F2. apply reach_ok. exact H.
Qed.
Lemma postfix_to_unary s Q : findtok s_unary_ops (tk s) = false -> reach (fun f => parse f NPostfix s) Q ->
  reach (fun f => parse f NUnary s) Q.
Proof.
  intros F R. apply reach_parse. cbn [rule]. unfold parse_unary. rewrite F. cbn [bind]. rewrite F.
  eapply reach_rec; [exact R|]. intros s' H. cbn [bind]. apply reach_ok. exact H.
Qed.
Lemma unary_to_postfix s Q : findtok s_unary_ops (tk s) = false -> reach (fun f => parse f NUnary s) Q ->
  reach (fun f => parse f NPostfix s) Q.
Proof.
  intros F R. apply reach_inv in R. cbn [rule] in R. unfold parse_unary in R. rewrite F in R. cbn [bind] in R. rewrite F in R.
  destruct R as (f & s' & H & HQ). exists f, s'. split; [|exact HQ]. intros f' Hf. specialize (H f' Hf).
  destruct (parse f' NPostfix s) as [[s1 e1]| | |]; cbn [andthen] in H; try discriminate H.
  destruct (e1 =? E_OK) eqn:E; cbn [bind] in H; [|exact H]. rewrite (proj1 (Z.eqb_eq _ _) E). exact H.
Qed.
Lemma done_rank a b dp k rest s : done a b dp k rest s -> (0 < rank (lx_tok k))%nat -> exists k', tk s = k' /\ (0 < rank k')%nat.
Proof. intros (t & S & A) R. rewrite (st_tk _ _ _ _ _ S), (ahead_tok _ _ _ A). eauto. Qed.

(** ** Literals and variables *)
Lemma parsed_leaf d k0 e : leaf k0 e -> parsed 0 d [k0] e.
Proof.
  intros L s t k rest a b dp S A P R _. cbn [app ahead] in A. destruct A as (Sh & t1 & N1 & P1 & A1).
  assert (NE : lx_tok k0 <> TOK_EOF) by (destruct L as [? ? ? K|? ? ? ? ? K|? ? K|? K|? K|? K|? K|? K]; rewrite K; discriminate).
  pose proof (shows_text _ _ Sh NE) as TT. destruct Sh as (Tk & Sh). destruct (Sh NE) as (Tl & q & Tp & Tn).
  pose proof (ahead_tok _ _ _ A1) as K1.
  assert (G : reach (fun f => parse f NLiteral s) (done (a ++ comp e) b dp k rest)).
  { apply reach_parse. cbn [rule]. unfold parse_literal. tkr. rewrite Tk.
    assert (Fin : forall s' a', st s' t a' b dp -> a' = a ++ comp e -> exists s2, pnext1 s' = OK s2 /\ done (a ++ comp e) b dp k rest s2).
    { intros s' a' S' ->. destruct (pnext1_st _ _ _ _ _ _ S' N1) as (s2 & E & S2). exists s2. split; [exact E|]. exists t1. split; [exact S2|exact A1]. }
    inversion L as [t0 p n K D W V|t0 p sg mm ee K D W NW|t0 ls K F X|t0 K|t0 K|t0 K|t0 K|t0 K]; subst t0 e; rewrite K; cbn [Z.eqb].
    - tokc.
      destruct S as (E1 & C & E2). assert (S : st s t a b dp) by (split; [exact E1|split; [exact C|exact E2]]).
      rewrite E1, Tp, (num_literal_lit _ _ q D (Tn K)). cbnb.
      pose proof (whole_nonneg _ _ _ D W) as V0.
      destruct (whole_int _ _ W ltac:(lia)) as [Wh I]. rewrite Wh. eb. rewrite I. cbnb. eb.
      unfold pok. cbnb. change (E_OK =? E_OK) with true. cbn [negb andb].
      destruct (Fin _ _ H0) as (s2 & E & DD); [cbn [comp]; rewrite <- app_assoc; reflexivity|]. rewrite E. cbnb. apply reach_ok. exact DD.
    - tokc.
      destruct S as (E1 & C & E2). assert (S : st s t a b dp) by (split; [exact E1|split; [exact C|exact E2]]).
      rewrite E1, Tp, (num_literal_lit _ _ q D (Tn K)). cbnb. rewrite (not_whole _ _ _ _ W NW). eb.
      pose proof H as (E1' & _ & _). rewrite E1', TT. eb.
      unfold pok. cbnb. change (E_OK =? E_OK) with true. cbn [negb andb].
      destruct (Fin _ _ H0) as (s2 & E & DD); [cbn [comp]; rewrite <- app_assoc; reflexivity|]. rewrite E. cbnb. apply reach_ok. exact DD.
    - tokc. eb.
      destruct H as (E1 & C & E2). rewrite E1, Tp, Tl, X, <- app_assoc.
      rewrite (unescape_str_lits ls _ F). cbnb.
      destruct (put_cursor _ _ _ (strb (lits_val ls)) C) as (g & E & Cg). fold (strb (lits_val ls)). rewrite E. cbnb.
      unfold pok. cbnb. change (E_OK =? E_OK) with true. cbn [negb andb].
      destruct (Fin (with_g s0 g) ((a ++ [OP_PUSH_STR]) ++ strb (lits_val ls))) as (s2 & E' & DD);
        [split; [exact E1|split; [exact Cg|exact E2]]|cbn [comp]; rewrite <- app_assoc; reflexivity|]. rewrite E'. cbnb. apply reach_ok. exact DD.
    - tokc. eb.
      unfold pok. cbnb. change (E_OK =? E_OK) with true. cbn [negb andb].
      destruct (Fin _ _ H) as (s2 & E & DD); [reflexivity|]. rewrite E. cbnb. apply reach_ok. exact DD.
    - tokc. eb.
      unfold pok. cbnb. change (E_OK =? E_OK) with true. cbn [negb andb].
      destruct (Fin _ _ H) as (s2 & E & DD); [reflexivity|]. rewrite E. cbnb. apply reach_ok. exact DD.
    - tokc. eb.
      unfold pok. cbnb. change (E_OK =? E_OK) with true. cbn [negb andb].
      destruct (Fin _ _ H) as (s2 & E & DD); [reflexivity|]. rewrite E. cbnb. apply reach_ok. exact DD.
    - tokc. eb.
      unfold pok. cbnb. change (E_OK =? E_OK) with true. cbn [negb andb].
      destruct (Fin _ _ H) as (s2 & E & DD); [reflexivity|]. rewrite E. cbnb. apply reach_ok. exact DD.
    - tokc.
      unfold ptest. pose proof S as (E1 & _ & _). rewrite E1, N1. cbnb. eb.
      pose proof H as (E1' & _ & _). rewrite E1', TT. eb.
      destruct P as [Pd Pp]. destruct (t_prev t =? TOK_DOT) eqn:Ed; [apply Z.eqb_eq in Ed; contradiction|]. eb.
      unfold wants_get. rewrite K1. destruct (rank_plain _ R) as (F1 & F2 & _). rewrite F1, F2, Pp. cbn [negb andb]. eb.
      unfold pok. cbnb. change (E_OK =? E_OK) with true. cbn [negb andb].
      destruct (Fin _ _ H2) as (s2' & E & DD); [cbn [comp]; unfold var_bytes; rewrite <- !app_assoc; reflexivity|]. rewrite E. cbnb. apply reach_ok. exact DD. }
  cbn [nt_of]. apply postfix_to_unary.
  - tkr. rewrite Tk. inversion L; subst; match goal with H : lx_tok k0 = _ |- _ => rewrite H end; reflexivity.
  - apply literal_to_postfix; [exact G|]. intros s' DD. exact (done_rank _ _ _ _ _ _ DD R).
Qed.

(** ** Parentheses *)
Lemma assign_of_ternary s Q : reach (fun f => parse f (NTernary TOK_EOF) s) Q ->
  (forall s', Q s' -> exists k, tk s' = k /\ (0 < rank k)%nat) -> reach (fun f => parse f NAssign s) Q.
Proof.
  intros R HQ. apply reach_parse. cbn [rule]. unfold parse_assignment. eapply reach_rec; [exact R|].
  intros s' H. destruct (HQ s' H) as (k & E & K). destruct (rank_plain k K) as (F & _). rewrite E, F. apply reach_ok. exact H.
Qed.
Lemma parsed_paren d lp ts rp e : lx_tok lp = TOK_OPEN_PAREN -> lx_tok rp = TOK_CLOSE_PAREN ->
  parsed 11 d ts e -> parsed 0 d (lp :: ts ++ [rp]) e.
Proof.
  intros Kl Kr IH s t k rest a b dp S A P R D. cbn [app ahead] in A. destruct A as (Sh & t1 & N1 & P1 & A1).
  destruct Sh as (Tk & _). rewrite <- app_assoc in A1. cbn [app] in A1.
  assert (G : reach (fun f => parse f NLiteral s) (done (a ++ comp e) b dp k rest)).
  { apply reach_parse. cbn [rule]. unfold parse_literal. tkr. rewrite Tk, Kl. tokc. eb.
    assert (RA : reach (fun f => parse f NAssign s0) (done (a ++ comp e) b dp rp (k :: rest))).
    { apply assign_of_ternary.
      - apply (IH s0 t1 rp (k :: rest) a b dp H A1); [rewrite P1, Tk, Kl; split; [intros X; discriminate X|reflexivity]| |exact D].
        rewrite Kr. apply Nat.leb_le. vm_compute. reflexivity.
      - intros s' DD. apply (done_rank _ _ _ _ _ _ DD). rewrite Kr. apply Nat.leb_le. vm_compute. reflexivity. }
    destruct RA as (f & s' & HR & (t2 & S2 & A2)). cbn [ahead] in A2. destruct A2 as ((Tk2 & _) & t3 & N2 & P2 & A3).
    destruct (pnext1_st _ _ _ _ _ _ S2 N2) as (s3 & E3 & S3).
    exists f, s3. split; [|exists t3; split; [exact S3|exact A3]]. intros f' Hf. rewrite HR by lia. cbnb.
    rewrite (st_tk _ _ _ _ _ S2), Tk2, Kr. tokc. cbn [negb andb bind]. rewrite (st_tk _ _ _ _ _ S2), Tk2, Kr. tokc. rewrite E3. reflexivity. }
  cbn [nt_of]. apply postfix_to_unary.
  - tkr. rewrite Tk, Kl. reflexivity.
  - apply literal_to_postfix; [exact G|]. intros s' DD. exact (done_rank _ _ _ _ _ _ DD R).
Qed.

(** ** Prefix operators *)
Lemma prefix_facts op : In op prefix_ops -> findtok s_unary_ops op = true /\ prev_ok op /\ 0 <= unary_code op < 256.
Proof.
  intros H. unfold prefix_ops in H. cbn [In] in H.
  repeat match type of H with _ \/ _ => destruct H as [<-|H] | False => destruct H end;
  (split; [reflexivity|split; [split; [intros X; discriminate X|reflexivity]|vm_compute; intuition congruence]]).
Qed.
Lemma parsed_prefix d k0 ts e : In (lx_tok k0) prefix_ops -> parsed 0 d ts e -> parsed 0 d (k0 :: ts) (EUn (lx_tok k0) e).
Proof.
  intros Hin IH s t k rest a b dp S A P R D. destruct (prefix_facts _ Hin) as (F & Po & Ub).
  cbn [app ahead] in A. destruct A as ((Tk & _) & t1 & N1 & P1 & A1).
  cbn [nt_of]. apply reach_parse. cbn [rule]. unfold parse_unary. tkr. rewrite Tk, F. eb.
  assert (RU : reach (fun f => parse f (if findtok s_unary_ops (tk s0) then NUnary else NPostfix) s0) (done (a ++ comp e) b dp k rest)).
  { assert (X : reach (fun f => parse f NUnary s0) (done (a ++ comp e) b dp k rest)).
    { apply (IH s0 t1 k rest a b dp H A1); [rewrite P1, Tk; exact Po|exact R|exact D]. }
    destruct (findtok s_unary_ops (tk s0)) eqn:Fu; [exact X|]. apply unary_to_postfix; assumption. }
  eapply reach_rec; [exact RU|]. intros s' (t2 & S2 & A2). cbv beta.
  destruct (emit_op_st _ _ _ _ _ _ S2 Ub) as (s3 & E3 & S3). rewrite E3. cbnb. apply reach_ok.
  exists t2. split; [|exact A2]. cbn [comp]. rewrite app_assoc. exact S3.
Qed.

(** ** Left-associative levels *)
Lemma parsed_level l d ts0 ts e0 e : (1 <= l <= 8)%nat -> parsed (l - 1) d ts0 e0 -> continued l d e0 ts e -> parsed l (S d) (ts0 ++ ts) e.
Proof.
  intros Hl IH0 IH1 s t k rest a b dp S A P R D. destruct (IH1 Hl) as [Hh IH]. rewrite <- app_assoc in A.
  assert (X : reach (fun f => parse_ltr (parse f) (level_of l) TOK_EOF s) (done (a ++ comp e) b dp k rest)).
  { eapply reach_ext; [intros f; apply parse_ltr_eq|]. pose proof S as (_ & _ & Dp). rewrite Dp.
    replace (DEPTH_LIMIT <? dp + 1) with false by lia. apply reach_undepth.
    eapply reach_weaken; [|intros s' DD; apply done_undepth; exact DD].
    pose proof (st_depth _ _ _ _ _ (dp + 1) S) as S1. rewrite lower_of by lia.
    assert (Hk : exists k' rest', ts ++ k :: rest = k' :: rest' /\ (l - 1 < rank (lx_tok k'))%nat).
    { destruct Hh as [-> | (k' & ts' & -> & Rk)]; cbn [app]; [exists k, rest|exists k', (ts' ++ k :: rest)]; (split; [reflexivity|lia]). }
    destruct Hk as (k' & rest' & E' & Rk'). rewrite E' in A.
    eapply reach_rec; [apply (IH0 _ t k' rest' a b (dp + 1) S1 A P Rk' ltac:(lia))|].
    intros s' (t' & S' & A'). cbv beta. unfold opt_op. tokc. cbnb. rewrite <- E' in A'.
    apply (IH s' t' k rest a b (dp + 1) S' A' R ltac:(lia)). }
  apply reach_parse. do 9 (destruct l as [|l]; [try lia; exact X|]). lia.
Qed.
Lemma continued_none l d acc : continued l d acc [] acc.
Proof.
  intros Hl. split; [left; reflexivity|]. intros s t k rest a b dp S A R D. unfold ltr_rest. tkr.
  cbn [app] in A. rewrite (ahead_tok _ _ _ A), (rank_stops l) by lia. apply reach_ok. exists t. split; [exact S|exact A].
Qed.
Lemma continued_one l d acc k0 ts ts' b e : prec (lx_tok k0) = l -> parsed (l - 1) d ts b ->
  continued l d (EBin (lx_tok k0) acc b) ts' e -> continued l (S d) acc (k0 :: ts ++ ts') e.
Proof.
  intros Hp IH0 IH1 Hl. destruct (IH1 Hl) as [Hh IH]. destruct (prec_rank _ _ Hp Hl) as (Rk0 & Ft & Ob & So & Ne & Nd & Np).
  split; [right; eauto|]. intros s t k rest a bb dp S A R D. cbn [app ahead] in A. destruct A as ((Tk & _) & t1 & N1 & P1 & A1).
  unfold ltr_rest. tkr. rewrite Tk, Ft, So. eb. apply reach_parse. cbn [rule].
  eapply reach_ext; [intros f; apply parse_ltr_eq|]. pose proof H as (_ & _ & Dp). rewrite Dp.
  replace (DEPTH_LIMIT <? dp + 1) with false by lia. apply reach_undepth.
  eapply reach_weaken; [|intros s' DD; apply done_undepth; exact DD].
  pose proof (st_depth _ _ _ _ _ (dp + 1) H) as S1. rewrite lower_of by lia. rewrite <- app_assoc in A1.
  assert (Hk : exists k' rest', ts' ++ k :: rest = k' :: rest' /\ (l - 1 < rank (lx_tok k'))%nat).
  { destruct Hh as [-> | (k' & ts1 & -> & Rk)]; cbn [app]; [exists k, rest|exists k', (ts1 ++ k :: rest)]; (split; [reflexivity|lia]). }
  destruct Hk as (k' & rest' & E' & Rk'). rewrite E' in A1.
  eapply reach_rec; [apply (IH0 _ t1 k' rest' (a ++ comp acc) bb (dp + 1) S1 A1)|].
  - rewrite P1, Tk. split; [exact Nd|exact Np].
  - exact Rk'.
  - lia.
  - intros s' (t' & S' & A'). cbv beta. unfold opt_op. rewrite Ne. destruct (emit_op_st _ _ _ _ _ _ S' Ob) as (s3 & E3 & S3). rewrite E3. cbnb.
    rewrite <- E' in A'. apply (IH s3 t' k rest a bb (dp + 1)); [cbn [comp]; rewrite !app_assoc in *; exact S3|exact A'|exact R|lia].
Qed.

(** ** Short-circuit operators *)
Lemma parsed_up c d ts e : (c = 8 \/ c = 9)%nat -> parsed c d ts e -> parsed (S c) (S d) ts e.
Proof.
  intros Hc IH s t k rest a b dp S A P R D.
  assert (X : reach (fun f => parse_ltr (parse f) (level_of (1 + c)) TOK_EOF s) (done (a ++ comp e) b dp k rest)).
  { eapply reach_ext; [intros f; apply parse_ltr_eq|]. pose proof S as (_ & _ & Dp). rewrite Dp.
    replace (DEPTH_LIMIT <? dp + 1) with false by lia. apply reach_undepth.
    eapply reach_weaken; [|intros s' DD; apply done_undepth; exact DD].
    pose proof (st_depth _ _ _ _ _ (dp + 1) S) as S1. rewrite lower_of by lia. cbn [Nat.add Nat.sub]. rewrite Nat.sub_0_r.
    eapply reach_rec; [apply (IH _ t k rest a b (dp + 1) S1 A P ltac:(lia) ltac:(lia))|].
    intros s' (t' & S' & A'). cbv beta. unfold opt_op. tokc. cbnb. unfold ltr_rest. tkr.
    rewrite (ahead_tok _ _ _ A'), (rank_stops (1 + c)) by lia. apply reach_ok. exists t'. split; [exact S'|exact A']. }
  apply reach_parse. destruct Hc as [-> | ->]; exact X.
Qed.
Lemma parsed_short c d ts1 k0 ts2 x y j : (c = 9 \/ c = 10)%nat -> rank (lx_tok k0) = c -> short_op (level_of c) = Some j -> 0 <= j < 256 ->
  findtok (ops_of (level_of c)) (lx_tok k0) = true -> prev_ok (lx_tok k0) ->
  parsed (c - 1) d ts1 x -> parsed c d ts2 y ->
  forall e, comp e = comp x ++ j :: varint (1 + zlen (comp y)) ++ OP_DROP :: comp y ->
  parsed c (S d) (ts1 ++ k0 :: ts2) e.
Proof.
  intros Hc Rk So Hj Ft Po IHx IHy e Ec s t k rest a b dp S A P R D. rewrite <- app_assoc in A. cbn [app] in A.
  assert (X : reach (fun f => parse_ltr (parse f) (level_of c) TOK_EOF s) (done (a ++ comp e) b dp k rest)).
  { eapply reach_ext; [intros f; apply parse_ltr_eq|]. pose proof S as (_ & _ & Dp). rewrite Dp.
    replace (DEPTH_LIMIT <? dp + 1) with false by lia. apply reach_undepth.
    eapply reach_weaken; [|intros s' DD; apply done_undepth; exact DD].
    pose proof (st_depth _ _ _ _ _ (dp + 1) S) as S1. rewrite lower_of by lia.
    eapply reach_rec; [apply (IHx _ t k0 (ts2 ++ k :: rest) a b (dp + 1) S1 A P ltac:(lia) ltac:(lia))|].
    intros s' (t' & S' & A'). cbv beta. unfold opt_op. tokc. cbnb. unfold ltr_rest. tkr.
    cbn [ahead] in A'. destruct A' as ((Tk & _) & t1 & N1 & P1 & A1). rewrite Tk, Ft, So.
    destruct (e_byte_st _ _ _ _ _ j S' Hj) as (s2 & E2 & S2). rewrite E2. cbnb. eb. eb. eb.
    assert (Cx : forall n, NBin (level_of c) n = NBin (level_of c) n) by reflexivity.
    assert (Nt : nt_of c = NBin (level_of c) TOK_EOF) by (destruct Hc as [-> | ->]; reflexivity). rewrite <- Nt.
    rewrite <- (app_assoc _ [0] [OP_DROP]) in H1. cbn [app] in H1.
    eapply reach_rec; [apply (IHy _ t1 k rest _ b (dp + 1) H1 A1)|].
    - rewrite P1, Tk. exact Po.
    - lia.
    - lia.
    - intros s5 (t5 & S5 & A5). cbv beta.
      rewrite <- (app_assoc _ [0; OP_DROP] (comp y)) in S5. cbn [app] in S5.
      destruct (ins_st _ _ _ _ _ _ _ (zlen ((a ++ comp x) ++ [j])) (cur s5 - zlen ((a ++ comp x) ++ [j]) - 1) S5 eq_refl) as (s6 & E6 & S6).
      rewrite E6. cbnb. apply reach_ok. exists t5. split; [|exact A5].
      assert (V : cur s5 - zlen ((a ++ comp x) ++ [j]) - 1 = 1 + zlen (comp y)).
      { rewrite (st_cur _ _ _ _ _ S5), !zlen_app, !zlen_cons. lia. }
      rewrite V in S6. rewrite Ec. rewrite <- !app_assoc in S6. exact S6. }
  apply reach_parse. destruct Hc as [-> | ->]; exact X.
Qed.

(** ** The conditional operator *)
Lemma parsed_cond1 d ts e : parsed 10 d ts e -> parsed 11 d ts e.
Proof.
  intros IH s t k rest a b dp S A P R D. cbn [nt_of]. apply reach_parse. cbn [rule]. unfold parse_ternary.
  eapply reach_rec; [apply (IH s t k rest a b dp S A P ltac:(lia) D)|]. intros s' (t' & S' & A'). cbv beta.
  unfold opt_op. tokc. cbnb. tkr. rewrite (ahead_tok _ _ _ A').
  destruct (lx_tok k =? TOK_QUESTION) eqn:E; [apply Z.eqb_eq in E; rewrite E in R; vm_compute in R; lia|].
  apply reach_ok. exists t'. split; [exact S'|exact A'].
Qed.
Lemma parsed_cond d ts1 q ts2 k0 ts3 c x y : lx_tok q = TOK_QUESTION -> lx_tok k0 = TOK_COLON ->
  parsed 10 d ts1 c -> parsed 11 d ts2 x -> parsed 11 d ts3 y -> parsed 11 d (ts1 ++ q :: ts2 ++ k0 :: ts3) (ECond c x y).
Proof.
  intros Kq Kk IHc IHx IHy s t k rest a b dp S A P R D. repeat (rewrite <- app_assoc in A; cbn [app] in A).
  cbn [nt_of]. apply reach_parse. cbn [rule]. unfold parse_ternary.
  eapply reach_rec; [apply (IHc s t q (ts2 ++ k0 :: ts3 ++ k :: rest) a b dp S A P); [rewrite Kq; apply Nat.leb_le; reflexivity|exact D]|].
  intros s1 (t1 & S1 & A1). cbv beta. unfold opt_op. tokc. cbnb. unfold expect. tkr. cbn [ahead] in A1.
  destruct A1 as ((Tk1 & _) & t2 & N2 & P2 & A2). rewrite Tk1, Kq. tokc. eb. unfold pok at 1. cbnb. tokc. eb. eb.
  rewrite <- (app_assoc _ [OP_JMP_FALSE] [0]) in H1. cbn [app] in H1.
  eapply reach_rec; [apply (IHx s3 t2 k0 (ts3 ++ k :: rest) _ b dp H1 A2)|].
  - rewrite P2, Tk1, Kq. split; [intros X; discriminate X|reflexivity].
  - rewrite Kk. apply Nat.leb_le. reflexivity.
  - exact D.
  - intros s4 (t4 & S4 & A4). cbv beta. cbn [ahead] in A4. destruct A4 as ((Tk4 & _) & t5 & N5 & P5 & A5). eb. eb.
    rewrite (st_cur _ _ _ _ _ H3). eb. tkr. rewrite Tk4, Kk. tokc. eb. unfold pok at 1. cbnb. tokc.
    eapply reach_rec; [apply (IHy _ t5 k rest _ b dp H5 A5)|].
    + rewrite P5, Tk4, Kk. split; [intros X; discriminate X|reflexivity].
    + exact R.
    + exact D.
    + intros s9 (t9 & S9 & A9). cbv beta.
      set (pre := (((a ++ comp c) ++ [OP_JMP_FALSE; 0]) ++ comp x) ++ [OP_JMP]) in *.
      rewrite <- (app_assoc _ [OP_DROP] (comp y)), <- (app_assoc pre [0]) in S9. cbn [app] in S9.
      destruct (ins_st _ _ _ _ _ _ _ (zlen pre) (cur s9 - zlen pre - 1) S9 eq_refl) as (s10 & E10 & S10). rewrite E10. cbnb.
      assert (V : cur s9 - zlen pre - 1 = 1 + zlen (comp y)) by (rewrite (st_cur _ _ _ _ _ S9), !zlen_app, !zlen_cons; lia).
      rewrite V in *. unfold pre in S10. rewrite <- !app_assoc in S10. cbn [app] in S10.
      rewrite (app_assoc a (comp c)) in S10. change (OP_JMP_FALSE :: 0 :: ?l) with ([OP_JMP_FALSE] ++ 0 :: l) in S10. rewrite (app_assoc _ [OP_JMP_FALSE]) in S10.
      destruct (ins_st _ _ _ _ _ _ _ (zlen ((a ++ comp c) ++ [OP_JMP_FALSE])) (zlen (pre ++ [0]) + (zlen (varint (1 + zlen (comp y))) - 1) - zlen ((a ++ comp c) ++ [OP_JMP_FALSE]) - 1) S10 eq_refl) as (s11 & E11 & S11).
      rewrite E11. cbnb. apply reach_ok. exists t9. split; [|exact A9].
      assert (V2 : zlen (pre ++ [0]) + (zlen (varint (1 + zlen (comp y))) - 1) - zlen ((a ++ comp c) ++ [OP_JMP_FALSE]) - 1 =
                   zlen (comp x) + 1 + zlen (varint (1 + zlen (comp y)))).
      { unfold pre. rewrite !zlen_app, !zlen_cons. change (zlen []) with 0. lia. }
      rewrite V2 in S11. cbn [comp]. rewrite <- !app_assoc in S11. exact S11.
Qed.

(** ** The parser emits the code of the tree *)
Lemma parser_emits : (forall c d ts e, derive c d ts e -> parsed c d ts e) /\
  (forall l d acc ts e, operands l d acc ts e -> continued l d acc ts e).
Proof.
  apply derive_operands_ind.
  - intros. apply parsed_leaf. assumption.
  - intros. apply parsed_paren; assumption.
  - intros. apply parsed_prefix; assumption.
  - intros. apply (parsed_level l d ts0 ts e0 e); assumption.
  - intros. apply parsed_up; [left; reflexivity|assumption].
  - intros d ts1 t ts2 x y K _ Hx _ Hy.
    apply (parsed_short 9 d ts1 t ts2 x y OP_JMP_NEUTRAL_FALSE); try (rewrite K); try reflexivity; auto.
    + vm_compute. intuition congruence.
    + split; [intros X; discriminate X|reflexivity].
  - intros. apply parsed_up; [right; reflexivity|assumption].
  - intros d ts1 t ts2 x y K _ Hx _ Hy.
    apply (parsed_short 10 d ts1 t ts2 x y OP_JMP_NEUTRAL_TRUE); try (rewrite K); try reflexivity; auto.
    + vm_compute. intuition congruence.
    + split; [intros X; discriminate X|reflexivity].
  - intros. apply parsed_cond1. assumption.
  - intros. apply parsed_cond; assumption.
  - intros. apply continued_none.
  - intros. eapply continued_one; eassumption.
Qed.

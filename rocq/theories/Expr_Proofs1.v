From Verif Require Import Base BaseFacts Value_Model Str_Model Str_Spec Ops_Model TokNum_Model Num_Model Txt_Model Tok_Spec Tok_Model
  Bcode_Model Bcode_Proofs Str_Proofs Parse_Model Parse_Proofs Expr_Spec Expr_Proofs Props_Str.
Ltac Zify.zify_post_hook ::= Z.div_mod_to_equations.

(** * The code emitted for a tree *)
Definition strb (s : list Z) : list Z := varint (zlen s) ++ s.
Definition var_bytes (x : list Z) : list Z := OP_PUSH_STR :: strb x ++ [OP_FIND_SCOPE; OP_GET].
Fixpoint comp (e : expr) : list Z :=
  match e with
  | EInt n => OP_PUSH_INT :: varint n
  | EDec txt _ => OP_PUSH_DBL :: strb txt
  | EStr s => OP_PUSH_STR :: strb s
  | EBool b => [if b then OP_PUSH_TRUE else OP_PUSH_FALSE]
  | ENull => [OP_PUSH_NULL]
  | EUndef => [OP_PUSH_UNDEF]
  | EVar x => var_bytes x
  | EUn op e => comp e ++ [OP_EXPR; unary_code op]
  | EBin op a b => comp a ++ comp b ++ [OP_EXPR; op]
  | EAnd a b => comp a ++ OP_JMP_NEUTRAL_FALSE :: varint (1 + zlen (comp b)) ++ OP_DROP :: comp b
  | EOr a b => comp a ++ OP_JMP_NEUTRAL_TRUE :: varint (1 + zlen (comp b)) ++ OP_DROP :: comp b
  | ECond c a b =>
    let off := varint (1 + zlen (comp b)) in
    comp c ++ OP_JMP_FALSE :: varint (zlen (comp a) + 1 + zlen off) ++ comp a ++ OP_JMP :: off ++ OP_DROP :: comp b
  end.

(** * Steps of the parser *)
Definition st (s : ps) (t : tstate) (a b : list Z) (d : Z) : Prop := p_t s = t /\ cursor (p_g s) a b /\ p_depth s = d.

Lemma e_byte_st s t a b d x : st s t a b d -> 0 <= x < 256 -> exists s', e_byte s x = OK s' /\ st s' t (a ++ [x]) b d.
Proof.
  intros (E1 & C & E2) Hx. unfold e_byte, emit_byte. rewrite Z.mod_small by lia.
  destruct (put_cursor _ a b [x] (add_lineno_cursor _ (t_line (p_t s)) _ _ C)) as (g & -> & Cg). cbn [bind].
  eexists. split; [reflexivity|]. split; [exact E1|]. split; [exact Cg|exact E2].
Qed.
Lemma e_int_st s t a b d n : st s t a b d -> exists s', e_int s n = OK s' /\ st s' t (a ++ varint n) b d.
Proof.
  intros (E1 & C & E2). unfold e_int, emit_int.
  destruct (put_cursor _ a b (varint n) (add_lineno_cursor _ (t_line (p_t s)) _ _ C)) as (g & -> & Cg). cbn [bind].
  eexists. split; [reflexivity|]. split; [exact E1|]. split; [exact Cg|exact E2].
Qed.
Lemma e_str_st s t a b d x : st s t a b d -> exists s', e_str s x = OK s' /\ st s' t (a ++ strb x) b d.
Proof.
  intros (E1 & C & E2). unfold e_str, emit_str.
  destruct (put_cursor _ a b (strb x) (add_lineno_cursor _ (t_line (p_t s)) _ _ C)) as (g & E & Cg). unfold strb in E at 1. rewrite E. cbn [bind].
  eexists. split; [reflexivity|]. split; [exact E1|]. split; [exact Cg|exact E2].
Qed.
Lemma emit_op_st s t a b d x : st s t a b d -> 0 <= x < 256 -> exists s', emit_op s x = OK s' /\ st s' t (a ++ [OP_EXPR; x]) b d.
Proof.
  intros H Hx. unfold emit_op. replace ((0 <=? x) && (x <=? 255)) with true by lia. cbn [e_bytes].
  destruct (e_byte_st _ _ _ _ _ OP_EXPR H ltac:(vm_compute; intuition congruence)) as (s1 & -> & H1). cbn [bind].
  destruct (e_byte_st _ _ _ _ _ x H1 Hx) as (s2 & -> & H2). cbn [bind]. exists s2. split; [reflexivity|].
  rewrite <- app_assoc in H2. exact H2.
Qed.
Lemma emit_off_st s t a b d : st s t a b d -> exists s', emit_off s = OK (s', zlen a) /\ st s' t (a ++ [0]) b d.
Proof.
  intros H. unfold emit_off. destruct (e_byte_st _ _ _ _ _ 0 H ltac:(lia)) as (s1 & -> & H1). cbn [bind].
  exists s1. split; [|exact H1]. unfold cur. destruct H as (_ & [_ ->] & _). reflexivity.
Qed.
Lemma pnext1_st s t t' a b d : st s t a b d -> pnext t = OK t' -> exists s', pnext1 s = OK s' /\ st s' t' a b d.
Proof.
  intros (E1 & C & E2) E. unfold pnext1. rewrite E1, E. cbn [bind]. eexists. split; [reflexivity|]. split; [reflexivity|]. split; [exact C|exact E2].
Qed.
Lemma u64_u64 n : u64 (u64 n) = u64 n.
Proof. unfold u64. rewrite Z.mod_mod by lia. reflexivity. Qed.
Lemma varint_u64 n : varint (u64 n) = varint n.
Proof. unfold varint. rewrite u64_u64. reflexivity. Qed.
Lemma ins_st s t a x c b d off v : st s t (a ++ x :: c) b d -> off = zlen a ->
  exists s', ins s off v = OK (s', zlen (varint v) - 1) /\ st s' t (a ++ varint v ++ c) b d.
Proof.
  intros (E1 & C & E2) E. unfold ins. destruct (ins_cursor _ a x c b (u64 v) off C E) as (g & -> & Cg). cbn [bind].
  rewrite varint_u64 in *. eexists. split; [reflexivity|]. split; [exact E1|]. split; [exact Cg|exact E2].
Qed.
Lemma st_cur s t a b d : st s t a b d -> cur s = zlen a.
Proof. intros (_ & [_ E] & _). exact E. Qed.
Lemma st_tk s t a b d : st s t a b d -> tk s = t_tok t.
Proof. intros (E & _). unfold tk. rewrite E. reflexivity. Qed.

(** * Runs of the parser that succeed *)
Definition reach (m : nat -> pres) (Q : ps -> Prop) : Prop :=
  exists f s, (forall f', (f <= f')%nat -> m f' = OK (s, E_OK)) /\ Q s.
Lemma reach_ok s (Q : ps -> Prop) : Q s -> reach (fun _ => pok s) Q.
Proof. intros H. exists 0%nat, s. split; [reflexivity|exact H]. Qed.
Lemma reach_rec m (k : nat -> ps -> pres) Q Q' : reach m Q -> (forall s', Q s' -> reach (fun f => k f s') Q') ->
  reach (fun f => andthen (m f) (k f)) Q'.
Proof.
  intros (f1 & s1 & H1 & HQ) HK. destruct (HK s1 HQ) as (f2 & s2 & H2 & HQ2).
  exists (f1 + f2)%nat, s2. split; [|exact HQ2]. intros f' Hf. rewrite H1 by lia. cbn [andthen]. change (E_OK =? E_OK) with true. cbv iota.
  apply H2. lia.
Qed.
Lemma reach_rec2 m (k : nat -> ps * Z -> pres) Q Q' : reach m Q -> (forall s', Q s' -> reach (fun f => k f (s', E_OK)) Q') ->
  reach (fun f => bind (m f) (k f)) Q'.
Proof.
  intros (f1 & s1 & H1 & HQ) HK. destruct (HK s1 HQ) as (f2 & s2 & H2 & HQ2).
  exists (f1 + f2)%nat, s2. split; [|exact HQ2]. intros f' Hf. rewrite H1 by lia. cbn [bind]. apply H2. lia.
Qed.
Lemma reach_weaken m (Q Q' : ps -> Prop) : reach m Q -> (forall s, Q s -> Q' s) -> reach m Q'.
Proof. intros (f & s & H & HQ) HI. exists f, s. split; [exact H|apply HI; exact HQ]. Qed.
Lemma reach_parse n s Q : reach (fun f => rule (parse f) n s) Q -> reach (fun f => parse f n s) Q.
Proof.
  intros (f & s' & H & HQ). exists (S f), s'. split; [|exact HQ]. intros [|f'] Hf; [lia|]. cbn [parse]. apply H. lia.
Qed.
Lemma reach_inv n s Q : reach (fun f => parse f n s) Q -> reach (fun f => rule (parse f) n s) Q.
Proof.
  intros (f & s' & H & HQ). exists f, s'. split; [|exact HQ]. intros f' Hf. specialize (H (S f') ltac:(lia)). exact H.
Qed.
Lemma reach_undepth m Q : reach m (fun s => Q (with_depth s (p_depth s - 1))) -> reach (fun f => undepth (m f)) Q.
Proof. intros (f & s' & H & HQ). exists f, (with_depth s' (p_depth s' - 1)). split; [|exact HQ]. intros f' Hf. rewrite H by lia. reflexivity. Qed.
Lemma reach_ext m m' Q : (forall f, m f = m' f) -> reach m' Q -> reach m Q.
Proof. intros E (f & s & H & HQ). exists f, s. split; [|exact HQ]. intros f' Hf. rewrite E. apply H. exact Hf. Qed.

(** * Precedence of the parser's tokens: what may follow an expression of a category *)
Definition rank (k : Z) : nat :=
  match prec k with
  | O => if k =? TOK_LOGICAL_AND then 9%nat
         else if k =? TOK_LOGICAL_OR then 10%nat
         else if k =? TOK_QUESTION then 11%nat
         else if existsb (Z.eqb k) [TOK_COLON; TOK_CLOSE_PAREN; TOK_SEMICOLON; TOK_COMMA; TOK_CLOSE_BRACKET; TOK_CLOSE_CURLY; TOK_EOF]
         then 12%nat else 0%nat
  | n => n
  end.
Definition level_of (l : nat) : level :=
  match l with
  | 1 => LMul | 2 => LAdd | 3 => LShift | 4 => LCmp | 5 => LEqu | 6 => LBand | 7 => LXor | 8 => LBor
  | 9 => LLand | _ => LLor
  end%nat.
Definition nt_of (c : nat) : nt :=
  match c with
  | O => NUnary
  | 11 => NTernary TOK_EOF
  | c => NBin (level_of c) TOK_EOF
  end%nat.
Lemma lower_of l : (1 <= l <= 10)%nat -> lower (level_of l) = nt_of (l - 1).
Proof. intros H. do 11 (destruct l as [|l]; [try lia; reflexivity|]). lia. Qed.

(** Every token that has a rank is one of finitely many. *)
Definition ranked : list Z :=
  [TOK_MUL; TOK_DIV; TOK_REM; TOK_PLUS; TOK_MINUS; TOK_LSHIFT; TOK_RSHIFT; TOK_URSHIFT; TOK_LT; TOK_LE; TOK_GT; TOK_GE;
   TOK_EQ; TOK_NE; TOK_EQ_EQ; TOK_NE_NE; TOK_AND; TOK_XOR; TOK_OR; TOK_LOGICAL_AND; TOK_LOGICAL_OR; TOK_QUESTION;
   TOK_COLON; TOK_CLOSE_PAREN; TOK_SEMICOLON; TOK_COMMA; TOK_CLOSE_BRACKET; TOK_CLOSE_CURLY; TOK_EOF].
Lemma existsb_in (k : Z) l : existsb (Z.eqb k) l = true -> In k l.
Proof. intros H. apply existsb_exists in H. destruct H as (x & Hx & E). apply Z.eqb_eq in E. subst. exact Hx. Qed.
Lemma rank_in k : (0 < rank k)%nat -> In k ranked.
Proof.
  intros H. unfold rank, prec in H.
  repeat match type of H with
  | context [existsb (Z.eqb k) ?l] =>
      let E := fresh in destruct (existsb (Z.eqb k) l) eqn:E;
      [apply existsb_in in E; cbn [In] in E; unfold ranked; cbn [In]; intuition congruence|]
  | context [k =? ?x] =>
      let E := fresh in destruct (k =? x) eqn:E; [apply Z.eqb_eq in E; unfold ranked; cbn [In]; rewrite E; intuition congruence|]
  end.
  cbv iota in H. lia.
Qed.
Ltac ranked_cases H := cbn [ranked In] in H;
  repeat match type of H with _ \/ _ => destruct H as [<-|H] | False => destruct H | _ = _ => subst end.

(** A level stops at a token of higher rank and continues at its own. *)
Lemma rank_stops c k : (1 <= c <= 10)%nat -> (c < rank k)%nat -> findtok (ops_of (level_of c)) k = false.
Proof.
  intros Hc Hr. pose proof (rank_in k ltac:(lia)) as I.
  assert (F : forallb (fun k => forallb (fun c => negb (c <? rank k)%nat || negb (findtok (ops_of (level_of c)) k)) [1;2;3;4;5;6;7;8;9;10]%nat) ranked = true)
    by (vm_compute; reflexivity).
  rewrite forallb_forall in F. specialize (F k I). rewrite forallb_forall in F. specialize (F c).
  destruct (findtok (ops_of (level_of c)) k); [|reflexivity]. exfalso.
  assert (Ic : In c [1;2;3;4;5;6;7;8;9;10]%nat) by (cbn [In]; lia). specialize (F Ic).
  rewrite (proj2 (Nat.ltb_lt c (rank k)) Hr) in F. discriminate F.
Qed.
Lemma rank_check (p : Z -> bool) : forallb (fun k => p k) ranked = true -> forall k, (0 < rank k)%nat -> p k = true.
Proof. intros F k Hk. rewrite forallb_forall in F. apply F. apply rank_in. exact Hk. Qed.
Lemma rank_plain k : (0 < rank k)%nat ->
  findtok s_assign_ops k = false /\ findtok s_postfix_ops k = false /\ (k =? TOK_OPEN_BRACKET) = false /\
  (k =? TOK_OPEN_PAREN) = false /\ (k =? TOK_DOT) = false /\ (k =? TOK_PLUS_PLUS) = false /\ (k =? TOK_MINUS_MINUS) = false.
Proof.
  intros H.
  pose proof (rank_check (fun k => negb (findtok s_assign_ops k) && negb (findtok s_postfix_ops k) && negb (k =? TOK_OPEN_BRACKET) &&
    negb (k =? TOK_OPEN_PAREN) && negb (k =? TOK_DOT) && negb (k =? TOK_PLUS_PLUS) && negb (k =? TOK_MINUS_MINUS)) ltac:(vm_compute; reflexivity) k H) as F.
  cbv beta in F. rewrite !andb_true_iff, !negb_true_iff in F. tauto.
Qed.
Lemma prec_rank op l : prec op = l -> (1 <= l <= 8)%nat -> rank op = l /\ findtok (ops_of (level_of l)) op = true /\ 0 <= op < 256 /\
  short_op (level_of l) = None /\ (op =? TOK_EOF) = false /\ op <> TOK_DOT /\ findtok s_postfix_ops op = false.
Proof.
  intros <- Hl. assert (R : rank op = prec op) by (unfold rank; destruct (prec op); [lia|reflexivity]).
  split; [exact R|]. rewrite <- R in *.
  pose proof (rank_check (fun k => negb (rank k <=? 8)%nat || (findtok (ops_of (level_of (rank k))) k && (0 <=? k) && (k <? 256) &&
     match short_op (level_of (rank k)) with None => true | _ => false end && negb (k =? TOK_EOF) && negb (k =? TOK_DOT) && negb (findtok s_postfix_ops k)))
     ltac:(vm_compute; reflexivity) op ltac:(lia)) as F. cbv beta in F.
  rewrite (proj2 (Nat.leb_le (rank op) 8) ltac:(lia)) in F. cbn [negb orb] in F. rewrite !andb_true_iff, !negb_true_iff in F.
  destruct F as ((((((F1 & F2) & F3) & F4) & F5) & F6) & F7). split; [exact F1|]. split; [lia|].
  split; [destruct (short_op _); [discriminate|reflexivity]|]. split; [exact F5|]. split; [lia|exact F7].
Qed.

(** The code of programs is a sequence of instructions. *)
From Verif Require Import Base BaseFacts Str_Model TokNum_Model Varint_Model Varint_Spec Varint_Proofs Bcode_Model Bcode_Proofs Tok_Model Tok_Spec Parse_Model Expr_Spec Expr_Proofs Expr_Proofs1 Expr_Proofs5 Expr_Proofs6
  Lang_Spec Lang_Code Lang_Proofs7 Lang_Spec3 Disasm_Model Disasm_Spec Disasm_Proofs.
From Coq Require Import ZifyBool.
Ltac Zify.zify_post_hook ::= idtac.

Definition insl (l : list Z) : Prop := exists is, Forall ins is /\ concat is = l.
Lemma insl_nil : insl [].
Proof. exists []. split; [constructor|reflexivity]. Qed.
Lemma insl_app a b : insl a -> insl b -> insl (a ++ b).
Proof. intros (x & X1 & <-) (y & Y1 & <-). exists (x ++ y). split; [apply Forall_app; auto|apply concat_app]. Qed.
Lemma insl_one b : ins b -> insl b.
Proof. intros H. exists [b]. split; [constructor; [exact H|constructor]|apply app_nil_r]. Qed.

Lemma varint_num n : num_bytes (u64 n) (varint n).
Proof.
  pose proof (Bcode_Proofs.varint_u64 n) as U. assert (U' : 0 <= u64 n < 2 ^ 64) by (unfold is_u64 in U; exact U).
  destruct (shape_split _ (varint_bytes_shape (u64 n) (proj1 U'))) as (a & t & E & A & T).
  exists a, t. unfold varint. split; [exact E|]. split; [exact A|]. split; [exact T|]. split.
  - pose proof (varint_zlen n) as L. unfold varint in L. rewrite E, zlen_app in L. change (zlen [t]) with 1 in L. lia.
  - split; [apply groups_val_bytes; lia|lia].
Qed.
Lemma varint_small n : 0 <= n < 2 ^ 64 -> num_bytes n (varint n).
Proof. intros H. pose proof (varint_num n) as V. rewrite u64_id in V by exact H. exact V. Qed.

(** ** Code short enough for the lengths of its texts to be written *)
Definition okl (l : list Z) : Prop := zlen l < 2 ^ 64 -> insl l.
Lemma okl_nil : okl [].
Proof. intros _. exact insl_nil. Qed.
Lemma okl_app a b : okl a -> okl b -> okl (a ++ b).
Proof.
  intros A B L. rewrite zlen_app in L. pose proof (zlen_nonneg a). pose proof (zlen_nonneg b). apply insl_app; [apply A|apply B]; lia.
Qed.
Lemma okl_ins b : ins b -> okl b.
Proof. intros H _. apply insl_one, H. Qed.
Lemma okl_plain op l : plain op -> okl l -> okl (op :: l).
Proof. intros H. apply (okl_app [op] l), okl_ins, i_plain, H. Qed.
Definition numops : list Z := [OP_PUSH_FUNC; OP_PUSH_INT; OP_JMP; OP_JMP_TRUE; OP_JMP_NEUTRAL_TRUE; OP_JMP_FALSE; OP_JMP_NEUTRAL_FALSE].
Lemma okl_num1 op n : In op numops -> okl (op :: varint n).
Proof. intros H. apply okl_ins. exact (i_num op _ _ H (varint_num n)). Qed.
Lemma okl_num op n l : In op numops -> okl l -> okl (op :: varint n ++ l).
Proof. intros H. exact (okl_app (op :: varint n) l (okl_num1 op n H)). Qed.
Lemma okl_text1 op s : In op [OP_PUSH_STR; OP_PUSH_DBL] -> okl (op :: strb s).
Proof.
  intros H L. unfold strb in *. rewrite zlen_cons, zlen_app in L. pose proof (varint_zlen (zlen s)). pose proof (zlen_nonneg s).
  apply insl_one. apply i_text; [exact H|]. apply varint_small. lia.
Qed.
Lemma okl_text op s l : In op [OP_PUSH_STR; OP_PUSH_DBL] -> okl l -> okl (op :: strb s ++ l).
Proof. intros H. exact (okl_app (op :: strb s) l (okl_text1 op s H)). Qed.
Lemma okl_par n s l : okl l -> okl (OP_SET_ARG :: varint n ++ strb s ++ l).
Proof.
  rewrite app_assoc. apply (okl_app (OP_SET_ARG :: varint n ++ strb s) l).
  intros L. unfold strb in *. rewrite zlen_cons, !zlen_app in L. pose proof (varint_zlen n). pose proof (varint_zlen (zlen s)). pose proof (zlen_nonneg s).
  apply insl_one. apply (i_par _ _ _ _ (varint_num n)). apply varint_small. lia.
Qed.
Lemma okl_loop n n' l : okl l -> okl (OP_LOOP :: varint n ++ varint n' ++ l).
Proof.
  rewrite app_assoc. apply (okl_app (OP_LOOP :: varint n ++ varint n') l). apply okl_ins. exact (i_loop _ _ _ _ (varint_num n) (varint_num n')).
Qed.
Lemma okl_loop0 n l : okl l -> okl (OP_LOOP :: varint n ++ 0 :: l).
Proof. exact (okl_loop n 0 l). Qed.
Lemma okl_expr t l : okl l -> okl (OP_EXPR :: t :: l).
Proof. apply (okl_app [OP_EXPR; t] l), okl_ins, i_expr. Qed.

Ltac inop := solve [unfold plain, numops; cbn [In]; repeat (match goal with |- ?x = ?x \/ _ => left; reflexivity | |- ?x = ?x => reflexivity | |- _ \/ _ => right end)].
Ltac ok1 :=
  match goal with
  | H : okl ?l |- okl ?l => exact H
  | |- okl [] => exact okl_nil
  | |- okl (OP_EXPR :: ?t :: ?l) => apply (okl_expr t l)
  | |- okl (OP_LOOP :: varint ?n ++ 0 :: ?l) => apply (okl_loop0 n l)
  | |- okl (OP_LOOP :: varint ?n ++ varint ?k ++ ?l) => apply (okl_loop n k l)
  | |- okl (OP_SET_ARG :: varint ?n ++ strb ?s ++ ?l) => apply (okl_par n s l)
  | |- okl (?op :: varint ?n ++ ?l) => apply (okl_num op n l); [inop|]
  | |- okl (?op :: varint ?n) => apply (okl_num1 op n); inop
  | |- okl (?op :: strb ?s ++ ?l) => apply (okl_text op s l); [inop|]
  | |- okl (?op :: strb ?s) => apply (okl_text1 op s); inop
  | |- okl (?op :: ?l) => apply (okl_plain op l); [inop|]
  | |- okl (?a ++ ?b) => apply (okl_app a b)
  end.
Ltac ok := repeat ok1.

(** ** The shapes of code *)
Lemma okl_drop cs : Forall okl cs -> okl (dropcode cs).
Proof. induction 1; [apply okl_nil|]. change (okl ((OP_DROP :: x) ++ dropcode l)). ok. Qed.
Lemma okl_seq cs : Forall okl cs -> okl (seqcode cs).
Proof. intros [|c r H1 H2]; cbn [seqcode]; [ok|]. apply okl_app; [exact H1|apply okl_drop, H2]. Qed.
Lemma okl_flat {A} (f : A -> list Z) l : Forall (fun x => okl (f x)) l -> okl (flat_map f l).
Proof. induction 1; cbn [flat_map]; ok. Qed.
Lemma okl_map {A} (f : A -> list Z) l : Forall (fun x => okl (f x)) l -> okl (seqcode (map f l)).
Proof. intros H. apply okl_seq. induction H; cbn [map]; constructor; assumption. Qed.
Lemma okl_pars ps : forall n, okl (parcode n ps).
Proof. induction ps; intros n; cbn [parcode]; [ok|]. apply okl_par, IHps. Qed.
Lemma okl_decl x : okl (declcode x).
Proof. unfold declcode. ok. Qed.
Lemma okl_var x : okl (varcode x).
Proof. unfold varcode. ok. Qed.
Lemma okl_fun ps b : okl b -> okl (funcode ps b).
Proof.
  intros B. unfold funcode. cbv zeta. generalize (zlen (bracket ps b)). intros n. pose proof (okl_pars ps 0). unfold bracket. apply okl_num; [inop|].
  apply okl_app; ok.
Qed.
Lemma okl_and j a b : In j numops -> okl a -> okl b -> okl (andcode j a b).
Proof. intros J A B. unfold andcode. apply okl_app; [exact A|]. apply okl_num; [exact J|]. ok. Qed.
Lemma okl_cond c a b : okl c -> okl a -> okl b -> okl (condcode c a b).
Proof. intros C A B. unfold condcode. cbv zeta. ok. Qed.
Lemma okl_while c b : okl c -> okl b -> okl (whilecode c b).
Proof.
  intros C B. unfold whilecode. generalize (zlen (while_rest c b)). intros n. unfold while_rest. cbn [app]. apply okl_plain; [inop|]. apply okl_loop0.
  ok.
Qed.
Lemma okl_for i c u b : okl i -> okl c -> okl u -> okl b -> okl (forcode i c u b).
Proof.
  intros I C U B. unfold forcode. generalize (zlen (for_rest i c u b)). intros n. unfold for_rest. rewrite <- (app_assoc (varint _)).
  apply okl_plain; [inop|]. apply okl_loop. ok.
Qed.
Lemma okl_forin d x e b : okl e -> okl b -> okl (forincode d x e b).
Proof.
  intros E B. unfold forincode. generalize (zlen (forin_rest b)). intros n. unfold forin_rest. cbn [app].
  assert (D : okl (if d then declcode x else [])) by (destruct d; [apply okl_decl|ok]). apply okl_plain; [inop|]. apply okl_app; [exact D|]. rewrite <- (app_assoc (varint (zlen b + 2))). ok.
Qed.
Lemma okl_comp e : okl (comp e).
Proof. induction e; cbn [comp]; cbv zeta; unfold var_bytes; try solve [ok]. destruct b; ok. Qed.

(** ** Trees *)
Fixpoint cex_ok (e : lx) : okl (cex e)
with cst_ok (s : stmt) : okl (cst s).
Proof.
  - destruct e; cbn [cex].
    + apply okl_comp.
    + ok.
    + pose proof (okl_var x). ok.
    + pose proof (cex_ok e). ok.
    + pose proof (cex_ok e1). pose proof (cex_ok e2). ok.
    + apply okl_and; [inop|apply cex_ok|apply cex_ok].
    + apply okl_and; [inop|apply cex_ok|apply cex_ok].
    + apply okl_cond; apply cex_ok.
    + assert (R : okl (refcode cex e1)).
      { destruct e1; cbn [refcode]; try apply okl_nil; [apply okl_var|pose proof (cex_ok e1); ok|pose proof (cex_ok e1_1); pose proof (cex_ok e1_2); ok]. }
      pose proof (cex_ok e2). ok.
    + assert (R : okl (refcode cex e)).
      { destruct e; cbn [refcode]; try apply okl_nil; [apply okl_var|pose proof (cex_ok e); ok|pose proof (cex_ok e1); pose proof (cex_ok e2); ok]. }
      ok.
    + pose proof (cex_ok e). ok.
    + pose proof (cex_ok e1). pose proof (cex_ok e2). ok.
    + pose proof (cex_ok e). assert (F : okl (flat_map cex l)) by (apply okl_flat; clear - cex_ok l; induction l; constructor; [apply cex_ok|assumption]). ok.
    + apply okl_plain; [inop|]. apply okl_flat. induction l as [|[k v] r IH]; constructor; [|exact IH]. cbn [fst snd]. pose proof (cex_ok v). ok.
    + apply okl_plain; [inop|]. apply okl_flat. induction l as [|v r IH]; constructor; [|exact IH]. pose proof (cex_ok v). ok.
    + assert (B : okl (seqcode (map cst b))) by (apply okl_map; clear - cst_ok b; induction b; constructor; [apply cst_ok|assumption]).
      pose proof (okl_fun ps _ B). destruct name as [f|]; [|assumption]. pose proof (okl_decl f). pose proof (okl_var f). ok.
  - destruct s; cbn [cst].
    + ok.
    + apply okl_map. induction l; constructor; [apply cex_ok|assumption].
    + apply okl_map. induction l as [|[x o] r IH]; constructor; [|exact IH]. cbn [fst snd]. pose proof (okl_decl x). pose proof (okl_var x).
      destruct o as [e|]; [pose proof (cex_ok e)|]; ok.
    + assert (B : okl (seqcode (map cst l))) by (apply okl_map; clear - cst_ok l; induction l; constructor; [apply cst_ok|assumption]). ok.
    + pose proof (cex_ok c). pose proof (cst_ok s). destruct b as [b|]; [apply okl_cond; [assumption|assumption|apply cst_ok]|ok].
    + apply okl_while; [apply cex_ok|]. apply okl_map. clear - cst_ok b. induction b; constructor; [apply cst_ok|assumption].
    + apply okl_for; [apply cst_ok|apply cex_ok|apply cex_ok|]. apply okl_map. clear - cst_ok b. induction b; constructor; [apply cst_ok|assumption].
    + apply okl_forin; [apply cex_ok|]. apply okl_map. clear - cst_ok b. induction b; constructor; [apply cst_ok|assumption].
    + ok.
    + ok.
    + destruct e as [e|]; [pose proof (cex_ok e)|]; ok.
Qed.
Lemma program_ins l : zlen (seqcode (map cst l)) < 2 ^ 64 -> insl (seqcode (map cst l)).
Proof. apply okl_map. induction l; constructor; [apply cst_ok|assumption]. Qed.

(** ** What mjs_parse writes around the code *)
Lemma parse_whole path src ts l q : Tok_Spec.c_text src -> source src ts -> stmts TOK_EOF 0 q ts l ->
  exists f m, forall f', (f <= f')%nat ->
    let code := seqcode (map cst l) ++ [OP_EXIT] in let map := varint (zlen m) ++ m in
    mjs_parse f' path src = OK (header path (le32 (13 + zlen path + zlen code + zlen map)) (le32 (13 + zlen path)) (le32 (13 + zlen path + zlen code)) ++ code ++ map, E_OK).
Proof.
  intros T Sr D. set (pre := OP_BCODE_HEADER :: repeat 0 12 ++ path ++ [0]).
  set (g := {| g_code := pre; g_cur := zlen pre; g_start := zlen pre; g_map := []; g_last := 1 |}).
  destruct (parse_program src ts l q pre T Sr D {| p_t := pinit src; p_g := g; p_depth := 0 |} eq_refl
    ltac:(split; [rewrite app_nil_r; reflexivity|reflexivity]) eq_refl) as (f & s & HR & C).
  assert (S : st s (p_t s) (pre ++ seqcode (map cst l)) [] (p_depth s)) by (split; [reflexivity|split; [exact C|reflexivity]]).
  destruct (e_byte_st _ _ _ _ _ OP_EXIT S ltac:(vm_compute; intuition congruence)) as (s1 & E1 & (_ & (C1 & _) & _)).
  rewrite app_nil_r in C1.
  set (m := g_map (p_g s1)) in *. set (all := g_code (p_g s1) ++ varint (zlen m) ++ m) in *.
  exists f, m. intros f' Hf. cbv zeta. unfold mjs_parse. fold pre. fold g. rewrite HR by exact Hf. cbn [bind].
  rewrite E1. cbn [bind]. cbv zeta. fold m. fold all. do 2 f_equal.
  assert (Lp : zlen pre - 1 = 13 + zlen path).
  { unfold pre. rewrite zlen_cons, !zlen_app. change (zlen (repeat 0 12)) with 12. change (zlen [0]) with 1. lia. }
  assert (Lc : zlen (g_code (p_g s1)) - 1 = 13 + zlen path + zlen (seqcode (map cst l) ++ [OP_EXIT])).
  { rewrite C1, !zlen_app in *. lia. }
  assert (La : zlen all - 1 = 13 + zlen path + zlen (seqcode (map cst l) ++ [OP_EXIT]) + zlen (varint (zlen m) ++ m)).
  { unfold all. rewrite zlen_app. lia. }
  rewrite Lp, Lc, La. replace all with ([OP_BCODE_HEADER] ++ repeat 0 12 ++ (path ++ [0] ++ (seqcode (map cst l) ++ [OP_EXIT]) ++ varint (zlen m) ++ m)).
  2:{ unfold all. rewrite C1. unfold pre. cbn [app]. rewrite <- !app_assoc. reflexivity. }
  change 1 with (zlen [OP_BCODE_HEADER]) at 1. rewrite blit_app_mid by reflexivity.
  unfold header. cbn [app]. rewrite <- !app_assoc. reflexivity.
Qed.
Lemma le32_small n : 0 <= n < 2 ^ 32 -> le32 n = le_bytes 4 n.
Proof. intros H. unfold le32, u32. rewrite Z.mod_small by exact H. reflexivity. Qed.
Lemma program_part p code : well_formed p -> compiles p code -> zlen code < 2 ^ 32 ->
  exists is m, Forall ins is /\ concat is = seqcode (map cst (g_tree p)) ++ [OP_EXIT] /\ code = part_bytes (g_path p) is (varint (zlen m) ++ m).
Proof.
  intros (T & Sr & q & D) (f & H) L. destruct (parse_whole (g_path p) _ _ _ _ T Sr D) as (f2 & m & H2).
  specialize (H (max f f2) ltac:(lia)). specialize (H2 (max f f2) ltac:(lia)). cbv zeta in H2. rewrite H in H2.
  match type of H2 with OK (_, _) = OK (?c, _) => assert (Ec : code = c) by congruence end. clear H H2. subst code.
  set (k := seqcode (map cst (g_tree p)) ++ [OP_EXIT]) in *. set (mp := varint (zlen m) ++ m) in *.
  assert (Lh : forall a b c, zlen (header (g_path p) (le32 a) (le32 b) (le32 c)) = 14 + zlen (g_path p)).
  { intros a b c. unfold header. rewrite zlen_cons, !zlen_app. change (zlen [0]) with 1. change (zlen (le32 a)) with 4. change (zlen (le32 b)) with 4. change (zlen (le32 c)) with 4. lia. }
  rewrite !zlen_app, Lh in L. pose proof (zlen_nonneg k). pose proof (zlen_nonneg mp). pose proof (zlen_nonneg (g_path p)).
  assert (I : insl k).
  { unfold k in *. rewrite zlen_app in *. change (zlen [OP_EXIT]) with 1 in *. apply insl_app; [apply program_ins; lia|apply insl_one, i_plain; inop]. }
  destruct I as (is & F & E). exists is, m. split; [exact F|]. split; [exact E|].
  unfold part_bytes. cbv zeta. rewrite E. fold mp. unfold header. rewrite !le32_small by lia.
  replace (12 + zlen (g_path p) + 1) with (13 + zlen (g_path p)) by lia. cbn [app]. rewrite <- !app_assoc. reflexivity.
Qed.

(** Running an expression gives its value (C35). *)
From Verif Require Import Base Value_Model Value_Spec Str_Model Str_Spec TokNum_Model Txt_Model Tok_Model Tok_Spec
  Obj_Model Obj_Spec Bcode_Model Vm_Model Vm_Spec Parse_Model Run_Model Expr_Spec Run_Spec Expr_Proofs6 Props_Vm Tok_Proofs2 Obj_Proofs Obj_Proofs2 Props_Obj Num_Model NumText_Spec Lit_Proofs.

(** C35. A source whose tokens are an expression, possibly followed by semicolons: mjs_exec
    accepts it, and if the code fits, the variables are those of [env] and the expression has
    a value, the result represents that value. Nothing else has changed: the same things are
    on the data stack, the call stack, the arguments, scopes and loops, the variables still
    have their values, and the string memory has grown by no more than the stated bound. *)
Theorem expression_program w m M env path src ts semis d e : c_text src -> source src (ts ++ semis) ->
  Forall (fun t => lx_tok t = TOK_SEMICOLON) semis -> derive 11 d ts e -> (d <= nesting_limit)%nat ->
  exists f code, (forall f', (f <= f')%nat -> mjs_parse f' path src = OK (code, E_OK)) /\
  forall a n, value env e = Some (a, n) ->
    zlen code < 2 ^ 31 -> code_ok m (zlen code) -> env_ok m M env -> zlen (so (m_st m)) + n < 2 ^ 48 ->
    exists f m' v, (forall f', (f <= f')%nat -> mjs_exec f' w m path src = OK (m', v)) /\
      m_err m' = E_OK /\ rep (m_st m') (m_ext m') v a /\
      sk_live (m_stack m') = sk_live (m_stack m) /\ env_ok m' M env /\ m_code m' = commit (m_code m) code /\
      m_call m' = m_call m /\ m_arg m' = m_arg m /\ m_scopes m' = m_scopes m /\ m_loops m' = m_loops m /\
      m_this m' = m_this m /\ zlen (so (m_st m')) <= zlen (so (m_st m)) + n.
Proof.
  intros T Sr F D Hd.
  destruct (mjs_parse_emits path src ts semis d e T Sr F D Hd) as (f & x & y & tail & Lx & Ly & HP).
  eexists f, _. split; [exact HP|]. intros a n V Lc Co Ev Hs.
  destruct (code_runs w (set_err m E_OK) M env e a n path x y tail (proj1 derive_wf _ _ _ _ D) V Lx Ly Lc Co Ev Hs)
    as (f2 & m' & v & HR & H).
  exists (max f f2), m', v. split; [|exact H].
  intros f' Hf. unfold mjs_exec. rewrite HP by lia. cbn [bind]. change (E_OK =? E_OK) with true. cbv iota. apply HR. lia.
Qed.
Print Assumptions expression_program.

(** A concrete program, with a variable. *)
Definition tk1 (n : Z) (s : string) : tokn := {| lx_tok := n; lx_text := bs s |}.
Definition ex_src : list Z := bs "(1.5+x) *0x2=== 11? 'yes' :'no';".
Definition ex_toks : list tokn :=
  [tk1 TOK_OPEN_PAREN "("; tk1 TOK_NUM "1.5"; tk1 TOK_PLUS "+"; tk1 TOK_IDENT "x"; tk1 TOK_CLOSE_PAREN ")"; tk1 TOK_MUL "*"; tk1 TOK_NUM "0x2";
   tk1 TOK_EQ_EQ "==="; tk1 TOK_NUM "11"; tk1 TOK_QUESTION "?"; tk1 TOK_STR "yes"; tk1 TOK_COLON ":"; tk1 TOK_STR "no"].
Definition ex_tree : expr :=
  ECond (EBin TOK_EQ_EQ (EBin TOK_MUL (EBin TOK_PLUS (EDec (bs "1.5") (scale10 15 (-1))) (EVar (bs "x"))) (EInt 2)) (EInt 11)) (EStr (bs "yes")) (EStr (bs "no")).
Definition ex_env (x : list Z) : option aval := if list_eq_dec Z.eq_dec x (bs "x") then Some (ANum (of_int 4)) else None.
Lemma up l d ts e : (l < 8)%nat -> derive l d ts e -> derive (S l) (S d) ts e.
Proof. intros L H. rewrite <- (app_nil_r ts). apply d_level with (e0 := e); [lia|cbn [Nat.sub]; rewrite Nat.sub_0_r; exact H|apply o_none]. Qed.
Lemma ups n : forall l d ts e, (n + l <= 8)%nat -> derive l d ts e -> derive (n + l) (n + d) ts e.
Proof. induction n as [|n IH]; intros l d ts e L H; [exact H|]. cbn [Nat.add]. apply up; [lia|]. apply IH; [lia|exact H]. Qed.
Lemma to_cond d ts e : derive 8 d ts e -> derive 11 (S (S d)) ts e.
Proof. intros H. apply d_cond1, d_or1, d_and1, H. Qed.
Lemma source_blank c p ts : blank_char c -> source p ts -> source (c :: p) ts.
Proof.
  intros B [g G|g lex rest t ts' G T N K S]; [apply src_end, gap_space; assumption|].
  apply (src_tok (c :: g)); [apply gap_space; assumption|..]; assumption.
Qed.
Lemma source_at lex rest t ts : (forall c r, lex ++ rest = c :: r -> ~ blank_char c) -> ~ starts [47; 47] (lex ++ rest) -> ~ starts [47; 42] (lex ++ rest) ->
  token lex rest (lx_tok t) (lx_text t) -> ~ starts (bs "~=") (lex ++ rest) -> (lx_tok t = TOK_NUM -> (exists p, literal lex p) /\ num_end lex rest) ->
  source rest ts -> source (lex ++ rest) (t :: ts).
Proof. intros. apply (src_tok []); try assumption. apply gap_end; assumption. Qed.
Ltac head_is H := match type of H with ?a :: _ = ?c :: _ => assert (c = a) by congruence; subst c end.
Ltac nrm := repeat match goal with |- context [Z.of_N (N_of_ascii ?a)] => let v := eval vm_compute in (Z.of_N (N_of_ascii a)) in change (Z.of_N (N_of_ascii a)) with v end.
Ltac not_blank := let c := fresh in let r := fresh in let H := fresh in let B := fresh in intros c r H B; cbv in H; head_is H; cbv in B; intuition discriminate.
Ltac no_start := let r := fresh in let H := fresh in intros [r H]; discriminate H.
Ltac chars := lazymatch goal with |- Forall _ ?x => let v := eval vm_compute in x in change x with v end; repeat (apply Forall_cons; [unfold ident_char, letter; lia|]); apply Forall_nil.
Ltac numbers := lazymatch goal with |- Forall _ ?x => let v := eval vm_compute in x in change x with v end; repeat (apply Forall_cons; [lia|]); apply Forall_nil.
Ltac next_char := let c := fresh in let r := fresh in let H := fresh in intros c r H; cbv in H; head_is H; unfold ident_char, letter; lia.
Ltac opr l r n := let l := eval vm_compute in l in let r := eval vm_compute in r in lazymatch goal with |- source _ ?ts => change (source (l ++ r) ts) end;
  apply source_at; [not_blank|no_start|no_start|apply (tk_op _ _ n); apply longest_intro; [in_ops|not_in]|no_start|discriminate|].
Ltac number l r lit := let l := eval vm_compute in l in let r := eval vm_compute in r in lazymatch goal with |- source _ ?ts => change (source (l ++ r) ts) end;
  apply source_at; [not_blank|no_start|no_start|eapply tk_num; [reflexivity|nrm; lia]|no_start
  |intros _; split; [eexists; exact lit|split; [cbn [num_stop]; unfold ident_char, letter; lia|intros X; discriminate X]]|].
Ltac word l r := let l := eval vm_compute in l in let r := eval vm_compute in r in lazymatch goal with |- source _ ?ts => change (source (l ++ r) ts) end;
  apply source_at; [not_blank|no_start|no_start
  |eapply tk_word; [reflexivity|unfold letter; nrm; lia|exists r; split; [reflexivity|split; [chars|next_char]]|right; split; [|reflexivity]]|no_start|discriminate|].
Ltac plain_str := repeat (apply sb_char; [discriminate|discriminate|]); apply sb_nil; let c := fresh in let r := fresh in let H := fresh in intros c r H; congruence.
Ltac quoted l b r := let l := eval vm_compute in l in let r := eval vm_compute in r in lazymatch goal with |- source _ ?ts => change (source (l ++ r) ts) end;
  apply source_at; [not_blank|no_start|no_start|apply (tk_str _ _ 39 b); [right; reflexivity|reflexivity|plain_str]|no_start|discriminate|].
Lemma lit_a : literal (bs "1.5") (scale10 15 (-1)).
Proof. apply (lit_dec (bs "1") (bs ".5") (bs "5") [] 0); [split; [discriminate|numbers]|right; split; [reflexivity|unfold digits; numbers]|left; split; reflexivity]. Qed.
Lemma lit_b : literal (bs "0x2") (of_int 2).
Proof. apply (lit_hex (bs "2")); [discriminate|repeat (apply Forall_cons; [discriminate|]); apply Forall_nil|reflexivity]. Qed.
Lemma lit_c : literal (bs "11") (scale10 11 0).
Proof. apply (lit_dec (bs "11") [] [] [] 0); [split; [discriminate|numbers]|left; split; reflexivity|left; split; reflexivity]. Qed.
Example ex_source : source ex_src (ex_toks ++ [tk1 TOK_SEMICOLON ";"]).
Proof.
  unfold ex_src, ex_toks. cbn [app].
  opr (bs "(") (bs "1.5+x) *0x2=== 11? 'yes' :'no';") TOK_OPEN_PAREN.
  number (bs "1.5") (bs "+x) *0x2=== 11? 'yes' :'no';") lit_a.
  opr (bs "+") (bs "x) *0x2=== 11? 'yes' :'no';") TOK_PLUS.
  word (bs "x") (bs ") *0x2=== 11? 'yes' :'no';").
  { intros n H. vm_compute in H. intuition discriminate. }
  opr (bs ")") (bs " *0x2=== 11? 'yes' :'no';") TOK_CLOSE_PAREN.
  apply source_blank; [cbn; tauto|].
  opr (bs "*") (bs "0x2=== 11? 'yes' :'no';") TOK_MUL.
  number (bs "0x2") (bs "=== 11? 'yes' :'no';") lit_b.
  opr (bs "===") (bs " 11? 'yes' :'no';") TOK_EQ_EQ.
  apply source_blank; [cbn; tauto|].
  number (bs "11") (bs "? 'yes' :'no';") lit_c.
  opr (bs "?") (bs " 'yes' :'no';") TOK_QUESTION.
  apply source_blank; [cbn; tauto|].
  quoted (bs "'yes'") (bs "yes") (bs " :'no';").
  apply source_blank; [cbn; tauto|].
  opr (bs ":") (bs "'no';") TOK_COLON.
  quoted (bs "'no'") (bs "no") (bs ";").
  opr (bs ";") (bs "") TOK_SEMICOLON.
  apply src_end, gap_end; [intros c r H; discriminate|no_start|no_start].
Qed.
Ltac int_leaf t lit m e n := apply d_leaf; apply (leaf_int (tk1 TOK_NUM t) _ n eq_refl lit); [apply (W_down _ false m e n); [vm_compute; reflexivity|lia|reflexivity]|lia].
Ltac str_leaf ls := apply d_leaf; apply (leaf_str _ ls); [reflexivity|repeat (apply Forall_cons; [split; [unfold is_byte; lia|lia]|]); apply Forall_nil|reflexivity].
Lemma derive_mono : (forall c d ts e, derive c d ts e -> forall d', (d <= d')%nat -> derive c d' ts e) /\
  (forall l d acc ts e, operands l d acc ts e -> forall d', (d <= d')%nat -> operands l d' acc ts e).
Proof.
  apply derive_operands_ind.
  - intros. apply d_leaf. assumption.
  - intros ? ? ? ? ? ? ? ? IH d' L. apply d_paren; [assumption..|]. apply IH, L.
  - intros ? ? ? ? ? ? IH d' L. apply d_prefix; [assumption|]. apply IH, L.
  - intros ? ? ? ? ? ? ? ? IH1 ? IH2 [|d'] L; [lia|]. eapply d_level; [assumption|apply IH1; lia|apply IH2; lia].
  - intros ? ? ? ? IH [|d'] L; [lia|]. apply d_and1, IH. lia.
  - intros ? ? ? ? ? ? ? ? IH1 ? IH2 [|d'] L; [lia|]. apply d_and; [assumption|apply IH1; lia|apply IH2; lia].
  - intros ? ? ? ? IH [|d'] L; [lia|]. apply d_or1, IH. lia.
  - intros ? ? ? ? ? ? ? ? IH1 ? IH2 [|d'] L; [lia|]. apply d_or; [assumption|apply IH1; lia|apply IH2; lia].
  - intros ? ? ? ? IH d' L. apply d_cond1, IH, L.
  - intros ? ? ? ? ? ? ? ? ? ? ? ? IH1 ? IH2 ? IH3 d' L. apply d_cond; auto.
  - intros. apply o_none.
  - intros ? ? ? ? ? ? ? ? ? ? IH1 ? IH2 [|d'] L; [lia|]. eapply o_one; [assumption|apply IH1; lia|apply IH2; lia].
Qed.
Lemma derive_le d c d' ts e : derive c d ts e -> (d <= d')%nat -> derive c d' ts e.
Proof. intros H L. apply (proj1 derive_mono _ _ _ _ H _ L). Qed.
Example ex_derive : exists d, derive 11 d ex_toks ex_tree /\ (d <= nesting_limit)%nat.
Proof.
  exists 40%nat. split; [|vm_compute; lia]. unfold ex_toks, ex_tree.
  apply (d_cond 40 [tk1 TOK_OPEN_PAREN "("; tk1 TOK_NUM "1.5"; tk1 TOK_PLUS "+"; tk1 TOK_IDENT "x"; tk1 TOK_CLOSE_PAREN ")"; tk1 TOK_MUL "*"; tk1 TOK_NUM "0x2";
    tk1 TOK_EQ_EQ "==="; tk1 TOK_NUM "11"] (tk1 TOK_QUESTION "?") [tk1 TOK_STR "yes"] (tk1 TOK_COLON ":") [tk1 TOK_STR "no"]); [reflexivity|reflexivity| | |].
  - apply d_or1, d_and1. apply (ups 3 5 35); [lia|].
    apply (d_level 5 34 [tk1 TOK_OPEN_PAREN "("; tk1 TOK_NUM "1.5"; tk1 TOK_PLUS "+"; tk1 TOK_IDENT "x"; tk1 TOK_CLOSE_PAREN ")"; tk1 TOK_MUL "*"; tk1 TOK_NUM "0x2"]
      [tk1 TOK_EQ_EQ "==="; tk1 TOK_NUM "11"] (EBin TOK_MUL (EBin TOK_PLUS (EDec (bs "1.5") (scale10 15 (-1))) (EVar (bs "x"))) (EInt 2))); [lia| |].
    + apply (ups 3 1 31); [lia|].
      apply (d_level 1 30 [tk1 TOK_OPEN_PAREN "("; tk1 TOK_NUM "1.5"; tk1 TOK_PLUS "+"; tk1 TOK_IDENT "x"; tk1 TOK_CLOSE_PAREN ")"]
        [tk1 TOK_MUL "*"; tk1 TOK_NUM "0x2"] (EBin TOK_PLUS (EDec (bs "1.5") (scale10 15 (-1))) (EVar (bs "x")))); [lia| |].
      * apply (d_paren 30 (tk1 TOK_OPEN_PAREN "(") [tk1 TOK_NUM "1.5"; tk1 TOK_PLUS "+"; tk1 TOK_IDENT "x"]); [reflexivity|reflexivity|].
        apply to_cond. apply (ups 6 2 22); [lia|].
        apply (d_level 2 21 [tk1 TOK_NUM "1.5"] [tk1 TOK_PLUS "+"; tk1 TOK_IDENT "x"] (EDec (bs "1.5") (scale10 15 (-1)))); [lia|apply (ups 1 0 20); [lia|]|].
        { apply d_leaf. apply (leaf_dec (tk1 TOK_NUM "1.5") _ false 6755399441055744 (-52) eq_refl lit_a); [vm_compute; reflexivity|].
          intros n W. apply whole_is in W. vm_compute in W. discriminate W. }
        apply (o_one 2 20 (EDec (bs "1.5") (scale10 15 (-1))) (tk1 TOK_PLUS "+") [tk1 TOK_IDENT "x"] [] (EVar (bs "x"))); [reflexivity| |apply o_none].
        apply (ups 1 0 19); [lia|]. apply d_leaf. apply (leaf_var (tk1 TOK_IDENT "x")). reflexivity.
      * apply (o_one 1 29 _ (tk1 TOK_MUL "*") [tk1 TOK_NUM "0x2"] [] (EInt 2)); [reflexivity| |apply o_none]. int_leaf "0x2"%string lit_b (2 ^ 52)%positive (-51) 2.
    + apply (o_one 5 33 _ (tk1 TOK_EQ_EQ "===") [tk1 TOK_NUM "11"] [] (EInt 11)); [reflexivity| |apply o_none]. apply (ups 4 0 29); [lia|int_leaf "11"%string lit_c (11 * 2 ^ 49)%positive (-49) 11].
  - apply to_cond. apply (ups 8 0 30); [lia|]. str_leaf [LPlain 121; LPlain 101; LPlain 115].
  - apply to_cond. apply (ups 8 0 30); [lia|]. str_leaf [LPlain 110; LPlain 111].
Qed.
Example ex_value : value ex_env ex_tree = Some (AStr (bs "yes"), 36).
Proof. vm_compute. reflexivity. Qed.
(** A state whose global object has the variable. *)
Definition ex_state : vm := R_get Props_Vm.ex_m (m <- create ;; '(h, e) <- obj_set (m_heap m) (m_ext m) (hd 0 (chain m)) (bs "x") (of_int 4) ;; OK (set_heap m h)).
Lemma x_ok : name_ok (bs "x").
Proof. split; [|split]; [repeat (apply Forall_cons; [unfold is_byte; vm_compute; split; [discriminate|reflexivity]|]); apply Forall_nil
  |repeat (apply Forall_cons; [discriminate|]); apply Forall_nil|vm_compute; reflexivity]. Qed.
Example ex_state_ok : exists M, env_ok ex_state M ex_env.
Proof.
  destruct (mk_object_spec heap_init (m_ext ex_state) sempty (hrep_init _)) as (h1 & v & E & Rv & _ & _ & H1 & _).
  { unfold small. vm_compute. repeat split; discriminate || reflexivity. }
  set (h := R_get heap_init (r <- mk_object heap_init ;; OK (fst r))) in *.
  assert (E1 : mk_object heap_init = OK (h, 65521 * 2 ^ 48 + 4096)) by (vm_compute; reflexivity).
  rewrite E1 in E. assert (h1 = h) by congruence. assert (v = 65521 * 2 ^ 48 + 4096) by congruence. subst h1 v. clear E. change (h_next heap_init) with 4096 in *.
  destruct (set_updates_one_binding h (m_ext ex_state) _ (65521 * 2 ^ 48 + 4096) 4096 [] (bs "x") (of_int 4) H1 (supd_same _ _ _) Rv x_ok) as (h2 & E2 & H2).
  { unfold small. vm_compute. repeat split; discriminate || reflexivity. }
  assert (E3 : obj_set h (m_ext ex_state) (65521 * 2 ^ 48 + 4096) (bs "x") (of_int 4) = OK (m_heap ex_state, E_OK)) by (vm_compute; reflexivity).
  rewrite E3 in E2. assert (X : h2 = m_heap ex_state) by congruence. subst h2.
  eexists. split; [exact H2|]. intros x a H. unfold ex_env in H. destruct (list_eq_dec Z.eq_dec x (bs "x")) as [->|N]; [|discriminate].
  assert (a = ANum (of_int 4)) by congruence. subst a. split; [apply x_ok|]. split; [discriminate|].
  exists (65521 * 2 ^ 48 + 4096), (of_int 4). split.
  - exists [], []. split; [vm_compute; reflexivity|]. split; [constructor|]. exists 4096. eexists. split; [exact Rv|]. split; [apply supd_same|]. vm_compute. reflexivity.
  - split; [vm_compute; reflexivity|]. split; [reflexivity|]. split; [vm_compute; split; [discriminate|reflexivity]|vm_compute; reflexivity].
Qed.
Example ex_room : code_ok ex_state (2 ^ 31) /\ zlen (so (m_st ex_state)) + 36 < 2 ^ 48.
Proof. split; [exists []; split; [reflexivity|vm_compute; reflexivity]|vm_compute; reflexivity]. Qed.
Definition text_of (r : R (vm * Z)) : R (Z * list Z) :=
  '(m, v) <- r ;; '(l, n) <- get_string (m_st m) v ;; s <- loc_read (m_st m) (m_ext m) v l n ;; OK (m_err m, s).
Example expression_program_ex : text_of (mjs_exec 200 Props_Vm.w0 ex_state (bs "a.js") ex_src) = OK (E_OK, bs "yes").
Proof. vm_compute. reflexivity. Qed.

(** An integral literal stands for the double its text denotes. *)
Theorem integer_literal_exact txt p n : literal txt p -> whole p n -> value (fun _ => None) (EInt n) = Some (ANum p, 0).
Proof. intros L W. cbn [value]. rewrite (whole_of_int _ _ _ L W). reflexivity. Qed.
Print Assumptions integer_literal_exact.

(** The two conditions on numbers are needed: a source that ends with a one-digit number makes
    the parser read beyond the terminator, and a literal of 2^63 is converted to an integer
    type that cannot hold it. *)
Theorem final_digit_refuted : exists src p, literal src p /\ whole p 7 /\ mjs_parse 100 (bs "a.js") src = UB.
Proof.
  exists (bs "7"), (scale10 7 0). split; [|split; [|vm_compute; reflexivity]].
  - apply (lit_dec (bs "7") [] [] [] 0); [split; [discriminate|numbers]|left; split; reflexivity|left; split; reflexivity].
  - apply (W_down _ false (7 * 2 ^ 50)%positive (-50) 7); [vm_compute; reflexivity|lia|reflexivity].
Qed.
Print Assumptions final_digit_refuted.
Theorem big_literal_refuted : exists src p, literal src p /\ whole p (2 ^ 63) /\ mjs_parse 100 (bs "a.js") (src ++ bs ";") = UB.
Proof.
  exists (bs "9223372036854775808"), (scale10 9223372036854775808 0). split; [|split; [|vm_compute; reflexivity]].
  - apply (lit_dec (bs "9223372036854775808") [] [] [] 0); [split; [discriminate|numbers]|left; split; reflexivity|left; split; reflexivity].
  - apply (W_up _ false (2 ^ 52)%positive 11 (2 ^ 63)); [vm_compute; reflexivity|lia|reflexivity].
Qed.
Print Assumptions big_literal_refuted.

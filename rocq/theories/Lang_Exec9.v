(** Running the statements of the language, and everything together. *)
From Verif Require Import Base BaseFacts Value_Model Value_Spec Value_Proofs Data_Model Str_Model Str_Spec Str_Proofs Str_Proofs2 Float_Proofs Lit_Proofs
  Ops_Model Ops_Spec Ops_Proofs Ops_Proofs2 TokNum_Model Txt_Model Obj_Model Obj_Spec Obj_Proofs Obj_Proofs2 Conv_Model Num_Model Varint_Model Varint_Proofs Bcode_Model Bcode_Proofs
  Vm_Model Vm_Spec Vm_Proofs Vm_Proofs2 Vm_Proofs4 Tok_Spec Parse_Model Expr_Spec Run_Spec Expr_Proofs1 Expr_Proofs3 Expr_Proofs4 Expr_Proofs5 Lang_Spec Lang_Code Lang_Spec2 Lang_Exec1 Lang_Key Lang_Exec2 Lang_Exec3 Lang_Exec4 Lang_Exec5 Lang_Native Lang_Exec6 Lang_Exec7 Lang_Exec8.
From Coq Require Import ZifyBool.
Ltac Zify.zify_post_hook ::= idtac.


(** The pieces of a loop from its condition on. *)
Definition loopcode (c b : list Z) : list Z := c ++ OP_JMP_FALSE :: varint (zlen b + 2) ++ b ++ [OP_DROP; OP_CONTINUE; OP_BREAK].
Lemma loop_split bp i c b : stern b -> code_at bp i (loopcode c b) ->
  let n := zlen b + 2 in let i1 := i + zlen c in let i2 := i1 + 1 + zlen (varint n) in let i3 := i2 + zlen b in
  code_to bp i c /\ (exists d, zlen d = n /\ code_at bp i1 (OP_JMP_FALSE :: varint n ++ d)) /\ code_to bp i2 b /\
  code_at bp i3 [OP_DROP] /\ code_at bp (i3 + 1) [OP_CONTINUE] /\ code_at bp (i2 + n) [OP_BREAK].
Proof.
  intros Sb H. unfold loopcode in H. cbv zeta. set (n := zlen b + 2) in *. destruct (at_split _ _ _ _ H) as [H1 H2]; [sn|]. split; [exact H1|]. clear H H1.
  change (OP_JMP_FALSE :: varint n ++ b ++ [OP_DROP; OP_CONTINUE; OP_BREAK]) with ((OP_JMP_FALSE :: varint n) ++ b ++ [OP_DROP; OP_CONTINUE] ++ [OP_BREAK]) in H2.
  split.
  { exists (b ++ [OP_DROP; OP_CONTINUE]). split; [unfold n; zl|]. rewrite !app_assoc in H2. apply at_app in H2. destruct H2 as [H2 _]. rewrite <- !app_assoc in H2. exact H2. }
  apply at_app in H2. destruct H2 as [_ H2]. destruct (at_split _ _ _ _ H2) as [H3 H4]; [sn|]. split; [eapply to_pos; [exact H3|zl]|]. cbn [app] in H4.
  apply at_cons in H4. destruct H4 as [H4 H5]. apply at_cons in H5. destruct H5 as [H5 H6].
  split; [eapply at_pos; [exact H4|zl]|]. split; [eapply at_pos; [exact H5|zl]|]. eapply at_pos; [exact H6|unfold n; zl].
Qed.

Section Stmts.
Context (w : host) (sv : saved) (cd : code) (mem : rawmem) (res : list (Z * Z)).
Notation ext := (mext mem).
Notation vrep := (vrep cd ext).
Notation rel := (rel cd ext).
Notation go := (go w sv cd mem res).
Notation sim := (sim cd mem).
Notation evs := (evs w sv cd mem res). Notation refs := (refs w sv cd mem res). Notation argss := (argss w sv cd mem res). Notation exs := (exs w sv cd mem res).
Notation done := (done w sv cd mem res).
Section Step.
Context (E : evaluator) (rounds : nat) (K K' N : Z).
Context (IHev : evs K (ev E)) (IHref : refs K (ev_ref E)) (IHargs : argss K N (ev_args E)) (IHex : exs K (ex E)) (HN : 0 <= N) (HK : 0 <= K) (HK' : K + N + 8 <= K')
  (HexN : forall sc th a s o s', ex E sc th a s = Some (o, s') -> match a with SExprs _ | SLet _ => True | _ => False end -> exists v, o = ONormal v).
Ltac opt H := match type of H with match ?m with _ => _ end = Some _ => let E := fresh "E" in destruct m eqn:E; [|discriminate H] end.
Ltac optp H a b := match type of H with match ?m with _ => _ end = Some _ => let E := fresh "E" in destruct m as [[a b]|] eqn:E; [|discriminate H] end.

Definition exs1 (a : stmt) : Prop :=
  forall sc th s o s', exec1 E rounds sc th a s = Some (o, s') -> wfs a ->
  forall bp i op S C A SC LP T la W, part_of cd bp -> code_to bp i (cst a) -> fits K' S SC LP -> sim W s SC sc T th ->
  exists W', rel W' s' /\ later W W' /\ done bp (i + zlen (cst a)) S C A SC LP T (Cf bp i op S C A SC LP T la (w_heap W)) W' o.
Ltac ini := intros sc th s o s' H Wf bp i op S C A SC LP T la W P Ca Ft Sm; cbn [exec1] in H; cbn [cst] in Ca |- *; cbn [wfs] in Wf.

Lemma s_empty : exs1 SEmpty.
Proof.
  ini. injection H as <- <-. exists W. split; [apply Sm|]. split; [apply later_refl|]. exists OP_PUSH_UNDEF, la, V_UNDEFINED.
  split; [apply (g_undef w sv cd mem res bp P); apply to_at; exact Ca|reflexivity].
Qed.

(** ** Expressions and declarations in a row *)
Definition item {X} (f : list nat -> val -> X -> state -> option (val * state)) (cx : X -> list Z) (wf : X -> Prop) : Prop :=
  forall sc th x s v s', f sc th x s = Some (v, s') -> wf x ->
  forall bp i op S C A SC LP T la W, part_of cd bp -> code_to bp i (cx x) -> fits (K + 4) S SC LP -> sim W s SC sc T th ->
  exists op' la' v' W', go (Cf bp i op S C A SC LP T la (w_heap W)) (Cf bp (i + zlen (cx x)) op' (v' :: S) C A SC LP T la' (w_heap W')) /\
    rel W' s' /\ later W W' /\ vrep W' v' v.
Fixpoint row {X} (f : list nat -> val -> X -> state -> option (val * state)) (sc : list nat) (th : val) (l : list X) (v : val) (s : state) : option (val * state) :=
  match l with [] => Some (v, s) | x :: l => let? (v, s) := f sc th x s in row f sc th l v s end.
Lemma row_tail {X} f (cx : X -> list Z) wf l : item f cx wf -> forall sc th v s v1 s', row f sc th l v s = Some (v1, s') -> all wf l ->
  forall bp i op x S C A SC LP T la W, part_of cd bp -> code_to bp i (dropcode (map cx l)) -> fits (K + 4) S SC LP -> sim W s SC sc T th -> vrep W x v ->
  exists op' la' x' W', go (Cf bp i op (x :: S) C A SC LP T la (w_heap W)) (Cf bp (i + zlen (dropcode (map cx l))) op' (x' :: S) C A SC LP T la' (w_heap W')) /\
    rel W' s' /\ later W W' /\ vrep W' x' v1.
Proof.
  intros It. induction l as [|a l IH]; intros sc th v s v1 s' H Wf bp i op x S C A SC LP T la W P Ca Ft Sm V; cbn [row map dropcode flat_map] in *.
  - injection H as <- <-. exists op, la, x, W. split; [eapply go_at; [apply go_refl|zl]|]. split; [apply Sm|]. split; [apply later_refl|exact V].
  - optp H v2 s1. destruct Wf as [Wa Wl]. fold (dropcode (map cx l)) in *. cbn [app] in *. destruct (to_cons _ _ _ _ Ca) as [Ca1 Ca2].
    destruct (to_split _ _ _ _ Ca2 (drop_calm _)) as [Ca3 Ca4].
    pose proof (g_drop w sv cd mem res bp P i op x S C A SC LP T la (w_heap W) Ca1) as G1.
    destruct (It _ _ _ _ _ _ E0 Wa bp _ OP_DROP S C A SC LP T la W P Ca3 Ft Sm) as (op1 & la1 & x1 & W1 & G2 & R1 & L1 & V1).
    pose proof (sim_later _ _ _ _ _ _ _ _ _ _ Sm R1 L1) as Sm1.
    destruct (IH sc th v2 s1 v1 s' H Wl bp _ op1 x1 S C A SC LP T la1 W1 P Ca4 Ft Sm1 V1) as (op2 & la2 & x2 & W2 & G3 & R2 & L2 & V2).
    exists op2, la2, x2, W2. split; [eapply go_at; [eapply go_trans; [exact G1|]; eapply go_trans; [exact G2|exact G3]|zl]|].
    split; [exact R2|]. split; [eapply later_trans; eassumption|exact V2].
Qed.
Lemma row_ok {X} f (cx : X -> list Z) wf l : item f cx wf -> forall sc th s v1 s', row f sc th l undef s = Some (v1, s') -> all wf l ->
  forall bp i op S C A SC LP T la W, part_of cd bp -> code_to bp i (seqcode (map cx l)) -> fits (K + 4) S SC LP -> sim W s SC sc T th ->
  exists W', rel W' s' /\ later W W' /\ done bp (i + zlen (seqcode (map cx l))) S C A SC LP T (Cf bp i op S C A SC LP T la (w_heap W)) W' (ONormal v1).
Proof.
  intros It sc th s v1 s' H Wf bp i op S C A SC LP T la W P Ca Ft Sm. destruct l as [|a l]; cbn [row map seqcode Lang_Exec6.done] in *.
  - injection H as <- <-. exists W. split; [apply Sm|]. split; [apply later_refl|]. exists OP_PUSH_UNDEF, la, V_UNDEFINED.
    split; [apply (g_undef w sv cd mem res bp P); apply to_at; exact Ca|reflexivity].
  - optp H v2 s1. destruct Wf as [Wa Wl]. destruct (to_split _ _ _ _ Ca (drop_calm _)) as [Ca3 Ca4].
    destruct (It _ _ _ _ _ _ E0 Wa bp _ op S C A SC LP T la W P Ca3 Ft Sm) as (op1 & la1 & x1 & W1 & G2 & R1 & L1 & V1).
    pose proof (sim_later _ _ _ _ _ _ _ _ _ _ Sm R1 L1) as Sm1.
    destruct (row_tail f cx wf l It sc th v2 s1 v1 s' H Wl bp _ op1 x1 S C A SC LP T la1 W1 P Ca4 Ft Sm1 V1) as (op2 & la2 & x2 & W2 & G3 & R2 & L2 & V2).
    exists W2. split; [exact R2|]. split; [eapply later_trans; eassumption|]. exists op2, la2, x2.
    split; [eapply go_at; [eapply go_trans; [exact G2|exact G3]|zl]|exact V2].
Qed.
Lemma s_exprs l : exs1 (SExprs l).
Proof.
  ini. optp H v s1. injection H as <- <-. eapply (row_ok (ev E) cex wfx l); try eassumption; [|clear -E0; revert s v E0; generalize undef; induction l as [|e l IH]; intros u s v H; cbn [eval_all row] in *; [exact H|]|ft].
  - intros sc0 th0 x s0 v0 s1' H Wx bp0 i0 op0 S0 C0 A0 SC0 LP0 T0 la0 W0 P0 Ca0 Ft0 Sm0.
    destruct (IHev _ _ _ _ _ _ H Wx bp0 i0 op0 S0 C0 A0 SC0 LP0 T0 la0 W0 P0 Ca0 ltac:(ft) Sm0) as (op1 & la1 & x1 & W1 & G1 & R1 & L1 & V1 & _).
    exists op1, la1, x1, W1. split; [exact G1|]. split; [exact R1|]. split; assumption.
  - destruct (ev E sc th e s) as [[v' s'']|]; [|discriminate H]. apply IH. exact H.
Qed.
Definition letcode (p : list Z * option lx) : list Z := declcode (fst p) ++
  match snd p with None => [OP_PUSH_UNDEF] | Some e => varcode (fst p) ++ cex e ++ [OP_EXPR; TOK_ASSIGN] end.
Lemma let_item : item (fun sc th p => eval_let E sc th (fst p) (snd p)) letcode (fun p => match snd p with Some e => wfx e | None => True end).
Proof.
  intros sc th [x e] s v s' H Wx bp i op S C A SC LP T la W P Ca Ft Sm. cbn [fst snd] in *. unfold letcode in *. cbn [fst snd] in *. unfold eval_let in H. opt H. rename s0 into s1.
  destruct (to_app _ _ _ _ Ca) as [Ca1 Ca2].
  destruct (m_decl w sv cd mem res bp i op S C A SC LP T la W s s1 x sc th P Ca1 E0 Sm) as (W1 & G1 & R1 & L1 & (j & r & a & Ej & Eo)).
  pose proof (sim_later _ _ _ _ _ _ _ _ _ _ Sm R1 L1) as Sm1.
  destruct e as [e|].
  - opt H. rename s0 into s2. optp H v1 s3. rewrite Ej in H. opt H. injection H as <- <-. rename s0 into s4.
    destruct (to_app _ _ _ _ Ca2) as [Ca3 Ca4]. destruct (to_split _ _ _ _ Ca4) as [Ca5 Ca6]; [cm|].
    assert (Eo2 : own s2 j x = Some a) by (unfold own in *; rewrite (use_name_own _ _ _ E1); exact Eo).
    assert (Fv : find_var s2 sc x = Some j) by (rewrite Ej; exact (find_head _ _ _ _ _ Eo2)).
    destruct (m_var w sv cd mem res bp _ OP_CREATE S C A SC LP T la W1 s1 s2 x sc th j P Ca3 E1 Fv Sm1) as (key & W2 & G2 & R2 & L2 & Nm & Gn & Hj).
    pose proof (sim_later _ _ _ _ _ _ _ _ _ _ Sm1 R2 L2) as Sm2.
    destruct (IHev _ _ _ _ _ _ E2 Wx bp _ OP_FIND_SCOPE (obj_at W2 j :: key :: S) C A SC LP T la W2 P Ca5 ltac:(ft) Sm2) as (op3 & la3 & x3 & W3 & G3 & R3 & L3 & V3 & _).
    destruct (obj_later _ _ _ L3 Hj) as [Eo3 Hj3].
    destruct (x_assign cd mem res W3 s3 s4 j x key (obj_at W2 j) x3 v1 S C A SC LP T la3 R3 V3 (key_name_of _ _ _ _ (name_later cd mem _ _ _ _ L3 Gn Nm)) Gn (or_introl (eq_sym Eo3)) E3) as (W4 & R4 & L4 & X).
    exists OP_EXPR, la3, x3, W4. split; [eapply go_at; [eapply go_trans; [exact G1|]; eapply go_trans; [exact G2|]; eapply go_trans; [exact G3|]; eapply (g_expr w sv cd mem res bp P); [apply to_at; exact Ca6|exact X]|zl]|].
    split; [exact R4|]. split; [eapply later_trans; [exact L1|]; eapply later_trans; [exact L2|]; eapply later_trans; eassumption|eapply vrep_later; eassumption].
  - injection H as <- <-. exists OP_PUSH_UNDEF, la, V_UNDEFINED, W1.
    split; [eapply go_at; [eapply go_trans; [exact G1|]; apply (g_undef w sv cd mem res bp P); apply to_at; exact Ca2|zl]|]. split; [exact R1|]. split; [exact L1|reflexivity].
Qed.
Lemma s_let l : exs1 (SLet l).
Proof.
  ini. optp H v s1. injection H as <- <-. eapply (row_ok _ letcode _ l let_item); try eassumption; [|ft].
  clear -E0. revert s v E0. generalize undef. induction l as [|[x e] l IH]; intros u s v H; cbn [eval_lets row fst snd] in *; [exact H|].
  destruct (eval_let E sc th x e s) as [[v' s'']|]; [|discriminate H]. apply IH. exact H.
Qed.

(** ** Blocks and conditionals *)
Lemma done_scope bp j S C A x SC LP T y W' o : part_of cd bp -> code_at bp j [OP_DEL_SCOPE] -> done bp j S C A (x :: SC) LP T y W' o -> done bp (j + 1) S C A SC LP T y W' o.
Proof.
  intros P Ca. destruct o as [v| | |v]; cbn [Lang_Exec6.done].
  - intros (op' & la' & v' & G & V). exists OP_DEL_SCOPE, la', v'. split; [eapply go_trans; [exact G|]; apply (g_del_scope w sv cd mem res bp P); exact Ca|exact V].
  - intros H ct bk isc osc lrest E1 E2 B1 B2. apply (H ct bk (x :: isc) osc lrest E1); [rewrite E2; reflexivity|exact B1|exact B2].
  - intros H ct bk isc osc lrest E1 E2 B1 B2. apply (H ct bk (x :: isc) osc lrest E1); [rewrite E2; reflexivity|exact B1|exact B2].
  - intros H xs r base C' E1 E2 E3 E4. destruct (H xs r base C' E1 E2 E3 E4) as (i & op' & xs' & isc & ilp & la' & v' & Cr & G & V).
    exists i, op', xs', (isc ++ [x]), ilp, la', v'. split; [exact Cr|]. split; [rewrite <- app_assoc; exact G|exact V].
Qed.
Lemma scope_sim W s s1 j h SC sc T th : sim W s SC sc T th -> rel (new_world W h) s1 -> later W (new_world W h) -> (j < length (w_addr (new_world W h)))%nat ->
  sim (new_world W h) s1 (obj_at (new_world W h) j :: SC) (j :: sc) T th.
Proof.
  intros (R & Sc & V) R1 L Hj. split; [exact R1|]. split; [|eapply vrep_later; eassumption]. destruct (scopes_later _ _ _ _ L Sc) as [ES FS].
  split; [cbn [map]; f_equal; exact ES|constructor; assumption].
Qed.
Lemma list_stern l : stern (seqcode (map cst l)).
Proof. apply seq_stern. apply Forall_forall. intros x Hx. apply in_map_iff in Hx. destruct Hx as (e & <- & _). apply cst_stern. Qed.
Lemma s_block l : exs1 (SBlock l).
Proof.
  ini. optp H j s1. destruct (to_cons _ _ _ _ Ca) as [Ca1 Ca2]. destruct (to_split _ _ _ _ Ca2) as [Ca3 Ca4]; [cm|].
  destruct (new_cell_ok cd ext W s s1 j (proj1 Sm) E0) as (h & Mk & R1 & L1 & Ej & Hj).
  pose proof (g_new_scope w sv cd mem res bp P i op S C A SC LP T la _ _ _ Ca1 Mk) as G1.
  destruct (seq_ok w sv cd mem res E K IHex l (j :: sc) th s1 o s' H Wf bp _ OP_NEW_SCOPE S C A (obj_at (new_world W h) j :: SC) LP T la (new_world W h) P Ca3 ltac:(ft)
     (scope_sim _ _ _ _ _ _ _ _ _ Sm R1 L1 Hj)) as (W2 & R2 & L2 & D2).
  exists W2. split; [exact R2|]. split; [eapply later_trans; eassumption|]. eapply done_from; [exact G1|].
  eapply done_jump; [eapply done_scope; [exact P|apply to_at; exact Ca4|exact D2]|]. intros _ _. zl.
Qed.
Lemma s_if c a b : exs1 (SIf c a b).
Proof.
  ini. optp H v1 s1. destruct Wf as (Wc & Wa & Wb). destruct b as [b|].
  - destruct (cond_split bp i (cex c) (cst a) (cst b) (cst_stern a) (cst_stern b) Ca) as (Ca1 & (d & Zd & Ca2) & Ca3 & (d' & Zd' & Ca4) & Ca5 & Ca6 & Ez). rewrite Ez.
    destruct (IHev _ _ _ _ _ _ E0 Wc bp i op S C A SC LP T la W P Ca1 ltac:(ft) Sm) as (op1 & la1 & x1 & W1 & G1 & R1 & L1 & V1 & _).
    pose proof (g_jmp_false w sv cd mem res bp P _ op1 x1 (v_truthy v1) S C A SC LP T la1 (w_heap W1) _ d Ca2 Zd (vrep_truthy cd ext _ _ _ _ R1 V1)) as G2.
    pose proof (sim_later _ _ _ _ _ _ _ _ _ _ Sm R1 L1) as Sm1. pose proof (go_trans _ _ _ _ _ _ _ _ G1 G2) as G12. destruct (v_truthy v1).
    + rewrite Z.add_0_r in G12.
      destruct (IHex _ _ _ _ _ _ H Wa bp _ OP_JMP_FALSE S C A SC LP T la1 W1 P Ca3 ltac:(ft) Sm1) as (W2 & R2 & L2 & D2).
      exists W2. split; [exact R2|]. split; [eapply later_trans; eassumption|]. eapply done_from; [exact G12|].
      destruct o as [v| | |v]; try exact D2. cbn [Lang_Exec6.done] in *. destruct D2 as (op3 & la3 & x3 & G3 & V3). exists OP_JMP, la3, x3. split; [|exact V3].
      eapply go_at; [eapply go_trans; [exact G3|apply (g_jmp w sv cd mem res bp P) with (d := d'); [exact Ca4|exact Zd']]|lia].
    + pose proof (g_drop w sv cd mem res bp P _ OP_JMP_FALSE V_UNDEFINED S C A SC LP T la1 (w_heap W1) Ca5) as G3.
      destruct (IHex _ _ _ _ _ _ H Wb bp _ OP_DROP S C A SC LP T la1 W1 P Ca6 ltac:(ft) Sm1) as (W2 & R2 & L2 & D2).
      exists W2. split; [exact R2|]. split; [eapply later_trans; eassumption|]. eapply done_from; [|exact D2].
      eapply go_trans; [|exact G3]. eapply go_at; [exact G12|lia].
  - destruct (to_split _ _ _ _ Ca) as [Ca1 Ca2]; [cm|]. pose proof (to_at _ _ _ Ca2) as Ca3.
    change (OP_JMP_FALSE :: varint (zlen (cst a)) ++ cst a) with ((OP_JMP_FALSE :: varint (zlen (cst a))) ++ cst a) in Ca2. apply to_skip in Ca2.
    destruct (IHev _ _ _ _ _ _ E0 Wc bp i op S C A SC LP T la W P Ca1 ltac:(ft) Sm) as (op1 & la1 & x1 & W1 & G1 & R1 & L1 & V1 & _).
    pose proof (g_jmp_false w sv cd mem res bp P _ op1 x1 (v_truthy v1) S C A SC LP T la1 (w_heap W1) _ _ Ca3 eq_refl (vrep_truthy cd ext _ _ _ _ R1 V1)) as G2.
    pose proof (sim_later _ _ _ _ _ _ _ _ _ _ Sm R1 L1) as Sm1. pose proof (go_trans _ _ _ _ _ _ _ _ G1 G2) as G12. destruct (v_truthy v1).
    + destruct (IHex _ _ _ _ _ _ H Wa bp _ OP_JMP_FALSE S C A SC LP T la1 W1 P Ca2 ltac:(ft) Sm1) as (W2 & R2 & L2 & D2).
      exists W2. split; [exact R2|]. split; [eapply later_trans; eassumption|]. eapply done_jump; [eapply done_from; [|exact D2]; eapply go_at; [exact G12|zl]|].
      intros _ _. zl.
    + injection H as <- <-. exists W1. split; [exact R1|]. split; [exact L1|]. exists OP_JMP_FALSE, la1, V_UNDEFINED. split; [eapply go_at; [exact G12|zl]|reflexivity].
Qed.

(** ** Leaving *)
Lemma s_break : exs1 SBreak.
Proof.
  ini. injection H as <- <-. exists W. split; [apply Sm|]. split; [apply later_refl|]. cbn [Lang_Exec6.done]. intros ct bk isc osc lrest -> -> B1 B2.
  apply to_at in Ca. destruct (at_cons _ _ _ _ Ca) as [Ca1 Ca2]. exists OP_BREAK, la.
  eapply go_trans; [apply (g_undef w sv cd mem res bp P); exact Ca1|]. apply (g_break w sv cd mem res bp P); assumption.
Qed.
Lemma s_continue : exs1 SContinue.
Proof.
  ini. injection H as <- <-. exists W. split; [apply Sm|]. split; [apply later_refl|]. cbn [Lang_Exec6.done]. intros ct bk isc osc lrest -> -> B1 B2.
  exists OP_CONTINUE, la. apply (g_continue w sv cd mem res bp P); [apply to_at; exact Ca|assumption|assumption].
Qed.
Lemma ret_ok bp i op v a S C A SC LP T la W j : part_of cd bp -> code_at bp i [OP_SETRETVAL; OP_RETURN] -> vrep W v a ->
  done bp j S C A SC LP T (Cf bp i op (v :: S) C A SC LP T la (w_heap W)) W (OReturn a).
Proof.
  intros P Ca V. cbn [Lang_Exec6.done]. intros xs r base C' EC E4 -> B1. destruct (at_cons _ _ _ _ Ca) as [Ca1 Ca2].
  exists (i + 1), OP_SETRETVAL, xs, [], [], la, v. split; [exact Ca2|]. split; [|exact V].
  eapply (g_setret w sv cd mem res bp P); [exact Ca1|exact EC|exact E4|exact B1].
Qed.
Lemma s_return e : exs1 (SReturn e).
Proof.
  destruct e as [e|]; ini.
  - optp H v s1. injection H as <- <-. destruct (to_split _ _ _ _ Ca) as [Ca1 Ca2]; [cm|].
    destruct (IHev _ _ _ _ _ _ E0 Wf bp i op S C A SC LP T la W P Ca1 ltac:(ft) Sm) as (op1 & la1 & x1 & W1 & G1 & R1 & L1 & V1 & _).
    exists W1. split; [exact R1|]. split; [exact L1|]. eapply done_from; [exact G1|]. apply ret_ok; [exact P|apply to_at; exact Ca2|exact V1].
  - injection H as <- <-. exists W. split; [apply Sm|]. split; [apply later_refl|]. apply to_at in Ca. destruct (at_cons _ _ _ _ Ca) as [Ca1 Ca2].
    eapply done_from; [apply (g_undef w sv cd mem res bp P); exact Ca1|]. apply ret_ok; [exact P|exact Ca2|reflexivity].
Qed.

(** ** Loops *)
Definition step_code (bp : part) (ct ic : Z) (step : option lx) : Prop :=
  match step with None => ct = ic | Some u => code_to bp ct (cex u) /\ code_at bp (ct + zlen (cex u)) [OP_DROP] /\ ic = ct + zlen (cex u) + 1 end.
Lemma step_ok sc th step s s' : match step with None => Some s | Some u => let? (_, s) := ev E sc th u s in Some s end = Some s' -> match step with Some u => wfx u | None => True end ->
  forall bp ct ic op S C A SC LP T la W, part_of cd bp -> step_code bp ct ic step -> fits K S SC LP -> sim W s SC sc T th ->
  exists op' la' W', go (Cf bp ct op S C A SC LP T la (w_heap W)) (Cf bp ic op' S C A SC LP T la' (w_heap W')) /\ rel W' s' /\ later W W'.
Proof.
  intros H Wf bp ct ic op S C A SC LP T la W P Ca Ft Sm. destruct step as [u|]; cbn [step_code] in Ca.
  - optp H v s1. injection H as <-. destruct Ca as (Ca1 & Ca2 & ->).
    destruct (IHev _ _ _ _ _ _ E0 Wf bp ct op S C A SC LP T la W P Ca1 Ft Sm) as (op1 & la1 & x1 & W1 & G1 & R1 & L1 & V1 & _).
    exists OP_DROP, la1, W1. split; [eapply go_trans; [exact G1|apply (g_drop w sv cd mem res bp P); exact Ca2]|]. split; assumption.
  - injection H as <-. subst ic. exists op, la, W. split; [apply go_refl|]. split; [apply Sm|apply later_refl].
Qed.
Lemma loop_ok n : forall sc th c step b s o s', loop E sc th c step b n s = Some (o, s') -> wfx c -> all wfs b -> match step with Some u => wfx u | None => True end ->
  forall bp ic ct bk op S C A SC LP T la W, part_of cd bp -> code_at bp ic (loopcode (cex c) (seqcode (map cst b))) -> 0 < ct < 2 ^ 31 -> 0 < bk < 2 ^ 31 ->
  step_code bp ct ic step -> fits (K + 4) S SC LP -> sim W s SC sc T th ->
  let LP' := vnum ct :: vnum bk :: vnum (zlen SC) :: LP in let x := Cf bp ic op S C A SC LP' T la (w_heap W) in
  exists W', rel W' s' /\ later W W' /\
    match o with
    | ONormal v => v = undef /\ exists op' la', go x (Cf bp bk op' (V_UNDEFINED :: S) C A SC LP T la' (w_heap W'))
    | OReturn v => done bp 0 S C A SC LP' T x W' (OReturn v)
    | _ => False
    end.
Proof.
  induction n as [|n IH]; intros sc th c step b s o s' H Wc Wb Ws bp ic ct bk op S C A SC LP T la W P Ca Hct Hbk Hs Ft Sm; [discriminate H|]. cbn [loop] in H. cbv zeta. set (LP' := vnum ct :: vnum bk :: vnum (zlen SC) :: LP).
  destruct (loop_split bp ic _ _ (list_stern b) Ca) as (Ca1 & (d & Zd & Ca2) & Ca3 & Ca4 & Ca5 & Ca6).
  assert (Ft' : fits K S SC LP') by (unfold LP'; ft). optp H v1 s1.
  destruct (IHev _ _ _ _ _ _ E0 Wc bp ic op S C A SC LP' T la W P Ca1 Ft' Sm) as (op1 & la1 & x1 & W1 & G1 & R1 & L1 & V1 & _).
  pose proof (g_jmp_false w sv cd mem res bp P _ op1 x1 (v_truthy v1) S C A SC LP' T la1 (w_heap W1) _ d Ca2 Zd (vrep_truthy cd ext _ _ _ _ R1 V1)) as G2.
  pose proof (sim_later _ _ _ _ _ _ _ _ _ _ Sm R1 L1) as Sm1. pose proof (go_trans _ _ _ _ _ _ _ _ G1 G2) as G12. destruct (v_truthy v1).
  - rewrite Z.add_0_r in G12. optp H o2 s2.
    destruct (seq_ok w sv cd mem res E K IHex b sc th s1 o2 s2 E1 Wb bp _ OP_JMP_FALSE S C A SC LP' T la1 W1 P Ca3 Ft' Sm1) as (W2 & R2 & L2 & D2).
    pose proof (sim_later _ _ _ _ _ _ _ _ _ _ Sm1 R2 L2) as Sm2.
    assert (Again : forall opx lax, go (Cf bp ic op S C A SC LP' T la (w_heap W)) (Cf bp ct opx S C A SC LP' T lax (w_heap W2)) ->
      (let? s := match step with None => Some s2 | Some u => let? (_, s) := ev E sc th u s2 in Some s end in loop E sc th c step b n s) = Some (o, s') ->
      exists W', rel W' s' /\ later W W' /\ match o with
        | ONormal v => v = undef /\ exists op' la', go (Cf bp ic op S C A SC LP' T la (w_heap W)) (Cf bp bk op' (V_UNDEFINED :: S) C A SC LP T la' (w_heap W'))
        | OReturn v => done bp 0 S C A SC LP' T (Cf bp ic op S C A SC LP' T la (w_heap W)) W' (OReturn v) | _ => False end).
    { intros opx lax G H'. opt H'. rename s0 into s3.
      destruct (step_ok sc th step s2 s3 E2 Ws bp ct ic opx S C A SC LP' T lax W2 P Hs Ft' Sm2) as (op3 & la3 & W3 & G3 & R3 & L3).
      pose proof (sim_later _ _ _ _ _ _ _ _ _ _ Sm2 R3 L3) as Sm3. pose proof (go_trans _ _ _ _ _ _ _ _ G G3) as GG.
      destruct (IH sc th c step b s3 o s' H' Wc Wb Ws bp ic ct bk op3 S C A SC LP T la3 W3 P Ca Hct Hbk Hs Ft Sm3) as (W4 & R4 & L4 & D4).
      exists W4. split; [exact R4|]. split; [eapply later_trans; [exact L1|]; eapply later_trans; [exact L2|]; eapply later_trans; eassumption|].
      destruct o as [v| | |v]; try exact D4.
      - destruct D4 as (Ev & op5 & la5 & G5). split; [exact Ev|]. exists op5, la5. eapply go_trans; [exact GG|exact G5].
      - eapply done_from; [exact GG|exact D4]. }
    destruct o2 as [v2| | |v2]; cbn [Lang_Exec6.done] in D2.
    + destruct D2 as (op3 & la3 & x3 & G3 & V3). eapply Again; [|exact H].
      eapply go_trans; [exact G12|]. eapply go_trans; [exact G3|]. eapply go_trans; [apply (g_drop w sv cd mem res bp P); exact Ca4|].
      apply (g_continue w sv cd mem res bp P) with (isc := []); [exact Ca5|exact Hct|ft].
    + injection H as <- <-. exists W2. split; [exact R2|]. split; [eapply later_trans; eassumption|]. split; [reflexivity|].
      destruct (D2 (vnum ct) bk [] SC LP eq_refl eq_refl Hbk ltac:(ft)) as (op3 & la3 & G3). exists op3, la3. eapply go_trans; [exact G12|exact G3].
    + destruct (D2 ct (vnum bk) [] SC LP eq_refl eq_refl Hct ltac:(ft)) as (op3 & la3 & G3). eapply Again; [|exact H]. eapply go_trans; [exact G12|exact G3].
    + injection H as <- <-. exists W2. split; [exact R2|]. split; [eapply later_trans; eassumption|]. eapply done_from; [exact G12|]. exact D2.
  - injection H as <- <-. exists W1. split; [exact R1|]. split; [exact L1|]. split; [reflexivity|]. exists OP_BREAK, la1. eapply go_trans; [exact G12|].
    apply (g_break w sv cd mem res bp P) with (isc := []); [exact Ca6|exact Hbk|ft].
Qed.
Lemma loop_done bp bk S C A x SC ct bk' n LP T y W' o : part_of cd bp -> code_at bp bk [OP_DEL_SCOPE] ->
  match o with
  | ONormal v => v = undef /\ exists op' la', go y (Cf bp bk op' (V_UNDEFINED :: S) C A (x :: SC) LP T la' (w_heap W'))
  | OReturn v => done bp 0 S C A (x :: SC) (ct :: bk' :: n :: LP) T y W' (OReturn v)
  | _ => False
  end -> done bp (bk + 1) S C A SC LP T y W' o.
Proof.
  intros P Ca H. destruct o as [v| | |v]; try contradiction.
  - destruct H as (-> & op' & la' & G). exists OP_DEL_SCOPE, la', V_UNDEFINED. split; [eapply go_trans; [exact G|apply (g_del_scope w sv cd mem res bp P); exact Ca]|reflexivity].
  - cbn [Lang_Exec6.done] in *. intros xs r base C' E1 E2 E3 E4. destruct (H xs r base C' E1 E2 E3 E4) as (i & op' & xs' & isc & ilp & la' & v' & Cr & G & V).
    exists i, op', xs', (isc ++ [x]), (ilp ++ [ct; bk'; n]), la', v'. split; [exact Cr|]. split; [rewrite <- !app_assoc; exact G|exact V].
Qed.
Lemma s_while c b : exs1 (SWhile c b).
Proof.
  ini. optp H j s1. destruct Wf as [Wc Wb]. unfold whilecode in *. set (bc := seqcode (map cst b)) in *. set (n1 := zlen (while_rest (cex c) bc)) in *.
  destruct (to_cons _ _ _ _ Ca) as [Ca1 Ca2]. clear Ca. apply to_at in Ca2.
  change (OP_LOOP :: varint n1 ++ while_rest (cex c) bc ++ [OP_DEL_SCOPE]) with ((OP_LOOP :: varint n1) ++ while_rest (cex c) bc ++ [OP_DEL_SCOPE]) in *.
  pose proof (at_len _ _ _ Ca2) as [Hi Hl]. rewrite !zlen_app, zlen_cons in Hl. change (zlen [OP_DEL_SCOPE]) with 1 in Hl. fold n1 in Hl.
  pose proof (part_len cd bp P) as (Pl & _ & _). pose proof (varint_zlen n1) as Hv1.
  assert (En : n1 = 1 + zlen (loopcode (cex c) bc)) by (unfold n1, while_rest, loopcode; rewrite zlen_cons; reflexivity). pose proof (zlen_nonneg (loopcode (cex c) bc)) as Hp.
  assert (Caw : code_at bp (i + 1) (OP_LOOP :: varint n1 ++ varint 0 ++ loopcode (cex c) bc)).
  { rewrite app_assoc in Ca2. apply at_app in Ca2. exact (proj1 Ca2). }
  pose proof (at_at _ _ _ _ _ Ca2) as Ca3. rewrite zlen_cons in Ca3. apply at_cons in Ca3. destruct Ca3 as [_ Ca3].
  rewrite app_assoc in Ca2. apply at_app in Ca2. destruct Ca2 as [_ Ca4]. rewrite zlen_app, zlen_cons in Ca4. fold n1 in Ca4.
  destruct (new_cell_ok cd ext W s s1 j (proj1 Sm) E0) as (h & Mk & R1 & L1 & Ej & Hj).
  pose proof (g_new_scope w sv cd mem res bp P i op S C A SC LP T la _ _ _ Ca1 Mk) as G1. set (SC1 := obj_at (new_world W h) j :: SC) in *.
  pose proof (g_loop w sv cd mem res bp P (i + 1) OP_NEW_SCOPE S C A SC1 LP T la h n1 0 _ Caw ltac:(lia) ltac:(change (zlen (varint 0)) with 1; lia) ltac:(lia) ltac:(lia) ltac:(change (zlen (varint 0)) with 1; lia)) as G2.
  change (zlen (varint 0)) with 1 in G2. rewrite Z.add_0_r in G2. set (ic := i + 1 + 1 + zlen (varint n1) + 1) in *. set (bk := i + 1 + 1 + zlen (varint n1) + n1) in *.
  destruct (loop_ok rounds (j :: sc) th c None b s1 o s' H Wc Wb I bp ic ic bk OP_LOOP S C A SC1 LP T la (new_world W h) P) as (W2 & R2 & L2 & D2); try lia.
  { eapply at_pos; [exact Ca3|unfold ic; lia]. }
  { reflexivity. }
  { unfold SC1. ft. }
  { exact (scope_sim _ _ _ _ _ _ _ _ _ Sm R1 L1 Hj). }
  exists W2. split; [exact R2|]. split; [eapply later_trans; eassumption|]. eapply done_from; [eapply go_trans; [exact G1|exact G2]|].
  eapply done_jump; [eapply (loop_done bp bk); [exact P|eapply at_pos; [exact Ca4|unfold bk; lia]|exact D2]|]. intros _ _. rewrite zlen_cons, !zlen_app, zlen_cons. change (zlen [OP_DEL_SCOPE]) with 1. fold n1. unfold bk. lia.
Qed.
Lemma s_for i0 c u b : exs1 (SFor i0 c u b).
Proof.
  ini. optp H j s1. optp H o1 s2. destruct Wf as (Wi & Wc & Wu & Wb & Wk). unfold forcode in *. set (bc := seqcode (map cst b)) in *. set (n1 := zlen (for_rest (cst i0) (cex c) (cex u) bc)) in *.
  destruct (to_cons _ _ _ _ Ca) as [Ca1 Ca2]. clear Ca. apply to_at in Ca2.
  change (OP_LOOP :: varint n1 ++ for_rest (cst i0) (cex c) (cex u) bc ++ [OP_DEL_SCOPE]) with ((OP_LOOP :: varint n1) ++ for_rest (cst i0) (cex c) (cex u) bc ++ [OP_DEL_SCOPE]) in *.
  pose proof (at_len _ _ _ Ca2) as [Hi Hl]. rewrite !zlen_app, zlen_cons in Hl. change (zlen [OP_DEL_SCOPE]) with 1 in Hl. fold n1 in Hl.
  pose proof (part_len cd bp P) as (Pl & _ & _). pose proof (varint_zlen n1) as Hv1.
  set (uo := varint (zlen (cex u) + 1)) in *. set (n2 := zlen (cst i0) + 2 + zlen uo) in *. pose proof (varint_zlen n2) as Hv2.
  set (d := cst i0 ++ OP_DROP :: OP_JMP :: uo ++ cex u ++ OP_DROP :: loopcode (cex c) bc).
  assert (Ed : for_rest (cst i0) (cex c) (cex u) bc = varint n2 ++ d) by reflexivity.
  assert (Zd : zlen d = n2 + zlen (cex u) + 1 + zlen (loopcode (cex c) bc)) by (unfold d, n2; zl).
  assert (En : n1 = zlen (varint n2) + zlen d) by (unfold n1; rewrite Ed, zlen_app; reflexivity). pose proof (zlen_nonneg (loopcode (cex c) bc)) as Hp.
  pose proof (zlen_nonneg (cst i0)) as Hp1. pose proof (zlen_nonneg uo) as Hp2. pose proof (zlen_nonneg (cex u)) as Hp3. rewrite Ed in Ca2.
  assert (Caw : code_at bp (i + 1) (OP_LOOP :: varint n1 ++ varint n2 ++ d)).
  { rewrite app_assoc in Ca2. apply at_app in Ca2. exact (proj1 Ca2). }
  pose proof (at_at _ _ _ _ _ Ca2) as Ca3. rewrite zlen_cons in Ca3. apply at_app in Ca3. destruct Ca3 as [_ Ca3].
  rewrite app_assoc in Ca2. apply at_app in Ca2. destruct Ca2 as [_ Ca4]. rewrite !zlen_app, zlen_cons in Ca4.
  set (ii := i + 1 + (1 + zlen (varint n1)) + zlen (varint n2)) in *. unfold d in Ca3. destruct (at_split _ _ _ _ Ca3) as [Ci Ca5]; [sn|]. clear Ca3.
  destruct (at_cons _ _ _ _ Ca5) as [Cd Ca6]. clear Ca5.
  change (OP_JMP :: uo ++ cex u ++ OP_DROP :: loopcode (cex c) bc) with ([OP_JMP] ++ uo ++ cex u ++ OP_DROP :: loopcode (cex c) bc) in Ca6.
  assert (Cj : code_at bp (ii + zlen (cst i0) + 1) (OP_JMP :: uo ++ cex u ++ [OP_DROP])).
  { change (OP_JMP :: uo ++ cex u ++ [OP_DROP]) with ([OP_JMP] ++ uo ++ cex u ++ [OP_DROP]). change (OP_DROP :: loopcode (cex c) bc) with ([OP_DROP] ++ loopcode (cex c) bc) in Ca6.
    rewrite !app_assoc in Ca6. apply at_app in Ca6. destruct Ca6 as [Q _]. rewrite <- !app_assoc in Q. exact Q. }
  rewrite (app_assoc [OP_JMP]) in Ca6. apply at_app in Ca6. destruct Ca6 as [_ Ca7]. rewrite zlen_app in Ca7. change (zlen [OP_JMP]) with 1 in Ca7.
  destruct (at_split _ _ _ _ Ca7) as [Cu Ca8]; [sn|]. destruct (at_cons _ _ _ _ Ca8) as [Cu2 Cl]. clear Ca7 Ca8.
  destruct (new_cell_ok cd ext W s s1 j (proj1 Sm) E0) as (h & Mk & R1 & L1 & Ej & Hj).
  pose proof (g_new_scope w sv cd mem res bp P i op S C A SC LP T la _ _ _ Ca1 Mk) as G1. set (SC1 := obj_at (new_world W h) j :: SC) in *.
  pose proof (g_loop w sv cd mem res bp P (i + 1) OP_NEW_SCOPE S C A SC1 LP T la h n1 n2 d Caw ltac:(lia) ltac:(lia) ltac:(lia) ltac:(lia) ltac:(lia)) as G2.
  set (ct := i + 1 + 1 + zlen (varint n1) + zlen (varint n2) + n2) in *. set (bk := i + 1 + 1 + zlen (varint n1) + n1) in *.
  set (LP1 := vnum ct :: vnum bk :: vnum (zlen SC1) :: LP) in *.
  pose proof (scope_sim _ _ _ _ _ _ _ _ _ Sm R1 L1 Hj) as Sm1.
  destruct (IHex _ _ _ _ _ _ E1 Wi bp ii OP_LOOP S C A SC1 LP1 T la (new_world W h) P Ci ltac:(unfold LP1, SC1; ft) Sm1) as (W2 & R2 & L2 & D2).
  destruct (HexN _ _ _ _ _ _ E1 Wk) as (v1 & ->). cbn [Lang_Exec6.done] in D2. destruct D2 as (op2 & la2 & x2 & G3 & V2).
  pose proof (g_drop w sv cd mem res bp P _ op2 x2 S C A SC1 LP1 T la2 (w_heap W2) Cd) as G4.
  pose proof (g_jmp w sv cd mem res bp P _ OP_DROP S C A SC1 LP1 T la2 (w_heap W2) _ _ Cj ltac:(zl)) as G5. fold uo in G5.
  pose proof (sim_later _ _ _ _ _ _ _ _ _ _ Sm1 R2 L2) as Sm2.
  destruct (loop_ok rounds (j :: sc) th c (Some u) b s2 o s' H Wc Wb Wu bp (ct + zlen (cex u) + 1) ct bk OP_JMP S C A SC1 LP T la2 W2 P) as (W3 & R3 & L3 & D3); try lia.
  { eapply at_pos; [exact Cl|unfold ct, ii, n2; lia]. }
  { split; [eapply to_pos; [exact Cu|unfold ct, ii, n2; lia]|]. split; [eapply at_pos; [exact Cu2|unfold ct, ii, n2; lia]|reflexivity]. }
  { unfold SC1. ft. }
  { exact Sm2. }
  exists W3. split; [exact R3|]. split; [eapply later_trans; [exact L1|]; eapply later_trans; eassumption|].
  eapply done_from.
  { eapply go_trans; [exact G1|]. eapply go_trans; [eapply go_at; [exact G2|]|eapply go_trans; [exact G3|eapply go_trans; [exact G4|eapply go_at; [exact G5|]]]]; [unfold ii; lia|].
    instantiate (1 := ct + zlen (cex u) + 1). unfold ct, ii, n2. lia. }
  eapply done_jump; [eapply (loop_done bp bk); [exact P|eapply at_pos; [exact Ca4|unfold bk; lia]|exact D3]|]. intros _ _. rewrite zlen_cons, !zlen_app, zlen_cons. change (zlen [OP_DEL_SCOPE]) with 1. fold n1. unfold bk. lia.
Qed.

(** ** The names of an object *)
(** From the cell [p] on, the property cells have the names [ks]. *)
Fixpoint names_from (W : world) (p : Z) (ks : list (list Z)) : Prop :=
  match ks with
  | [] => p = 0
  | k :: r => exists c, 0 < p < 2 ^ 48 /\ aget (h_props (w_heap W)) p = Some c /\ vrep W (pc_name c) (VPrim (AStr k)) /\ names_from W (pc_next c) r
  end.
Lemma names_later W W' ks : later W W' -> forall p, names_from W p ks -> names_from W' p ks.
Proof.
  intros L. induction ks as [|k r IH]; intros p H; [exact H|]. cbn [names_from] in *. destruct H as (c & B & G & V & H). pose proof L as (_ & _ & _ & _ & Kp).
  destruct (Kp _ _ G) as (c' & G' & En & Ex). exists c'. split; [exact B|]. split; [exact G'|]. rewrite En, Ex. split; [eapply vrep_later; eassumption|apply IH; exact H].
Qed.
Lemma names_cells W : (forall a c, aget (h_props (w_heap W)) a = Some c -> 0 < a < 2 ^ 48) -> forall mp cs p, cells (w_heap W) p cs ->
  Forall2 (entry_rep (w_st W) ext) cs mp -> Forall (fun e => name_ok (fst e)) mp -> names_from W p (map fst mp).
Proof.
  intros B. induction mp as [|[n v] mp IH]; intros cs p Hc F Nk; inversion F as [|[a c] e' cs' m' [R1 R2] F' E1 E2]; subst; cbn [cells map names_from fst snd] in *; [exact Hc|].
  destruct Hc as (-> & N0 & G & Hc). inversion Nk as [|e1 l1 [Nb _] Nk']; subst. exists c. split; [eapply B; exact G|]. split; [exact G|]. split; [split; assumption|]. eapply IH; eassumption.
Qed.
Lemma names_cell W s j c ov : rel W s -> nth_error (objs s) j = Some c -> (ov = obj_at W j \/ ov = arr_at W j) ->
  is_object ov = true /\ exists p, (o <- get_object_struct ov ;; obj_first (w_heap W) o) = OK p /\ names_from W p (map fst c).
Proof.
  intros Rl Ec Ho. destruct (cell_of cd ext W s j c Rl Ec) as (Hj & mp & Em & Fe). destruct (obj_refers cd ext W s j Rl Hj) as (R1 & R2 & _).
  assert (Rf : refers ov (nth j (w_addr W) 0)) by (destruct Ho as [-> | ->]; assumption). destruct (refers_object _ _ Rf) as (I1 & I2 & _). split; [exact I1|].
  pose proof Rl as ((Cs & _ & A2 & _ & A4 & _) & _ & _ & _ & _ & N1 & _). destruct (A2 _ _ Em) as ((first & G & Hc & F) & _ & Nk).
  exists first. rewrite I2. cbn [bind]. unfold obj_first. rewrite G. split; [reflexivity|].
  replace (map fst c) with (map fst mp).
  - eapply names_cells; [|exact Hc|exact F|exact Nk]. intros a c0 Ha. apply A4 in Ha. destruct Rl as (_ & _ & _ & L0 & _). lia.
  - clear -Fe. induction Fe as [|x y mp c [E _] _ IH]; [reflexivity|]. cbn [map]. rewrite E, IH. reflexivity.
Qed.
(** The iterator for the cell [p]. *)
Lemma iterator p : 0 < p < 2 ^ 48 -> let it := fst (mk_foreign p) in get_ptr_raw it = p /\ (it =? V_UNDEFINED) = false /\ forall st, is_truthy st it = OK true.
Proof.
  intros B. cbv zeta. pose proof (proj1 (foreign_round_trip p ltac:(unfold is_u64; lia)) ltac:(lia)) as X. destruct (mk_foreign p) as [fv fe] eqn:Ef. destruct X as (_ & X2 & X3). cbn [fst].
  split; [unfold get_ptr in X2; destruct (negb (is_foreign fv)); [lia|exact X2]|]. split; [apply Z.eqb_neq; intros ->; vm_compute in X3; discriminate X3|]. intros st.
  assert (U : is_u64 fv).
  { replace fv with (fst (mk_foreign p)) by (rewrite Ef; reflexivity). unfold mk_foreign, pointer_to_value. rewrite ptr_legit_iff by (unfold is_u64; lia).
    rewrite untag_mod, Z.mod_small by lia. unfold TAG_FOREIGN. rewrite lor_tag by lia. cbn [fst]. apply tag_u64; lia. }
  rewrite truthy_non_string_ok by (try exact U; rewrite X3; discriminate). unfold truthy_non_string. rewrite X3. reflexivity.
Qed.
Lemma done_more bp j xs0 S C A SC LP T y W' v : done bp j (xs0 ++ S) C A SC LP T y W' (OReturn v) -> done bp j S C A SC LP T y W' (OReturn v).
Proof.
  cbn [Lang_Exec6.done]. intros H xs r base C' E1 E2 E3 E4. apply (H (xs0 ++ xs) r base C' E1 E2); [|exact E4]. rewrite E3, app_assoc. reflexivity.
Qed.
Definition at_cell (h : heap) (ov it p : Z) : Prop :=
  (if it =? V_UNDEFINED then o <- get_object_struct ov ;; obj_first h o else c <- prop_at h (get_ptr_raw it) ;; OK (pc_next c)) = OK p.
Lemma each_ok x b ks : forall sc th s o s', each E sc th x b ks s = Some (o, s') -> all wfs b -> good_name x = true ->
  forall bp ic bk op ov var it p S C A SC LP T la W, part_of cd bp -> code_at bp ic (loopcode [OP_FOR_IN_NEXT; OP_DUP] (seqcode (map cst b))) -> 0 < ic < 2 ^ 31 -> 0 < bk < 2 ^ 31 ->
  fits (K + 4) S SC LP -> sim W s SC sc T th -> is_object ov = true -> at_cell (w_heap W) ov it p -> names_from W p ks -> vrep W var (VPrim (AStr x)) ->
  let LP' := vnum ic :: vnum bk :: vnum (zlen SC) :: LP in let y := Cf bp ic op (it :: ov :: var :: S) C A SC LP' T la (w_heap W) in
  exists W', rel W' s' /\ later W W' /\
    match o with
    | ONormal v => v = VPrim (AStr x) /\ exists op' la' it', go y (Cf bp bk op' (V_UNDEFINED :: it' :: ov :: var :: S) C A SC LP T la' (w_heap W'))
    | OReturn v => done bp 0 S C A SC LP' T y W' (OReturn v)
    | _ => False
    end.
Proof.
  induction ks as [|k ks IH]; intros sc th s o s' H Wb Gn bp ic bk op ov var it p S C A SC LP T la W P Ca Hic Hbk Ft Sm Io At Nf Vx; cbn [each] in H; cbv zeta;
    set (LP' := vnum ic :: vnum bk :: vnum (zlen SC) :: LP);
    destruct (loop_split bp ic _ _ (list_stern b) Ca) as (Ca1 & (d & Zd & Ca2) & Ca3 & Ca4 & Ca5 & Ca6); apply to_at in Ca1; destruct (at_cons _ _ _ _ Ca1) as [Cn Cd];
    change (zlen [OP_FOR_IN_NEXT; OP_DUP]) with 2 in *; pose proof Sm as (Rl & Sc & Vt); cbn [names_from] in Nf.
  - injection H as <- <-. subst p. exists W. split; [exact Rl|]. split; [apply later_refl|]. split; [reflexivity|]. exists OP_BREAK, la, V_UNDEFINED.
    eapply go_trans; [apply (g_for_in_end w sv cd mem res bp P); [exact Cn|exact Io|unfold obj_next; rewrite At; reflexivity]|].
    eapply go_trans; [apply (g_dup w sv cd mem res bp P); exact Cd|].
    eapply go_trans; [apply (g_jmp_false w sv cd mem res bp P) with (d := d) (t := false); [eapply at_pos; [exact Ca2|lia]|exact Zd|reflexivity]|].
    eapply go_trans; [|apply (g_break w sv cd mem res bp P) with (isc := []) (i := ic + 2 + 1 + zlen (varint (zlen (seqcode (map cst b)) + 2)) + (zlen (seqcode (map cst b)) + 2)); [exact Ca6|exact Hbk|ft]].
    eapply go_at; [apply go_refl|lia].
  - destruct Nf as (c & Bp & Gc & Vk & Nf). opt H. rename n into j. opt H. rename s0 into s1. optp H o2 s2.
    destruct (iterator p Bp) as (Ip & Iu & It). set (it' := fst (mk_foreign p)) in *.
    destruct (good_bytes x Gn) as (N0 & B1 & B2 & _). destruct Vx as [Nx _]. destruct (rel_so _ _ _ _ Rl) as [Q1 Q2].
    destruct (find_var_own _ _ _ _ E0) as (a0 & Ho). destruct (find_var_resolves _ _ W s SC sc x j a0 Rl Sc E0 Ho) as (v0 & Rv & _ & Hj).
    destruct (set_prop_ok cd ext W s s1 j x var (obj_at W j) (pc_name c) _ Rl Vk (key_name_of _ _ _ _ Nx) N0 (or_introl eq_refl) E1) as (h & mp & Es & R1 & L1).
    set (W1 := set_world W h (nth j (w_addr W) 0) mp) in *.
    assert (Nu : (pc_name c =? V_UNDEFINED) = false).
    { destruct (vrep_kind cd ext W s _ _ Rl Vk) as [_ Kk]. apply Z.eqb_neq. intros Eu. rewrite Eu in Kk. vm_compute in Kk. discriminate Kk. }
    assert (Nx' : obj_next (w_heap W) ov it = OK (pc_name c, it')).
    { unfold obj_next. rewrite At. cbn [bind]. replace (p =? 0) with false by lia. unfold prop_at. rewrite Gc. reflexivity. }
    assert (G1 : go (Cf bp ic op (it :: ov :: var :: S) C A SC LP' T la (w_heap W)) (Cf bp (ic + 1) OP_FOR_IN_NEXT (it' :: ov :: var :: S) C A SC LP' T la (w_heap W1))).
    { eapply (g_for_in_next w sv cd mem res bp P) with (M := w_store W) (n := x) (x := v0); try eassumption; [apply Rl|apply Nx|change (h_st (w_heap W)) with (w_st W); lia]. }
    assert (G2 : go (Cf bp ic op (it :: ov :: var :: S) C A SC LP' T la (w_heap W)) (Cf bp (ic + 2 + 1 + zlen (varint (zlen (seqcode (map cst b)) + 2))) OP_JMP_FALSE (it' :: ov :: var :: S) C A SC LP' T la (w_heap W1))).
    { eapply go_trans; [exact G1|]. eapply go_trans; [apply (g_dup w sv cd mem res bp P); exact Cd|].
      eapply go_at; [apply (g_jmp_false w sv cd mem res bp P) with (d := d) (t := true); [eapply at_pos; [exact Ca2|lia]|exact Zd|apply It]|lia]. }
    clear G1. pose proof (sim_later _ _ _ _ _ _ _ _ _ _ Sm R1 L1) as Sm1.
    assert (Ft' : fits K (it' :: ov :: var :: S) SC LP') by (unfold LP'; ft).
    destruct (seq_ok w sv cd mem res E K IHex b sc th s1 o2 s2 E2 Wb bp _ OP_JMP_FALSE (it' :: ov :: var :: S) C A SC LP' T la W1 P Ca3 Ft' Sm1) as (W2 & R2 & L2 & D2).
    pose proof (sim_later _ _ _ _ _ _ _ _ _ _ Sm1 R2 L2) as Sm2. pose proof (later_trans _ _ _ L1 L2) as L12.
    assert (Again : forall opx lax, go (Cf bp ic op (it :: ov :: var :: S) C A SC LP' T la (w_heap W)) (Cf bp ic opx (it' :: ov :: var :: S) C A SC LP' T lax (w_heap W2)) ->
      each E sc th x b ks s2 = Some (o, s') ->
      exists W', rel W' s' /\ later W W' /\ match o with
        | ONormal v => v = VPrim (AStr x) /\ exists op' la' it'', go (Cf bp ic op (it :: ov :: var :: S) C A SC LP' T la (w_heap W)) (Cf bp bk op' (V_UNDEFINED :: it'' :: ov :: var :: S) C A SC LP T la' (w_heap W'))
        | OReturn v => done bp 0 S C A SC LP' T (Cf bp ic op (it :: ov :: var :: S) C A SC LP' T la (w_heap W)) W' (OReturn v) | _ => False end).
    { intros opx lax G H'.
      destruct (IH sc th s2 o s' H' Wb Gn bp ic bk opx ov var it' (pc_next c) S C A SC LP T lax W2 P Ca Hic Hbk Ft Sm2 Io) as (W4 & R4 & L4 & D4).
      - unfold at_cell. rewrite Iu, Ip. pose proof L12 as (_ & _ & _ & _ & Kp). destruct (Kp _ _ Gc) as (c' & Gc' & _ & Ex). unfold prop_at. rewrite Gc'. cbn [bind]. rewrite Ex. reflexivity.
      - eapply names_later; eassumption.
      - eapply vrep_later; [exact L12|]. split; assumption.
      - exists W4. split; [exact R4|]. split; [eapply later_trans; eassumption|]. destruct o as [v| | |v]; try exact D4.
        + destruct D4 as (Ev & op5 & la5 & it5 & G5). split; [exact Ev|]. exists op5, la5, it5. eapply go_trans; [exact G|exact G5].
        + eapply done_from; [exact G|exact D4]. }
    destruct o2 as [v2| | |v2]; cbn [Lang_Exec6.done] in D2.
    + destruct D2 as (op3 & la3 & x3 & G3 & V3). eapply Again; [|exact H].
      eapply go_trans; [exact G2|]. eapply go_trans; [exact G3|]. eapply go_trans; [apply (g_drop w sv cd mem res bp P); exact Ca4|].
      apply (g_continue w sv cd mem res bp P) with (isc := []); [exact Ca5|exact Hic|ft].
    + injection H as <- <-. exists W2. split; [exact R2|]. split; [exact L12|]. split; [reflexivity|].
      destruct (D2 (vnum ic) bk [] SC LP eq_refl eq_refl Hbk ltac:(ft)) as (op3 & la3 & G3). exists op3, la3, it'. eapply go_trans; [exact G2|exact G3].
    + destruct (D2 ic (vnum bk) [] SC LP eq_refl eq_refl Hic ltac:(ft)) as (op3 & la3 & G3). eapply Again; [|exact H]. eapply go_trans; [exact G2|exact G3].
    + injection H as <- <-. exists W2. split; [exact R2|]. split; [exact L12|]. apply (done_more _ _ [it'; ov; var]). eapply done_from; [exact G2|]. exact D2.
Qed.
Lemma s_forin d x e b : exs1 (SForIn d x e b).
Proof.
  ini. optp H j s1. opt H. rename s0 into s2. opt H. rename s0 into s3. optp H v s4. destruct Wf as [We Wb]. unfold forincode in *. set (bc := seqcode (map cst b)) in *. set (n1 := zlen (forin_rest bc)) in *.
  destruct (to_cons _ _ _ _ Ca) as [Ca1 Ca2]. clear Ca.
  destruct (to_app _ _ _ _ Ca2) as [Cd Ca3]. clear Ca2. set (dc := if d then declcode x else []) in *.
  change (OP_PUSH_STR :: strb x ++ cex e ++ OP_PUSH_UNDEF :: OP_LOOP :: varint n1 ++ forin_rest bc ++ [OP_DROP; OP_DROP; OP_DROP; OP_DEL_SCOPE])
    with ((OP_PUSH_STR :: strb x) ++ cex e ++ OP_PUSH_UNDEF :: OP_LOOP :: varint n1 ++ forin_rest bc ++ [OP_DROP; OP_DROP; OP_DROP; OP_DEL_SCOPE]) in *.
  destruct (to_app _ _ _ _ Ca3) as [Cn Ca4]. clear Ca3. destruct (to_split _ _ _ _ Ca4) as [Ce Ca5]; [cm|]. clear Ca4.
  destruct (to_cons _ _ _ _ Ca5) as [Cu Ca6]. clear Ca5. apply to_at in Ca6.
  set (i1 := i + 1 + zlen dc + zlen (OP_PUSH_STR :: strb x) + zlen (cex e)) in *.
  change (OP_LOOP :: varint n1 ++ forin_rest bc ++ [OP_DROP; OP_DROP; OP_DROP; OP_DEL_SCOPE]) with ((OP_LOOP :: varint n1) ++ forin_rest bc ++ [OP_DROP; OP_DROP; OP_DROP; OP_DEL_SCOPE]) in *.
  pose proof (at_len _ _ _ Ca6) as [Hi Hl]. rewrite !zlen_app, zlen_cons in Hl. change (zlen [OP_DROP; OP_DROP; OP_DROP; OP_DEL_SCOPE]) with 4 in Hl. fold n1 in Hl.
  pose proof (part_len cd bp P) as (Pl & _ & _). pose proof (varint_zlen n1) as Hv1.
  assert (En : n1 = 1 + zlen (loopcode [OP_FOR_IN_NEXT; OP_DUP] bc)) by (unfold n1, forin_rest, loopcode; rewrite zlen_cons; reflexivity). pose proof (zlen_nonneg (loopcode [OP_FOR_IN_NEXT; OP_DUP] bc)) as Hp.
  assert (Caw : code_at bp (i1 + 1) (OP_LOOP :: varint n1 ++ varint 0 ++ loopcode [OP_FOR_IN_NEXT; OP_DUP] bc)).
  { rewrite app_assoc in Ca6. apply at_app in Ca6. exact (proj1 Ca6). }
  pose proof (at_at _ _ _ _ _ Ca6) as Cl. rewrite zlen_cons in Cl. apply at_cons in Cl. destruct Cl as [_ Cl].
  rewrite app_assoc in Ca6. apply at_app in Ca6. destruct Ca6 as [_ Ct]. rewrite zlen_app, zlen_cons in Ct. fold n1 in Ct.
  destruct (new_cell_ok cd ext W s s1 j (proj1 Sm) E0) as (h & Mk & R1 & L1 & Ej & Hj).
  pose proof (g_new_scope w sv cd mem res bp P i op S C A SC LP T la _ _ _ Ca1 Mk) as G1. set (SC1 := obj_at (new_world W h) j :: SC) in *.
  pose proof (scope_sim _ _ _ _ _ _ _ _ _ Sm R1 L1 Hj) as Sm1. fold SC1 in Sm1.
  assert (Hd : exists op2 W2, go (Cf bp (i + 1) OP_NEW_SCOPE S C A SC1 LP T la (w_heap (new_world W h))) (Cf bp (i + 1 + zlen dc) op2 S C A SC1 LP T la (w_heap W2)) /\ rel W2 s2 /\ later (new_world W h) W2).
  { unfold dc in *. destruct d.
    - destruct (m_decl w sv cd mem res bp (i + 1) OP_NEW_SCOPE S C A SC1 LP T la _ s1 s2 x (j :: sc) th P Cd E1 Sm1) as (W2 & G2 & R2 & L2 & _). exists OP_CREATE, W2. split; [exact G2|]. split; assumption.
    - injection E1 as <-. exists OP_NEW_SCOPE, (new_world W h). split; [eapply go_at; [apply go_refl|zl]|]. split; [exact R1|apply later_refl]. }
  destruct Hd as (op2 & W2 & G2 & R2 & L2). pose proof (sim_later _ _ _ _ _ _ _ _ _ _ Sm1 R2 L2) as Sm2.
  destruct (m_name w sv cd mem res bp _ op2 S C A SC1 LP T la W2 s2 s3 x P Cn E2 R2) as (key & W3 & G3 & R3 & L3 & Nm & Gn).
  pose proof (sim_later _ _ _ _ _ _ _ _ _ _ Sm2 R3 L3) as Sm3.
  destruct (IHev _ _ _ _ _ _ E3 We bp _ OP_PUSH_STR (key :: S) C A SC1 LP T la W3 P Ce ltac:(unfold SC1; ft) Sm3) as (op4 & la4 & ov & W4 & G4 & R4 & L4 & V4 & _).
  pose proof (sim_later _ _ _ _ _ _ _ _ _ _ Sm3 R4 L4) as Sm4. fold i1 in G4.
  pose proof (g_undef w sv cd mem res bp P i1 op4 (ov :: key :: S) C A SC1 LP T la4 (w_heap W4) Cu) as G5.
  pose proof (g_loop w sv cd mem res bp P (i1 + 1) OP_PUSH_UNDEF (V_UNDEFINED :: ov :: key :: S) C A SC1 LP T la4 (w_heap W4) n1 0 _ Caw ltac:(lia) ltac:(change (zlen (varint 0)) with 1; lia) ltac:(lia) ltac:(lia) ltac:(change (zlen (varint 0)) with 1; lia)) as G6.
  change (zlen (varint 0)) with 1 in G6. rewrite Z.add_0_r in G6. set (ic := i1 + 1 + 1 + zlen (varint n1) + 1) in *. set (bk := i1 + 1 + 1 + zlen (varint n1) + n1) in *.
  assert (Hc : exists jj c, nth_error (objs s4) jj = Some c /\ (ov = obj_at W4 jj \/ ov = arr_at W4 jj) /\ each E (j :: sc) th x b (map fst c) s4 = Some (o, s')).
  { destruct v as [a|jj|jj|ps bb|pp]; try discriminate H; opt H; exists jj; eexists; (split; [eassumption|]); destruct V4 as [_ V4]; auto. }
  destruct Hc as (jj & c & Ec & Hov & Hea). destruct (names_cell W4 s4 jj c ov R4 Ec Hov) as (Io & p & At & Nf).
  destruct (each_ok x b (map fst c) (j :: sc) th s4 o s' Hea Wb Gn bp ic bk OP_LOOP ov key V_UNDEFINED p S C A SC1 LP T la4 W4 P) as (W5 & R5 & L5 & D5); try lia; try assumption.
  { eapply at_pos; [exact Cl|unfold ic; lia]. }
  { unfold SC1. ft. }
  { eapply vrep_later; [exact L4|]. destruct (good_bytes x Gn) as (_ & B1 & _). split; assumption. }
  assert (L14 : later W W4) by (eapply later_trans; [exact L1|]; eapply later_trans; [exact L2|]; eapply later_trans; eassumption).
  exists W5. split; [exact R5|]. split; [eapply later_trans; eassumption|].
  assert (G : go (Cf bp i op S C A SC LP T la (w_heap W)) (Cf bp ic OP_LOOP (V_UNDEFINED :: ov :: key :: S) C A SC1 (vnum ic :: vnum bk :: vnum (zlen SC1) :: LP) T la4 (w_heap W4))).
  { eapply go_trans; [exact G1|]. eapply go_trans; [exact G2|]. eapply go_trans; [exact G3|]. eapply go_trans; [exact G4|]. eapply go_trans; [exact G5|exact G6]. }
  eapply done_from; [exact G|]. destruct o as [u| | |u]; try contradiction.
  - destruct D5 as (-> & op6 & la6 & it6 & G7). destruct (at_cons _ _ _ _ Ct) as [T1 Ct1]. destruct (at_cons _ _ _ _ Ct1) as [T2 Ct2]. destruct (at_cons _ _ _ _ Ct2) as [T3 T4].
    exists OP_DEL_SCOPE, la6, key. split; [|eapply vrep_later; [exact L5|]; eapply vrep_later; [exact L4|]; destruct (good_bytes x Gn) as (_ & B1 & _); split; assumption].
    eapply go_at; [eapply go_trans; [exact G7|]; eapply go_trans; [apply (g_drop w sv cd mem res bp P); eapply at_pos; [exact T1|unfold bk; lia]|];
      eapply go_trans; [apply (g_drop w sv cd mem res bp P); eapply at_pos; [exact T2|unfold bk; lia]|];
      eapply go_trans; [apply (g_drop w sv cd mem res bp P); eapply at_pos; [exact T3|unfold bk; lia]|];
      apply (g_del_scope w sv cd mem res bp P); eapply at_pos; [exact T4|unfold bk; lia]|].
    repeat (rewrite zlen_cons || rewrite zlen_app). change (zlen (@nil Z)) with 0. fold n1. unfold bk, i1. rewrite zlen_cons. lia.
  - cbn [Lang_Exec6.done] in *. intros xs r base C' X1 X2 X3 X4. destruct (D5 xs r base C' X1 X2 X3 X4) as (i' & op' & xs' & isc & ilp & la' & v' & Cr & G' & V).
    exists i', op', xs', (isc ++ [obj_at (new_world W h) j]), (ilp ++ [vnum ic; vnum bk; vnum (zlen SC1)]), la', v'. split; [exact Cr|]. split; [rewrite <- !app_assoc; exact G'|exact V].
Qed.
Lemma ex_ok : exs K' (exec1 E rounds).
Proof.
  intros sc th a s o s' H. revert sc th s o s' H. change (exs1 a).
  destruct a; auto using s_empty, s_exprs, s_let, s_block, s_if, s_while, s_for, s_forin, s_break, s_continue, s_return.
Qed.
End Step.

(** ** All depths *)
Definition depth_cost (d : nat) : Z := Z.of_nat d * (Z.of_nat d + 16).
Lemma all_depths rounds d : let E := at_depth rounds d in
  evs (depth_cost d) (ev E) /\ refs (depth_cost d) (ev_ref E) /\ argss (depth_cost d) (Z.of_nat d) (ev_args E) /\ exs (depth_cost d) (ex E).
Proof.
  induction d as [|d (I1 & I2 & I3 & I4)].
  - cbn. repeat split; intros; discriminate.
  - cbn zeta. set (E := at_depth rounds d) in *.
    assert (HK : 0 <= depth_cost d) by (unfold depth_cost; nia). assert (HK' : depth_cost d + Z.of_nat d + 8 <= depth_cost (S d)) by (unfold depth_cost; nia).
    assert (HN : forall sc th a s o s', ex E sc th a s = Some (o, s') -> match a with SExprs _ | SLet _ => True | _ => False end -> exists v, o = ONormal v).
    { unfold E. clear. destruct d as [|d]; [discriminate|]. intros sc th a s o s' H Ha. cbn [at_depth ex] in H. destruct a; try contradiction; cbn [exec1] in H;
        match type of H with match ?m with _ => _ end = _ => destruct m as [[v s1]|]; [|discriminate H] end; injection H as <- <-; exists v; reflexivity. }
    split; [|split; [|split]].
    + apply (ev_ok w sv cd mem res E (depth_cost d) (depth_cost (S d)) (Z.of_nat d)); auto; lia.
    + apply (ref_ok w sv cd mem res E (depth_cost d) (depth_cost (S d)) (Z.of_nat d)); auto; lia.
    + replace (Z.of_nat (S d)) with (Z.of_nat d + 1) by lia. apply (args_ok w sv cd mem res E (depth_cost d) (depth_cost (S d)) (Z.of_nat d)); auto; lia.
    + apply (ex_ok E rounds (depth_cost d) (depth_cost (S d)) (Z.of_nat d)); auto; lia.
Qed.
End Stmts.

(** Statements that fail, and everything together. *)
From Verif Require Import Base BaseFacts Value_Model Value_Spec Value_Proofs Data_Model Str_Model Str_Spec Str_Proofs Str_Proofs2 Float_Proofs Lit_Proofs
  Ops_Model Ops_Spec Ops_Proofs Ops_Proofs2 TokNum_Model Txt_Model Obj_Model Obj_Spec Obj_Proofs Obj_Proofs2 Conv_Model Num_Model Varint_Model Varint_Proofs Bcode_Model Bcode_Proofs
  Vm_Model Vm_Spec Vm_Proofs Vm_Proofs2 Vm_Proofs4 Tok_Spec Parse_Model Expr_Spec Run_Spec Expr_Proofs1 Expr_Proofs3 Expr_Proofs4 Expr_Proofs5 Lang_Spec Lang_Code Lang_Spec2 Lang_Spec5
  Lang_Exec1 Lang_Key Lang_Exec2 Lang_Exec3 Lang_Exec4 Lang_Exec5 Lang_Native Lang_Exec6 Lang_Exec7 Lang_Exec8 Lang_Exec9 Lang_Fail1 Lang_Fail2.
From Coq Require Import ZifyBool.
Ltac Zify.zify_post_hook ::= idtac.



Section Stmts.
Context (w : host) (sv : saved) (cd : code) (mem : rawmem) (res : list (Z * Z)).
Context (S0 C0 A0 SC0 LP0 : list Z).
Notation ext := (mext mem).
Notation vrep := (vrep cd ext).
Notation rel := (rel cd ext).
Notation go := (go w sv cd mem res).
Notation sim := (sim cd mem).
Notation evs := (evs w sv cd mem res). Notation refs := (refs w sv cd mem res). Notation argss := (argss w sv cd mem res). Notation exs := (exs w sv cd mem res).
Notation roots := (roots S0 C0 A0 SC0 LP0).
Notation fls := (fls w sv cd mem res S0 C0 A0 SC0 LP0).
Notation fevs := (fevs w sv cd mem res S0 C0 A0 SC0 LP0). Notation frefs := (frefs w sv cd mem res S0 C0 A0 SC0 LP0).
Notation fargss := (fargss w sv cd mem res S0 C0 A0 SC0 LP0). Notation fexs := (fexs w sv cd mem res S0 C0 A0 SC0 LP0).
Section Step.
Context (E : evaluator) (F : failer) (rounds : nat) (K K' N : Z).
Context (IHev : evs K (ev E)) (IHref : refs K (ev_ref E)) (IHargs : argss K N (ev_args E)) (IHex : exs K (ex E)) (HN : 0 <= N) (HK : 0 <= K) (HK' : K + N + 8 <= K')
  (HexN : forall sc th a s o s', ex E sc th a s = Some (o, s') -> match a with SExprs _ | SLet _ => True | _ => False end -> exists v, o = ONormal v).
Context (JHev : fevs K (fe F)) (JHref : frefs K (fr F)) (JHargs : fargss K (fa F)) (JHex : fexs K (fs F)).
Ltac opt H := match type of H with match ?m with _ => _ end = Some _ => let E := fresh "E" in destruct m eqn:E; [|discriminate H] end.
Ltac optp H a b := match type of H with match ?m with _ => _ end = Some _ => let E := fresh "E" in destruct m as [[a b]|] eqn:E; [|discriminate H] end.
Ltac fst1 H := match type of H with first ?a _ = Some _ => let E := fresh "J" in destruct a eqn:E; cbn [first] in H; [injection H as ->|] end.
Ltac rt := match goal with H : roots _ _ _ _ _ |- Lang_Fail1.roots _ _ _ _ _ _ _ _ _ _ => destruct H as (?&?&?&?&?); unfold Lang_Fail1.roots; repeat apply conj; repeat first [assumption|apply rooted_cons|apply rooted_app] end.
Ltac skip G L := eapply fls_go; [exact G|exact L|].

Definition fexs1 (a : stmt) : Prop :=
  forall sc th s x, fail_exec E F rounds sc th a s = Some x -> wfs a ->
  forall bp i op S C A SC LP T la W, part_of cd bp -> code_to bp i (cst a) -> fits K' S SC LP -> roots S C A SC LP -> sim W s SC sc T th ->
  fls W (Cf bp i op S C A SC LP T la (w_heap W)) x.
Ltac ini := intros sc th s y H Wf bp i op S C A SC LP T la W P Ca Ft Rt Sm; cbn [fail_exec] in H; cbn [cst] in Ca |- *; cbn [wfs] in Wf.

(** ** Expressions and declarations in a row *)
Definition fitem {X} (f : list nat -> val -> X -> state -> option failure) (cx : X -> list Z) (wf : X -> Prop) : Prop :=
  forall sc th x s y, f sc th x s = Some y -> wf x ->
  forall bp i op S C A SC LP T la W, part_of cd bp -> code_to bp i (cx x) -> fits (K + 4) S SC LP -> roots S C A SC LP -> sim W s SC sc T th ->
  fls W (Cf bp i op S C A SC LP T la (w_heap W)) y.
Fixpoint frow {X} (g : list nat -> val -> X -> state -> option failure) (f : list nat -> val -> X -> state -> option (val * state)) (sc : list nat) (th : val) (l : list X) (s : state) : option failure :=
  match l with [] => None | x :: l => first (g sc th x s) (let? (v, s) := f sc th x s in frow g f sc th l s) end.
Lemma frow_tail {X} g f (cx : X -> list Z) wf l : fitem g cx wf -> item w sv cd mem res K f cx wf -> forall sc th s y, frow g f sc th l s = Some y -> all wf l ->
  forall bp i op x S C A SC LP T la W, part_of cd bp -> code_to bp i (dropcode (map cx l)) -> fits (K + 4) S SC LP -> roots S C A SC LP -> sim W s SC sc T th ->
  fls W (Cf bp i op (x :: S) C A SC LP T la (w_heap W)) y.
Proof.
  intros Fi It. induction l as [|a l IH]; intros sc th s y H Wf bp i op x S C A SC LP T la W P Ca Ft Rt Sm; cbn [frow map dropcode flat_map] in *; [discriminate H|].
  destruct Wf as [Wa Wl]. fold (dropcode (map cx l)) in *. cbn [app] in *. destruct (to_cons _ _ _ _ Ca) as [Ca1 Ca2].
  destruct (to_split _ _ _ _ Ca2 (drop_calm _)) as [Ca3 Ca4].
  skip (g_drop w sv cd mem res bp P i op x S C A SC LP T la (w_heap W) Ca1) (later_refl W).
  fst1 H; [eapply Fi; eassumption|]. optp H v s1.
  destruct (It _ _ _ _ _ _ E0 Wa bp _ OP_DROP S C A SC LP T la W P Ca3 Ft Sm) as (op1 & la1 & x1 & W1 & G2 & R1 & L1 & V1).
  skip G2 L1. eapply IH; try eassumption. eapply sim_later; eassumption.
Qed.
Lemma frow_ok {X} g f (cx : X -> list Z) wf l : fitem g cx wf -> item w sv cd mem res K f cx wf -> forall sc th s y, frow g f sc th l s = Some y -> all wf l ->
  forall bp i op S C A SC LP T la W, part_of cd bp -> code_to bp i (seqcode (map cx l)) -> fits (K + 4) S SC LP -> roots S C A SC LP -> sim W s SC sc T th ->
  fls W (Cf bp i op S C A SC LP T la (w_heap W)) y.
Proof.
  intros Fi It sc th s y H Wf bp i op S C A SC LP T la W P Ca Ft Rt Sm. destruct l as [|a l]; cbn [frow map seqcode] in *; [discriminate H|].
  destruct Wf as [Wa Wl]. destruct (to_split _ _ _ _ Ca (drop_calm _)) as [Ca3 Ca4].
  fst1 H; [eapply Fi; eassumption|]. optp H v s1.
  destruct (It _ _ _ _ _ _ E0 Wa bp _ op S C A SC LP T la W P Ca3 Ft Sm) as (op1 & la1 & x1 & W1 & G2 & R1 & L1 & V1).
  skip G2 L1. eapply frow_tail; try eassumption. eapply sim_later; eassumption.
Qed.
Lemma fs_exprs l : fexs1 (SExprs l).
Proof.
  ini. eapply (frow_ok (fe F) (ev E) cex wfx l); try eassumption; [| | |ft].
  - intros sc0 th0 x s0 v0 Hx Wx bp0 i0 op0 S1 C1 A1 SC1 LP1 T0 la0 W0 P0 Ca0 Ft0 Rt0 Sm0. eapply JHev; try eassumption. ft.
  - intros sc0 th0 x s0 v0 s1' Hx Wx bp0 i0 op0 S1 C1 A1 SC1 LP1 T0 la0 W0 P0 Cb Ft0 Sm0.
    destruct (IHev _ _ _ _ _ _ Hx Wx bp0 i0 op0 S1 C1 A1 SC1 LP1 T0 la0 W0 P0 Cb ltac:(ft) Sm0) as (op1 & la1 & x1 & W1 & G1 & R1 & L1 & V1 & _).
    exists op1, la1, x1, W1. split; [exact G1|]. split; [exact R1|]. split; assumption.
  - clear -H. revert s H. induction l as [|e l IH]; intros s H; cbn [fail_all frow] in *; [exact H|].
    destruct (fe F sc th e s); [exact H|]. cbn [first] in *. destruct (ev E sc th e s) as [[v' s'']|]; [|discriminate H]. apply IH. exact H.
Qed.
Lemma flet_item : fitem (fun sc th p => fail_let F sc th (fst p) (snd p)) letcode (fun p => match snd p with Some e => wfx e | None => True end).
Proof.
  intros sc th [x e] s y H Wx bp i op S C A SC LP T la W P Ca Ft Rt Sm. cbn [fst snd] in *. unfold letcode in *. cbn [fst snd] in *. unfold fail_let in H. opt H. rename s0 into s1.
  destruct (to_app _ _ _ _ Ca) as [Ca1 Ca2].
  destruct (m_decl w sv cd mem res bp i op S C A SC LP T la W s s1 x sc th P Ca1 E0 Sm) as (W1 & G1 & R1 & L1 & (j & r & a & Ej & Eo)).
  pose proof (sim_later _ _ _ _ _ _ _ _ _ _ Sm R1 L1) as Sm1. skip G1 L1.
  destruct e as [e|]; [|discriminate H]. opt H. rename s0 into s2.
  destruct (to_app _ _ _ _ Ca2) as [Ca3 Ca4]. destruct (to_split _ _ _ _ Ca4) as [Ca5 Ca6]; [cm|].
  assert (Eo2 : own s2 j x = Some a) by (unfold own in *; rewrite (use_name_own _ _ _ E1); exact Eo).
  assert (Fv : find_var s2 sc x = Some j) by (rewrite Ej; exact (find_head _ _ _ _ _ Eo2)).
  destruct (m_var w sv cd mem res bp _ OP_CREATE S C A SC LP T la W1 s1 s2 x sc th j P Ca3 E1 Fv Sm1) as (key & W2 & G2 & R2 & L2 & Nm & Gn & Hj).
  skip G2 L2. eapply JHev; try eassumption; [ft|rt|eapply sim_later; eassumption].
Qed.
Lemma fs_let l : fexs1 (SLet l).
Proof.
  ini. eapply (frow_ok (fun sc th p => fail_let F sc th (fst p) (snd p)) (fun sc th p => eval_let E sc th (fst p) (snd p)) letcode _ l flet_item (let_item w sv cd mem res E K IHev)); try eassumption; [|ft].
  clear -H. revert s H. induction l as [|[x e] l IH]; intros s H; cbn [fail_lets frow fst snd] in *; [exact H|].
  destruct (fail_let F sc th x e s); [exact H|]. cbn [first] in *. destruct (eval_let E sc th x e s) as [[v' s'']|]; [|discriminate H]. apply IH. exact H.
Qed.

(** ** Blocks, conditionals, return *)
Lemma fs_block l : fexs1 (SBlock l).
Proof.
  ini. optp H j s1. destruct (to_cons _ _ _ _ Ca) as [Ca1 Ca2]. destruct (to_split _ _ _ _ Ca2) as [Ca3 Ca4]; [cm|].
  destruct (new_cell_ok cd ext W s s1 j (proj1 Sm) E0) as (h & Mk & R1 & L1 & Ej & Hj).
  skip (g_new_scope w sv cd mem res bp P i op S C A SC LP T la _ _ _ Ca1 Mk) L1.
  eapply (fseq_ok w sv cd mem res S0 C0 A0 SC0 LP0 E F K IHex JHex l (j :: sc) th s1 y H Wf bp _ OP_NEW_SCOPE S C A (obj_at (new_world W h) j :: SC) LP T la (new_world W h)); [exact P|exact Ca3|ft|rt|].
  exact (scope_sim _ _ _ _ _ _ _ _ _ _ _ Sm R1 L1 Hj).
Qed.
Lemma fs_if c a b : fexs1 (SIf c a b).
Proof.
  ini. destruct Wf as (Wc & Wa & Wb). destruct b as [b|].
  - destruct (cond_split bp i (cex c) (cst a) (cst b) (cst_stern a) (cst_stern b) Ca) as (Ca1 & (d & Zd & Ca2) & Ca3 & (d' & Zd' & Ca4) & Ca5 & Ca6 & Ez).
    fst1 H; [eapply JHev; try eassumption; ft|]. optp H v1 s1.
    destruct (IHev _ _ _ _ _ _ E0 Wc bp i op S C A SC LP T la W P Ca1 ltac:(ft) Sm) as (op1 & la1 & x1 & W1 & G1 & R1 & L1 & V1 & _).
    pose proof (g_jmp_false w sv cd mem res bp P _ op1 x1 (v_truthy v1) S C A SC LP T la1 (w_heap W1) _ d Ca2 Zd (vrep_truthy cd ext _ _ _ _ R1 V1)) as G2.
    pose proof (sim_later _ _ _ _ _ _ _ _ _ _ Sm R1 L1) as Sm1. skip G1 L1. destruct (v_truthy v1).
    + rewrite Z.add_0_r in G2. skip G2 (later_refl W1). eapply JHex; try eassumption. ft.
    + skip G2 (later_refl W1). eapply fls_at; [|skip (g_drop w sv cd mem res bp P _ OP_JMP_FALSE V_UNDEFINED S C A SC LP T la1 (w_heap W1) Ca5) (later_refl W1); eapply JHex; try eassumption; ft]. lia.
  - destruct (to_split _ _ _ _ Ca) as [Ca1 Ca2]; [cm|]. pose proof (to_at _ _ _ Ca2) as Ca3.
    change (OP_JMP_FALSE :: varint (zlen (cst a)) ++ cst a) with ((OP_JMP_FALSE :: varint (zlen (cst a))) ++ cst a) in Ca2. apply to_skip in Ca2.
    fst1 H; [eapply JHev; try eassumption; ft|]. optp H v1 s1.
    destruct (IHev _ _ _ _ _ _ E0 Wc bp i op S C A SC LP T la W P Ca1 ltac:(ft) Sm) as (op1 & la1 & x1 & W1 & G1 & R1 & L1 & V1 & _).
    pose proof (g_jmp_false w sv cd mem res bp P _ op1 x1 (v_truthy v1) S C A SC LP T la1 (w_heap W1) _ _ Ca3 eq_refl (vrep_truthy cd ext _ _ _ _ R1 V1)) as G2.
    pose proof (sim_later _ _ _ _ _ _ _ _ _ _ Sm R1 L1) as Sm1. skip G1 L1. destruct (v_truthy v1); [|discriminate H].
    skip G2 (later_refl W1). eapply fls_at; [|eapply (JHex _ _ _ _ _ H Wa bp _ OP_JMP_FALSE S C A SC LP T la1 W1 P Ca2); try eassumption; ft]. zl.
Qed.
Lemma fs_return e : fexs1 (SReturn e).
Proof.
  destruct e as [e|]; ini; [|discriminate H]. destruct (to_split _ _ _ _ Ca) as [Ca1 Ca2]; [cm|]. eapply JHev; try eassumption. ft.
Qed.

(** ** Loops *)
Lemma floop_ok n : forall sc th c step b s y, fail_loop E F sc th c step b n s = Some y -> wfx c -> all wfs b -> match step with Some u => wfx u | None => True end ->
  forall bp ic ct bk op S C A SC LP T la W, part_of cd bp -> code_at bp ic (loopcode (cex c) (seqcode (map cst b))) -> 0 < ct < 2 ^ 31 -> 0 < bk < 2 ^ 31 ->
  step_code bp ct ic step -> fits (K + 4) S SC LP -> roots S C A SC LP -> sim W s SC sc T th ->
  let LP' := vnum ct :: vnum bk :: vnum (zlen SC) :: LP in fls W (Cf bp ic op S C A SC LP' T la (w_heap W)) y.
Proof.
  induction n as [|n IH]; intros sc th c step b s y H Wc Wb Ws bp ic ct bk op S C A SC LP T la W P Ca Hct Hbk Hs Ft Rt Sm; [discriminate H|]. cbn [fail_loop] in H. cbv zeta. set (LP' := vnum ct :: vnum bk :: vnum (zlen SC) :: LP).
  destruct (loop_split bp ic _ _ (list_stern b) Ca) as (Ca1 & (d & Zd & Ca2) & Ca3 & Ca4 & Ca5 & Ca6).
  assert (Ft' : fits K S SC LP') by (unfold LP'; ft). assert (Rt' : roots S C A SC LP') by (unfold LP'; rt).
  fst1 H; [eapply JHev; eassumption|]. optp H v1 s1.
  destruct (IHev _ _ _ _ _ _ E0 Wc bp ic op S C A SC LP' T la W P Ca1 Ft' Sm) as (op1 & la1 & x1 & W1 & G1 & R1 & L1 & V1 & _).
  pose proof (g_jmp_false w sv cd mem res bp P _ op1 x1 (v_truthy v1) S C A SC LP' T la1 (w_heap W1) _ d Ca2 Zd (vrep_truthy cd ext _ _ _ _ R1 V1)) as G2.
  pose proof (sim_later _ _ _ _ _ _ _ _ _ _ Sm R1 L1) as Sm1. destruct (v_truthy v1); [|discriminate H]. skip G1 L1.
  rewrite Z.add_0_r in G2. skip G2 (later_refl W1).
  fst1 H; [exact (fseq_ok w sv cd mem res S0 C0 A0 SC0 LP0 E F K IHex JHex b sc th s1 y J0 Wb bp _ OP_JMP_FALSE S C A SC LP' T la1 W1 P Ca3 Ft' Rt' Sm1)|]. optp H o2 s2.
  destruct (seq_ok w sv cd mem res E K IHex b sc th s1 o2 s2 E1 Wb bp _ OP_JMP_FALSE S C A SC LP' T la1 W1 P Ca3 Ft' Sm1) as (W2 & R2 & L2 & D2).
  pose proof (sim_later _ _ _ _ _ _ _ _ _ _ Sm1 R2 L2) as Sm2.
  assert (Again : forall opx lax, first (match step with None => None | Some u => fe F sc th u s2 end)
      (let? s := match step with None => Some s2 | Some u => let? (_, s) := ev E sc th u s2 in Some s end in fail_loop E F sc th c step b n s) = Some y ->
    fls W2 (Cf bp ct opx S C A SC LP' T lax (w_heap W2)) y).
  { intros opx lax H'. fst1 H'.
    - destruct step as [u|]; [|discriminate J1]. cbn [step_code] in Hs. eapply JHev; try eassumption. apply Hs.
    - opt H'. rename s0 into s3.
      destruct (step_ok w sv cd mem res E K IHev sc th step s2 s3 E2 Ws bp ct ic opx S C A SC LP' T lax W2 P Hs Ft' Sm2) as (op3 & la3 & W3 & G3 & R3 & L3).
      pose proof (sim_later _ _ _ _ _ _ _ _ _ _ Sm2 R3 L3) as Sm3. skip G3 L3.
      exact (IH sc th c step b s3 y H' Wc Wb Ws bp ic ct bk op3 S C A SC LP T la3 W3 P Ca Hct Hbk Hs Ft Rt Sm3). }
  destruct o2 as [v2| | |v2]; cbn [Lang_Exec6.done] in D2; try discriminate H.
  - destruct D2 as (op3 & la3 & x3 & G3 & V3). skip G3 L2. eapply fls_go; [|apply later_refl|eapply Again; exact H].
    eapply go_trans; [apply (g_drop w sv cd mem res bp P); exact Ca4|].
    apply (g_continue w sv cd mem res bp P) with (isc := []); [exact Ca5|exact Hct|ft].
  - destruct (D2 ct (vnum bk) [] SC LP eq_refl eq_refl Hct ltac:(ft)) as (op3 & la3 & G3). skip G3 L2. eapply Again; exact H.
Qed.
Lemma fs_while c b : fexs1 (SWhile c b).
Proof.
  ini. optp H j s1. destruct Wf as [Wc Wb]. unfold whilecode in *. set (bc := seqcode (map cst b)) in *. set (n1 := zlen (while_rest (cex c) bc)) in *.
  destruct (to_cons _ _ _ _ Ca) as [Ca1 Ca2]. clear Ca. apply to_at in Ca2.
  change (OP_LOOP :: varint n1 ++ while_rest (cex c) bc ++ [OP_DEL_SCOPE]) with ((OP_LOOP :: varint n1) ++ while_rest (cex c) bc ++ [OP_DEL_SCOPE]) in *.
  pose proof (at_len _ _ _ Ca2) as [Hi Hl]. rewrite !zlen_app, zlen_cons in Hl. change (zlen [OP_DEL_SCOPE]) with 1 in Hl. fold n1 in Hl.
  pose proof (part_len cd bp P) as (Pl & _ & _). pose proof (varint_zlen n1) as Hv1.
  assert (En : n1 = 1 + zlen (loopcode (cex c) bc)) by (unfold n1, while_rest, loopcode; rewrite zlen_cons; reflexivity). pose proof (zlen_nonneg (loopcode (cex c) bc)) as Hp.
  assert (Caw : code_at bp (i + 1) (OP_LOOP :: varint n1 ++ varint 0 ++ loopcode (cex c) bc)).
  { rewrite app_assoc in Ca2. apply at_app in Ca2. exact (proj1 Ca2). }
  pose proof (at_at _ _ _ _ _ Ca2) as Ca3. rewrite zlen_cons in Ca3. apply at_cons in Ca3. destruct Ca3 as [_ Ca3].
  rewrite app_assoc in Ca2. apply at_app in Ca2. destruct Ca2 as [_ Ca4]. rewrite zlen_app, zlen_cons in Ca4. fold n1 in Ca4.
  destruct (new_cell_ok cd ext W s s1 j (proj1 Sm) E0) as (h & Mk & R1 & L1 & Ej & Hj).
  pose proof (g_new_scope w sv cd mem res bp P i op S C A SC LP T la _ _ _ Ca1 Mk) as G1. set (SC1 := obj_at (new_world W h) j :: SC) in *.
  pose proof (g_loop w sv cd mem res bp P (i + 1) OP_NEW_SCOPE S C A SC1 LP T la h n1 0 _ Caw ltac:(lia) ltac:(change (zlen (varint 0)) with 1; lia) ltac:(lia) ltac:(lia) ltac:(change (zlen (varint 0)) with 1; lia)) as G2.
  change (zlen (varint 0)) with 1 in G2. rewrite Z.add_0_r in G2. set (ic := i + 1 + 1 + zlen (varint n1) + 1) in *. set (bk := i + 1 + 1 + zlen (varint n1) + n1) in *.
  skip G1 L1. skip G2 (later_refl (new_world W h)).
  apply (floop_ok rounds (j :: sc) th c None b s1 y H Wc Wb I bp ic ic bk OP_LOOP S C A SC1 LP T la (new_world W h) P); try lia.
  { eapply at_pos; [exact Ca3|unfold ic; lia]. }
  { reflexivity. }
  { unfold SC1. ft. }
  { unfold SC1. rt. }
  { exact (scope_sim _ _ _ _ _ _ _ _ _ _ _ Sm R1 L1 Hj). }
Qed.
Lemma fs_for i0 c u b : fexs1 (SFor i0 c u b).
Proof.
  ini. optp H j s1. destruct Wf as (Wi & Wc & Wu & Wb & Wk). unfold forcode in *. set (bc := seqcode (map cst b)) in *. set (n1 := zlen (for_rest (cst i0) (cex c) (cex u) bc)) in *.
  destruct (to_cons _ _ _ _ Ca) as [Ca1 Ca2]. clear Ca. apply to_at in Ca2.
  change (OP_LOOP :: varint n1 ++ for_rest (cst i0) (cex c) (cex u) bc ++ [OP_DEL_SCOPE]) with ((OP_LOOP :: varint n1) ++ for_rest (cst i0) (cex c) (cex u) bc ++ [OP_DEL_SCOPE]) in *.
  pose proof (at_len _ _ _ Ca2) as [Hi Hl]. rewrite !zlen_app, zlen_cons in Hl. change (zlen [OP_DEL_SCOPE]) with 1 in Hl. fold n1 in Hl.
  pose proof (part_len cd bp P) as (Pl & _ & _). pose proof (varint_zlen n1) as Hv1.
  set (uo := varint (zlen (cex u) + 1)) in *. set (n2 := zlen (cst i0) + 2 + zlen uo) in *. pose proof (varint_zlen n2) as Hv2.
  set (d := cst i0 ++ OP_DROP :: OP_JMP :: uo ++ cex u ++ OP_DROP :: loopcode (cex c) bc).
  assert (Ed : for_rest (cst i0) (cex c) (cex u) bc = varint n2 ++ d) by reflexivity.
  assert (Zd : zlen d = n2 + zlen (cex u) + 1 + zlen (loopcode (cex c) bc)) by (unfold d, n2; zl).
  assert (En : n1 = zlen (varint n2) + zlen d) by (unfold n1; rewrite Ed, zlen_app; reflexivity). pose proof (zlen_nonneg (loopcode (cex c) bc)) as Hp.
  pose proof (zlen_nonneg (cst i0)) as Hp1. pose proof (zlen_nonneg uo) as Hp2. pose proof (zlen_nonneg (cex u)) as Hp3. rewrite Ed in Ca2.
  assert (Caw : code_at bp (i + 1) (OP_LOOP :: varint n1 ++ varint n2 ++ d)).
  { rewrite app_assoc in Ca2. apply at_app in Ca2. exact (proj1 Ca2). }
  pose proof (at_at _ _ _ _ _ Ca2) as Ca3. rewrite zlen_cons in Ca3. apply at_app in Ca3. destruct Ca3 as [_ Ca3].
  rewrite app_assoc in Ca2. apply at_app in Ca2. destruct Ca2 as [_ Ca4]. rewrite !zlen_app, zlen_cons in Ca4.
  set (ii := i + 1 + (1 + zlen (varint n1)) + zlen (varint n2)) in *. unfold d in Ca3. destruct (at_split _ _ _ _ Ca3) as [Ci Ca5]; [sn|]. clear Ca3.
  destruct (at_cons _ _ _ _ Ca5) as [Cd Ca6]. clear Ca5.
  change (OP_JMP :: uo ++ cex u ++ OP_DROP :: loopcode (cex c) bc) with ([OP_JMP] ++ uo ++ cex u ++ OP_DROP :: loopcode (cex c) bc) in Ca6.
  assert (Cj : code_at bp (ii + zlen (cst i0) + 1) (OP_JMP :: uo ++ cex u ++ [OP_DROP])).
  { change (OP_JMP :: uo ++ cex u ++ [OP_DROP]) with ([OP_JMP] ++ uo ++ cex u ++ [OP_DROP]). change (OP_DROP :: loopcode (cex c) bc) with ([OP_DROP] ++ loopcode (cex c) bc) in Ca6.
    rewrite !app_assoc in Ca6. apply at_app in Ca6. destruct Ca6 as [Q _]. rewrite <- !app_assoc in Q. exact Q. }
  rewrite (app_assoc [OP_JMP]) in Ca6. apply at_app in Ca6. destruct Ca6 as [_ Ca7]. rewrite zlen_app in Ca7. change (zlen [OP_JMP]) with 1 in Ca7.
  destruct (at_split _ _ _ _ Ca7) as [Cu Ca8]; [sn|]. destruct (at_cons _ _ _ _ Ca8) as [Cu2 Cl]. clear Ca7 Ca8.
  destruct (new_cell_ok cd ext W s s1 j (proj1 Sm) E0) as (h & Mk & R1 & L1 & Ej & Hj).
  pose proof (g_new_scope w sv cd mem res bp P i op S C A SC LP T la _ _ _ Ca1 Mk) as G1. set (SC1 := obj_at (new_world W h) j :: SC) in *.
  pose proof (g_loop w sv cd mem res bp P (i + 1) OP_NEW_SCOPE S C A SC1 LP T la h n1 n2 d Caw ltac:(lia) ltac:(lia) ltac:(lia) ltac:(lia) ltac:(lia)) as G2.
  set (ct := i + 1 + 1 + zlen (varint n1) + zlen (varint n2) + n2) in *. set (bk := i + 1 + 1 + zlen (varint n1) + n1) in *.
  set (LP1 := vnum ct :: vnum bk :: vnum (zlen SC1) :: LP) in *.
  pose proof (scope_sim _ _ _ _ _ _ _ _ _ _ _ Sm R1 L1 Hj) as Sm1. assert (Rt1 : roots S C A SC1 LP) by (unfold SC1; rt).
  skip G1 L1. eapply fls_at; [reflexivity|]. skip G2 (later_refl (new_world W h)). apply fls_at with (j := ii); [unfold ii; lia|].
  fst1 H; [eapply JHex; try eassumption; [unfold LP1, SC1; ft|unfold LP1; rt]|]. optp H o1 s2.
  destruct (IHex _ _ _ _ _ _ E1 Wi bp ii OP_LOOP S C A SC1 LP1 T la (new_world W h) P Ci ltac:(unfold LP1, SC1; ft) Sm1) as (W2 & R2 & L2 & D2).
  destruct (HexN _ _ _ _ _ _ E1 Wk) as (v1 & ->). cbn [Lang_Exec6.done] in D2. destruct D2 as (op2 & la2 & x2 & G3 & V2).
  pose proof (g_drop w sv cd mem res bp P _ op2 x2 S C A SC1 LP1 T la2 (w_heap W2) Cd) as G4.
  pose proof (g_jmp w sv cd mem res bp P _ OP_DROP S C A SC1 LP1 T la2 (w_heap W2) _ _ Cj ltac:(zl)) as G5. fold uo in G5.
  pose proof (sim_later _ _ _ _ _ _ _ _ _ _ Sm1 R2 L2) as Sm2.
  skip G3 L2. skip G4 (later_refl W2). skip G5 (later_refl W2). apply fls_at with (j := ct + zlen (cex u) + 1); [unfold ct, ii, n2; lia|].
  apply (floop_ok rounds (j :: sc) th c (Some u) b s2 y H Wc Wb Wu bp (ct + zlen (cex u) + 1) ct bk OP_JMP S C A SC1 LP T la2 W2 P); try lia.
  { eapply at_pos; [exact Cl|unfold ct, ii, n2; lia]. }
  { split; [eapply to_pos; [exact Cu|unfold ct, ii, n2; lia]|]. split; [eapply at_pos; [exact Cu2|unfold ct, ii, n2; lia]|reflexivity]. }
  { unfold SC1. ft. }
  { exact Rt1. }
  { exact Sm2. }
Qed.
Lemma feach_ok x b ks : forall sc th s y, fail_each E F sc th x b ks s = Some y -> all wfs b -> good_name x = true ->
  forall bp ic bk op ov var it p S C A SC LP T la W, part_of cd bp -> code_at bp ic (loopcode [OP_FOR_IN_NEXT; OP_DUP] (seqcode (map cst b))) -> 0 < ic < 2 ^ 31 -> 0 < bk < 2 ^ 31 ->
  fits (K + 4) S SC LP -> roots S C A SC LP -> sim W s SC sc T th -> is_object ov = true -> at_cell (w_heap W) ov it p -> names_from cd mem W p ks -> vrep W var (VPrim (AStr x)) ->
  let LP' := vnum ic :: vnum bk :: vnum (zlen SC) :: LP in fls W (Cf bp ic op (it :: ov :: var :: S) C A SC LP' T la (w_heap W)) y.
Proof.
  induction ks as [|k ks IH]; intros sc th s y H Wb Gn bp ic bk op ov var it p S C A SC LP T la W P Ca Hic Hbk Ft Rt Sm Io At Nf Vx; cbn [fail_each] in H; [discriminate H|]. cbv zeta.
  set (LP' := vnum ic :: vnum bk :: vnum (zlen SC) :: LP).
  destruct (loop_split bp ic _ _ (list_stern b) Ca) as (Ca1 & (d & Zd & Ca2) & Ca3 & Ca4 & Ca5 & Ca6). apply to_at in Ca1. destruct (at_cons _ _ _ _ Ca1) as [Cn Cd].
  change (zlen [OP_FOR_IN_NEXT; OP_DUP]) with 2 in *. pose proof Sm as (Rl & Sc & Vt). cbn [names_from] in Nf.
  destruct Nf as (c & Bp & Gc & Vk & Nf). destruct (iterator p Bp) as (Ip & Iu & It). set (it' := fst (mk_foreign p)) in *.
  assert (Nu : (pc_name c =? V_UNDEFINED) = false).
  { destruct (vrep_kind cd ext W s _ _ Rl Vk) as [_ Kk]. apply Z.eqb_neq. intros Eu. rewrite Eu in Kk. vm_compute in Kk. discriminate Kk. }
  assert (Nx' : obj_next (w_heap W) ov it = OK (pc_name c, it')).
  { unfold obj_next. rewrite At. cbn [bind]. replace (p =? 0) with false by lia. unfold prop_at. rewrite Gc. reflexivity. }
  destruct Vx as [Nx Bx]. assert (Rt' : roots S C A SC LP') by (unfold LP'; rt).
  destruct (find_var s sc x) as [j|] eqn:E0.
  2:{ injection H as <-. eapply f_each_var; try eassumption. }
  opt H. rename s0 into s1.
  destruct (good_bytes x Gn) as (N0 & B1 & B2 & _). destruct (rel_so _ _ _ _ Rl) as [Q1 Q2].
  destruct (find_var_own _ _ _ _ E0) as (a0 & Ho). destruct (find_var_resolves _ _ W s SC sc x j a0 Rl Sc E0 Ho) as (v0 & Rv & _ & Hj).
  destruct (set_prop_ok cd ext W s s1 j x var (obj_at W j) (pc_name c) _ Rl Vk (key_name_of _ _ _ _ Nx) N0 (or_introl eq_refl) E1) as (h & mp & Es & R1 & L1).
  set (W1 := set_world W h (nth j (w_addr W) 0) mp) in *.
  assert (G1 : go (Cf bp ic op (it :: ov :: var :: S) C A SC LP' T la (w_heap W)) (Cf bp (ic + 1) OP_FOR_IN_NEXT (it' :: ov :: var :: S) C A SC LP' T la (w_heap W1))).
  { eapply (g_for_in_next w sv cd mem res bp P) with (M := w_store W) (n := x) (x := v0); try eassumption; [apply Rl|apply Nx|change (h_st (w_heap W)) with (w_st W); lia]. }
  assert (G2 : go (Cf bp ic op (it :: ov :: var :: S) C A SC LP' T la (w_heap W)) (Cf bp (ic + 2 + 1 + zlen (varint (zlen (seqcode (map cst b)) + 2))) OP_JMP_FALSE (it' :: ov :: var :: S) C A SC LP' T la (w_heap W1))).
  { eapply go_trans; [exact G1|]. eapply go_trans; [apply (g_dup w sv cd mem res bp P); exact Cd|].
    eapply go_at; [apply (g_jmp_false w sv cd mem res bp P) with (d := d) (t := true); [eapply at_pos; [exact Ca2|lia]|exact Zd|apply It]|lia]. }
  clear G1. pose proof (sim_later _ _ _ _ _ _ _ _ _ _ Sm R1 L1) as Sm1.
  assert (Ft' : fits K (it' :: ov :: var :: S) SC LP') by (unfold LP'; ft). assert (Rt2 : roots (it' :: ov :: var :: S) C A SC LP') by rt.
  eapply (fls_go w sv cd mem res S0 C0 A0 SC0 LP0 W W1); [exact G2|exact L1|].
  fst1 H; [exact (fseq_ok w sv cd mem res S0 C0 A0 SC0 LP0 E F K IHex JHex b sc th s1 y J Wb bp _ OP_JMP_FALSE (it' :: ov :: var :: S) C A SC LP' T la W1 P Ca3 Ft' Rt2 Sm1)|]. optp H o2 s2.
  destruct (seq_ok w sv cd mem res E K IHex b sc th s1 o2 s2 E2 Wb bp _ OP_JMP_FALSE (it' :: ov :: var :: S) C A SC LP' T la W1 P Ca3 Ft' Sm1) as (W2 & R2 & L2 & D2).
  pose proof (sim_later _ _ _ _ _ _ _ _ _ _ Sm1 R2 L2) as Sm2. pose proof (later_trans _ _ _ L1 L2) as L12.
  assert (Again : forall opx lax, fail_each E F sc th x b ks s2 = Some y -> fls W2 (Cf bp ic opx (it' :: ov :: var :: S) C A SC LP' T lax (w_heap W2)) y).
  { intros opx lax H'. apply (IH sc th s2 y H' Wb Gn bp ic bk opx ov var it' (pc_next c) S C A SC LP T lax W2 P Ca Hic Hbk Ft Rt Sm2 Io).
    - unfold at_cell. rewrite Iu, Ip. pose proof L12 as (_ & _ & _ & _ & Kp). destruct (Kp _ _ Gc) as (c' & Gc' & _ & Ex). unfold prop_at. rewrite Gc'. cbn [bind]. rewrite Ex. reflexivity.
    - eapply names_later; eassumption.
    - eapply vrep_later; [exact L12|]. split; assumption. }
  destruct o2 as [v2| | |v2]; cbn [Lang_Exec6.done] in D2; try discriminate H.
  - destruct D2 as (op3 & la3 & x3 & G3 & V3). skip G3 L2. eapply fls_go; [|apply later_refl|eapply Again; exact H].
    eapply go_trans; [apply (g_drop w sv cd mem res bp P); exact Ca4|].
    apply (g_continue w sv cd mem res bp P) with (isc := []); [exact Ca5|exact Hic|ft].
  - destruct (D2 ic (vnum bk) [] SC LP eq_refl eq_refl Hic ltac:(ft)) as (op3 & la3 & G3). skip G3 L2. eapply Again; exact H.
Qed.
Lemma fs_forin d x e b : fexs1 (SForIn d x e b).
Proof.
  ini. optp H j s1. opt H. rename s0 into s2. opt H. rename s0 into s3. destruct Wf as [We Wb]. unfold forincode in *. set (bc := seqcode (map cst b)) in *. set (n1 := zlen (forin_rest bc)) in *.
  destruct (to_cons _ _ _ _ Ca) as [Ca1 Ca2]. clear Ca.
  destruct (to_app _ _ _ _ Ca2) as [Cd Ca3]. clear Ca2. set (dc := if d then declcode x else []) in *.
  change (OP_PUSH_STR :: strb x ++ cex e ++ OP_PUSH_UNDEF :: OP_LOOP :: varint n1 ++ forin_rest bc ++ [OP_DROP; OP_DROP; OP_DROP; OP_DEL_SCOPE])
    with ((OP_PUSH_STR :: strb x) ++ cex e ++ OP_PUSH_UNDEF :: OP_LOOP :: varint n1 ++ forin_rest bc ++ [OP_DROP; OP_DROP; OP_DROP; OP_DEL_SCOPE]) in *.
  destruct (to_app _ _ _ _ Ca3) as [Cn Ca4]. clear Ca3. destruct (to_split _ _ _ _ Ca4) as [Ce Ca5]; [cm|]. clear Ca4.
  destruct (to_cons _ _ _ _ Ca5) as [Cu Ca6]. clear Ca5. apply to_at in Ca6.
  set (i1 := i + 1 + zlen dc + zlen (OP_PUSH_STR :: strb x) + zlen (cex e)) in *.
  change (OP_LOOP :: varint n1 ++ forin_rest bc ++ [OP_DROP; OP_DROP; OP_DROP; OP_DEL_SCOPE]) with ((OP_LOOP :: varint n1) ++ forin_rest bc ++ [OP_DROP; OP_DROP; OP_DROP; OP_DEL_SCOPE]) in *.
  pose proof (at_len _ _ _ Ca6) as [Hi Hl]. rewrite !zlen_app, zlen_cons in Hl. change (zlen [OP_DROP; OP_DROP; OP_DROP; OP_DEL_SCOPE]) with 4 in Hl. fold n1 in Hl.
  pose proof (part_len cd bp P) as (Pl & _ & _). pose proof (varint_zlen n1) as Hv1.
  assert (En : n1 = 1 + zlen (loopcode [OP_FOR_IN_NEXT; OP_DUP] bc)) by (unfold n1, forin_rest, loopcode; rewrite zlen_cons; reflexivity). pose proof (zlen_nonneg (loopcode [OP_FOR_IN_NEXT; OP_DUP] bc)) as Hp.
  assert (Caw : code_at bp (i1 + 1) (OP_LOOP :: varint n1 ++ varint 0 ++ loopcode [OP_FOR_IN_NEXT; OP_DUP] bc)).
  { rewrite app_assoc in Ca6. apply at_app in Ca6. exact (proj1 Ca6). }
  pose proof (at_at _ _ _ _ _ Ca6) as Cl. rewrite zlen_cons in Cl. apply at_cons in Cl. destruct Cl as [_ Cl].
  rewrite app_assoc in Ca6. apply at_app in Ca6. destruct Ca6 as [_ Ct]. rewrite zlen_app, zlen_cons in Ct. fold n1 in Ct.
  destruct (new_cell_ok cd ext W s s1 j (proj1 Sm) E0) as (h & Mk & R1 & L1 & Ej & Hj).
  pose proof (g_new_scope w sv cd mem res bp P i op S C A SC LP T la _ _ _ Ca1 Mk) as G1. set (SC1 := obj_at (new_world W h) j :: SC) in *.
  pose proof (scope_sim _ _ _ _ _ _ _ _ _ _ _ Sm R1 L1 Hj) as Sm1. fold SC1 in Sm1.
  assert (Hd : exists op2 W2, go (Cf bp (i + 1) OP_NEW_SCOPE S C A SC1 LP T la (w_heap (new_world W h))) (Cf bp (i + 1 + zlen dc) op2 S C A SC1 LP T la (w_heap W2)) /\ rel W2 s2 /\ later (new_world W h) W2).
  { unfold dc in *. destruct d.
    - destruct (m_decl w sv cd mem res bp (i + 1) OP_NEW_SCOPE S C A SC1 LP T la _ s1 s2 x (j :: sc) th P Cd E1 Sm1) as (W2 & G2 & R2 & L2 & _). exists OP_CREATE, W2. split; [exact G2|]. split; assumption.
    - injection E1 as <-. exists OP_NEW_SCOPE, (new_world W h). split; [eapply go_at; [apply go_refl|zl]|]. split; [exact R1|apply later_refl]. }
  destruct Hd as (op2 & W2 & G2 & R2 & L2). pose proof (sim_later _ _ _ _ _ _ _ _ _ _ Sm1 R2 L2) as Sm2.
  destruct (m_name w sv cd mem res bp _ op2 S C A SC1 LP T la W2 s2 s3 x P Cn E2 R2) as (key & W3 & G3 & R3 & L3 & Nm & Gn).
  pose proof (sim_later _ _ _ _ _ _ _ _ _ _ Sm2 R3 L3) as Sm3.
  assert (Rt1 : roots S C A SC1 LP) by (unfold SC1; rt). skip G1 L1. skip G2 L2. skip G3 L3.
  fst1 H; [eapply JHev; try eassumption; [unfold SC1; ft|rt]|]. optp H v s4.
  destruct (IHev _ _ _ _ _ _ E3 We bp _ OP_PUSH_STR (key :: S) C A SC1 LP T la W3 P Ce ltac:(unfold SC1; ft) Sm3) as (op4 & la4 & ov & W4 & G4 & R4 & L4 & V4 & _).
  pose proof (sim_later _ _ _ _ _ _ _ _ _ _ Sm3 R4 L4) as Sm4. fold i1 in G4.
  pose proof (g_undef w sv cd mem res bp P i1 op4 (ov :: key :: S) C A SC1 LP T la4 (w_heap W4) Cu) as G5.
  pose proof (g_loop w sv cd mem res bp P (i1 + 1) OP_PUSH_UNDEF (V_UNDEFINED :: ov :: key :: S) C A SC1 LP T la4 (w_heap W4) n1 0 _ Caw ltac:(lia) ltac:(change (zlen (varint 0)) with 1; lia) ltac:(lia) ltac:(lia) ltac:(change (zlen (varint 0)) with 1; lia)) as G6.
  change (zlen (varint 0)) with 1 in G6. rewrite Z.add_0_r in G6. set (ic := i1 + 1 + 1 + zlen (varint n1) + 1) in *. set (bk := i1 + 1 + 1 + zlen (varint n1) + n1) in *.
  skip G4 L4. skip G5 (later_refl W4). skip G6 (later_refl W4).
  assert (Cl' : code_at bp ic (loopcode [OP_FOR_IN_NEXT; OP_DUP] bc)) by (eapply at_pos; [exact Cl|unfold ic; lia]).
  assert (No : match v with VObj _ | VArr _ => False | _ => True end -> y = (E_TYPE, th, s4) ->
    fls W4 (Cf bp ic OP_LOOP (V_UNDEFINED :: ov :: key :: S) C A SC1 (vnum ic :: vnum bk :: vnum (zlen SC1) :: LP) T la4 (w_heap W4)) y).
  { intros Hv ->. unfold loopcode in Cl'. change ([OP_FOR_IN_NEXT; OP_DUP] ++ ?r) with (OP_FOR_IN_NEXT :: OP_DUP :: r) in Cl'. destruct (at_cons _ _ _ _ Cl') as [Cl1 _].
    eapply f_each_type; [exact Cl1|rt|exact R4|apply Sm4|exact V4|exact Hv]. }
  assert (Yes : forall jj c, nth_error (objs s4) jj = Some c -> (ov = obj_at W4 jj \/ ov = arr_at W4 jj) -> fail_each E F (j :: sc) th x b (map fst c) s4 = Some y ->
    fls W4 (Cf bp ic OP_LOOP (V_UNDEFINED :: ov :: key :: S) C A SC1 (vnum ic :: vnum bk :: vnum (zlen SC1) :: LP) T la4 (w_heap W4)) y).
  { intros jj c Ec Hov Hea. destruct (names_cell cd mem W4 s4 jj c ov R4 Ec Hov) as (Io & p & At & Nf).
    apply (feach_ok x b (map fst c) (j :: sc) th s4 y Hea Wb Gn bp ic bk OP_LOOP ov key V_UNDEFINED p S C A SC1 LP T la4 W4 P); try lia; try assumption.
    { unfold SC1. ft. }
    { eapply vrep_later; [exact L4|]. destruct (good_bytes x Gn) as (_ & B1 & _). split; assumption. } }
  destruct v as [a|jj|jj|ps bb|pp]; try (apply No; [exact I|injection H as <-; reflexivity]); opt H; (eapply Yes; [eassumption| |exact H]); destruct V4 as [_ V4]; auto.
Qed.
Lemma fex_ok : fexs K' (fail_exec E F rounds).
Proof.
  intros sc th a s y H. revert sc th s y H. change (fexs1 a).
  destruct a; auto using fs_exprs, fs_let, fs_block, fs_if, fs_while, fs_for, fs_forin, fs_return.
  all: intros sc th s y H; discriminate H.
Qed.
End Step.

(** ** All depths *)
Lemma all_fails rounds d : let F := fails_at rounds d in
  fevs (depth_cost d) (fe F) /\ frefs (depth_cost d) (fr F) /\ fargss (depth_cost d) (fa F) /\ fexs (depth_cost d) (fs F).
Proof.
  induction d as [|d (J1 & J2 & J3 & J4)].
  - cbn. repeat split; intros; unfold Lang_Fail2.fevs, Lang_Fail2.frefs, Lang_Fail2.fargss, Lang_Fail2.fexs, ffs; intros; discriminate.
  - cbn zeta. destruct (all_depths w sv cd mem res rounds d) as (I1 & I2 & I3 & I4). cbn [fails_at]. set (E := at_depth rounds d) in *. set (F := fails_at rounds d) in *. cbn zeta. cbn [fe fr fa fs].
    assert (HK : 0 <= depth_cost d) by (unfold depth_cost; nia). assert (HK' : depth_cost d + Z.of_nat d + 8 <= depth_cost (S d)) by (unfold depth_cost; nia).
    assert (HN : forall sc th a s o s', ex E sc th a s = Some (o, s') -> match a with SExprs _ | SLet _ => True | _ => False end -> exists v, o = ONormal v).
    { unfold E. clear. destruct d as [|d]; [discriminate|]. intros sc th a s o s' H Ha. cbn [at_depth ex] in H. destruct a; try contradiction; cbn [exec1] in H;
        match type of H with match ?m with _ => _ end = _ => destruct m as [[v s1]|]; [|discriminate H] end; injection H as <- <-; exists v; reflexivity. }
    split; [|split; [|split]].
    + apply (fev_ok w sv cd mem res S0 C0 A0 SC0 LP0 E F (depth_cost d) (depth_cost (S d)) (Z.of_nat d)); auto; lia.
    + apply (fref_ok w sv cd mem res S0 C0 A0 SC0 LP0 E F (depth_cost d) (depth_cost (S d)) (Z.of_nat d)); auto; lia.
    + apply (fargs_ok w sv cd mem res S0 C0 A0 SC0 LP0 E F (depth_cost d) (depth_cost (S d)) (Z.of_nat d)); auto; lia.
    + apply (fex_ok E F rounds (depth_cost d) (depth_cost (S d)) (Z.of_nat d)); auto; lia.
Qed.
End Stmts.

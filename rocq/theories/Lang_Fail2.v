(** Expressions and calls that fail. *)
From Verif Require Import Base BaseFacts Value_Model Value_Spec Value_Proofs Data_Model Str_Model Str_Spec Str_Proofs Str_Proofs2 Float_Proofs Lit_Proofs
  Ops_Model Ops_Spec Ops_Proofs Ops_Proofs2 TokNum_Model Txt_Model Obj_Model Obj_Spec Obj_Proofs Obj_Proofs2 Conv_Model Num_Model Varint_Model Varint_Proofs Bcode_Model Bcode_Proofs
  Vm_Model Vm_Spec Vm_Proofs Vm_Proofs2 Vm_Proofs4 Tok_Spec Parse_Model Expr_Spec Run_Spec Expr_Proofs1 Expr_Proofs3 Expr_Proofs4 Expr_Proofs5 Lang_Spec Lang_Code Lang_Spec2 Lang_Spec5
  Lang_Exec1 Lang_Key Lang_Exec2 Lang_Exec3 Lang_Exec4 Lang_Exec5 Lang_Native Lang_Exec6 Lang_Exec7 Lang_Exec8 Lang_Fail1.
From Coq Require Import ZifyBool.
Ltac Zify.zify_post_hook ::= idtac.


Section Exprs.
Context (w : host) (sv : saved) (cd : code) (mem : rawmem) (res : list (Z * Z)).
Context (S0 C0 A0 SC0 LP0 : list Z).
Notation ext := (mext mem).
Notation vrep := (vrep cd ext).
Notation rel := (rel cd ext).
Notation go := (go w sv cd mem res).
Notation sim := (sim cd mem).
Notation evs := (evs w sv cd mem res). Notation refs := (refs w sv cd mem res). Notation argss := (argss w sv cd mem res). Notation exs := (exs w sv cd mem res).
Notation roots := (roots S0 C0 A0 SC0 LP0).
Notation fls := (fls w sv cd mem res S0 C0 A0 SC0 LP0).

(** What fails in the interpreter fails in the engine. *)
Definition ffs {X} (K : Z) (wf : X -> Prop) (is_code : part -> Z -> X -> Prop) (f : list nat -> val -> X -> state -> option failure) : Prop :=
  forall sc th e s x, f sc th e s = Some x -> wf e ->
  forall bp i op S C A SC LP T la W, part_of cd bp -> is_code bp i e -> fits K S SC LP -> roots S C A SC LP -> sim W s SC sc T th ->
  fls W (Cf bp i op S C A SC LP T la (w_heap W)) x.
Definition fevs K := ffs K wfx (fun bp i e => code_to bp i (cex e)).
Definition frefs K := ffs K wfx (fun bp i e => code_at bp i (cref e)).
Definition fargss K := ffs K (all wfx) (fun bp i l => code_to bp i (flat_map cex l)).
Definition fexs K := ffs K wfs (fun bp i a => code_to bp i (cst a)).

Context (E : evaluator) (F : failer) (rounds : nat) (K K' N : Z).
Context (IHev : evs K (ev E)) (IHref : refs K (ev_ref E)) (IHargs : argss K N (ev_args E)) (IHex : exs K (ex E)) (HN : 0 <= N) (HK : 0 <= K) (HK' : K + N + 8 <= K').
Context (JHev : fevs K (fe F)) (JHref : frefs K (fr F)) (JHargs : fargss K (fa F)) (JHex : fexs K (fs F)).
Ltac opt H := match type of H with match ?m with _ => _ end = Some _ => let E := fresh "E" in destruct m eqn:E; [|discriminate H] end.
Ltac optp H a b := match type of H with match ?m with _ => _ end = Some _ => let E := fresh "E" in destruct m as [[a b]|] eqn:E; [|discriminate H] end.
Ltac fst1 H := match type of H with first ?a _ = Some _ => let E := fresh "J" in destruct a eqn:E; cbn [first] in H; [injection H as ->|] end.
Ltac rt := match goal with H : roots _ _ _ _ _ |- Lang_Fail1.roots _ _ _ _ _ _ _ _ _ _ => destruct H as (?&?&?&?&?); unfold Lang_Fail1.roots; repeat apply conj; repeat first [assumption|apply rooted_cons|apply rooted_app] end.
Ltac skip G L := eapply fls_go; [exact G|exact L|].

Definition fevs1 (e : lx) : Prop :=
  forall sc th s x, fail1 E F sc th e s = Some x -> wfx e ->
  forall bp i op S C A SC LP T la W, part_of cd bp -> code_to bp i (cex e) -> fits K' S SC LP -> roots S C A SC LP -> sim W s SC sc T th ->
  fls W (Cf bp i op S C A SC LP T la (w_heap W)) x.
Ltac ini := intros sc th s x H Wf bp i op S C A SC LP T la W P Ca Ft Rt Sm; cbn [fail1] in H; cbn [cex] in Ca |- *; cbn [wfx] in Wf.

(** Places. *)
Lemma fref_ok : frefs K' (fail_ref E F).
Proof.
  intros sc th r s x H Wf bp i op S C A SC LP T la W P Ca Ft Rt Sm. unfold fail_ref in H. unfold cref in *. destruct r; try discriminate H; cbn [refcode wfx] in *.
  - opt H. destruct (find_var s0 sc x0) eqn:Ef; [discriminate H|]. injection H as <-. unfold varcode in Ca.
    change (OP_PUSH_STR :: strb x0 ++ [OP_FIND_SCOPE]) with ((OP_PUSH_STR :: strb x0) ++ [OP_FIND_SCOPE]) in *. destruct (at_app _ _ _ _ Ca) as [Ca1 Ca2].
    destruct (m_name w sv cd mem res bp i op S C A SC LP T la W s s0 x0 P Ca1 E0 (proj1 Sm)) as (key & W1 & G1 & R1 & L1 & Nm & Gn).
    skip G1 L1. eapply f_find; [exact Ca2|rt|eapply sim_later; eassumption|exact Nm|exact Gn|exact Ef].
  - destruct (at_split _ _ _ _ Ca) as [Ca1 Ca2]; [sn|]. eapply JHev; try eassumption. ft.
  - destruct Wf as [Wo Wk]. destruct (at_split _ _ _ _ Ca) as [Ca1 Ca2]; [sn|]. destruct (at_split _ _ _ _ Ca2) as [Ca3 Ca4]; [sn|]. fst1 H.
    + eapply JHev; try eassumption. ft.
    + optp H v1 s1.
      destruct (IHev _ _ _ _ _ _ E0 Wo bp i op S C A SC LP T la W P Ca1 ltac:(ft) Sm) as (op1 & la1 & x1 & W1 & G1 & R1 & L1 & V1 & _).
      skip G1 L1. eapply JHev; try eassumption; [ft|rt|eapply sim_later; eassumption].
Qed.
Lemma fe_var n : fevs1 (XVar n).
Proof. ini. apply to_at in Ca. destruct (at_app _ _ _ _ Ca) as [Ca1 Ca2]. eapply (fref_ok sc th (XVar n)); try eassumption. Qed.
Lemma fe_un o a : fevs1 (XUn o a).
Proof. ini. destruct Wf as [Wo Wa]. destruct (to_split _ _ _ _ Ca) as [Ca1 Ca2]; [cm|]. eapply JHev; try eassumption. ft. Qed.
Lemma fe_bin o a b : fevs1 (XBin o a b).
Proof.
  ini. destruct Wf as (Wo & Wa & Wb). destruct (to_split _ _ _ _ Ca) as [Ca1 Ca2]; [cm|]. destruct (to_split _ _ _ _ Ca2) as [Ca3 Ca4]; [cm|].
  fst1 H; [eapply JHev; try eassumption; ft|]. optp H v1 s1.
  destruct (IHev _ _ _ _ _ _ E0 Wa bp i op S C A SC LP T la W P Ca1 ltac:(ft) Sm) as (op1 & la1 & x1 & W1 & G1 & R1 & L1 & V1 & _).
  pose proof (sim_later _ _ _ _ _ _ _ _ _ _ Sm R1 L1) as Sm1. skip G1 L1.
  fst1 H; [eapply JHev; try eassumption; [ft|rt]|]. optp H v2 s2. opt H. injection H as <-.
  destruct (IHev _ _ _ _ _ _ E1 Wb bp _ op1 (x1 :: S) C A SC LP T la1 W1 P Ca3 ltac:(ft) Sm1) as (op2 & la2 & x2 & W2 & G2 & R2 & L2 & V2 & _).
  skip G2 L2. pose proof (sim_later _ _ _ _ _ _ _ _ _ _ Sm1 R2 L2) as (_ & _ & Vt).
  destruct (x_bin_error cd mem res W2 s2 x1 x2 v1 v2 o z S C A SC LP T la2 R2 (vrep_later _ _ _ _ _ _ L2 V1) V2 E2) as (Nz & y & p & X).
  eapply (f_expr w sv cd mem res S0 C0 A0 SC0 LP0 bp W2 W2); [apply to_at; exact Ca4|exact Nz| |exact R2|apply later_refl|exact Vt|exact X]. rt.
Qed.
Lemma fe_jump o b0 a b sc th s x : (o = OP_JMP_NEUTRAL_TRUE /\ b0 = true \/ o = OP_JMP_NEUTRAL_FALSE /\ b0 = false) ->
  first (fe F sc th a s) (let? (v, s1) := ev E sc th a s in if Bool.eqb (v_truthy v) b0 then None else fe F sc th b s1) = Some x -> wfx a -> wfx b ->
  forall bp i op S C A SC LP T la W, part_of cd bp -> code_to bp i (andcode o (cex a) (cex b)) -> fits K' S SC LP -> roots S C A SC LP -> sim W s SC sc T th ->
  fls W (Cf bp i op S C A SC LP T la (w_heap W)) x.
Proof.
  intros Ho H Wa Wb bp i op S C A SC LP T la W P Ca Ft Rt Sm.
  assert (Ho' : o <= 35) by (destruct Ho as [[-> _]|[-> _]]; vm_compute; discriminate).
  destruct (and_split bp i o (cex a) (cex b) Ho' (cex_stern b) Ca) as (Ca1 & (d & Zd & Ca2) & Ca3 & Ca4 & Ez).
  fst1 H; [eapply JHev; try eassumption; ft|]. optp H v1 s1.
  destruct (IHev _ _ _ _ _ _ E0 Wa bp i op S C A SC LP T la W P Ca1 ltac:(ft) Sm) as (op1 & la1 & x1 & W1 & G1 & R1 & L1 & V1 & _).
  pose proof (g_neutral w sv cd mem res bp P _ op1 o b0 x1 (v_truthy v1) S C A SC LP T la1 (w_heap W1) _ d Ho Ca2 Zd (vrep_truthy cd ext _ _ _ _ R1 V1)) as G2.
  destruct (Bool.eqb (v_truthy v1) b0); [discriminate H|]. rewrite Z.add_0_r in G2. pose proof (sim_later _ _ _ _ _ _ _ _ _ _ Sm R1 L1) as Sm1.
  skip G1 L1. skip G2 (later_refl W1). skip (g_drop w sv cd mem res bp P _ o x1 S C A SC LP T la1 (w_heap W1) Ca3) (later_refl W1).
  eapply JHev; try eassumption. ft.
Qed.
Lemma fe_and a b : fevs1 (XAnd a b).
Proof.
  ini. eapply (fe_jump OP_JMP_NEUTRAL_FALSE false a b); try eassumption; try apply Wf; [right; split; reflexivity|].
  destruct (fe F sc th a s); [exact H|]. cbn [first] in *. destruct (ev E sc th a s) as [[x0 s1]|]; [|exact H]. destruct (v_truthy x0); exact H.
Qed.
Lemma fe_or a b : fevs1 (XOr a b).
Proof.
  ini. eapply (fe_jump OP_JMP_NEUTRAL_TRUE true a b); try eassumption; try apply Wf; [left; split; reflexivity|].
  destruct (fe F sc th a s); [exact H|]. cbn [first] in *. destruct (ev E sc th a s) as [[x0 s1]|]; [|exact H]. destruct (v_truthy x0); exact H.
Qed.
Lemma fe_cond c a b : fevs1 (XCond c a b).
Proof.
  ini. destruct Wf as (Wc & Wa & Wb).
  destruct (cond_split bp i (cex c) (cex a) (cex b) (cex_stern a) (cex_stern b) Ca) as (Ca1 & (d & Zd & Ca2) & Ca3 & (d' & Zd' & Ca4) & Ca5 & Ca6 & Ez).
  fst1 H; [eapply JHev; try eassumption; ft|]. optp H v1 s1.
  destruct (IHev _ _ _ _ _ _ E0 Wc bp i op S C A SC LP T la W P Ca1 ltac:(ft) Sm) as (op1 & la1 & x1 & W1 & G1 & R1 & L1 & V1 & _).
  pose proof (g_jmp_false w sv cd mem res bp P _ op1 x1 (v_truthy v1) S C A SC LP T la1 (w_heap W1) _ d Ca2 Zd (vrep_truthy cd ext _ _ _ _ R1 V1)) as G2.
  pose proof (sim_later _ _ _ _ _ _ _ _ _ _ Sm R1 L1) as Sm1. skip G1 L1.
  destruct (v_truthy v1).
  - rewrite Z.add_0_r in G2. skip G2 (later_refl W1). eapply JHev; try eassumption. ft.
  - skip G2 (later_refl W1). eapply fls_at; [|skip (g_drop w sv cd mem res bp P _ OP_JMP_FALSE V_UNDEFINED S C A SC LP T la1 (w_heap W1) Ca5) (later_refl W1); eapply JHev; try eassumption; ft]. lia.
Qed.
Lemma fe_asg o r a : fevs1 (XAsg o r a).
Proof.
  ini. destruct Wf as (Wo & Wr & Wa). fold (cref r) in *. destruct (to_app _ _ _ _ Ca) as [Ca1 Ca2]. destruct (to_split _ _ _ _ Ca2) as [Ca3 Ca4]; [cm|].
  fst1 H; [eapply JHref; try eassumption; ft|]. optp H p s1. destruct p as [ov n].
  destruct (IHref _ _ _ _ _ _ _ E0 Wr bp i op S C A SC LP T la W P Ca1 ltac:(ft) Sm) as (la1 & x1 & key & W1 & G1 & R1 & L1 & V1 & Vk).
  pose proof (sim_later _ _ _ _ _ _ _ _ _ _ Sm R1 L1) as Sm1. skip G1 L1.
  fst1 H; [eapply JHev; try eassumption; [ft|rt]|]. optp H v1 s2. opt H. injection H as <-. rename s0 into s3.
  destruct (IHev _ _ _ _ _ _ E1 Wa bp _ (match r with XVar _ => OP_FIND_SCOPE | _ => OP_SWAP end) (x1 :: key :: S) C A SC LP T la1 W1 P Ca3 ltac:(ft) Sm1) as (op2 & la2 & x2 & W2 & G2 & R2 & L2 & V2 & _).
  skip G2 L2. pose proof (sim_later _ _ _ _ _ _ _ _ _ _ Sm1 R2 L2) as (_ & _ & Vt).
  destruct (x_assign_error cd mem res W2 s2 ov x1 n key o x2 v1 s3 S C A SC LP T la2 R2 V2 (vrep_later _ _ _ _ _ _ L2 V1) (vrep_later _ _ _ _ _ _ L2 Vk) E2) as (W3 & p & R3 & L3 & X).
  eapply (f_expr w sv cd mem res S0 C0 A0 SC0 LP0 bp W2 W3); [apply to_at; exact Ca4|discriminate| |exact R3|exact L3|eapply vrep_later; eassumption|exact X]. rt.
Qed.
Lemma fe_inc o r : fevs1 (XInc o r).
Proof.
  ini. fold (cref r) in *. destruct (to_app _ _ _ _ Ca) as [Ca1 Ca2].
  fst1 H; [eapply JHref; try eassumption; ft|]. optp H p s1. destruct p as [ov n]. opt H. injection H as <-. rename s0 into s2.
  destruct (IHref _ _ _ _ _ _ _ E0 Wf bp i op S C A SC LP T la W P Ca1 ltac:(ft) Sm) as (la1 & x1 & key & W1 & G1 & R1 & L1 & V1 & Vk).
  pose proof (sim_later _ _ _ _ _ _ _ _ _ _ Sm R1 L1) as (_ & _ & Vt). skip G1 L1.
  destruct (x_inc_error cd mem res W1 s1 ov x1 n key o s2 S C A SC LP T la1 R1 V1 Vk E1) as (W3 & p & R3 & L3 & X).
  eapply (f_expr w sv cd mem res S0 C0 A0 SC0 LP0 bp W1 W3); [apply to_at; exact Ca2|discriminate| |exact R3|exact L3|eapply vrep_later; eassumption|exact X]. rt.
Qed.
Lemma fe_member e : (match e with XDot _ _ | XIdx _ _ => True | _ => False end) -> fevs1 e.
Proof.
  intros He sc th s x H Wf bp i op S C A SC LP T la W P Ca Ft Rt Sm.
  assert (Ec : cex e = cref e ++ [OP_GET]) by (destruct e; try destruct He; reflexivity).
  assert (Hq : first (fr F sc th e s) (let? (o, k, s) := ev_ref E sc th e s in let? c := get_error o k in Some (c, th, s)) = Some x) by (destruct e; try destruct He; exact H). clear H. rename Hq into H.
  rewrite Ec in *. destruct (to_app _ _ _ _ Ca) as [Ca1 Ca2]. apply to_at in Ca2.
  fst1 H; [eapply JHref; try eassumption; ft|]. optp H p s1. destruct p as [o n]. opt H. injection H as <-.
  destruct (IHref _ _ _ _ _ _ _ E0 Wf bp i op S C A SC LP T la W P Ca1 ltac:(ft) Sm) as (la1 & x1 & key & W1 & G1 & R1 & L1 & V1 & Vk).
  pose proof (sim_later _ _ _ _ _ _ _ _ _ _ Sm R1 L1) as (_ & _ & Vt). skip G1 L1.
  eapply f_get; [exact Ca2|rt|exact R1|exact Vt|exact V1|exact Vk|exact E1].
Qed.

(** ** Object and array literals *)
Lemma ffill_ok l : forall sc th j s x, fail_fill E F sc th j l s = Some x -> all (fun p => wfx (snd p)) l ->
  forall bp i op S C A SC LP T la W, part_of cd bp -> code_at bp i (flat_map propcode l) -> fits (K + 4) S SC LP -> roots S C A SC LP -> sim W s SC sc T th -> (j < length (w_addr W))%nat ->
  fls W (Cf bp i op (obj_at W j :: S) C A SC LP T la (w_heap W)) x.
Proof.
  induction l as [|[n e] l IH]; intros sc th j s x H Wf bp i op S C A SC LP T la W P Ca Ft Rt Sm Hj; [discriminate H|].
  cbn [fail_fill] in H. opt H. rename s0 into s1. cbn [flat_map] in *. destruct Wf as [Wf1 Wf2].
  destruct (at_app _ _ _ _ Ca) as [Ca1 CaR]. unfold propcode in Ca1. cbn [fst snd] in *.
  destruct (at_cons _ _ _ _ Ca1) as [Ca2 Ca3].
  change (OP_PUSH_STR :: strb n ++ OP_SWAP :: cex e ++ [OP_EXPR; TOK_ASSIGN; OP_DROP]) with ((OP_PUSH_STR :: strb n) ++ OP_SWAP :: cex e ++ [OP_EXPR; TOK_ASSIGN; OP_DROP]) in Ca3.
  destruct (at_app _ _ _ _ Ca3) as [Ca4 Ca5]. destruct (at_cons _ _ _ _ Ca5) as [Ca6 Ca7]. destruct (at_split _ _ _ _ Ca7) as [Ca8 Ca9]; [sn|].
  change [OP_EXPR; TOK_ASSIGN; OP_DROP] with ([OP_EXPR; TOK_ASSIGN] ++ [OP_DROP]) in Ca9. destruct (at_app _ _ _ _ Ca9) as [Ca10 Ca11].
  pose proof (g_dup w sv cd mem res bp P i op (obj_at W j) S C A SC LP T la (w_heap W) Ca2) as G1.
  destruct (m_name w sv cd mem res bp _ OP_DUP (obj_at W j :: obj_at W j :: S) C A SC LP T la W s s1 n P Ca4 E0 (proj1 Sm)) as (key & W1 & G2 & R1 & L1 & Nm & Gn).
  pose proof (g_swap w sv cd mem res bp P _ OP_PUSH_STR key (obj_at W j) (obj_at W j :: S) C A SC LP T la (w_heap W1) Ca6) as G3.
  pose proof (sim_later _ _ _ _ _ _ _ _ _ _ Sm R1 L1) as Sm1.
  skip G1 (later_refl W). skip G2 L1. skip G3 (later_refl W1).
  fst1 H; [eapply JHev; try eassumption; [ft|rt]|]. optp H v s2. opt H. rename s0 into s3.
  destruct (IHev _ _ _ _ _ _ E1 Wf1 bp _ OP_SWAP (obj_at W j :: key :: obj_at W j :: S) C A SC LP T la W1 P Ca8 ltac:(ft) Sm1) as (op2 & la2 & x2 & W2 & G4 & R2 & L2 & V2 & _).
  pose proof (sim_later _ _ _ _ _ _ _ _ _ _ Sm1 R2 L2) as Sm2. pose proof (later_trans _ _ _ L1 L2) as L12. destruct (obj_later _ _ _ L12 Hj) as [Eo Hj2].
  destruct (x_assign cd mem res W2 s2 s3 j n key (obj_at W j) x2 v (obj_at W j :: S) C A SC LP T la2 R2 V2 (key_name_of _ _ _ _ (name_later cd mem _ _ _ _ L2 Gn Nm)) Gn (or_introl (eq_sym Eo)) E2) as (W3 & R3 & L3 & X).
  pose proof (sim_later _ _ _ _ _ _ _ _ _ _ Sm2 R3 L3) as Sm3. pose proof (later_trans _ _ _ L12 L3) as L13. destruct (obj_later _ _ _ L13 Hj) as [Eo3 Hj3].
  pose proof (g_expr w sv cd mem res bp P _ op2 TOK_ASSIGN _ _ C A SC LP T la2 _ _ Ca10 X) as G5.
  pose proof (g_drop w sv cd mem res bp P _ OP_EXPR x2 (obj_at W j :: S) C A SC LP T la2 (w_heap W3) Ca11) as G6.
  skip G4 L2. skip G5 L3. skip G6 (later_refl W3).
  rewrite <- Eo3. eapply fls_at; [|exact (IH sc th j s3 x H Wf2 bp _ OP_DROP S C A SC LP T la2 W3 P CaR Ft Rt Sm3 Hj3)]. unfold propcode. cbn [fst snd]. zl.
Qed.
Lemma fe_obj l : fevs1 (XObj l).
Proof.
  ini. optp H j s1. change (fun p : list Z * lx => OP_DUP :: OP_PUSH_STR :: strb (fst p) ++ OP_SWAP :: cex (snd p) ++ [OP_EXPR; TOK_ASSIGN; OP_DROP]) with propcode in *.
  apply to_at in Ca. destruct (at_cons _ _ _ _ Ca) as [Ca1 Ca2].
  destruct (new_cell_ok cd ext W s s1 j (proj1 Sm) E0) as (h & Mk & R1 & L1 & Ej & Hj).
  pose proof (g_obj w sv cd mem res bp P i op S C A SC LP T la _ _ _ Ca1 Mk) as G1.
  pose proof (sim_later _ _ _ _ _ _ _ _ _ _ Sm R1 L1) as Sm1. skip G1 L1.
  exact (ffill_ok l sc th j s1 x H Wf bp _ OP_PUSH_OBJ S C A SC LP T la (new_world W h) P Ca2 ltac:(ft) Rt Sm1 Hj).
Qed.
Lemma ffill_arr_ok l : forall sc th j s x, fail_fill_arr E F sc th j l s = Some x -> all wfx l ->
  forall bp i op S C A SC LP T la W, part_of cd bp -> code_at bp i (flat_map elemcode l) -> fits (K + 4) S SC LP -> roots S C A SC LP -> sim W s SC sc T th -> (j < length (w_addr W))%nat ->
  fls W (Cf bp i op (arr_at W j :: S) C A SC LP T la (w_heap W)) x.
Proof.
  induction l as [|e l IH]; intros sc th j s x H Wf bp i op S C A SC LP T la W P Ca Ft Rt Sm Hj; [discriminate H|].
  cbn [fail_fill_arr] in H. cbn [flat_map] in *. destruct Wf as [Wf1 Wf2].
  destruct (at_app _ _ _ _ Ca) as [Ca1 CaR]. unfold elemcode in Ca1.
  destruct (at_cons _ _ _ _ Ca1) as [Ca2 Ca3]. destruct (at_split _ _ _ _ Ca3) as [Ca4 Ca5]; [sn|].
  pose proof (g_dup w sv cd mem res bp P i op (arr_at W j) S C A SC LP T la (w_heap W) Ca2) as G1. skip G1 (later_refl W).
  fst1 H; [eapply JHev; try eassumption; [ft|rt]|]. optp H v s1. opt H. rename s0 into s2.
  destruct (IHev _ _ _ _ _ _ E0 Wf1 bp _ OP_DUP (arr_at W j :: arr_at W j :: S) C A SC LP T la W P Ca4 ltac:(ft) Sm) as (op2 & la2 & x2 & W2 & G4 & R2 & L2 & V2 & _).
  pose proof (sim_later _ _ _ _ _ _ _ _ _ _ Sm R2 L2) as Sm2. destruct (arr_later _ _ _ L2 Hj) as [Eo Hj2].
  destruct (append_ok cd ext W2 s1 s2 j (arr_at W j) x2 v R2 V2 (or_intror (eq_sym Eo)) E1) as (h & mp & Ap & R3 & L3). cbv zeta in R3, L3.
  set (W3 := set_world W2 h (nth j (w_addr W2) 0) mp) in *.
  pose proof (sim_later _ _ _ _ _ _ _ _ _ _ Sm2 R3 L3) as Sm3. pose proof (later_trans _ _ _ L2 L3) as L13. destruct (arr_later _ _ _ L13 Hj) as [Eo3 Hj3].
  pose proof (g_append w sv cd mem res bp P _ op2 (arr_at W j) x2 (arr_at W j :: S) C A SC LP T la2 _ _ Ca5 Ap) as G5.
  skip G4 L2. eapply (fls_go w sv cd mem res S0 C0 A0 SC0 LP0 W2 W3); [exact G5|exact L3|].
  rewrite <- Eo3. eapply fls_at; [|exact (IH sc th j s2 x H Wf2 bp _ OP_APPEND S C A SC LP T la2 W3 P CaR Ft Rt Sm3 Hj3)]. unfold elemcode. zl.
Qed.
Lemma fe_arr l : fevs1 (XArr l).
Proof.
  ini. optp H j s1. change (fun e : lx => OP_DUP :: cex e ++ [OP_APPEND]) with elemcode in *.
  apply to_at in Ca. destruct (at_cons _ _ _ _ Ca) as [Ca1 Ca2].
  destruct (new_arr_ok cd ext W s s1 j (proj1 Sm) E0) as (h & Mk & R1 & L1 & Hj).
  pose proof (g_arr w sv cd mem res bp P i op S C A SC LP T la _ _ _ Ca1 Mk) as G1.
  pose proof (sim_later _ _ _ _ _ _ _ _ _ _ Sm R1 L1) as Sm1. skip G1 L1.
  exact (ffill_arr_ok l sc th j s1 x H Wf bp _ OP_PUSH_ARRAY S C A SC LP T la (new_world W h) P Ca2 ltac:(ft) Rt Sm1 Hj).
Qed.

(** ** Arguments *)
Lemma fargs_ok : fargss K' (fail_args E F).
Proof.
  intros sc th l s x H Wf bp i op S C A SC LP T la W P Ca Ft Rt Sm. destruct l as [|e l]; [discriminate H|]. cbn [fail_args flat_map] in *. destruct Wf as [Wf1 Wf2].
  assert (Cs : code_to bp i (cex e) /\ code_to bp (i + zlen (cex e)) (flat_map cex l)).
  { apply to_split; [exact Ca|]. destruct l as [|e' l]; [exact I|cbn [flat_map]; apply stern_calm; apply stern_app; apply cex_stern]. }
  destruct Cs as [Ca1 Ca2].
  fst1 H; [eapply JHev; try eassumption; ft|]. optp H v s1.
  destruct (IHev _ _ _ _ _ _ E0 Wf1 bp i op S C A SC LP T la W P Ca1 ltac:(ft) Sm) as (op1 & la1 & x1 & W1 & G1 & R1 & L1 & V1 & _).
  skip G1 L1. eapply JHargs; try eassumption; [ft|rt|eapply sim_later; eassumption].
Qed.

(** ** Statements one after the other *)
Lemma ftail_ok l : forall sc th s x, fail_list E F sc th l s = Some x -> all wfs l ->
  forall bp i op v' S C A SC LP T la W, part_of cd bp -> code_to bp i (dropcode (map cst l)) -> fits K S SC LP -> roots S C A SC LP -> sim W s SC sc T th ->
  fls W (Cf bp i op (v' :: S) C A SC LP T la (w_heap W)) x.
Proof.
  induction l as [|a l IH]; intros sc th s x H Wf bp i op v' S C A SC LP T la W P Ca Ft Rt Sm; cbn [fail_list map dropcode flat_map] in *; [discriminate H|].
  destruct Wf as [Wa Wl]. fold (dropcode (map cst l)) in *. cbn [app] in *. destruct (to_cons _ _ _ _ Ca) as [Ca1 Ca2].
  destruct (to_split _ _ _ _ Ca2 (drop_calm _)) as [Ca3 Ca4].
  skip (g_drop w sv cd mem res bp P i op v' S C A SC LP T la (w_heap W) Ca1) (later_refl W).
  fst1 H; [eapply JHex; eassumption|]. optp H o1 s1.
  destruct (IHex _ _ _ _ _ _ E0 Wa bp _ OP_DROP S C A SC LP T la W P Ca3 Ft Sm) as (W1 & R1 & L1 & D1).
  destruct o1 as [v1| | |v1]; try discriminate H. cbn [Lang_Exec6.done] in D1. destruct D1 as (op1 & la1 & x1 & G2 & V1).
  skip G2 L1. eapply IH; try eassumption. eapply sim_later; eassumption.
Qed.
Lemma fseq_ok l : forall sc th s x, fail_list E F sc th l s = Some x -> all wfs l ->
  forall bp i op S C A SC LP T la W, part_of cd bp -> code_to bp i (seqcode (map cst l)) -> fits K S SC LP -> roots S C A SC LP -> sim W s SC sc T th ->
  fls W (Cf bp i op S C A SC LP T la (w_heap W)) x.
Proof.
  intros sc th s x H Wf bp i op S C A SC LP T la W P Ca Ft Rt Sm. destruct l as [|a l]; cbn [fail_list map seqcode] in *; [discriminate H|].
  destruct Wf as [Wa Wl]. destruct (to_split _ _ _ _ Ca (drop_calm _)) as [Ca3 Ca4].
  fst1 H; [eapply JHex; eassumption|]. optp H o1 s1.
  destruct (IHex _ _ _ _ _ _ E0 Wa bp _ op S C A SC LP T la W P Ca3 Ft Sm) as (W1 & R1 & L1 & D1).
  destruct o1 as [v1| | |v1]; try discriminate H. cbn [Lang_Exec6.done] in D1. destruct D1 as (op1 & la1 & x1 & G2 & V1).
  skip G2 L1. eapply ftail_ok; try eassumption. eapply sim_later; eassumption.
Qed.

(** ** Calls *)
Lemma fcall_ok sc th v t vs s x : fail_call E F sc th v t vs s = Some x -> zlen vs <= N ->
  forall bp i op xs f S C A SC LP T th' la W, part_of cd bp -> code_at bp i [OP_CALL] -> fits K' S SC LP -> roots S C A SC LP -> sim W s SC sc T th -> vrep W f v -> vrep W th' t -> Forall2 (vrep W) xs vs ->
  fls W (Cf bp i op (rev xs ++ f :: S) C (vnum (zlen S + 1) :: th' :: A) SC LP T la (w_heap W)) x.
Proof.
  intros H Hv bp i op xs f S C A SC LP T th' la W P Ca Ft Rt Sm Vf Vt Fx.
  assert (Nf : x = (E_TYPE, th, s) -> match v with VFun _ _ | VHost _ | VPrim (AStr _) => False | _ => True end -> fls W (Cf bp i op (rev xs ++ f :: S) C (vnum (zlen S + 1) :: th' :: A) SC LP T la (w_heap W)) x).
  { intros -> Hf. eapply f_call; [exact Ca|rt|apply Sm|apply Sm|exact Vf|exact Hf|ft]. }
  unfold fail_call in H. destruct v as [[]|jj|jj|ps b|p]; try discriminate H; try (apply Nf; [injection H as <-; reflexivity|exact I]). clear Nf.
  cbn [Lang_Spec2.vrep] in Vf. optp H j s1. opt H. rename s0 into s2. destruct Vf as (fb & pre & rest & Pf & Ed & Np & -> & Wb).
  assert (Hp : 0 < zlen pre) by (destruct pre; [congruence|rewrite zlen_cons; pose proof (zlen_nonneg pre); lia]).
  assert (Cq : code_at fb (zlen pre) (bracket ps (seqcode (map cst b)))) by (exists pre, rest; split; [exact Ed|reflexivity]).
  pose proof (at_len _ _ _ Ca) as [Hi1 Hi2]. change (zlen [OP_CALL]) with 1 in Hi2.
  pose proof (at_len _ _ _ Cq) as [_ Cl]. unfold bracket in Cl. rewrite zlen_cons in Cl.
  match type of Cl with context [zlen ?a] => pose proof (zlen_nonneg (parcode 0 ps ++ seqcode (map cst b) ++ [OP_RETURN])) end.
  pose proof (g_call w sv cd mem res bp P i op (rev xs) _ fb (zlen pre) S C A SC LP T th' la (w_heap W) Ca Pf ltac:(lia) eq_refl ltac:(ft)) as G1.
  skip G1 (later_refl W). destruct Sm as (Rl & Sc & _).
  pose proof (proj1 (at_len _ _ _ Cq)) as Hi0. unfold bracket in Cq. assert (Lx : zlen (rev xs) <= N) by (unfold zlen in *; rewrite rev_length, (Forall2_len _ _ _ Fx); exact Hv).
  match goal with |- context [Cf fb (zlen pre) OP_CALL (rev xs ++ ?u :: S) (vnum (zlen S + 1) :: ?C') A SC LP th' la] => set (C1 := vnum (zlen S + 1) :: C'); set (r0 := u) end.
  destruct (at_cons _ _ _ _ Cq) as [Cf1 Cf2]. destruct (at_app _ _ _ _ Cf2) as [Cf3 Cf4]. destruct (at_split _ _ _ _ Cf4) as [Cf5 Cf6]; [sn|].
  destruct (new_cell_ok cd ext W s s1 j Rl E0) as (h & Mk & R1 & L1 & Ej & Hj).
  pose proof (g_new_scope w sv cd mem res fb Pf _ OP_CALL (rev xs ++ r0 :: S) C1 A SC LP th' la _ _ _ Cf1 Mk) as G2.
  destruct (bind_ok w sv cd mem res ps 0 j vs s1 s2 E1 fb _ OP_NEW_SCOPE xs r0 S _ C1 A SC LP th' la (new_world W h) Pf Cf3 ltac:(lia) eq_refl ltac:(ft) R1 Hj) as (op3 & W3 & G3 & R3 & L3).
  { cbn [skipn Z.to_nat]. clear -Fx L1. induction Fx; constructor; [eapply vrep_later; eassumption|assumption]. }
  pose proof (later_trans _ _ _ L1 L3) as L13.
  assert (Sm3 : sim W3 s2 (obj_at (new_world W h) j :: SC) (j :: sc) th' t).
  { split; [exact R3|]. split; [|eapply vrep_later; eassumption]. destruct (scopes_later _ _ _ _ L13 Sc) as [ES FS].
    destruct (obj_later _ _ _ L3 Hj) as [Eo Hj3]. split; [cbn [map]; rewrite Eo; f_equal; exact ES|constructor; [exact Hj3|exact FS]]. }
  skip G2 L1. skip G3 L3.
  eapply (fseq_ok b (j :: sc) t s2 x H Wb fb); [exact Pf|exact Cf5|ft|unfold C1; rt|exact Sm3].
Qed.
Lemma fe_call f l : fevs1 (XCall f l).
Proof.
  ini. destruct Wf as [Wf Wl]. destruct (to_args _ _ _ _ Ca) as [Ca1 Ca2]. destruct (to_cons _ _ _ _ Ca2) as [Ca3 Ca4].
  destruct (to_split _ _ _ _ Ca4) as [Ca5 Ca6]; [cm|]. apply to_at in Ca6.
  fst1 H; [eapply JHev; try eassumption; ft|]. optp H p s1. destruct p as [fv t].
  destruct (callee_ok w sv cd mem res E K K' N IHev IHref HN HK' sc th f s fv t s1 E0 Wf bp i op S C A SC LP T la W P Ca1 Ft Sm) as (op1 & la1 & x1 & W1 & G1 & R1 & L1 & V1 & V1').
  pose proof (g_args w sv cd mem res bp P _ op1 (x1 :: S) C A SC LP T la1 (w_heap W1) Ca3) as G2. set (t1 := if op1 =? OP_GET then la1 else V_UNDEFINED) in *.
  pose proof (sim_later _ _ _ _ _ _ _ _ _ _ Sm R1 L1) as Sm1. skip G1 L1. skip G2 (later_refl W1).
  fst1 H; [eapply JHargs; try eassumption; [ft|rt]|]. optp H vs s2. destruct (IHargs _ _ _ _ _ _ E1 Wl) as [Hl IHa].
  destruct (IHa bp _ OP_ARGS (x1 :: S) C (vnum (zlen (x1 :: S)) :: t1 :: A) SC LP T t1 W1 P Ca5 ltac:(ft) Sm1) as (op2 & la2 & xs & W2 & G3 & R2 & L2 & F2).
  pose proof (sim_later _ _ _ _ _ _ _ _ _ _ Sm1 R2 L2) as Sm2. skip G3 L2.
  replace (zlen (x1 :: S)) with (zlen S + 1) by zl.
  exact (fcall_ok sc th fv t vs s2 x H Hl bp _ op2 xs x1 S C A SC LP T t1 la2 W2 P Ca6 Ft Rt Sm2 (vrep_later _ _ _ _ _ _ L2 V1) (vrep_later _ _ _ _ _ _ L2 V1') F2).
Qed.
Lemma fev_ok : fevs K' (fail1 E F).
Proof.
  intros sc th e. destruct e as [c| |x|op a|op a b|a b|a b|c a b|op r a|op r|o x|o k|f l|l|l|f ps b]; generalize sc th; clear sc th; intros sc th s v H; revert sc th s v H;
  match goal with |- forall sc th s v, fail1 E F sc th ?e s = _ -> _ => change (fevs1 e) end.
  all: try (intros sc th s x H; discriminate H).
  all: eauto using fe_var, fe_un, fe_bin, fe_and, fe_or, fe_cond, fe_asg, fe_inc, fe_call, fe_obj, fe_arr.
  all: apply fe_member; exact I.
Qed.
End Exprs.

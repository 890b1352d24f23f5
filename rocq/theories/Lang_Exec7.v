(** Running the expressions of the language: everything except calls. *)
From Verif Require Import Base BaseFacts Value_Model Value_Spec Value_Proofs Data_Model Str_Model Str_Spec Str_Proofs Str_Proofs2 Float_Proofs Lit_Proofs
  Ops_Model Ops_Spec Ops_Proofs Ops_Proofs2 TokNum_Model Txt_Model Obj_Model Obj_Spec Obj_Proofs Obj_Proofs2 Conv_Model Num_Model Varint_Model Varint_Proofs Bcode_Model Bcode_Proofs
  Vm_Model Vm_Spec Vm_Proofs Vm_Proofs2 Vm_Proofs4 Tok_Spec Parse_Model Expr_Spec Run_Spec Expr_Proofs1 Expr_Proofs3 Expr_Proofs4 Expr_Proofs5 Lang_Spec Lang_Code Lang_Spec2 Lang_Exec1 Lang_Key Lang_Exec2 Lang_Exec3 Lang_Exec4 Lang_Exec5 Lang_Native Lang_Exec6.
From Coq Require Import ZifyBool.
Ltac Zify.zify_post_hook ::= idtac.


Ltac cm := first [exact I|apply stern_calm; apps; first [apply cex_stern|apply cst_stern|opc]].
Ltac sn := apps; first [apply cex_stern|apply cst_stern|opc].
Ltac zl := repeat (rewrite zlen_app || rewrite zlen_cons); change (zlen (@nil Z)) with 0; lia.
Ltac ft := unfold fits in *; repeat (rewrite zlen_app || rewrite zlen_cons); lia.
Ltac noget := let H := fresh in intros _ H; vm_compute in H; discriminate H.

Lemma to_skip bp i d1 d2 : code_to bp i (d1 ++ d2) -> code_to bp (i + zlen d1) d2.
Proof. intros H. apply (to_app _ _ _ _ H). Qed.
Lemma at_pos bp i j d : code_at bp i d -> i = j -> code_at bp j d. Proof. intros H <-. exact H. Qed.
Lemma to_pos bp i j d : code_to bp i d -> i = j -> code_to bp j d. Proof. intros H <-. exact H. Qed.
Lemma at_at bp i d1 d2 d3 : code_at bp i (d1 ++ d2 ++ d3) -> code_at bp (i + zlen d1) d2.
Proof. intros H. apply at_app in H. destruct H as [_ H]. apply at_app in H. apply H. Qed.

(** The pieces of a conditional. *)
Lemma cond_split bp i c a b : stern a -> stern b -> code_to bp i (condcode c a b) ->
  let off := varint (1 + zlen b) in let n := zlen a + 1 + zlen off in
  let i1 := i + zlen c in let i2 := i1 + 1 + zlen (varint n) in let i3 := i2 + zlen a in let i4 := i3 + 1 + zlen off in
  code_to bp i c /\ (exists d, zlen d = n /\ code_at bp i1 (OP_JMP_FALSE :: varint n ++ d)) /\ code_to bp i2 a /\
  (exists d, zlen d = 1 + zlen b /\ code_at bp i3 (OP_JMP :: off ++ d)) /\ code_at bp i4 [OP_DROP] /\ code_to bp (i4 + 1) b /\
  i + zlen (condcode c a b) = i4 + 1 + zlen b.
Proof.
  intros Sa Sb H. unfold condcode in *. cbv zeta in *. set (off := varint (1 + zlen b)) in *. set (n := zlen a + 1 + zlen off) in *.
  destruct (to_split _ _ _ _ H) as [H1 H2]; [cm|]. split; [exact H1|]. clear H H1.
  change (OP_JMP_FALSE :: varint n ++ a ++ OP_JMP :: off ++ OP_DROP :: b) with ((OP_JMP_FALSE :: varint n) ++ a ++ OP_JMP :: off ++ OP_DROP :: b) in *.
  split.
  { exists (a ++ OP_JMP :: off). split; [unfold n; zl|]. apply to_at in H2. rewrite (app_comm_cons off), !app_assoc in H2. apply at_app in H2. destruct H2 as [H2 _].
    rewrite <- !app_assoc in H2. exact H2. }
  apply to_skip in H2. destruct (to_split _ _ _ _ H2) as [H3 H4]; [cm|].
  split; [eapply to_pos; [exact H3|zl]|]. clear H2 H3.
  split; [exists (OP_DROP :: b); split; [zl|]; eapply at_pos; [apply to_at; exact H4|zl]|].
  change (OP_JMP :: off ++ OP_DROP :: b) with ((OP_JMP :: off) ++ OP_DROP :: b) in H4. apply to_skip in H4. apply to_cons in H4. destruct H4 as [H4 H5].
  split; [eapply at_pos; [exact H4|zl]|]. split; [eapply to_pos; [exact H5|zl]|]. zl.
Qed.
Lemma and_split bp i j a b : j <= 35 -> stern b -> code_to bp i (andcode j a b) ->
  let n := 1 + zlen b in let i1 := i + zlen a in let i2 := i1 + 1 + zlen (varint n) in
  code_to bp i a /\ (exists d, zlen d = n /\ code_at bp i1 (j :: varint n ++ d)) /\ code_at bp i2 [OP_DROP] /\ code_to bp (i2 + 1) b /\
  i + zlen (andcode j a b) = i2 + n.
Proof.
  intros Hj Sb H. unfold andcode in *. cbv zeta. set (n := 1 + zlen b) in *.
  destruct (to_split _ _ _ _ H) as [H1 H2]; [exact Hj|]. split; [exact H1|].
  split; [exists (OP_DROP :: b); split; [unfold n; zl|apply to_at; exact H2]|].
  change (j :: varint n ++ OP_DROP :: b) with ((j :: varint n) ++ OP_DROP :: b) in H2. apply to_skip in H2. apply to_cons in H2. destruct H2 as [H2 H3].
  split; [eapply at_pos; [exact H2|zl]|]. split; [eapply to_pos; [exact H3|zl]|]. unfold n. zl.
Qed.

Section Exprs.
Context (w : host) (sv : saved) (cd : code) (mem : rawmem) (res : list (Z * Z)).
Notation ext := (mext mem).
Notation vrep := (vrep cd ext).
Notation rel := (rel cd ext).
Notation go := (go w sv cd mem res).
Notation sim := (sim cd mem).
Notation evs := (evs w sv cd mem res). Notation refs := (refs w sv cd mem res). Notation argss := (argss w sv cd mem res). Notation exs := (exs w sv cd mem res).

Lemma name_later W W' key n : later W W' -> good_name n = true -> name_of (w_st W) ext key n -> name_of (w_st W') ext key n.
Proof. intros L G N. destruct (good_bytes n G) as (_ & B & _). exact (proj1 (vrep_later cd ext W W' key (VPrim (AStr n)) L (conj N B))). Qed.
Lemma obj_later W W' i : later W W' -> (i < length (w_addr W))%nat -> obj_at W' i = obj_at W i /\ (i < length (w_addr W'))%nat.
Proof. intros L H. destruct (later_nth W W' i L H) as [H1 H2]. unfold obj_at. rewrite H2. split; [reflexivity|exact H1]. Qed.
Lemma find_head s j r x a : own s j x = Some a -> find_var s (j :: r) x = Some j.
Proof. intros H. cbn [find_var]. rewrite H. reflexivity. Qed.

Context (E : evaluator) (rounds : nat) (K K' N : Z).
Context (IHev : evs K (ev E)) (IHref : refs K (ev_ref E)) (IHargs : argss K N (ev_args E)) (IHex : exs K (ex E)) (HN : 0 <= N) (HK : 0 <= K) (HK' : K + N + 8 <= K').

Definition evs1 (e : lx) : Prop :=
  forall sc th s v s', eval1 E sc th e s = Some (v, s') -> wfx e ->
  forall bp i op S C A SC LP T la W, part_of cd bp -> code_to bp i (cex e) -> fits K' S SC LP -> sim W s SC sc T th ->
  exists op' la' v' W', go (Cf bp i op S C A SC LP T la (w_heap W)) (Cf bp (i + zlen (cex e)) op' (v' :: S) C A SC LP T la' (w_heap W')) /\
    rel W' s' /\ later W W' /\ vrep W' v' v /\ (plain e = true -> op' = OP_GET -> la' = V_UNDEFINED).
Ltac ini := intros sc th s v s' H Wf bp i op S C A SC LP T la W P Ca Ft Sm; cbn [eval1] in H; cbn [cex] in Ca |- *; cbn [wfx] in Wf.
Ltac opt H := match type of H with match ?m with _ => _ end = Some _ => let E := fresh "E" in destruct m eqn:E; [|discriminate H] end.
Ltac optp H a b := match type of H with match ?m with _ => _ end = Some _ => let E := fresh "E" in destruct m as [[a b]|] eqn:E; [|discriminate H] end.

Lemma e_const c : evs1 (XConst c).
Proof.
  ini. optp H a n. opt H. injection H as <- <-.
  destruct (g_const w sv cd mem res bp P W s s0 i op c a n S C A SC LP T la Ca Wf E0 E1 (proj1 Sm)) as (st & o & x & R & L & V & No & G).
  exists o, la, x, (str_world W st). split; [exact G|]. split; [exact R|]. split; [exact L|]. split; [exact V|]. intros _ Ho. contradiction.
Qed.
Lemma e_this : evs1 XThis.
Proof.
  ini. injection H as <- <-. exists OP_PUSH_THIS, la, T, W. split; [apply (g_this w sv cd mem res bp P); apply to_at; exact Ca|].
  split; [apply Sm|]. split; [apply later_refl|]. split; [apply Sm|noget].
Qed.
Lemma e_var x : evs1 (XVar x).
Proof.
  ini. unfold eval_var in H. destruct (name_eqb x n_apply) eqn:Ea; [discriminate H|]. opt H. opt H. opt H. injection H as -> ->.
  apply to_at in Ca. destruct (at_app _ _ _ _ Ca) as [Ca1 Ca2].
  destruct (m_var w sv cd mem res bp i op S C A SC LP T la W s s' x sc th n P Ca1 E0 E1 Sm) as (key & W1 & G1 & R1 & L1 & Nm & Gn & Hj).
  destruct (g_get w sv cd mem res bp P W1 s' _ OP_FIND_SCOPE (obj_at W1 n) (VObj n) key (VPrim (AStr x)) v S C A SC LP T la Ca2 R1 (conj Hj eq_refl) (conj Nm (proj1 (proj2 (good_bytes _ Gn))))) as (y & V & G2).
  { cbn [member key_name]. rewrite Gn. unfold prop_of. rewrite Ea. unfold own in E2. destruct (nth_error (objs s') n); [|discriminate E2]. rewrite E2. reflexivity. }
  exists OP_GET, V_UNDEFINED, y, W1. split; [eapply go_at; [eapply go_trans; [exact G1|exact G2]|zl]|].
  split; [exact R1|]. split; [exact L1|]. split; [exact V|reflexivity].
Qed.
Lemma e_un o a : evs1 (XUn o a).
Proof.
  ini. optp H v1 s1. opt H. opt H. injection H as <- <-. destruct Wf as [Wo Wa]. destruct (to_split _ _ _ _ Ca) as [Ca1 Ca2]; [cm|].
  destruct (IHev _ _ _ _ _ _ E0 Wa bp i op S C A SC LP T la W P Ca1 ltac:(ft) Sm) as (op1 & la1 & x1 & W1 & G1 & R1 & L1 & V1 & _).
  destruct (x_un cd mem res W1 s1 s0 x1 v1 v0 o S C A SC LP T la1 R1 V1 Wo E1 E2) as (st & x & R2 & L2 & V2 & X).
  exists OP_EXPR, la1, x, (str_world W1 st). split; [eapply go_at; [eapply go_trans; [exact G1|eapply (g_expr w sv cd mem res bp P); [apply to_at; exact Ca2|exact X]]|zl]|].
  split; [exact R2|]. split; [eapply later_trans; eassumption|]. split; [exact V2|noget].
Qed.
Lemma e_bin o a b : evs1 (XBin o a b).
Proof.
  ini. optp H v1 s1. optp H v2 s2. opt H. opt H. injection H as <- <-. destruct Wf as (Wo & Wa & Wb).
  destruct (to_split _ _ _ _ Ca) as [Ca1 Ca2]; [cm|]. destruct (to_split _ _ _ _ Ca2) as [Ca3 Ca4]; [cm|].
  destruct (IHev _ _ _ _ _ _ E0 Wa bp i op S C A SC LP T la W P Ca1 ltac:(ft) Sm) as (op1 & la1 & x1 & W1 & G1 & R1 & L1 & V1 & _).
  pose proof (sim_later _ _ _ _ _ _ _ _ _ _ Sm R1 L1) as Sm1.
  destruct (IHev _ _ _ _ _ _ E1 Wb bp _ op1 (x1 :: S) C A SC LP T la1 W1 P Ca3 ltac:(ft) Sm1) as (op2 & la2 & x2 & W2 & G2 & R2 & L2 & V2 & _).
  destruct (x_bin cd mem res W2 s2 s0 x1 x2 v1 v2 v0 o S C A SC LP T la2 R2 (vrep_later _ _ _ _ _ _ L2 V1) V2 Wo E2 E3) as (st & x & R3 & L3 & V3 & X).
  exists OP_EXPR, la2, x, (str_world W2 st). split; [eapply go_at; [eapply go_trans; [exact G1|]; eapply go_trans; [exact G2|]; eapply (g_expr w sv cd mem res bp P); [apply to_at; exact Ca4|exact X]|zl]|].
  split; [exact R3|]. split; [eapply later_trans; [exact L1|]; eapply later_trans; eassumption|]. split; [exact V3|noget].
Qed.
Lemma e_jump o b0 a b e sc th s v s' : (o = OP_JMP_NEUTRAL_TRUE /\ b0 = true \/ o = OP_JMP_NEUTRAL_FALSE /\ b0 = false) ->
  (let? (x, s1) := ev E sc th a s in if Bool.eqb (v_truthy x) b0 then Some (x, s1) else ev E sc th b s1) = Some (v, s') -> wfx a -> wfx b -> plain e = false ->
  forall bp i op S C A SC LP T la W, part_of cd bp -> code_to bp i (andcode o (cex a) (cex b)) -> fits K' S SC LP -> sim W s SC sc T th ->
  exists op' la' v' W', go (Cf bp i op S C A SC LP T la (w_heap W)) (Cf bp (i + zlen (andcode o (cex a) (cex b))) op' (v' :: S) C A SC LP T la' (w_heap W')) /\
    rel W' s' /\ later W W' /\ vrep W' v' v /\ (plain e = true -> op' = OP_GET -> la' = V_UNDEFINED).
Proof.
  intros Ho H Wa Wb Hp bp i op S C A SC LP T la W P Ca Ft Sm. optp H v1 s1.
  assert (Ho' : o <= 35) by (destruct Ho as [[-> _]|[-> _]]; vm_compute; discriminate).
  destruct (and_split bp i o (cex a) (cex b) Ho' (cex_stern b) Ca) as (Ca1 & (d & Zd & Ca2) & Ca3 & Ca4 & Ez).
  destruct (IHev _ _ _ _ _ _ E0 Wa bp i op S C A SC LP T la W P Ca1 ltac:(ft) Sm) as (op1 & la1 & x1 & W1 & G1 & R1 & L1 & V1 & _).
  pose proof (g_neutral w sv cd mem res bp P _ op1 o b0 x1 (v_truthy v1) S C A SC LP T la1 (w_heap W1) _ d Ho Ca2 Zd (vrep_truthy cd ext _ _ _ _ R1 V1)) as G2.
  destruct (Bool.eqb (v_truthy v1) b0).
  - injection H as <- <-. exists o, la1, x1, W1. split; [eapply go_at; [eapply go_trans; [exact G1|exact G2]|]; lia|].
    split; [exact R1|]. split; [exact L1|]. split; [exact V1|]. rewrite Hp. discriminate.
  - rewrite Z.add_0_r in G2. pose proof (sim_later _ _ _ _ _ _ _ _ _ _ Sm R1 L1) as Sm1.
    destruct (IHev _ _ _ _ _ _ H Wb bp _ OP_DROP S C A SC LP T la1 W1 P Ca4 ltac:(ft) Sm1) as (op2 & la2 & x2 & W2 & G3 & R2 & L2 & V2 & _).
    exists op2, la2, x2, W2. split; [eapply go_at; [eapply go_trans; [exact G1|]; eapply go_trans; [exact G2|]; eapply go_trans; [apply (g_drop w sv cd mem res bp P); exact Ca3|exact G3]|lia]|].
    split; [exact R2|]. split; [eapply later_trans; eassumption|]. split; [exact V2|]. rewrite Hp. discriminate.
Qed.
Lemma e_and a b : evs1 (XAnd a b).
Proof.
  ini. eapply (e_jump OP_JMP_NEUTRAL_FALSE false a b (XAnd a b)); try eassumption; try apply Wf; [right; split; reflexivity| |reflexivity].
  destruct (ev E sc th a s) as [[x s1]|]; [|exact H]. destruct (v_truthy x); exact H.
Qed.
Lemma e_or a b : evs1 (XOr a b).
Proof.
  ini. eapply (e_jump OP_JMP_NEUTRAL_TRUE true a b (XOr a b)); try eassumption; try apply Wf; [left; split; reflexivity| |reflexivity].
  destruct (ev E sc th a s) as [[x s1]|]; [|exact H]. destruct (v_truthy x); exact H.
Qed.
Lemma e_cond c a b : evs1 (XCond c a b).
Proof.
  ini. optp H v1 s1. destruct Wf as (Wc & Wa & Wb).
  destruct (cond_split bp i (cex c) (cex a) (cex b) (cex_stern a) (cex_stern b) Ca) as (Ca1 & (d & Zd & Ca2) & Ca3 & (d' & Zd' & Ca4) & Ca5 & Ca6 & Ez).
  rewrite Ez.
  destruct (IHev _ _ _ _ _ _ E0 Wc bp i op S C A SC LP T la W P Ca1 ltac:(ft) Sm) as (op1 & la1 & x1 & W1 & G1 & R1 & L1 & V1 & _).
  pose proof (g_jmp_false w sv cd mem res bp P _ op1 x1 (v_truthy v1) S C A SC LP T la1 (w_heap W1) _ d Ca2 Zd (vrep_truthy cd ext _ _ _ _ R1 V1)) as G2.
  pose proof (sim_later _ _ _ _ _ _ _ _ _ _ Sm R1 L1) as Sm1.
  destruct (v_truthy v1).
  - rewrite Z.add_0_r in G2.
    destruct (IHev _ _ _ _ _ _ H Wa bp _ OP_JMP_FALSE S C A SC LP T la1 W1 P Ca3 ltac:(ft) Sm1) as (op2 & la2 & x2 & W2 & G3 & R2 & L2 & V2 & _).
    exists OP_JMP, la2, x2, W2. split; [eapply go_at; [eapply go_trans; [exact G1|]; eapply go_trans; [exact G2|]; eapply go_trans; [exact G3|apply (g_jmp w sv cd mem res bp P) with (d := d'); [exact Ca4|exact Zd']]|lia]|].
    split; [exact R2|]. split; [eapply later_trans; eassumption|]. split; [exact V2|]. discriminate.
  - pose proof (g_drop w sv cd mem res bp P _ OP_JMP_FALSE V_UNDEFINED S C A SC LP T la1 (w_heap W1) Ca5) as G3.
    destruct (IHev _ _ _ _ _ _ H Wb bp _ OP_DROP S C A SC LP T la1 W1 P Ca6 ltac:(ft) Sm1) as (op2 & la2 & x2 & W2 & G4 & R2 & L2 & V2 & _).
    exists op2, la2, x2, W2. split; [|split; [exact R2|split; [eapply later_trans; eassumption|split; [exact V2|discriminate]]]].
    eapply go_trans; [exact G1|]. eapply go_trans; [eapply go_at; [exact G2|]|eapply go_trans; [exact G3|exact G4]]. lia.
Qed.
Lemma e_asg o r a : evs1 (XAsg o r a).
Proof.
  ini. optp H p s1. destruct p as [ov n]. optp H v1 s2. destruct Wf as (Wo & Wr & Wa). fold (cref r) in *.
  destruct (to_app _ _ _ _ Ca) as [Ca1 Ca2]. destruct (to_split _ _ _ _ Ca2) as [Ca3 Ca4]; [cm|].
  destruct (IHref _ _ _ _ _ _ _ E0 Wr bp i op S C A SC LP T la W P Ca1 ltac:(ft) Sm) as (la1 & x1 & key & W1 & G1 & R1 & L1 & V1 & Vk).
  pose proof (sim_later _ _ _ _ _ _ _ _ _ _ Sm R1 L1) as Sm1.
  destruct (IHev _ _ _ _ _ _ E1 Wa bp _ (match r with XVar _ => OP_FIND_SCOPE | _ => OP_SWAP end) (x1 :: key :: S) C A SC LP T la1 W1 P Ca3 ltac:(ft) Sm1) as (op2 & la2 & x2 & W2 & G2 & R2 & L2 & V2 & _).
  destruct (x_compound cd mem res W2 s2 s' ov x1 n key o x2 v1 v S C A SC LP T la2 R2 V2 (vrep_later _ _ _ _ _ _ L2 V1) (vrep_later _ _ _ _ _ _ L2 Vk) H) as (x & W3 & R3 & L3 & V3 & X).
  exists OP_EXPR, la2, x, W3. split; [eapply go_at; [eapply go_trans; [exact G1|]; eapply go_trans; [exact G2|]; eapply (g_expr w sv cd mem res bp P); [apply to_at; exact Ca4|exact X]|zl]|].
  split; [exact R3|]. split; [eapply later_trans; [exact L1|]; eapply later_trans; eassumption|]. split; [exact V3|noget].
Qed.
Lemma e_inc o r : evs1 (XInc o r).
Proof.
  ini. optp H p s1. destruct p as [ov n]. fold (cref r) in *. destruct (to_app _ _ _ _ Ca) as [Ca1 Ca2].
  destruct (IHref _ _ _ _ _ _ _ E0 Wf bp i op S C A SC LP T la W P Ca1 ltac:(ft) Sm) as (la1 & x1 & key & W1 & G1 & R1 & L1 & V1 & Vk).
  destruct (x_inc cd mem res W1 s1 s' ov x1 n key o v S C A SC LP T la1 R1 V1 Vk H) as (x & W3 & R3 & L3 & V3 & X).
  exists OP_EXPR, la1, x, W3. split; [eapply go_at; [eapply go_trans; [exact G1|]; eapply (g_expr w sv cd mem res bp P); [apply to_at; exact Ca2|exact X]|zl]|].
  split; [exact R3|]. split; [eapply later_trans; eassumption|]. split; [exact V3|noget].
Qed.
(** Reading a property of an object that the code names. *)
Lemma e_member e sc th s o n s1 v : (match e with XDot _ _ | XIdx _ _ => True | _ => False end) -> ev_ref E sc th e s = Some (o, n, s1) -> member s1 o n = Some v -> wfx e ->
  forall bp i op S C A SC LP T la W, part_of cd bp -> code_to bp i (cex e) -> fits K' S SC LP -> sim W s SC sc T th ->
  exists la' v' W', go (Cf bp i op S C A SC LP T la (w_heap W)) (Cf bp (i + zlen (cex e)) OP_GET (v' :: S) C A SC LP T la' (w_heap W')) /\
    rel W' s1 /\ later W W' /\ vrep W' v' v /\ vrep W' la' o.
Proof.
  intros He H Hm Wf bp i op S C A SC LP T la W P Ca Ft Sm.
  assert (Ec : cex e = cref e ++ [OP_GET]) by (destruct e; try destruct He; reflexivity).
  assert (Eo : match e with XVar _ => OP_FIND_SCOPE | _ => OP_SWAP end = OP_SWAP) by (destruct e; try destruct He; reflexivity).
  rewrite Ec in *. destruct (to_app _ _ _ _ Ca) as [Ca1 Ca2]. apply to_at in Ca2.
  destruct (IHref _ _ _ _ _ _ _ H Wf bp i op S C A SC LP T la W P Ca1 ltac:(ft) Sm) as (la1 & x1 & key & W1 & G1 & R1 & L1 & V1 & Vk).
  rewrite Eo in G1.
  destruct (g_get w sv cd mem res bp P W1 s1 _ OP_SWAP x1 o key n v S C A SC LP T la1 Ca2 R1 V1 Vk Hm) as (y & V & G2).
  exists x1, y, W1. split; [eapply go_at; [eapply go_trans; [exact G1|exact G2]|zl]|].
  split; [exact R1|]. split; [exact L1|]. split; [exact V|exact V1].
Qed.
Lemma e_dot o x : evs1 (XDot o x).
Proof.
  intros sc th s v s' H Wf bp i op S C A SC LP T la W P Ca Ft Sm. cbn [eval1] in H. optp H p s1. destruct p as [ov n]. opt H. injection H as <- <-.
  destruct (e_member (XDot o x) sc th s ov n s1 v0 I E0 E1 Wf bp i op S C A SC LP T la W P Ca Ft Sm) as (la' & v' & W' & G & R & L & V & _).
  exists OP_GET, la', v', W'. split; [exact G|]. split; [exact R|]. split; [exact L|]. split; [exact V|discriminate].
Qed.
Lemma e_idx o x : evs1 (XIdx o x).
Proof.
  intros sc th s v s' H Wf bp i op S C A SC LP T la W P Ca Ft Sm. cbn [eval1] in H. optp H p s1. destruct p as [ov n]. opt H. injection H as <- <-.
  destruct (e_member (XIdx o x) sc th s ov n s1 v0 I E0 E1 Wf bp i op S C A SC LP T la W P Ca Ft Sm) as (la' & v' & W' & G & R & L & V & _).
  exists OP_GET, la', v', W'. split; [exact G|]. split; [exact R|]. split; [exact L|]. split; [exact V|discriminate].
Qed.

(** ** Object literals *)
Definition propcode (p : list Z * lx) : list Z := OP_DUP :: OP_PUSH_STR :: strb (fst p) ++ OP_SWAP :: cex (snd p) ++ [OP_EXPR; TOK_ASSIGN; OP_DROP].
Lemma fill_ok l : forall sc th j s s', fill E sc th j l s = Some s' -> all (fun p => wfx (snd p)) l ->
  forall bp i op S C A SC LP T la W, part_of cd bp -> code_at bp i (flat_map propcode l) -> fits (K + 4) S SC LP -> sim W s SC sc T th -> (j < length (w_addr W))%nat ->
  exists op' la' W', go (Cf bp i op (obj_at W j :: S) C A SC LP T la (w_heap W)) (Cf bp (i + zlen (flat_map propcode l)) op' (obj_at W j :: S) C A SC LP T la' (w_heap W')) /\
    rel W' s' /\ later W W' /\ (op' = op \/ op' = OP_DROP).
Proof.
  induction l as [|[n e] l IH]; intros sc th j s s' H Wf bp i op S C A SC LP T la W P Ca Ft Sm Hj.
  - injection H as <-. exists op, la, W. split; [eapply go_at; [apply go_refl|cbn [flat_map]; zl]|]. split; [apply Sm|]. split; [apply later_refl|left; reflexivity].
  - cbn [fill] in H. opt H. rename s0 into s1. optp H v s2. opt H. rename s0 into s3. cbn [flat_map] in *. destruct Wf as [Wf1 Wf2].
    destruct (at_app _ _ _ _ Ca) as [Ca1 CaR]. unfold propcode in Ca1. cbn [fst snd] in *.
    destruct (at_cons _ _ _ _ Ca1) as [Ca2 Ca3].
    change (OP_PUSH_STR :: strb n ++ OP_SWAP :: cex e ++ [OP_EXPR; TOK_ASSIGN; OP_DROP]) with ((OP_PUSH_STR :: strb n) ++ OP_SWAP :: cex e ++ [OP_EXPR; TOK_ASSIGN; OP_DROP]) in Ca3.
    destruct (at_app _ _ _ _ Ca3) as [Ca4 Ca5]. destruct (at_cons _ _ _ _ Ca5) as [Ca6 Ca7]. destruct (at_split _ _ _ _ Ca7) as [Ca8 Ca9]; [sn|].
    change [OP_EXPR; TOK_ASSIGN; OP_DROP] with ([OP_EXPR; TOK_ASSIGN] ++ [OP_DROP]) in Ca9. destruct (at_app _ _ _ _ Ca9) as [Ca10 Ca11].
    pose proof (g_dup w sv cd mem res bp P i op (obj_at W j) S C A SC LP T la (w_heap W) Ca2) as G1.
    destruct (m_name w sv cd mem res bp _ OP_DUP (obj_at W j :: obj_at W j :: S) C A SC LP T la W s s1 n P Ca4 E0 (proj1 Sm)) as (key & W1 & G2 & R1 & L1 & Nm & Gn).
    pose proof (g_swap w sv cd mem res bp P _ OP_PUSH_STR key (obj_at W j) (obj_at W j :: S) C A SC LP T la (w_heap W1) Ca6) as G3.
    pose proof (sim_later _ _ _ _ _ _ _ _ _ _ Sm R1 L1) as Sm1.
    destruct (IHev _ _ _ _ _ _ E1 Wf1 bp _ OP_SWAP (obj_at W j :: key :: obj_at W j :: S) C A SC LP T la W1 P Ca8 ltac:(ft) Sm1) as (op2 & la2 & x2 & W2 & G4 & R2 & L2 & V2 & _).
    pose proof (sim_later _ _ _ _ _ _ _ _ _ _ Sm1 R2 L2) as Sm2. pose proof (later_trans _ _ _ L1 L2) as L12. destruct (obj_later _ _ _ L12 Hj) as [Eo Hj2].
    destruct (x_assign cd mem res W2 s2 s3 j n key (obj_at W j) x2 v (obj_at W j :: S) C A SC LP T la2 R2 V2 (key_name_of _ _ _ _ (name_later _ _ _ _ L2 Gn Nm)) Gn (or_introl (eq_sym Eo)) E2) as (W3 & R3 & L3 & X).
    pose proof (sim_later _ _ _ _ _ _ _ _ _ _ Sm2 R3 L3) as Sm3. pose proof (later_trans _ _ _ L12 L3) as L13. destruct (obj_later _ _ _ L13 Hj) as [Eo3 Hj3].
    pose proof (g_expr w sv cd mem res bp P _ op2 TOK_ASSIGN _ _ C A SC LP T la2 _ _ Ca10 X) as G5.
    pose proof (g_drop w sv cd mem res bp P _ OP_EXPR x2 (obj_at W j :: S) C A SC LP T la2 (w_heap W3) Ca11) as G6.
    destruct (IH sc th j s3 s' H Wf2 bp _ OP_DROP S C A SC LP T la2 W3 P CaR Ft Sm3 Hj3) as (op4 & la4 & W4 & G7 & R4 & L4 & Q4).
    exists op4, la4, W4. split.
    + rewrite Eo3 in G7. rewrite zlen_app, Z.add_assoc. eapply go_trans; [|exact G7].
      eapply go_at; [eapply go_trans; [exact G1|]; eapply go_trans; [exact G2|]; eapply go_trans; [exact G3|]; eapply go_trans; [exact G4|]; eapply go_trans; [exact G5|exact G6]|].
      unfold propcode. cbn [fst snd]. zl.
    + split; [exact R4|]. split; [eapply later_trans; eassumption|]. right. destruct Q4; assumption.
Qed.
Lemma e_obj l : evs1 (XObj l).
Proof.
  ini. optp H j s1. opt H. injection H as <- <-. rename s0 into s2. fold propcode in *. change (fun p : list Z * lx => OP_DUP :: OP_PUSH_STR :: strb (fst p) ++ OP_SWAP :: cex (snd p) ++ [OP_EXPR; TOK_ASSIGN; OP_DROP]) with propcode in *.
  apply to_at in Ca. destruct (at_cons _ _ _ _ Ca) as [Ca1 Ca2].
  destruct (new_cell_ok cd ext W s s1 j (proj1 Sm) E0) as (h & Mk & R1 & L1 & Ej & Hj).
  pose proof (g_obj w sv cd mem res bp P i op S C A SC LP T la _ _ _ Ca1 Mk) as G1.
  pose proof (sim_later _ _ _ _ _ _ _ _ _ _ Sm R1 L1) as Sm1.
  destruct (fill_ok l sc th j s1 s2 E1 Wf bp _ OP_PUSH_OBJ S C A SC LP T la (new_world W h) P Ca2 ltac:(ft) Sm1 Hj) as (op2 & la2 & W2 & G2 & R2 & L2 & Q2).
  destruct (obj_later _ _ _ L2 Hj) as [Eo Hj2].
  exists op2, la2, (obj_at (new_world W h) j), W2. split; [eapply go_at; [eapply go_trans; [exact G1|exact G2]|zl]|].
  split; [exact R2|]. split; [eapply later_trans; eassumption|]. split; [split; [exact Hj2|symmetry; exact Eo]|].
  intros _ Hq. destruct Q2 as [Q|Q]; rewrite Q in Hq; vm_compute in Hq; discriminate Hq.
Qed.

(** ** Array literals *)
Definition elemcode (e : lx) : list Z := OP_DUP :: cex e ++ [OP_APPEND].
Lemma arr_later W W' i : later W W' -> (i < length (w_addr W))%nat -> arr_at W' i = arr_at W i /\ (i < length (w_addr W'))%nat.
Proof. intros L H. destruct (later_nth W W' i L H) as [H1 H2]. unfold arr_at. rewrite H2. split; [reflexivity|exact H1]. Qed.
Lemma fill_arr_ok l : forall sc th j s s', fill_arr E sc th j l s = Some s' -> all wfx l ->
  forall bp i op S C A SC LP T la W, part_of cd bp -> code_at bp i (flat_map elemcode l) -> fits (K + 4) S SC LP -> sim W s SC sc T th -> (j < length (w_addr W))%nat ->
  exists op' la' W', go (Cf bp i op (arr_at W j :: S) C A SC LP T la (w_heap W)) (Cf bp (i + zlen (flat_map elemcode l)) op' (arr_at W j :: S) C A SC LP T la' (w_heap W')) /\
    rel W' s' /\ later W W' /\ (op' = op \/ op' = OP_APPEND).
Proof.
  induction l as [|e l IH]; intros sc th j s s' H Wf bp i op S C A SC LP T la W P Ca Ft Sm Hj.
  - injection H as <-. exists op, la, W. split; [eapply go_at; [apply go_refl|cbn [flat_map]; zl]|]. split; [apply Sm|]. split; [apply later_refl|left; reflexivity].
  - cbn [fill_arr] in H. optp H v s1. opt H. rename s0 into s2. cbn [flat_map] in *. destruct Wf as [Wf1 Wf2].
    destruct (at_app _ _ _ _ Ca) as [Ca1 CaR]. unfold elemcode in Ca1.
    destruct (at_cons _ _ _ _ Ca1) as [Ca2 Ca3]. destruct (at_split _ _ _ _ Ca3) as [Ca4 Ca5]; [sn|].
    pose proof (g_dup w sv cd mem res bp P i op (arr_at W j) S C A SC LP T la (w_heap W) Ca2) as G1.
    destruct (IHev _ _ _ _ _ _ E0 Wf1 bp _ OP_DUP (arr_at W j :: arr_at W j :: S) C A SC LP T la W P Ca4 ltac:(ft) Sm) as (op2 & la2 & x2 & W2 & G4 & R2 & L2 & V2 & _).
    pose proof (sim_later _ _ _ _ _ _ _ _ _ _ Sm R2 L2) as Sm2. destruct (arr_later _ _ _ L2 Hj) as [Eo Hj2].
    destruct (append_ok cd ext W2 s1 s2 j (arr_at W j) x2 v R2 V2 (or_intror (eq_sym Eo)) E1) as (h & mp & Ap & R3 & L3). cbv zeta in R3, L3.
    set (W3 := set_world W2 h (nth j (w_addr W2) 0) mp) in *.
    pose proof (sim_later _ _ _ _ _ _ _ _ _ _ Sm2 R3 L3) as Sm3. pose proof (later_trans _ _ _ L2 L3) as L13. destruct (arr_later _ _ _ L13 Hj) as [Eo3 Hj3].
    pose proof (g_append w sv cd mem res bp P _ op2 (arr_at W j) x2 (arr_at W j :: S) C A SC LP T la2 _ _ Ca5 Ap) as G5.
    destruct (IH sc th j s2 s' H Wf2 bp _ OP_APPEND S C A SC LP T la2 W3 P CaR Ft Sm3 Hj3) as (op4 & la4 & W4 & G7 & R4 & L4 & Q4).
    exists op4, la4, W4. split.
    + rewrite Eo3 in G7. rewrite zlen_app, Z.add_assoc. eapply go_trans; [|exact G7].
      eapply go_at; [eapply go_trans; [exact G1|]; eapply go_trans; [exact G4|exact G5]|].
      unfold elemcode. zl.
    + split; [exact R4|]. split; [eapply later_trans; eassumption|]. right. destruct Q4; assumption.
Qed.
Lemma e_arr l : evs1 (XArr l).
Proof.
  ini. optp H j s1. opt H. injection H as <- <-. rename s0 into s2. change (fun e : lx => OP_DUP :: cex e ++ [OP_APPEND]) with elemcode in *.
  apply to_at in Ca. destruct (at_cons _ _ _ _ Ca) as [Ca1 Ca2].
  destruct (new_arr_ok cd ext W s s1 j (proj1 Sm) E0) as (h & Mk & R1 & L1 & Hj).
  pose proof (g_arr w sv cd mem res bp P i op S C A SC LP T la _ _ _ Ca1 Mk) as G1.
  pose proof (sim_later _ _ _ _ _ _ _ _ _ _ Sm R1 L1) as Sm1.
  destruct (fill_arr_ok l sc th j s1 s2 E1 Wf bp _ OP_PUSH_ARRAY S C A SC LP T la (new_world W h) P Ca2 ltac:(ft) Sm1 Hj) as (op2 & la2 & W2 & G2 & R2 & L2 & Q2).
  destruct (arr_later _ _ _ L2 Hj) as [Eo Hj2].
  exists op2, la2, (arr_at (new_world W h) j), W2. split; [eapply go_at; [eapply go_trans; [exact G1|exact G2]|zl]|].
  split; [exact R2|]. split; [eapply later_trans; eassumption|]. split; [split; [exact Hj2|symmetry; exact Eo]|].
  intros _ Hq. destruct Q2 as [Q|Q]; rewrite Q in Hq; vm_compute in Hq; discriminate Hq.
Qed.

(** ** Function literals *)
Lemma e_fun f ps b : evs1 (XFun f ps b).
Proof.
  destruct f as [f|]; ini.
  - opt H. rename s0 into s1. opt H. rename s0 into s2. destruct sc as [|j r]; [discriminate H|]. opt H. rename s0 into s3. injection H as <- <-.
    apply to_at in Ca. destruct (at_app _ _ _ _ Ca) as [Ca1 Ca2]. destruct (at_app _ _ _ _ Ca2) as [Ca3 Ca4]. destruct (at_app _ _ _ _ Ca4) as [Ca5 Ca6].
    destruct (m_decl w sv cd mem res bp i op S C A SC LP T la W s s1 f (j :: r) th P Ca1 E0 Sm) as (W1 & G1 & R1 & L1 & (j' & r' & a & Ej & Eo)).
    injection Ej as <- <-. pose proof (sim_later _ _ _ _ _ _ _ _ _ _ Sm R1 L1) as Sm1.
    assert (Eo2 : own s2 j f = Some a) by (unfold own in *; rewrite (use_name_own _ _ _ E1); exact Eo).
    destruct (m_var w sv cd mem res bp _ OP_CREATE S C A SC LP T la W1 s1 s2 f (j :: r) th j P Ca3 E1 (find_head _ _ _ _ _ Eo2) Sm1) as (key & W2 & G2 & R2 & L2 & Nm & Gn & Hj).
    destruct (m_fun w sv cd mem res bp _ OP_FIND_SCOPE (obj_at W2 j :: key :: S) C A SC LP T la (w_heap W2) ps b P Ca5 Wf) as (x & G3 & Fx).
    destruct (x_assign cd mem res W2 s2 s3 j f key (obj_at W2 j) x (VFun ps b) S C A SC LP T la R2 Fx (key_name_of _ _ _ _ Nm) Gn (or_introl eq_refl) E2) as (W3 & R3 & L3 & X).
    pose proof (g_expr w sv cd mem res bp P _ OP_PUSH_FUNC TOK_ASSIGN _ _ C A SC LP T la _ _ Ca6 X) as G4.
    exists OP_EXPR, la, x, W3. split; [eapply go_at; [eapply go_trans; [exact G1|]; eapply go_trans; [exact G2|]; eapply go_trans; [exact G3|exact G4]|zl]|].
    split; [exact R3|]. split; [eapply later_trans; [exact L1|]; eapply later_trans; eassumption|]. split; [exact Fx|noget].
  - injection H as <- <-. destruct (m_fun w sv cd mem res bp i op S C A SC LP T la (w_heap W) ps b P (to_at _ _ _ Ca) Wf) as (x & G3 & Fx).
    exists OP_PUSH_FUNC, la, x, W. split; [exact G3|]. split; [apply Sm|]. split; [apply later_refl|]. split; [exact Fx|noget].
Qed.

(** ** Places and arguments *)
Lemma ref_ok : refs K' (eval_ref E).
Proof.
  intros sc th r s o n s' H Wf bp i op S C A SC LP T la W P Ca Ft Sm. unfold eval_ref in H. unfold cref in *. destruct r; try discriminate H; cbn [refcode wfx] in *.
  - opt H. opt H. injection H as <- <- <-.
    destruct (m_var w sv cd mem res bp i op S C A SC LP T la W s s0 x sc th n0 P Ca E0 E1 Sm) as (key & W1 & G1 & R1 & L1 & Nm & Gn & Hj).
    exists la, (obj_at W1 n0), key, W1. split; [exact G1|]. split; [exact R1|]. split; [exact L1|]. split; [split; [exact Hj|reflexivity]|]. split; [exact Nm|exact (proj1 (proj2 (good_bytes _ Gn)))].
  - optp H v1 s1. opt H. injection H as <- <- <-. rename s0 into s2. destruct (at_split _ _ _ _ Ca) as [Ca1 Ca2]; [sn|].
    change (OP_PUSH_STR :: strb x ++ [OP_SWAP]) with ((OP_PUSH_STR :: strb x) ++ [OP_SWAP]) in *. destruct (at_app _ _ _ _ Ca2) as [Ca3 Ca4].
    destruct (IHev _ _ _ _ _ _ E0 Wf bp i op S C A SC LP T la W P Ca1 ltac:(ft) Sm) as (op1 & la1 & x1 & W1 & G1 & R1 & L1 & V1 & _).
    destruct (m_name w sv cd mem res bp _ op1 (x1 :: S) C A SC LP T la1 W1 s1 s2 x P Ca3 E1 R1) as (key & W2 & G2 & R2 & L2 & Nm & Gn).
    exists la1, x1, key, W2. split; [eapply go_at; [eapply go_trans; [exact G1|]; eapply go_trans; [exact G2|]; apply (g_swap w sv cd mem res bp P); exact Ca4|zl]|].
    split; [exact R2|]. split; [eapply later_trans; eassumption|]. split; [eapply vrep_later; eassumption|]. split; [exact Nm|exact (proj1 (proj2 (good_bytes _ Gn)))].
  - optp H v1 s1. optp H v2 s2. injection H as <- <- <-. destruct Wf as [Wo Wk]. destruct (at_split _ _ _ _ Ca) as [Ca1 Ca2]; [sn|]. destruct (at_split _ _ _ _ Ca2) as [Ca3 Ca4]; [sn|].
    destruct (IHev _ _ _ _ _ _ E0 Wo bp i op S C A SC LP T la W P Ca1 ltac:(ft) Sm) as (op1 & la1 & x1 & W1 & G1 & R1 & L1 & V1 & _).
    pose proof (sim_later _ _ _ _ _ _ _ _ _ _ Sm R1 L1) as Sm1.
    destruct (IHev _ _ _ _ _ _ E1 Wk bp _ op1 (x1 :: S) C A SC LP T la1 W1 P Ca3 ltac:(ft) Sm1) as (op2 & la2 & x2 & W2 & G2 & R2 & L2 & V2 & _).
    exists la2, x1, x2, W2. split; [eapply go_at; [eapply go_trans; [exact G1|]; eapply go_trans; [exact G2|]; apply (g_swap w sv cd mem res bp P); exact Ca4|zl]|].
    split; [exact R2|]. split; [eapply later_trans; eassumption|]. split; [eapply vrep_later; eassumption|exact V2].
Qed.
Lemma args_ok : argss K' (N + 1) (eval_args E).
Proof.
  intros sc th l s vs s' H Wf. destruct l as [|e l]; cbn [eval_args] in H.
  - injection H as <- <-. split; [change (zlen (@nil val)) with 0; lia|]. intros bp i op S C A SC LP T la W P Ca Ft Sm.
    exists op, la, [], W. split; [eapply go_at; [apply go_refl|cbn [flat_map]; zl]|]. split; [apply Sm|]. split; [apply later_refl|constructor].
  - optp H v1 s1. optp H vs1 s2. injection H as <- <-. destruct Wf as [Wf1 Wf2]. destruct (IHargs _ _ _ _ _ _ E1 Wf2) as [Hl IHa].
    split; [rewrite zlen_cons; lia|]. intros bp i op S C A SC LP T la W P Ca Ft Sm. cbn [flat_map] in *.
    assert (Q : calm (flat_map cex l)) by (destruct l; [exact I|cbn [flat_map]; cm]).
    destruct (to_split _ _ _ _ Ca Q) as [Ca1 Ca2].
    destruct (IHev _ _ _ _ _ _ E0 Wf1 bp i op S C A SC LP T la W P Ca1 ltac:(ft) Sm) as (op1 & la1 & x1 & W1 & G1 & R1 & L1 & V1 & _).
    pose proof (sim_later _ _ _ _ _ _ _ _ _ _ Sm R1 L1) as Sm1.
    destruct (IHa bp _ op1 (x1 :: S) C A SC LP T la1 W1 P Ca2 ltac:(ft) Sm1) as (op2 & la2 & xs & W2 & G2 & R2 & L2 & F2).
    exists op2, la2, (x1 :: xs), W2. split.
    + cbn [rev]. rewrite <- app_assoc. cbn [app]. eapply go_at; [eapply go_trans; [exact G1|exact G2]|zl].
    + split; [exact R2|]. split; [eapply later_trans; eassumption|]. constructor; [eapply vrep_later; eassumption|exact F2].
Qed.
End Exprs.

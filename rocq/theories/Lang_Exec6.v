(** What it means that the engine runs the code of a tree like the interpreter runs the tree,
    and the pieces of code that expressions and statements share. *)
From Verif Require Import Base BaseFacts Value_Model Value_Spec Value_Proofs Data_Model Str_Model Str_Spec Str_Proofs Str_Proofs2 Float_Proofs Lit_Proofs
  Ops_Model Ops_Spec Ops_Proofs Ops_Proofs2 TokNum_Model Txt_Model Obj_Model Obj_Spec Obj_Proofs Obj_Proofs2 Conv_Model Num_Model Varint_Model Varint_Proofs Bcode_Model Bcode_Proofs
  Vm_Model Vm_Spec Vm_Proofs Vm_Proofs2 Vm_Proofs4 Tok_Spec Parse_Model Expr_Spec Run_Spec Expr_Proofs1 Expr_Proofs3 Expr_Proofs4 Expr_Proofs5 Lang_Spec Lang_Code Lang_Spec2 Lang_Exec1 Lang_Key Lang_Exec2 Lang_Exec3 Lang_Exec4 Lang_Exec5 Lang_Native.
From Coq Require Import ZifyBool.
Ltac Zify.zify_post_hook ::= idtac.

Definition calm (d : list Z) : Prop := match d with [] => True | x :: _ => x <= 35 end.
Lemma calm_quiet d : calm d -> d = [] \/ quiet d.
Proof. destruct d; [left; reflexivity|right; unfold quiet; cbn [calm] in *; lia]. Qed.
Lemma to_split bp i d1 d2 : code_to bp i (d1 ++ d2) -> calm d2 -> code_to bp i d1 /\ code_to bp (i + zlen d1) d2.
Proof.
  intros H Q. split; [|apply (to_app bp i d1 d2 H)]. destruct (calm_quiet _ Q) as [->|Q']; [rewrite app_nil_r in H; exact H|].
  exact (at_quiet bp i d1 d2 (to_at _ _ _ H) Q').
Qed.
Definition stern (d : list Z) : Prop := match d with [] => False | x :: _ => x <= 35 end.
Lemma stern_calm d : stern d -> calm d. Proof. destruct d; [intros []|exact (fun H => H)]. Qed.
Lemma stern_app d r : stern d -> stern (d ++ r). Proof. destruct d; [intros []|exact (fun H => H)]. Qed.
Lemma at_split bp i d1 d2 : code_at bp i (d1 ++ d2) -> stern d2 -> code_to bp i d1 /\ code_at bp (i + zlen d1) d2.
Proof.
  intros H Q. split; [|apply (at_app bp i d1 d2 H)]. apply (at_quiet bp i d1 d2 H). destruct d2; [destruct Q|cbn [stern quiet] in *; lia].
Qed.
Lemma to_cons bp i x d : code_to bp i (x :: d) -> code_at bp i [x] /\ code_to bp (i + 1) d.
Proof. intros H. exact (to_app bp i [x] d H). Qed.
Lemma seq_stern cs : Forall stern cs -> stern (seqcode cs).
Proof. destruct 1; cbn [seqcode]; [cbn; unfold OP_PUSH_UNDEF; lia|]. apply stern_app. assumption. Qed.
Ltac opc := unfold varcode, declcode, funcode; cbv zeta; cbn [app];
  lazymatch goal with |- stern (?x :: _) => change (x <= 35); vm_compute; discriminate end.
Ltac apps := repeat lazymatch goal with |- stern (refcode _ _ ++ _) => fail | |- stern (_ ++ _) => apply stern_app end.
Fixpoint cex_stern (e : lx) : stern (cex e).
Proof.
  assert (R : forall r d, stern d -> (match r with XDot o _ | XIdx o _ => stern (cex o) | _ => True end) -> stern (refcode cex r ++ d)).
  { intros r d Hd Hr. destruct r; cbn [refcode]; try exact Hd; try (apps; exact Hr). opc. }
  destruct e as [c| |x|op a|op a b|a b|a b|c a b|op r a|op r|o x|o k|f l|l|l|[f|] ps b]; cbn [cex];
    unfold andcode, condcode; cbv zeta; apps; try apply cex_stern; try opc.
  - destruct c as [z|t p|t|b| | |x|op e|op e1 e2|e1 e2|e1 e2|e1 e2 e3]; try opc; try (destruct b; opc).
    all: match goal with |- stern (comp ?x) => pose proof (comp_quiet x []) as Q; rewrite app_nil_r in Q; destruct (comp x); [destruct Q|cbn [quiet stern] in *; lia] end.
  - apply R; [apply stern_app; apply cex_stern|]. destruct r; try exact I; apply cex_stern.
  - apply R; [opc|]. destruct r; try exact I; apply cex_stern.
Qed.
Lemma cst_stern a : stern (cst a).
Proof.
  destruct a as [|l|l|l|c a [b|]|c b|i c u b|d x e b| | |[e|]]; cbn [cst]; try opc.
  - apply seq_stern. apply Forall_forall. intros x Hx. apply in_map_iff in Hx. destruct Hx as (e & <- & _). apply cex_stern.
  - apply seq_stern. apply Forall_forall. intros x Hx. apply in_map_iff in Hx. destruct Hx as (e & <- & _). apply stern_app. opc.
  - unfold condcode. apps. apply cex_stern.
  - apps. apply cex_stern.
  - unfold whilecode. opc.
  - unfold forcode. opc.
  - unfold forincode. opc.
  - apps. apply cex_stern.
Qed.
Lemma drop_calm cs : calm (dropcode cs). Proof. destruct cs; [exact I|]. cbn. unfold OP_DROP. lia. Qed.

Section Sim.
Context (w : host) (sv : saved) (cd : code) (mem : rawmem) (res : list (Z * Z)).
Notation ext := (mext mem).
Notation vrep := (vrep cd ext).
Notation rel := (rel cd ext).
Notation go := (go w sv cd mem res).

Definition sim (W : world) (s : state) (SC : list Z) (sc : list nat) (T : Z) (th : val) : Prop :=
  rel W s /\ scopes_are W SC sc /\ vrep W T th.
Definition fits (K : Z) (S SC LP : list Z) : Prop := zlen S + K < 2 ^ 31 /\ zlen SC + K < 2 ^ 31 /\ zlen LP + K < 2 ^ 31.
Lemma sim_later W W' s s' SC sc T th : sim W s SC sc T th -> rel W' s' -> later W W' -> sim W' s' SC sc T th.
Proof. intros (R & Sc & V) R' L. split; [exact R'|]. split; [eapply scopes_later; eassumption|eapply vrep_later; eassumption]. Qed.
Lemma fits_less K K' S SC LP : fits K S SC LP -> K' <= K -> fits K' S SC LP.
Proof. unfold fits. lia. Qed.
Lemma fits_more K S SC LP a b c : fits K S SC LP -> forall K', K' + zlen a <= K -> K' + zlen b <= K -> K' + zlen c <= K -> fits K' (a ++ S) (b ++ SC) (c ++ LP).
Proof. unfold fits. rewrite !zlen_app. lia. Qed.
Lemma go_at x bp i j op S C A SC LP T la h : go x (Cf bp i op S C A SC LP T la h) -> i = j -> go x (Cf bp j op S C A SC LP T la h).
Proof. intros H <-. exact H. Qed.

(** Expressions push their value. *)
Definition evs (K : Z) (f : list nat -> val -> lx -> state -> option (val * state)) : Prop :=
  forall sc th e s v s', f sc th e s = Some (v, s') -> wfx e ->
  forall bp i op S C A SC LP T la W, part_of cd bp -> code_to bp i (cex e) -> fits K S SC LP -> sim W s SC sc T th ->
  exists op' la' v' W', go (Cf bp i op S C A SC LP T la (w_heap W)) (Cf bp (i + zlen (cex e)) op' (v' :: S) C A SC LP T la' (w_heap W')) /\
    rel W' s' /\ later W W' /\ vrep W' v' v /\ (plain e = true -> op' = OP_GET -> la' = V_UNDEFINED).
(** Places push the object and the name. *)
Definition refs (K : Z) (f : list nat -> val -> lx -> state -> option (val * val * state)) : Prop :=
  forall sc th r s o n s', f sc th r s = Some (o, n, s') -> wfx r ->
  forall bp i op S C A SC LP T la W, part_of cd bp -> code_at bp i (cref r) -> fits K S SC LP -> sim W s SC sc T th ->
  exists la' ov key W', go (Cf bp i op S C A SC LP T la (w_heap W))
      (Cf bp (i + zlen (cref r)) (match r with XVar _ => OP_FIND_SCOPE | _ => OP_SWAP end) (ov :: key :: S) C A SC LP T la' (w_heap W')) /\
    rel W' s' /\ later W W' /\ vrep W' ov o /\ vrep W' key n.
(** Arguments push their values. *)
Definition argss (K N : Z) (f : list nat -> val -> list lx -> state -> option (list val * state)) : Prop :=
  forall sc th l s vs s', f sc th l s = Some (vs, s') -> all wfx l -> zlen vs <= N /\
  forall bp i op S C A SC LP T la W, part_of cd bp -> code_to bp i (flat_map cex l) -> fits K S SC LP -> sim W s SC sc T th ->
  exists op' la' xs W', go (Cf bp i op S C A SC LP T la (w_heap W)) (Cf bp (i + zlen (flat_map cex l)) op' (rev xs ++ S) C A SC LP T la' (w_heap W')) /\
    rel W' s' /\ later W W' /\ Forall2 (vrep W') xs vs.
(** Where the engine is after a statement that started at [x]. *)
Definition done (bp : part) (j : Z) (S C A SC LP : list Z) (T : Z) (x : cf) (W' : world) (o : outcome) : Prop :=
  match o with
  | ONormal v => exists op' la' v', go x (Cf bp j op' (v' :: S) C A SC LP T la' (w_heap W')) /\ vrep W' v' v
  | OBreak => forall ct bk isc osc lrest, LP = ct :: vnum bk :: vnum (zlen osc) :: lrest -> SC = isc ++ osc -> 0 < bk < 2 ^ 31 -> zlen osc < 2 ^ 31 ->
      exists op' la', go x (Cf bp bk op' (V_UNDEFINED :: S) C A osc lrest T la' (w_heap W'))
  | OContinue => forall ct bk isc osc lrest, LP = vnum ct :: bk :: vnum (zlen osc) :: lrest -> SC = isc ++ osc -> 0 < ct < 2 ^ 31 -> zlen osc < 2 ^ 31 ->
      exists op' la', go x (Cf bp ct op' S C A osc LP T la' (w_heap W'))
  | OReturn v => forall xs r base C', C = vnum (zlen base + 1) :: C' -> 4 <= zlen C' -> S = xs ++ r :: base -> zlen base + 1 < 2 ^ 31 ->
      exists i op' xs' isc ilp la' v', code_at bp i [OP_RETURN] /\ go x (Cf bp i op' (xs' ++ v' :: base) C A (isc ++ SC) (ilp ++ LP) T la' (w_heap W')) /\ vrep W' v' v
  end.
Definition exs (K : Z) (f : list nat -> val -> stmt -> state -> option (outcome * state)) : Prop :=
  forall sc th a s o s', f sc th a s = Some (o, s') -> wfs a ->
  forall bp i op S C A SC LP T la W, part_of cd bp -> code_to bp i (cst a) -> fits K S SC LP -> sim W s SC sc T th ->
  exists W', rel W' s' /\ later W W' /\ done bp (i + zlen (cst a)) S C A SC LP T (Cf bp i op S C A SC LP T la (w_heap W)) W' o.

Lemma done_from bp j S C A SC LP T x y W' o : go x y -> done bp j S C A SC LP T y W' o -> done bp j S C A SC LP T x W' o.
Proof.
  intros G. destruct o as [v| | |v]; cbn [done].
  - intros (op' & la' & v' & H & V). exists op', la', v'. split; [eapply go_trans; eassumption|exact V].
  - intros H ct bk isc osc lrest E1 E2 B1 B2. destruct (H ct bk isc osc lrest E1 E2 B1 B2) as (op' & la' & H'). exists op', la'. eapply go_trans; eassumption.
  - intros H ct bk isc osc lrest E1 E2 B1 B2. destruct (H ct bk isc osc lrest E1 E2 B1 B2) as (op' & la' & H'). exists op', la'. eapply go_trans; eassumption.
  - intros H xs r base C' E1 E2 E3 E4. destruct (H xs r base C' E1 E2 E3 E4) as (i & op' & xs' & isc & ilp & la' & v' & Ca & H' & V).
    exists i, op', xs', isc, ilp, la', v'. split; [exact Ca|]. split; [eapply go_trans; eassumption|exact V].
Qed.
(** Only a normal end depends on what follows the statement. *)
Lemma done_jump bp j j' S C A SC LP T x W' o : done bp j S C A SC LP T x W' o -> (forall v, o = ONormal v -> j = j') -> done bp j' S C A SC LP T x W' o.
Proof. intros H Hj. destruct o as [v| | |v]; try exact H. rewrite <- (Hj v eq_refl). exact H. Qed.

(** ** Names, variables and declarations *)
Lemma use_name_ok s x s' : use_name x s = Some s' -> good_name x = true /\ take (zlen x + 16) s = Some s'.
Proof. unfold use_name. destruct (good_name x); [|discriminate]. intros H. split; [reflexivity|exact H]. Qed.
Lemma use_name_own x s s' : use_name x s = Some s' -> objs s' = objs s.
Proof. intros H. destruct (use_name_ok _ _ _ H) as [_ Ht]. apply (take_some _ _ _ Ht). Qed.
Lemma m_name bp i op S C A SC LP T la W s s' x : part_of cd bp -> code_at bp i (OP_PUSH_STR :: strb x) -> use_name x s = Some s' -> rel W s ->
  exists key W', go (Cf bp i op S C A SC LP T la (w_heap W)) (Cf bp (i + zlen (OP_PUSH_STR :: strb x)) OP_PUSH_STR (key :: S) C A SC LP T la (w_heap W')) /\
    rel W' s' /\ later W W' /\ name_of (w_st W') ext key x /\ good_name x = true.
Proof.
  intros P Ca Hu Rl. destruct (use_name_ok _ _ _ Hu) as [Gn Ht]. destruct (good_bytes x Gn) as (_ & B & _). destruct (take_some _ _ _ Ht) as (T1 & _).
  destruct (make_str cd ext W s x Rl B ltac:(lia)) as (st & key & Mk & Gr & Rm & Nm). exists key, (str_world W st).
  split; [apply (g_str w sv cd mem res bp P); [exact Ca|exact Mk]|]. split; [eapply rel_str; eassumption|]. split; [apply str_later; exact Gr|]. split; [exact Nm|exact Gn].
Qed.
Lemma m_var bp i op S C A SC LP T la W s s' x sc th j : part_of cd bp -> code_at bp i (varcode x) -> use_name x s = Some s' -> find_var s' sc x = Some j -> sim W s SC sc T th ->
  exists key W', go (Cf bp i op S C A SC LP T la (w_heap W)) (Cf bp (i + zlen (varcode x)) OP_FIND_SCOPE (obj_at W' j :: key :: S) C A SC LP T la (w_heap W')) /\
    rel W' s' /\ later W W' /\ name_of (w_st W') ext key x /\ good_name x = true /\ (j < length (w_addr W'))%nat.
Proof.
  intros P Ca Hu Hf Hs. unfold varcode in *. change (OP_PUSH_STR :: strb x ++ [OP_FIND_SCOPE]) with ((OP_PUSH_STR :: strb x) ++ [OP_FIND_SCOPE]) in *.
  destruct (at_app _ _ _ _ Ca) as [Ca1 Ca2]. destruct (m_name bp i op S C A SC LP T la W s s' x P Ca1 Hu (proj1 Hs)) as (key & W' & G & Rl & Lt & Nm & Gn).
  exists key, W'. destruct (find_var_own _ _ _ _ Hf) as (a & Ho). pose proof (sim_later _ _ _ _ _ _ _ _ Hs Rl Lt) as (_ & Sc & _).
  destruct (find_var_resolves _ _ W' s' SC sc x j a Rl Sc Hf Ho) as (v & Rv & _ & Hj). destruct (good_bytes x Gn) as (_ & B1 & B2 & _). destruct (rel_so _ _ _ _ Rl) as [Q1 Q2].
  split; [|split; [exact Rl|split; [exact Lt|split; [exact Nm|split; [exact Gn|exact Hj]]]]].
  eapply go_at; [eapply go_trans; [exact G|apply (g_find w sv cd mem res bp P) with (M := w_store W') (n := x) (x := v); try assumption; [apply Rl|apply Nm|change (h_st (w_heap W')) with (w_st W'); lia]]|].
  rewrite zlen_app. change (zlen [OP_FIND_SCOPE]) with 1. lia.
Qed.
Lemma m_decl bp i op S C A SC LP T la W s s' x sc th : part_of cd bp -> code_at bp i (declcode x) -> declare sc x s = Some s' -> sim W s SC sc T th ->
  exists W', go (Cf bp i op S C A SC LP T la (w_heap W)) (Cf bp (i + zlen (declcode x)) OP_CREATE S C A SC LP T la (w_heap W')) /\ rel W' s' /\ later W W' /\
   exists j r a, sc = j :: r /\ own s' j x = Some a.
Proof.
  intros P Ca Hd Hs. destruct sc as [|j r]; [discriminate Hd|]. cbn [declare] in Hd. destruct (use_name x s) as [s1|] eqn:Hu; [|discriminate Hd].
  unfold declcode in *. change (OP_PUSH_STR :: strb x ++ [OP_PUSH_SCOPE; OP_CREATE]) with ((OP_PUSH_STR :: strb x) ++ [OP_PUSH_SCOPE; OP_CREATE]) in *.
  destruct (at_app _ _ _ _ Ca) as [Ca1 Ca2]. destruct (at_cons _ _ _ _ Ca2) as [Ca3 Ca4].
  destruct (m_name bp i op S C A SC LP T la W s s1 x P Ca1 Hu (proj1 Hs)) as (key & W1 & G1 & Rl1 & Lt1 & Nm & Gn).
  pose proof (sim_later _ _ _ _ _ _ _ _ Hs Rl1 Lt1) as (_ & (ES & FS) & _). cbn [map] in ES. destruct (good_bytes x Gn) as (N0 & B1 & B2 & _). destruct (rel_so _ _ _ _ Rl1) as [Q1 Q2].
  inversion FS as [|? ? Hj FS' E0]; subst. rename Hj into Hj1.
  pose proof (g_push_scope w sv cd mem res bp P _ OP_PUSH_STR (key :: S) C A (obj_at W1 j) (map (obj_at W1) r) LP T la (w_heap W1) Ca3) as G2.
  destruct (obj_refers cd ext W1 s1 j Rl1 Hj1) as (R1 & _).
  destruct (nth_error (objs s1) j) as [c|] eqn:Ec; [|exfalso; apply nth_error_None in Ec; rewrite <- (rel_len _ _ _ _ Rl1) in Ec; lia].
  destruct (cell_of _ _ W1 s1 j c Rl1 Ec) as (_ & mp & Em & Fe). pose proof (lookup_find _ _ W1 mp c x Fe) as Qn.
  assert (Eo : own s1 j x = find_name c x) by (unfold own; rewrite Ec; reflexivity). rewrite Eo in Hd.
  assert (Gc : forall h', match lookup mp x with Some _ => h' = w_heap W1 | None => obj_set_v (w_heap W1) ext (obj_at W1 j) key V_UNDEFINED = OK (h', E_OK) end ->
     go (Cf bp i op S C A (obj_at W1 j :: map (obj_at W1) r) LP T la (w_heap W))
        (Cf bp (i + zlen ((OP_PUSH_STR :: strb x) ++ [OP_PUSH_SCOPE; OP_CREATE])) OP_CREATE S C A (obj_at W1 j :: map (obj_at W1) r) LP T la h')).
  { intros h' Hh. eapply go_at; [eapply go_trans; [exact G1|]; eapply go_trans; [exact G2|];
      apply (g_create w sv cd mem res bp P) with (M := w_store W1) (n := x) (oa := nth j (w_addr W1) 0) (mp := mp); try eassumption; [apply Rl1|apply Nm|change (h_st (w_heap W1)) with (w_st W1); lia]|].
    rewrite zlen_app. change (zlen [OP_PUSH_SCOPE; OP_CREATE]) with 2. lia. }
  destruct (find_name c x) as [a|] eqn:Ef.
  - injection Hd as <-. destruct Qn as (v & El & _). rewrite El in Gc. exists W1. split; [apply Gc; reflexivity|]. split; [exact Rl1|]. split; [exact Lt1|].
    exists j, r, a. split; [reflexivity|exact Eo].
  - rewrite Qn in Gc. destruct (set_prop_ok _ _ W1 s1 s' j x key (obj_at W1 j) V_UNDEFINED undef Rl1 eq_refl (key_name_of _ _ _ _ Nm) N0 (or_introl eq_refl) Hd) as (h & mp' & Es & Rl2 & Lt2).
    exists (set_world W1 h (nth j (w_addr W1) 0) mp'). split; [apply Gc; exact Es|]. split; [exact Rl2|]. split; [eapply later_trans; eassumption|].
    exists j, r, undef. split; [reflexivity|]. unfold set_own in Hd. rewrite Ec in Hd. destruct (take_some _ _ _ Hd) as (_ & Eobj & _). cbn [Lang_Spec.objs] in Eobj.
    unfold own. rewrite Eobj. unfold put. rewrite Ef.
    assert (Hn : forall (l : list cell) k y, nth_error l k <> None -> nth_error (upd l k y) k = Some y).
    { clear. induction l as [|z l IH]; intros [|k] y H; cbn [nth_error upd] in *; try congruence. apply IH. exact H. }
    rewrite Hn by congruence. cbn [find_name]. replace (name_eqb x x) with true; [reflexivity|]. symmetry. apply name_eqb_eq. reflexivity.
Qed.
(** Functions. *)
Lemma m_fun bp i op S C A SC LP T la h ps b : part_of cd bp -> code_at bp i (funcode ps (seqcode (map cst b))) -> all wfs b ->
  exists v, go (Cf bp i op S C A SC LP T la h) (Cf bp (i + zlen (funcode ps (seqcode (map cst b)))) OP_PUSH_FUNC (v :: S) C A SC LP T la h) /\ fun_at cd v ps b.
Proof.
  intros P Ca Wb. unfold funcode in *. cbv zeta in *. set (k := bracket ps (seqcode (map cst b))) in *. pose proof (varint_zlen (zlen k)). pose proof (zlen_nonneg k).
  assert (Ca' : code_at bp i (OP_JMP :: varint (zlen k) ++ k) /\ code_at bp (i + 1 + zlen (varint (zlen k)) + zlen k) (OP_PUSH_FUNC :: varint (zlen k))).
  { change (OP_JMP :: varint (zlen k) ++ k ++ OP_PUSH_FUNC :: varint (zlen k)) with ([OP_JMP] ++ varint (zlen k) ++ k ++ OP_PUSH_FUNC :: varint (zlen k)) in Ca.
    rewrite !app_assoc in Ca. destruct (at_app _ _ _ _ Ca) as [H1 H2]. rewrite <- !app_assoc in H1. split; [exact H1|].
    rewrite !zlen_app in H2. change (zlen [OP_JMP]) with 1 in H2. replace (i + 1 + zlen (varint (zlen k)) + zlen k) with (i + (1 + zlen (varint (zlen k)) + zlen k)) by lia. exact H2. }
  destruct Ca' as [Ca1 Ca2]. exists (mk_function (bp_start bp + (i + 1 + zlen (varint (zlen k))))).
  split.
  - eapply go_at; [eapply go_trans; [apply (g_jmp w sv cd mem res bp P) with (n := zlen k) (d := k); [exact Ca1|reflexivity]|]|].
    + pose proof (g_func w sv cd mem res bp P _ OP_JMP S C A SC LP T la h (zlen k) Ca2 ltac:(destruct (at_len _ _ _ Ca); lia)) as G.
      replace (i + 1 + zlen (varint (zlen k)) + zlen k - zlen k) with (i + 1 + zlen (varint (zlen k))) in G by lia. exact G.
    + rewrite zlen_cons, !zlen_app, zlen_cons. lia.
  - destruct Ca1 as (pre & rest & E & Ei). exists bp, (pre ++ OP_JMP :: varint (zlen k)), rest. split; [exact P|].
    split; [rewrite E; cbn [app]; rewrite <- !app_assoc; cbn [app]; reflexivity|]. split; [destruct pre; discriminate|]. split; [|exact Wb].
    f_equal. rewrite zlen_app, zlen_cons, Ei. lia.
Qed.
End Sim.

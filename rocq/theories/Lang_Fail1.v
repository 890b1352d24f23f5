(** Instructions that end a program of the language with an error. *)
From Verif Require Import Base BaseFacts Value_Model Value_Spec Value_Proofs Data_Model Str_Model Str_Spec Str_Proofs Str_Proofs2 Float_Proofs Lit_Proofs
  Ops_Model Ops_Spec Ops_Proofs Ops_Proofs2 TokNum_Model Txt_Model Obj_Model Obj_Spec Obj_Proofs Obj_Proofs2 Conv_Model Num_Model Varint_Model Varint_Proofs Bcode_Model Bcode_Proofs
  Vm_Model Vm_Spec Vm_Proofs Vm_Proofs2 Vm_Proofs4 Tok_Spec Parse_Model Expr_Spec Run_Spec Expr_Proofs1 Expr_Proofs3 Expr_Proofs4 Expr_Proofs5 Lang_Spec Lang_Code Lang_Spec2 Lang_Spec5
  Lang_Exec1 Lang_Key Lang_Exec2 Lang_Exec3 Lang_Exec4 Lang_Exec5 Lang_Native Lang_Exec6 Lang_Exec7.
From Coq Require Import ZifyBool.
Ltac Zify.zify_post_hook ::= idtac.

(** The stacks as they are at the start of the execution are below what is on them. *)
Definition rooted (l0 l : list Z) : Prop := exists p, l = p ++ l0.
Lemma rooted_refl l : rooted l l. Proof. exists []. reflexivity. Qed.
Lemma rooted_cons l0 l x : rooted l0 l -> rooted l0 (x :: l). Proof. intros [p ->]. exists (x :: p). reflexivity. Qed.
Lemma rooted_app l0 l p : rooted l0 l -> rooted l0 (p ++ l). Proof. intros [q ->]. exists (p ++ q). apply app_assoc. Qed.

Section Fails.
Context (w : host) (sv : saved) (cd : code) (mem : rawmem) (res : list (Z * Z)).
Context (S0 C0 A0 SC0 LP0 : list Z).
Notation ext := (mext mem).
Notation vrep := (vrep cd ext).
Notation rel := (rel cd ext).
Notation go := (go w sv cd mem res).
Notation sim := (sim cd mem).
Notation look := (look cd mem res).
Notation looks := (looks cd mem res).

Definition roots (S C A SC LP : list Z) : Prop := rooted S0 S /\ rooted C0 C /\ rooted A0 A /\ rooted SC0 SC /\ rooted LP0 LP.

(** From [x] the execution comes to an instruction that ends with the error [c], with the heap
    [h] and the value [T] of [this]. *)
Definition fails (x : cf) (h : heap) (c T : Z) : Prop :=
  forall k, St cd mem res k x -> exists k1 m0 S C A SC LP la,
    steps w sv k k1 /\ (forall exec n, step w exec n sv k1 = (m <- recover (set_err m0 c) sv ;; OK (inr m))) /\
    look m0 S C A SC LP T la h /\ roots S C A SC LP.
(** ... in the state [s] of the interpreter. *)
Definition fls (W : world) (x : cf) (f : failure) : Prop :=
  exists W' T, fails x (w_heap W') (fst (fst f)) T /\ fst (fst f) <> E_OK /\ rel W' (snd f) /\ later W W' /\ vrep W' T (snd (fst f)).

Lemma fls_go W W1 x y f : go x y -> later W W1 -> fls W1 y f -> fls W x f.
Proof.
  intros G L (W' & T & Fx & Nz & R & L' & V). exists W', T. split; [|split; [exact Nz|split; [exact R|split; [eapply later_trans; eassumption|exact V]]]].
  intros k Hk. destruct (G k Hk) as (k1 & S1 & H1). destruct (Fx k1 H1) as (k2 & m0 & S & C & A & SC & LP & la & S2 & H2 & Lk & Rt).
  exists k2, m0, S, C, A, SC, LP, la. split; [eapply steps_app; eassumption|]. split; [exact H2|]. split; assumption.
Qed.
Lemma fls_at W bp i j op S C A SC LP T la h f : i = j -> fls W (Cf bp j op S C A SC LP T la h) f -> fls W (Cf bp i op S C A SC LP T la h) f.
Proof. intros ->. exact (fun H => H). Qed.
(** One instruction. *)
Lemma fails_one x op d h c T S C A SC LP la : code_at (f_bp x) (f_i x) (op :: d) -> c <> E_OK -> roots S C A SC LP ->
  (forall m, looks m x -> exists m0 bp' i', (forall exec k, instr w exec k m (f_bp x) (f_i x) op (f_op x) = OK (Go (set_err m0 c) bp' i')) /\
     look m0 S C A SC LP T la h) -> fails x h c T.
Proof.
  intros Ca Nz Rt H k (B & I & O & L). destruct (H (set_off (k_m k) (k_i k)) (look_off _ _ _ _ _ _ _ _ _ _ _ _ _ L)) as (m0 & bp' & i' & In & L0).
  exists k, m0, S, C, A, SC, LP, la. split; [apply steps_end|]. split; [|split; assumption].
  intros exec n. unfold step. pose proof (at_len _ _ _ Ca) as [P1 P2]. rewrite zlen_cons in P2. pose proof (zlen_nonneg d).
  rewrite B, I. replace (f_i x <? zlen (bp_data (f_bp x))) with true by lia. cbn [negb]. rewrite (at_nth _ _ _ _ Ca).
  rewrite O. rewrite <- I at 1. rewrite In. cbn [bind]. cbn [set_err m_err]. replace (c =? E_OK) with false by lia. reflexivity.
Qed.
Lemma fls_one W W' x op d c T S C A SC LP la th s : code_at (f_bp x) (f_i x) (op :: d) -> c <> E_OK -> roots S C A SC LP ->
  rel W' s -> later W W' -> vrep W' T th ->
  (forall m, looks m x -> exists m0 bp' i', (forall exec k, instr w exec k m (f_bp x) (f_i x) op (f_op x) = OK (Go (set_err m0 c) bp' i')) /\
     look m0 S C A SC LP T la (w_heap W')) -> fls W x (c, th, s).
Proof.
  intros Ca Nz Rt R L V H. exists W', T. cbn [fst snd]. split; [eapply fails_one; eassumption|]. split; [exact Nz|]. split; [exact R|]. split; assumption.
Qed.

Lemma look_prepend m S C A SC LP T la h c : look m S C A SC LP T la h -> c <> E_OK -> prepend m c = set_err m c.
Proof. intros L Nz. unfold prepend. rewrite (look_err _ _ _ _ _ _ _ _ _ _ _ _ L). replace (c =? E_OK) with false by lia. reflexivity. Qed.

Section Part.
Context (bp : part).
Notation cf' := (Cf bp).
Ltac one d := eapply (fls_one _ _ _ _ d); [eassumption|discriminate| | | | |unfold Lang_Exec3.looks; cbn [f_bp f_i f_op f_s f_c f_a f_sc f_lp f_t f_la f_h]; intros m L].

(** An operator. *)
Lemma f_expr W W' i op o S S' C A SC LP T la c th s : code_at bp i [OP_EXPR; o] -> c <> E_OK -> roots S' C A SC LP -> rel W' s -> later W W' -> vrep W' T th ->
  (forall m, look m S C A SC LP T la (w_heap W) -> exists m0, exec_expr m o = OK (set_err m0 c) /\ look m0 S' C A SC LP T la (w_heap W')) ->
  fls W (cf' i op S C A SC LP T la (w_heap W)) (c, th, s).
Proof.
  intros Ca Nz Rt R Lt V H. eapply (fls_one _ _ _ _ [o]); try eassumption. unfold Lang_Exec3.looks; cbn [f_bp f_i f_op f_s f_c f_a f_sc f_lp f_t f_la f_h]. intros m L.
  destruct (H m L) as (m0 & E & L0). exists m0, bp, (u64 (i + 1)). split; [|exact L0].
  intros exec k. change (instr w exec k m bp i OP_EXPR op) with
    (match nthz (bp_data bp) (i + 1) with None => UB | Some o => m <- exec_expr m o ;; OK (Go m bp (u64 (i + 1))) end).
  rewrite (at_nth _ _ _ _ (proj2 (at_cons _ _ _ _ Ca))), E. reflexivity.
Qed.

(** A name that no scope has. *)
Lemma find_none m W s key n : forall sc SC, look m (sk_live (m_stack m)) (sk_live (m_call m)) (sk_live (m_arg m)) (sk_live (m_scopes m)) (sk_live (m_loops m)) (m_this m) (m_last m) (w_heap W) ->
  rel W s -> name_of (w_st W) ext key n -> good_name n = true -> scopes_are W SC sc -> find_var s sc n = None ->
  find_in m SC key = OK (set_err m E_REFERENCE, V_UNDEFINED).
Proof.
  induction sc as [|j sc IH]; intros SC L R Nm Gn (-> & Fs) Hf; cbn [map find_in] in *; [reflexivity|].
  cbn [find_var] in Hf. destruct (own s j n) eqn:Eo; [discriminate Hf|]. inversion Fs as [|? ? Hj Fs']; subst.
  assert (Hc : exists c, nth_error (objs s) j = Some c).
  { destruct (nth_error (objs s) j) as [c|] eqn:Ec; [exists c; reflexivity|]. apply nth_error_None in Ec. rewrite <- (rel_len _ _ W s R) in Ec. lia. }
  destruct Hc as (c & Ec). unfold own in Eo. rewrite Ec in Eo. destruct (cell_of _ _ W s j c R Ec) as (_ & mp & Em & Fe).
  pose proof (lookup_find _ _ W mp c n Fe) as Qn. rewrite Eo in Qn. destruct (good_bytes n Gn) as (_ & B1 & B2 & _). destruct (rel_so _ _ _ _ R) as [Q1 Q2].
  destruct (obj_refers cd ext W s j R Hj) as (Rf & _).
  destruct (look_own _ _ _ _ _ _ _ _ _ _ _ _ (w_store W) (obj_at W j) (nth j (w_addr W) 0) mp key n L) as (a & Ea & Qa); try assumption.
  - apply R.
  - apply Nm.
  - change (h_st (w_heap W)) with (w_st W). lia.
  - rewrite Qn in Qa. rewrite Ea. cbn [bind]. subst a. cbn [Z.eqb negb]. apply IH; try assumption. split; [reflexivity|exact Fs'].
Qed.
Lemma look_self m S C A SC LP T la h : look m S C A SC LP T la h ->
  look m (sk_live (m_stack m)) (sk_live (m_call m)) (sk_live (m_arg m)) (sk_live (m_scopes m)) (sk_live (m_loops m)) (m_this m) (m_last m) h.
Proof. intros (H1 & H2 & H3 & H4 & H5 & H6 & H7 & H). rewrite H1, H2, H3, H4, H5, H6, H7. repeat (split; [assumption|]). exact H. Qed.
Lemma f_find W i op key n S C A SC LP T la sc th s : code_at bp i [OP_FIND_SCOPE] -> roots S C A SC LP -> sim W s SC sc T th -> name_of (w_st W) ext key n -> good_name n = true ->
  find_var s sc n = None -> fls W (cf' i op (key :: S) C A SC LP T la (w_heap W)) (E_REFERENCE, th, s).
Proof.
  intros Ca Rt (R & Sc & V) Nm Gn Hf. eapply (fls_one _ W _ _ [] _ _ (V_UNDEFINED :: key :: S)); [exact Ca|discriminate| |exact R|apply later_refl|exact V|].
  - destruct Rt as (R1 & R'). split; [apply rooted_cons, rooted_cons; exact R1|exact R'].
  - unfold Lang_Exec3.looks; cbn [f_bp f_i f_op f_s f_c f_a f_sc f_lp f_t f_la f_h]. intros m L. exists (push m V_UNDEFINED), bp, i. split; [|apply look_push; exact L].
    intros exec k. change (instr w exec k m bp i OP_FIND_SCOPE op) with ('(m, s) <- find_scope m (sk_top (m_stack m)) ;; OK (Go (push m s) bp i)).
    rewrite (look_top _ _ _ _ _ _ _ _ _ _ _ _ _ L). unfold find_scope.
    assert (Esc : sk_live (m_scopes m) = SC) by (destruct L as (_ & _ & _ & -> & _); reflexivity). rewrite Esc.
    rewrite (find_none m W s key n sc SC (look_self _ _ _ _ _ _ _ _ _ L) R Nm Gn Sc Hf). reflexivity.
Qed.

(** Kinds of values. *)
Lemma kind_facts W s v a : rel W s -> vrep W v a -> is_u64 v /\ kind_of v = vkind a /\
  is_object v = (match a with VObj _ | VArr _ => true | _ => false end) /\ is_string v = is_text a /\ is_foreign v = (match a with VHost _ => true | _ => false end) /\
  is_function v = (match a with VFun _ _ => true | _ => false end) /\ is_array v = (match a with VArr _ => true | _ => false end) /\ is_ffi_sig v = false.
Proof.
  intros R V. destruct (vrep_kind _ _ W s v a R V) as [U K]. destruct (preds_kind v U) as (P1 & P2 & P3 & P4 & P5 & P6 & P7 & P8 & P9 & P10).
  split; [exact U|]. split; [exact K|]. rewrite K in *. 
  repeat match goal with H : ?p v = _ |- _ => rewrite H; clear H end; destruct a as [[]| | | |]; cbn [vkind]; repeat split; reflexivity.
Qed.
(** Reading a property of a value that has none. *)
Lemma f_get W i op ov o key k c S C A SC LP T la th s : code_at bp i [OP_GET] -> roots S C A SC LP -> rel W s -> vrep W T th -> vrep W ov o -> vrep W key k ->
  get_error o k = Some c -> fls W (cf' i op (ov :: key :: S) C A SC LP T la (w_heap W)) (c, th, s).
Proof.
  intros Ca Rt R V Vo Vk Hg. unfold get_error in Hg. destruct (bare o) eqn:Eb; [|discriminate Hg]. destruct (key_name k) as [n|] eqn:Ek; [|discriminate Hg].
  destruct (name_eqb n n_apply) eqn:Ea; [discriminate Hg|]. injection Hg as <-. destruct (key_ok cd ext W key k n Vk Ek) as [Gn Nk].
  destruct (kind_facts W s ov o R Vo) as (_ & _ & K1 & K2 & K3 & K4 & K5 & _).
  eapply (fls_one W W _ _ [] _ _ (V_UNDEFINED :: S)); [exact Ca|discriminate| |exact R|apply later_refl|exact V|].
  - destruct Rt as (R1 & R'). split; [apply rooted_cons; exact R1|exact R'].
  - unfold Lang_Exec3.looks; cbn [f_bp f_i f_op f_s f_c f_a f_sc f_lp f_t f_la f_h]. intros m L.
    destruct (look_pop _ _ _ _ _ _ _ _ _ _ _ _ _ L) as (m1 & Ep & L1). destruct (look_pop _ _ _ _ _ _ _ _ _ _ _ _ _ L1) as (m2 & Ep2 & L2).
    destruct (look_st _ _ _ _ _ _ _ _ _ _ _ _ L2) as [Es Ee]. destruct (name_text_key m2 key n) as (r & Et); [rewrite Es, Ee; exact Nk|].
    exists (set_last (push m2 V_UNDEFINED) (if op =? OP_FIND_SCOPE then V_UNDEFINED else ov)), bp, i. split; [|eapply look_last; apply look_push; exact L2].
    intros exec k0. change (instr w exec k0 m bp i OP_GET op) with (m <- do_get m op ;; OK (Go m bp i)).
    unfold do_get. rewrite Ep, Ep2. unfold getprop_builtin. rewrite Et. cbn [bind].
    assert (Q : is_string ov = false /\ is_array ov = false /\ is_foreign ov = false /\ is_object ov = false) by (rewrite K1, K2, K3, K5; destruct o as [[]| | | |]; try discriminate Eb; repeat split; reflexivity).
    destruct Q as (-> & -> & -> & ->). rewrite (not_apply n (0 :: r) Ea). cbn [bind]. rewrite (look_prepend m2 _ _ _ _ _ _ _ _ _ L2) by discriminate. reflexivity.
Qed.
(** Calling what is no function. *)
Lemma f_call W i op xs fv f base C A SC LP T t la th s : code_at bp i [OP_CALL] -> roots (xs ++ fv :: base) C A SC LP -> rel W s -> vrep W T th -> vrep W fv f ->
  match f with VFun _ _ | VHost _ | VPrim (AStr _) => False | _ => True end -> zlen base + 1 < 2 ^ 31 ->
  fls W (cf' i op (xs ++ fv :: base) C (vnum (zlen base + 1) :: t :: A) SC LP T la (w_heap W)) (E_TYPE, th, s).
Proof.
  intros Ca Rt R V Vf Hf Hb. destruct (kind_facts W s fv f R Vf) as (_ & _ & K1 & K2 & K3 & K4 & K5 & K6).
  eapply (fls_one W W _ _ [] _ _ (xs ++ fv :: base) C (t :: A)); [exact Ca|discriminate| |exact R|apply later_refl|exact V|].
  - destruct Rt as (R1 & R2 & R3 & R'). split; [exact R1|]. split; [exact R2|]. split; [apply rooted_cons; exact R3|exact R'].
  - unfold Lang_Exec3.looks; cbn [f_bp f_i f_op f_s f_c f_a f_sc f_lp f_t f_la f_h]. intros m L. pose proof L as (Ls & Lc & La & _). pose proof (zlen_nonneg base).
    exists (set_arg m {| sk_live := t :: A; sk_stale := vnum (zlen base + 1) :: sk_stale (m_arg m); sk_cap := sk_cap (m_arg m) |}), bp, i. split; [|eapply look_arg; [exact L|reflexivity]].
    intros exec k. change (instr w exec k m bp i OP_CALL op) with (do_call w exec k m bp i). unfold do_call.
    assert (Et : sk_top (m_arg m) = vnum (zlen base + 1)) by (unfold sk_top; rewrite La; reflexivity). rewrite Et. cbv zeta.
    rewrite get_int_vnum by lia. cbn [bind]. unfold sk_pop at 1. rewrite La. cbn [bind].
    change (m_stack (set_arg m {| sk_live := t :: A; sk_stale := vnum (zlen base + 1) :: sk_stale (m_arg m); sk_cap := sk_cap (m_arg m) |})) with (m_stack m).
    replace (zlen base + 1 - 1) with (zlen base) by lia. destruct (sk_get_at (m_stack m) xs fv base Ls) as [Gf _]. rewrite Gf. cbn [bind].
    rewrite K2, K3, K4, K6. destruct f as [[]| | | |]; try destruct Hf; reflexivity.
Qed.
(** Operators. *)
Lemma arith_same op : existsb (Z.eqb op) arith = in_list op arith_ops. Proof. reflexivity. Qed.
Lemma op_error W s v x a b op : rel W s -> vrep W v a -> vrep W x b -> in_list op arith_ops = true -> bin_error op a b = Some E_TYPE ->
  do_op (w_st W) ext v x op = OK (w_st W, V_UNDEFINED, E_TYPE).
Proof.
  intros R Va Vb Ha Hb. destruct (vrep_kind _ _ W s v a R Va) as [Ua Ka]. destruct (vrep_kind _ _ W s x b R Vb) as [Ub Kb].
  unfold bin_error in Hb. destruct ((op =? TOK_EQ) || (op =? TOK_NE)); [discriminate Hb|]. rewrite arith_same, Ha in Hb.
  destruct (number_like a && number_like b) eqn:En; [discriminate Hb|]. destruct (is_text a && is_text b && (op =? TOK_PLUS)) eqn:Et; [discriminate Hb|].
  apply do_op_other; [exact Ua|exact Ub| |].
  - rewrite Ka, Kb. intros [Q1 Q2]. revert En Q1 Q2. clear. destruct a as [[]| | | |], b as [[]| | | |]; intros En Q1 Q2; try discriminate En; destruct Q1 as [Q1|Q1]; try discriminate Q1; destruct Q2 as [Q2|Q2]; discriminate Q2.
  - rewrite Ka, Kb. intros (Q1 & Q2 & ->). revert Et Q1 Q2. clear. destruct a as [[]| | | |], b as [[]| | | |]; intros Et Q1 Q2; try discriminate Q1; try discriminate Q2; discriminate Et.
Qed.
Lemma x_bin_error W s v x a b op c S C A SC LP T la : rel W s -> vrep W v a -> vrep W x b -> bin_error op a b = Some c ->
  c <> E_OK /\ exists y p, (forall m, look m (x :: v :: S) C A SC LP T la (w_heap W) -> exists m0, exec_expr m op = OK (set_err m0 c) /\ look m0 (y :: p ++ S) C A SC LP T la (w_heap W)).
Proof.
  intros R Va Vb Hb. pose proof Hb as Hb'. unfold bin_error in Hb. destruct ((op =? TOK_EQ) || (op =? TOK_NE)) eqn:Ee.
  - injection Hb as <-. split; [discriminate|]. exists x, [v]. intros m L. exists m. split; [|exact L].
    apply orb_true_iff in Ee. destruct Ee as [Ee|Ee]; apply Z.eqb_eq in Ee; subst op; reflexivity.
  - rewrite arith_same in Hb. destruct (in_list op arith_ops) eqn:Ha; [|discriminate Hb].
    assert (c = E_TYPE) as -> by (destruct (number_like a && number_like b); [discriminate Hb|]; destruct (is_text a && is_text b && (op =? TOK_PLUS)); [discriminate Hb|injection Hb; auto]).
    split; [discriminate|]. exists V_UNDEFINED, []. intros m L.
    destruct (look_pop _ _ _ _ _ _ _ _ _ _ _ _ _ L) as (m1 & Ep & L1). destruct (look_pop _ _ _ _ _ _ _ _ _ _ _ _ _ L1) as (m2 & Ep2 & L2).
    unfold exec_expr. rewrite Ha, Ep, Ep2. unfold vm_op. destruct (look_st _ _ _ _ _ _ _ _ _ _ _ _ L2) as [Es Ex]. rewrite Es, Ex. change (h_st (w_heap W)) with (w_st W).
    rewrite (op_error W s v x a b op R Va Vb Ha Hb'). cbn [bind]. assert (L3 : look (set_st m2 (w_st W)) S C A SC LP T la (w_heap W)) by (pose proof (look_set_st _ _ _ m2 (w_st W) _ _ _ _ _ _ _ _ L2) as Q; replace (with_st (w_heap W) (w_st W)) with (w_heap W) in Q by (destruct W as [[] ? ?]; reflexivity); exact Q).
    rewrite (look_prepend _ _ _ _ _ _ _ _ _ E_TYPE L3) by discriminate.
    exists (push (set_st m2 (w_st W)) V_UNDEFINED). split; [reflexivity|]. apply look_push. exact L3.
Qed.
Lemma arith_type op a b c : in_list op arith_ops = true -> bin_error op a b = Some c -> bin_error op a b = Some E_TYPE.
Proof.
  intros Ha Hb. unfold bin_error in *. destruct ((op =? TOK_EQ) || (op =? TOK_NE)) eqn:Ee.
  - apply orb_true_iff in Ee. destruct Ee as [Ee|Ee]; apply Z.eqb_eq in Ee; subst op; discriminate Ha.
  - rewrite arith_same, Ha in *. destruct (number_like a && number_like b); [discriminate Hb|]. destruct (is_text a && is_text b && (op =? TOK_PLUS)); [discriminate Hb|reflexivity].
Qed.
Lemma heap_st W : with_st (w_heap W) (w_st W) = w_heap W. Proof. destruct W as [[] ? ?]; reflexivity. Qed.
(** Reading, computing and writing back: the operator fails, and undefined is written. *)
Lemma x_modify_error W s o ov k key op v a s' S C A SC LP T la : rel W s -> vrep W v a -> vrep W ov o -> vrep W key k -> in_list op arith_ops = true -> modify_error s o k op a = Some s' ->
  exists W' x, rel W' s' /\ later W W' /\
   (is_object ov && is_string key = false /\ W' = W \/
    is_object ov && is_string key = true /\ forall m, look m S C A SC LP T la (w_heap W) -> exists m0, ('(m, p) <- get_v m ov key ;; '(m, w) <- vm_op m p v op ;; m <- set_v m ov key w ;; OK (m, p, w)) = OK (set_err m0 E_TYPE, x, V_UNDEFINED) /\
     look m0 S C A SC LP T la (w_heap W')).
Proof.
  intros R Va Vo Vk Ha Hm. destruct (kind_facts W s ov o R Vo) as (_ & _ & K1 & _). destruct (kind_facts W s key k R Vk) as (_ & _ & _ & K2 & _).
  assert (Hi : is_object ov && is_string key = false /\ s' = s \/ exists i n, is_object ov = true /\ is_string key = true /\ (ov = obj_at W i \/ ov = arr_at W i) /\ (i < length (w_addr W))%nat /\ text_key k = Some n /\
     (let? _ := nth_error (objs s) i in let? _ := bin_error op (match own s i n with Some x => x | None => undef end) a in set_own s i n undef) = Some s').
  { rewrite K1, K2. unfold modify_error in Hm. destruct o as [p|i|i|ps b|p]; try (left; injection Hm as <-; split; reflexivity);
      (destruct (is_text k); [right|left; injection Hm as <-; split; reflexivity]); (destruct (text_key k) as [n|]; [|discriminate Hm]); exists i, n; destruct Vo as [Hl ->];
      (split; [reflexivity|]; split; [reflexivity|]; split; [auto|]; split; [exact Hl|]; split; [reflexivity|exact Hm]). }
  destruct Hi as [[Q ->]|(i & n & I1 & I2 & Hi & Hl & Ek & Hq)].
  - exists W, 0. split; [exact R|]. split; [apply later_refl|]. left. split; [exact Q|reflexivity].
  - destruct (text_key_name _ _ Ek) as [-> Gn]. destruct (nth_error (objs s) i) as [c|] eqn:Ec; [|discriminate Hq].
    destruct (bin_error op (match own s i n with Some x => x | None => undef end) a) as [e|] eqn:Eb; [|discriminate Hq].
    destruct (cell_of _ _ W s i c R Ec) as (_ & mp & Em & Fe). pose proof (lookup_find _ _ W mp c n Fe) as Qn. destruct (good_bytes n Gn) as (B0 & B1 & B2 & _).
    assert (Vp : exists x, (match lookup mp n with Some y => y | None => V_UNDEFINED end) = x /\ vrep W x (match own s i n with Some y => y | None => undef end)).
    { unfold own. rewrite Ec. destruct (find_name c n) as [y|].
      - destruct Qn as (x & El & Hx). rewrite El. exists x. split; [reflexivity|exact Hx].
      - rewrite Qn. exists V_UNDEFINED. split; reflexivity. }
    destruct Vp as (x & Ex & Vx). pose proof (proj1 Vk) as Nk.
    destruct (set_prop_ok _ _ W s s' i n key ov V_UNDEFINED undef R eq_refl (key_name_of _ _ _ _ Nk) B0 Hi Hq) as (h & mp' & Eset & R2 & L2). cbv zeta in R2, L2.
    eexists _, x. split; [exact R2|]. split; [exact L2|]. right. split; [rewrite I1, I2; reflexivity|]. intros m L.
    destruct (obj_kinds cd mem W s i ov R Hl Hi) as [_ Rf]. destruct (look_st _ _ _ _ _ _ _ _ _ _ _ _ L) as [Es Ee]. pose proof (look_h _ _ _ _ _ _ _ _ _ _ _ _ L) as Eh. pose proof (rel_so _ _ W s R) as [Q1 Q2].
    assert (Eg : get_v m ov key = OK (m, x)).
    { unfold get_v. rewrite Es, Ee, Eh. rewrite (to_string_holds _ _ _ _ (proj1 Nk : holds (h_st (w_heap W)) ext key n)). cbn [bind]. unfold obj_get_v.
      rewrite (to_string_holds _ _ _ _ (proj1 Nk : holds (h_st (w_heap W)) ext key n)). cbn [bind].
      rewrite (obj_get_spec (w_heap W) ext (w_store W) ov (nth i (w_addr W) 0) mp n); [rewrite Ex; reflexivity|apply R|exact Em|exact Rf|exact B1|exact B2|]. change (h_st (w_heap W)) with (w_st W). lia. }
    rewrite Eg. cbn [bind]. unfold vm_op. rewrite Es, Ee. change (h_st (w_heap W)) with (w_st W). rewrite (op_error W s x v _ a op R Vx Va Ha (arith_type _ _ _ _ Ha Eb)). cbn [bind].
    assert (L3 : look (set_st m (w_st W)) S C A SC LP T la (w_heap W)) by (pose proof (look_set_st _ _ _ m (w_st W) _ _ _ _ _ _ _ _ L) as Q; rewrite heap_st in Q; exact Q).
    rewrite (look_prepend _ _ _ _ _ _ _ _ _ E_TYPE L3) by discriminate.
    destruct (look_set_v _ _ _ _ _ _ _ _ _ _ _ _ ov key n V_UNDEFINED h L3 (to_string_holds _ _ _ _ (proj1 Nk)) Eset) as (m2 & E2 & L4).
    exists m2. split; [|exact L4]. revert E2. unfold set_v. change (m_st (set_err (set_st m (w_st W)) E_TYPE)) with (m_st (set_st m (w_st W))). change (m_ext (set_err (set_st m (w_st W)) E_TYPE)) with (m_ext (set_st m (w_st W))).
    change (m_heap (set_err (set_st m (w_st W)) E_TYPE)) with (m_heap (set_st m (w_st W))).
    destruct (to_string (m_st (set_st m (w_st W))) (m_ext (set_st m (w_st W))) key) as [[t|]| | |]; cbn [bind]; try discriminate.
    + destruct (obj_set_v (m_heap (set_st m (w_st W))) (m_ext (set_st m (w_st W))) ov key V_UNDEFINED) as [[h0 e0]| | |]; cbn [bind]; try discriminate. intros [= <-]. reflexivity.
    + destruct (obj_set_v (m_heap (set_st m (w_st W))) (m_ext (set_st m (w_st W))) ov key V_UNDEFINED) as [[h0 e0]| | |]; cbn [bind]; try discriminate. intros [= E2].
      exfalso. pose proof (look_err _ _ _ _ _ _ _ _ _ _ _ _ L4) as Q. rewrite <- E2 in Q. discriminate Q.
Qed.
Lemma x_assign_error W s o ov k key t v a s' S C A SC LP T la : rel W s -> vrep W v a -> vrep W ov o -> vrep W key k -> assign_error s t o k a = Some s' ->
  exists W' p, rel W' s' /\ later W W' /\
   forall m, look m (v :: ov :: key :: S) C A SC LP T la (w_heap W) -> exists m0, exec_expr m t = OK (set_err m0 E_TYPE) /\ look m0 (p ++ S) C A SC LP T la (w_heap W').
Proof.
  intros R Va Vo Vk Ha. unfold assign_error in Ha. destruct (kind_facts W s ov o R Vo) as (_ & _ & K1 & _ & K3 & _). destruct (t =? TOK_ASSIGN) eqn:Et.
  - apply Z.eqb_eq in Et. subst t. assert (s' = s) as -> by (destruct o; try discriminate Ha; injection Ha; auto).
    exists W, [v]. split; [exact R|]. split; [apply later_refl|]. intros m L.
    destruct (look_pop _ _ _ _ _ _ _ _ _ _ _ _ _ L) as (m1 & Ep & L1). destruct (look_pop _ _ _ _ _ _ _ _ _ _ _ _ _ L1) as (m2 & Ep2 & L2). destruct (look_pop _ _ _ _ _ _ _ _ _ _ _ _ _ L2) as (m3 & Ep3 & L3).
    change (exec_expr m TOK_ASSIGN) with (assign m). unfold assign. rewrite Ep, Ep2, Ep3, K1, K3. rewrite (look_prepend _ _ _ _ _ _ _ _ _ E_TYPE L3) by discriminate.
    exists (push m3 v). split; [|apply look_push; exact L3]. destruct o; try discriminate Ha; reflexivity.
  - destruct (compound_op t) as [op|] eqn:Ec; [|discriminate Ha]. destruct (compound_arith t op Ec) as (Hin & _ & _ & Ex).
    destruct (x_modify_error W s o ov k key op v a s' S C A SC LP T la R Va Vo Vk (in_list_in _ _ Hin) Ha) as (W' & x & R' & L' & [[Q ->]|[Q H]]).
    + exists W, []. split; [exact R'|]. split; [exact L'|]. intros m L. rewrite Ex. unfold op_assign.
      destruct (look_pop _ _ _ _ _ _ _ _ _ _ _ _ _ L) as (m1 & Ep & L1). destruct (look_pop _ _ _ _ _ _ _ _ _ _ _ _ _ L1) as (m2 & Ep2 & L2). destruct (look_pop _ _ _ _ _ _ _ _ _ _ _ _ _ L2) as (m3 & Ep3 & L3).
      rewrite Ep, Ep2, Ep3, Q. exists m3. split; [reflexivity|exact L3].
    + exists W', [x]. split; [exact R'|]. split; [exact L'|]. intros m L. rewrite Ex. unfold op_assign.
      destruct (look_pop _ _ _ _ _ _ _ _ _ _ _ _ _ L) as (m1 & Ep & L1). destruct (look_pop _ _ _ _ _ _ _ _ _ _ _ _ _ L1) as (m2 & Ep2 & L2). destruct (look_pop _ _ _ _ _ _ _ _ _ _ _ _ _ L2) as (m3 & Ep3 & L3).
      rewrite Ep, Ep2, Ep3, Q. destruct (H m3 L3) as (m0 & E & L0). exists (push m0 x). split; [|apply look_push; exact L0].
      destruct (get_v m3 ov key) as [[m4 p]| | |]; cbn [bind] in E |- *; try discriminate E.
      destruct (vm_op m4 p v op) as [[m5 q]| | |]; cbn [bind] in E |- *; try discriminate E.
      destruct (set_v m5 ov key q) as [m6| | |]; cbn [bind] in E |- *; try discriminate E. injection E as -> -> ->. reflexivity.
Qed.
Lemma x_inc_error W s o ov k key t s' S C A SC LP T la : rel W s -> vrep W ov o -> vrep W key k -> inc_error s t o k = Some s' ->
  exists W' p, rel W' s' /\ later W W' /\
   forall m, look m (ov :: key :: S) C A SC LP T la (w_heap W) -> exists m0, exec_expr m t = OK (set_err m0 E_TYPE) /\ look m0 (p ++ S) C A SC LP T la (w_heap W').
Proof.
  intros R Vo Vk Ha.
  assert (V1 : vrep W (vnum 1) (vint 1)) by (split; [vm_compute; reflexivity|split; [unfold is_u64; vm_compute; intuition congruence|vm_compute; reflexivity]]).
  assert (K : forall op (post : bool), in_list op arith_ops = true -> (forall m, exec_expr m t = incdec m op post) -> modify_error s o k op (vint 1) = Some s' ->
    exists W' p, rel W' s' /\ later W W' /\
     forall m, look m (ov :: key :: S) C A SC LP T la (w_heap W) -> exists m0, exec_expr m t = OK (set_err m0 E_TYPE) /\ look m0 (p ++ S) C A SC LP T la (w_heap W')).
  { intros op post Hin Ex Hm. destruct (x_modify_error W s o ov k key op (vnum 1) _ s' S C A SC LP T la R V1 Vo Vk Hin Hm) as (W' & x & R' & L' & [[Q ->]|[Q H]]).
    - exists W, []. split; [exact R'|]. split; [exact L'|]. intros m L. rewrite Ex. unfold incdec.
      destruct (look_pop _ _ _ _ _ _ _ _ _ _ _ _ _ L) as (m1 & Ep & L1). destruct (look_pop _ _ _ _ _ _ _ _ _ _ _ _ _ L1) as (m2 & Ep2 & L2).
      rewrite Ep, Ep2, Q. exists m2. split; [reflexivity|exact L2].
    - exists W', [if post then x else V_UNDEFINED]. split; [exact R'|]. split; [exact L'|]. intros m L. rewrite Ex. unfold incdec.
      destruct (look_pop _ _ _ _ _ _ _ _ _ _ _ _ _ L) as (m1 & Ep & L1). destruct (look_pop _ _ _ _ _ _ _ _ _ _ _ _ _ L1) as (m2 & Ep2 & L2).
      rewrite Ep, Ep2, Q. destruct (H m2 L2) as (m0 & E & L0). exists (push m0 (if post then x else V_UNDEFINED)). split; [|apply look_push; exact L0].
      destruct (get_v m2 ov key) as [[m4 p]| | |]; cbn [bind] in E |- *; try discriminate E.
      destruct (vm_op m4 p (vnum 1) op) as [[m5 q]| | |]; cbn [bind] in E |- *; try discriminate E.
      destruct (set_v m5 ov key q) as [m6| | |]; cbn [bind] in E |- *; try discriminate E. injection E as -> -> ->. reflexivity. }
  unfold inc_error in Ha.
  destruct (t =? TOK_PLUS_PLUS) eqn:E1; [apply Z.eqb_eq in E1; subst t; apply (K TOK_PLUS false); [reflexivity|intros; reflexivity|exact Ha]|].
  destruct (t =? TOK_POSTFIX_PLUS) eqn:E3; [apply Z.eqb_eq in E3; subst t; apply (K TOK_PLUS true); [reflexivity|intros; reflexivity|exact Ha]|].
  destruct (t =? TOK_MINUS_MINUS) eqn:E2; [apply Z.eqb_eq in E2; subst t; apply (K TOK_MINUS false); [reflexivity|intros; reflexivity|exact Ha]|].
  destruct (t =? TOK_POSTFIX_MINUS) eqn:E4; [apply Z.eqb_eq in E4; subst t; apply (K TOK_MINUS true); [reflexivity|intros; reflexivity|exact Ha]|].
  discriminate Ha.
Qed.
(** for-in over what is no object, and with a variable that no scope has. *)
Lemma f_each_type W i op it ov o var S C A SC LP T la th s : code_at bp i [OP_FOR_IN_NEXT] -> roots S C A SC LP -> rel W s -> vrep W T th -> vrep W ov o ->
  match o with VObj _ | VArr _ => False | _ => True end ->
  fls W (cf' i op (it :: ov :: var :: S) C A SC LP T la (w_heap W)) (E_TYPE, th, s).
Proof.
  intros Ca Rt R V Vo Ho. destruct (kind_facts W s ov o R Vo) as (_ & _ & K1 & _).
  eapply (fls_one W W _ _ [] _ _ (it :: ov :: var :: S)); [exact Ca|discriminate| |exact R|apply later_refl|exact V|].
  - destruct Rt as (R1 & R'). split; [repeat apply rooted_cons; exact R1|exact R'].
  - unfold Lang_Exec3.looks; cbn [f_bp f_i f_op f_s f_c f_a f_sc f_lp f_t f_la f_h]. intros m L. exists m, bp, i. split; [|exact L]. pose proof L as (Es & _).
    intros exec k. change (instr w exec k m bp i OP_FOR_IN_NEXT op) with (m <- for_in_next m ;; OK (Go m bp i)). unfold for_in_next.
    pose proof (sk_get_in _ _ 0%nat _ Es eq_refl) as G1. pose proof (sk_get_in _ _ 1%nat _ Es eq_refl) as G2.
    change (- Z.of_nat 0 - 1) with (-1) in G1. change (- Z.of_nat 1 - 1) with (-2) in G2.
    destruct (vptr (m_stack m) (-1)) eqn:Ev; [|unfold sk_get in G1; rewrite Ev in G1; discriminate G1].
    rewrite G2. cbn [bind]. rewrite K1. destruct o; try destruct Ho; reflexivity.
Qed.
Lemma f_each_var W i op it it' ov var n key S C A SC LP T la th s sc : code_at bp i [OP_FOR_IN_NEXT] -> roots S C A SC LP -> sim W s SC sc T th -> is_object ov = true ->
  obj_next (w_heap W) ov it = OK (key, it') -> (key =? V_UNDEFINED) = false -> name_of (w_st W) ext var n -> good_name n = true -> find_var s sc n = None ->
  fls W (cf' i op (it :: ov :: var :: S) C A SC LP T la (w_heap W)) (E_REFERENCE, th, s).
Proof.
  intros Ca Rt (R & Sc & V) Io On Nu Nm Gn Hf.
  eapply (fls_one W W _ _ [] _ _ (it' :: ov :: var :: S)); [exact Ca|discriminate| |exact R|apply later_refl|exact V|].
  - destruct Rt as (R1 & R'). split; [repeat apply rooted_cons; exact R1|exact R'].
  - unfold Lang_Exec3.looks; cbn [f_bp f_i f_op f_s f_c f_a f_sc f_lp f_t f_la f_h]. intros m L. pose proof L as (Es & _).
    destruct (sk_set_top _ _ _ it' Es) as (s' & E' & L').
    assert (L1 : look (set_stack m s') (it' :: ov :: var :: S) C A SC LP T la (w_heap W)) by (eapply look_stack; [exact L|exact L']).
    exists (set_heap (set_stack m s') (w_heap W)), bp, i. split; [|eapply look_heap; exact L1].
    intros exec k. change (instr w exec k m bp i OP_FOR_IN_NEXT op) with (m <- for_in_next m ;; OK (Go m bp i)). unfold for_in_next.
    pose proof (sk_get_in _ _ 0%nat _ Es eq_refl) as G1. pose proof (sk_get_in _ _ 1%nat _ Es eq_refl) as G2. pose proof (sk_get_in _ _ 2%nat _ Es eq_refl) as G3.
    change (- Z.of_nat 0 - 1) with (-1) in G1. change (- Z.of_nat 1 - 1) with (-2) in G2. change (- Z.of_nat 2 - 1) with (-3) in G3.
    destruct (vptr (m_stack m) (-1)) eqn:Ev; [|unfold sk_get in G1; rewrite Ev in G1; discriminate G1].
    rewrite G2. cbn [bind]. rewrite Io, G3. cbn [bind]. rewrite G1. cbn [bind]. rewrite (look_h _ _ _ _ _ _ _ _ _ _ _ _ L), On. cbn [bind]. rewrite E'. cbn [bind]. rewrite Nu. cbn [negb].
    unfold find_scope. assert (Esc : sk_live (m_scopes (set_stack m s')) = SC) by (destruct L1 as (_ & _ & _ & -> & _); reflexivity). rewrite Esc.
    rewrite (find_none _ W s var n sc SC (look_self _ _ _ _ _ _ _ _ _ L1) R Nm Gn Sc Hf). cbn [bind]. unfold set_v.
    destruct (look_st _ _ _ _ _ _ _ _ _ _ _ _ L1) as [Es1 Ee1]. pose proof (look_h _ _ _ _ _ _ _ _ _ _ _ _ L1) as Eh1.
    change (m_st (set_err (set_stack m s') E_REFERENCE)) with (m_st (set_stack m s')). change (m_ext (set_err (set_stack m s') E_REFERENCE)) with (m_ext (set_stack m s')). change (m_heap (set_err (set_stack m s') E_REFERENCE)) with (m_heap (set_stack m s')).
    rewrite Es1, Ee1, Eh1. rewrite (to_string_holds _ _ _ _ (proj1 Nm : holds (h_st (w_heap W)) ext var n)). cbn [bind]. unfold obj_set_v.
    rewrite (to_string_holds _ _ _ _ (proj1 Nm : holds (h_st (w_heap W)) ext var n)). reflexivity.
Qed.
End Part.
End Fails.

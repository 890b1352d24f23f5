(** The instructions that programs of the language use, one by one. *)
From Verif Require Import Base BaseFacts Value_Model Value_Spec Value_Proofs Data_Model Str_Model Str_Spec Str_Proofs Str_Proofs2 Float_Proofs
  Ops_Model Ops_Spec Ops_Proofs Ops_Proofs2 TokNum_Model Txt_Model Obj_Model Obj_Spec Obj_Proofs Obj_Proofs2 Conv_Model Num_Model Varint_Model Varint_Proofs Bcode_Model Bcode_Proofs
  Vm_Model Vm_Spec Vm_Proofs Vm_Proofs2 Vm_Proofs4 Tok_Spec Parse_Model Expr_Spec Run_Spec Expr_Proofs1 Expr_Proofs3 Expr_Proofs4 Expr_Proofs5 Lang_Spec Lang_Code Lang_Spec2 Lang_Exec1 Arr_Model Lang_Exec2.
From Coq Require Import ZifyBool.
Ltac Zify.zify_post_hook ::= idtac.

Section Go.
Context (w : host) (sv : saved) (cd : code) (mem : rawmem) (res : list (Z * Z)).
Definition mext : extmem := fun a => match mem a with Some b => b | None => 0 end.

(** What running code of the language depends on: the values of the stacks, [this], the object
    of the last property read and the heap. *)
Definition look (m : vm) (S C A SC LP : list Z) (T la : Z) (h : heap) : Prop :=
  sk_live (m_stack m) = S /\ sk_live (m_call m) = C /\ sk_live (m_arg m) = A /\ sk_live (m_scopes m) = SC /\ sk_live (m_loops m) = LP /\
  m_this m = T /\ m_last m = la /\ m_heap m = h /\ m_err m = E_OK /\ m_code m = cd /\ m_mem m = mem /\ m_res m = res.
Record cf := Cf { f_bp : part; f_i : Z; f_op : Z; f_s : list Z; f_c : list Z; f_a : list Z; f_sc : list Z; f_lp : list Z; f_t : Z; f_la : Z; f_h : heap }.
Definition looks (m : vm) (x : cf) : Prop := look m (f_s x) (f_c x) (f_a x) (f_sc x) (f_lp x) (f_t x) (f_la x) (f_h x).
Definition St (c : conf) (x : cf) : Prop := k_bp c = f_bp x /\ k_i c = f_i x /\ k_op c = f_op x /\ looks (k_m c) x.
Definition go (x y : cf) : Prop := forall c, St c x -> exists c', steps w sv c c' /\ St c' y.

Lemma go_refl x : go x x.
Proof. intros c H. exists c. split; [apply steps_end|exact H]. Qed.
Lemma go_trans x y z : go x y -> go y z -> go x z.
Proof.
  intros G1 G2 c H. destruct (G1 c H) as (c1 & S1 & H1). destruct (G2 c1 H1) as (c2 & S2 & H2). exists c2. split; [|exact H2].
  eapply steps_app; eassumption.
Qed.
Lemma go_eq x y i : go x y -> f_i y = i -> go x (Cf (f_bp y) i (f_op y) (f_s y) (f_c y) (f_a y) (f_sc y) (f_lp y) (f_t y) (f_la y) (f_h y)).
Proof. intros G <-. destruct y; exact G. Qed.

(** ** Setters *)
Ltac lk := unfold look in *; cbn [f_s f_c f_a f_sc f_lp f_t f_la f_h] in *; repeat match goal with H : _ /\ _ |- _ => destruct H end; repeat (split; [assumption || reflexivity|]); assumption || reflexivity.
Lemma look_off m i S C A SC LP T la h : look m S C A SC LP T la h -> look (set_off m i) S C A SC LP T la h.
Proof. intros H. lk. Qed.
Lemma look_push m v S C A SC LP T la h : look m S C A SC LP T la h -> look (push m v) (v :: S) C A SC LP T la h.
Proof. intros (H & R). split; [cbn [push set_stack m_stack sk_push sk_live]; rewrite H; reflexivity|]. lk. Qed.
Lemma look_pop m v S C A SC LP T la h : look m (v :: S) C A SC LP T la h -> exists m', pop m = (v, m') /\ look m' S C A SC LP T la h.
Proof. intros (H & R). destruct (pop_cons m v S H) as (s & E & L). eexists. split; [exact E|]. split; [exact L|]. lk. Qed.
Lemma look_heap m h' S C A SC LP T la h : look m S C A SC LP T la h -> look (set_heap m h') S C A SC LP T la h'.
Proof. intros H. lk. Qed.
Lemma look_last m x S C A SC LP T la h : look m S C A SC LP T la h -> look (set_last m x) S C A SC LP T x h.
Proof. intros H. lk. Qed.
Lemma look_this m x S C A SC LP T la h : look m S C A SC LP T la h -> look (set_this m x) S C A SC LP x la h.
Proof. intros H. lk. Qed.
Lemma look_stack m s S S' C A SC LP T la h : look m S C A SC LP T la h -> sk_live s = S' -> look (set_stack m s) S' C A SC LP T la h.
Proof. intros H E. lk. Qed.
Lemma look_call m s S C C' A SC LP T la h : look m S C A SC LP T la h -> sk_live s = C' -> look (set_call m s) S C' A SC LP T la h.
Proof. intros H E. lk. Qed.
Lemma look_arg m s S C A A' SC LP T la h : look m S C A SC LP T la h -> sk_live s = A' -> look (set_arg m s) S C A' SC LP T la h.
Proof. intros H E. lk. Qed.
Lemma look_scopes m s S C A SC SC' LP T la h : look m S C A SC LP T la h -> sk_live s = SC' -> look (set_scopes m s) S C A SC' LP T la h.
Proof. intros H E. lk. Qed.
Lemma look_loops m s S C A SC LP LP' T la h : look m S C A SC LP T la h -> sk_live s = LP' -> look (set_loops m s) S C A SC LP' T la h.
Proof. intros H E. lk. Qed.
Lemma look_st m S C A SC LP T la h : look m S C A SC LP T la h -> m_st m = h_st h /\ m_ext m = mext.
Proof. intros (_ & _ & _ & _ & _ & _ & _ & H & _ & _ & Hm & _). unfold m_st, m_ext, mext. rewrite H, Hm. split; reflexivity. Qed.
Lemma look_err m S C A SC LP T la h : look m S C A SC LP T la h -> m_err m = E_OK.
Proof. intros H. lk. Qed.
Lemma look_h m S C A SC LP T la h : look m S C A SC LP T la h -> m_heap m = h.
Proof. intros H. lk. Qed.
Lemma look_set_st m st S C A SC LP T la h : look m S C A SC LP T la h -> look (set_st m st) S C A SC LP T la (with_st h st).
Proof. intros H. unfold set_st. rewrite (look_h _ _ _ _ _ _ _ _ _ H). eapply look_heap. exact H. Qed.
Lemma look_top m v S C A SC LP T la h : look m (v :: S) C A SC LP T la h -> sk_top (m_stack m) = v.
Proof. intros (H & _). unfold sk_top. rewrite H. reflexivity. Qed.
Lemma look_size m S C A SC LP T la h : look m S C A SC LP T la h ->
  sk_size (m_stack m) = zlen S /\ sk_size (m_call m) = zlen C /\ sk_size (m_arg m) = zlen A /\ sk_size (m_scopes m) = zlen SC /\ sk_size (m_loops m) = zlen LP.
Proof. intros (H1 & H2 & H3 & H4 & H5 & _). unfold sk_size. rewrite H1, H2, H3, H4, H5. repeat split. Qed.

(** ** Code *)
Definition code_at (bp : part) (i : Z) (d : list Z) : Prop := exists pre rest, bp_data bp = pre ++ d ++ rest /\ i = zlen pre.
(** ... after which no byte continues a number *)
Definition code_to (bp : part) (i : Z) (d : list Z) : Prop := exists pre rest, bp_data bp = pre ++ d ++ rest /\ i = zlen pre /\ num_stop rest.
Lemma to_at bp i d : code_to bp i d -> code_at bp i d.
Proof. intros (pre & rest & E & Ei & _). exists pre, rest. split; assumption. Qed.
Lemma at_app bp i d1 d2 : code_at bp i (d1 ++ d2) -> code_at bp i d1 /\ code_at bp (i + zlen d1) d2.
Proof.
  intros (pre & rest & E & Ei). split.
  - exists pre, (d2 ++ rest). split; [rewrite E, <- app_assoc; reflexivity|exact Ei].
  - exists (pre ++ d1), rest. split; [rewrite E, <- !app_assoc; reflexivity|rewrite zlen_app, Ei; reflexivity].
Qed.
Lemma at_cons bp i x d : code_at bp i (x :: d) -> code_at bp i [x] /\ code_at bp (i + 1) d.
Proof. intros H. exact (at_app bp i [x] d H). Qed.
Lemma to_app bp i d1 d2 : code_to bp i (d1 ++ d2) -> code_at bp i d1 /\ code_to bp (i + zlen d1) d2.
Proof.
  intros (pre & rest & E & Ei & Q). split.
  - exists pre, (d2 ++ rest). split; [rewrite E, <- app_assoc; reflexivity|exact Ei].
  - exists (pre ++ d1), rest. split; [rewrite E, <- !app_assoc; reflexivity|]. split; [rewrite zlen_app, Ei; reflexivity|exact Q].
Qed.
Lemma at_quiet bp i d1 d2 : code_at bp i (d1 ++ d2) -> quiet d2 -> code_to bp i d1.
Proof.
  intros (pre & rest & E & Ei) Q. exists pre, (d2 ++ rest). split; [rewrite E, <- app_assoc; reflexivity|]. split; [exact Ei|].
  destruct d2 as [|x d2]; [destruct Q|]. cbn [quiet] in Q. cbn [app num_stop]. unfold ident_char, letter. lia.
Qed.
Lemma at_len bp i d : code_at bp i d -> 0 <= i /\ i + zlen d <= zlen (bp_data bp).
Proof. intros (pre & rest & E & ->). rewrite E, !zlen_app. pose proof (zlen_nonneg pre). pose proof (zlen_nonneg rest). lia. Qed.
Lemma at_nth bp i x d : code_at bp i (x :: d) -> nthz (bp_data bp) i = Some x.
Proof. intros (pre & rest & E & ->). rewrite E. apply (nthz_at pre x (d ++ rest)). Qed.
Lemma at_operand bp i n d : code_at bp i (varint n ++ d) -> 0 <= n < 2 ^ 31 -> operand bp i = OK (n, zlen (varint n)).
Proof. intros (pre & rest & E & ->) H. apply (operand_at bp pre n (d ++ rest)); [rewrite E, <- app_assoc; reflexivity|exact H]. Qed.
Lemma part_len bp : part_of cd bp -> zlen (bp_data bp) < 2 ^ 31 /\ 0 <= bp_start bp /\ bp_start bp + zlen (bp_data bp) < 2 ^ 31 - 1.
Proof. intros (H0 & H1 & _). lia. Qed.

(** One instruction. *)
Lemma go_one x y op d : code_at (f_bp x) (f_i x) (op :: d) -> f_op y = op ->
  (forall m, looks m x -> exists m' i', (forall exec k, instr w exec k m (f_bp x) (f_i x) op (f_op x) = OK (Go m' (f_bp y) i')) /\
     u64 (i' + 1) = f_i y /\ looks m' y) -> go x y.
Proof.
  intros Ca Eo H c (B & I & O & L). destruct (H (set_off (k_m c) (k_i c)) (look_off _ _ _ _ _ _ _ _ _ _ L)) as (m' & i' & In & Ei & L').
  exists {| k_m := m'; k_bp := f_bp y; k_i := f_i y; k_op := op |}. split; [|split; [reflexivity|split; [reflexivity|split; [symmetry; exact Eo|exact L']]]].
  eapply steps_next; [|apply steps_end]. intros exec k. unfold step. pose proof (at_len _ _ _ Ca) as [P1 P2]. rewrite zlen_cons in P2. pose proof (zlen_nonneg d).
  rewrite B, I. replace (f_i x <? zlen (bp_data (f_bp x))) with true by lia. cbn [negb]. rewrite (at_nth _ _ _ _ Ca).
  rewrite O. rewrite <- I at 1. rewrite In. cbn [bind]. rewrite (look_err _ _ _ _ _ _ _ _ _ L'). rewrite Ei. reflexivity.
Qed.

Section Part.
Context (bp : part) (P : part_of cd bp).
Notation cf' := (Cf bp).
Ltac start d := intros Ca; pose proof (at_len _ _ _ Ca) as [Ca1 Ca2]; pose proof (part_len bp P) as (Pl1 & Pl2 & Pl3);
  eapply (go_one _ _ _ d); [exact Ca|reflexivity|]; unfold looks; cbn [f_bp f_i f_op f_s f_c f_a f_sc f_lp f_t f_la f_h]; intros m L.
Ltac idx := rewrite ?zlen_cons, ?zlen_app in *; change (zlen (@nil Z)) with 0 in *; repeat match goal with |- context [u64 ?e] => rewrite (u64_id e) by lia end; lia.

(** Simple pushes. *)
Lemma g_undef i op S C A SC LP T la h : code_at bp i [OP_PUSH_UNDEF] ->
  go (cf' i op S C A SC LP T la h) (cf' (i + 1) OP_PUSH_UNDEF (V_UNDEFINED :: S) C A SC LP T la h).
Proof.
  start (@nil Z). exists (push m V_UNDEFINED), i. split; [intros; reflexivity|]. split; [idx|]. apply look_push. exact L.
Qed.
Lemma g_this i op S C A SC LP T la h : code_at bp i [OP_PUSH_THIS] ->
  go (cf' i op S C A SC LP T la h) (cf' (i + 1) OP_PUSH_THIS (T :: S) C A SC LP T la h).
Proof.
  start (@nil Z). exists (push m (m_this m)), i. split; [intros; reflexivity|]. split; [idx|].
  replace (m_this m) with T by (unfold looks, look in L; cbn in L; intuition congruence). apply look_push. exact L.
Qed.
Lemma g_obj i op S C A SC LP T la h h' v : code_at bp i [OP_PUSH_OBJ] -> mk_object h = OK (h', v) ->
  go (cf' i op S C A SC LP T la h) (cf' (i + 1) OP_PUSH_OBJ (v :: S) C A SC LP T la h').
Proof.
  intros Ca0 Mk; revert Ca0. start (@nil Z). exists (push (set_heap m h') v), i. split; [|split; [idx|apply look_push; eapply look_heap; exact L]].
  intros exec k. change (instr w exec k m bp i OP_PUSH_OBJ op) with ('(h, v) <- mk_object (m_heap m) ;; OK (Go (push (set_heap m h) v) bp i)).
  rewrite (look_h _ _ _ _ _ _ _ _ _ L). cbn [f_h]. rewrite Mk. reflexivity.
Qed.
Lemma g_arr i op S C A SC LP T la h h' v : code_at bp i [OP_PUSH_ARRAY] -> mk_array h = OK (h', v) ->
  go (cf' i op S C A SC LP T la h) (cf' (i + 1) OP_PUSH_ARRAY (v :: S) C A SC LP T la h').
Proof.
  intros Ca0 Mk; revert Ca0. start (@nil Z). exists (push (set_heap m h') v), i. split; [|split; [idx|apply look_push; eapply look_heap; exact L]].
  intros exec k. change (instr w exec k m bp i OP_PUSH_ARRAY op) with ('(h, v) <- mk_array (m_heap m) ;; OK (Go (push (set_heap m h) v) bp i)).
  rewrite (look_h _ _ _ _ _ _ _ _ _ L). cbn [f_h]. rewrite Mk. reflexivity.
Qed.
Lemma g_func i op S C A SC LP T la h n : code_at bp i (OP_PUSH_FUNC :: varint n) -> 0 <= n <= i ->
  go (cf' i op S C A SC LP T la h) (cf' (i + 1 + zlen (varint n)) OP_PUSH_FUNC (mk_function (bp_start bp + (i - n)) :: S) C A SC LP T la h).
Proof.
  intros Ca0 Hn; revert Ca0. start (varint n). pose proof (varint_zlen n).
  pose proof (proj2 (at_cons _ _ _ _ Ca)) as Ca'. rewrite <- (app_nil_r (varint n)) in Ca'.
  exists (push m (mk_function (u64 (bp_start bp + i - n)))), (u64 (i + zlen (varint n))). split; [|split; [|rewrite u64_id by (rewrite zlen_cons in *; lia); replace (bp_start bp + i - n) with (bp_start bp + (i - n)) by lia; apply look_push; exact L]].
  - intros exec k. change (instr w exec k m bp i OP_PUSH_FUNC op) with
      ('(n, l) <- operand bp (i + 1) ;; OK (Go (push m (mk_function (u64 (bp_start bp + i - n)))) bp (u64 (i + l)))).
    rewrite (at_operand _ _ _ _ Ca') by (rewrite zlen_cons in *; lia). reflexivity.
  - idx.
Qed.
Lemma g_jmp i op S C A SC LP T la h n d : code_at bp i (OP_JMP :: varint n ++ d) -> zlen d = n ->
  go (cf' i op S C A SC LP T la h) (cf' (i + 1 + zlen (varint n) + n) OP_JMP S C A SC LP T la h).
Proof.
  intros Ca0 Hn; revert Ca0. start (varint n ++ d). pose proof (varint_zlen n). pose proof (zlen_nonneg d).
  pose proof (proj2 (at_cons _ _ _ _ Ca)) as Ca'. rewrite zlen_cons, zlen_app in Ca2.
  exists m, (u64 (i + (n + zlen (varint n)))). split; [|split; [|exact L]].
  - intros exec k. change (instr w exec k m bp i OP_JMP op) with ('(n, l) <- operand bp (i + 1) ;; OK (Go m bp (u64 (i + (n + l))))).
    rewrite (at_operand _ _ _ _ Ca') by lia. reflexivity.
  - idx.
Qed.
Lemma g_jmp_false i op v t S C A SC LP T la h n d : code_at bp i (OP_JMP_FALSE :: varint n ++ d) -> zlen d = n -> is_truthy (h_st h) v = OK t ->
  go (cf' i op (v :: S) C A SC LP T la h)
     (cf' (i + 1 + zlen (varint n) + (if t then 0 else n)) OP_JMP_FALSE (if t then S else V_UNDEFINED :: S) C A SC LP T la h).
Proof.
  intros Ca0 Hn Ht; revert Ca0. start (varint n ++ d). pose proof (varint_zlen n). pose proof (zlen_nonneg d).
  pose proof (proj2 (at_cons _ _ _ _ Ca)) as Ca'. rewrite zlen_cons, zlen_app in Ca2.
  destruct (look_pop _ _ _ _ _ _ _ _ _ _ L) as (m1 & Ep & L1).
  exists (if t then m1 else push m1 V_UNDEFINED), (if t then u64 (i + zlen (varint n)) else u64 (i + zlen (varint n) + n)).
  split; [|split; [destruct t; idx|destruct t; [exact L1|apply look_push; exact L1]]].
  intros exec k. change (instr w exec k m bp i OP_JMP_FALSE op) with
     ('(n, l) <- operand bp (i + 1) ;; let '(v, m) := pop m in t <- is_truthy (m_st m) v ;;
      OK (if t : bool then Go m bp (u64 (i + l)) else Go (push m V_UNDEFINED) bp (u64 (i + l + n)))).
  rewrite (at_operand _ _ _ _ Ca') by lia. cbn [bind]. rewrite Ep. destruct (look_st _ _ _ _ _ _ _ _ _ L1) as [-> _]. rewrite Ht. cbn [bind]. destruct t; reflexivity.
Qed.
(** The jumps that look at the top of the stack; [o] jumps when its truth is [b]. *)
Lemma g_neutral i op o b v t S C A SC LP T la h n d :
  (o = OP_JMP_NEUTRAL_TRUE /\ b = true \/ o = OP_JMP_NEUTRAL_FALSE /\ b = false) ->
  code_at bp i (o :: varint n ++ d) -> zlen d = n -> is_truthy (h_st h) v = OK t ->
  go (cf' i op (v :: S) C A SC LP T la h)
     (cf' (i + 1 + zlen (varint n) + (if Bool.eqb t b then n else 0)) o (v :: S) C A SC LP T la h).
Proof.
  intros Ho Ca0 Hn Ht; revert Ca0. start (varint n ++ d). pose proof (varint_zlen n). pose proof (zlen_nonneg d).
  pose proof (proj2 (at_cons _ _ _ _ Ca)) as Ca'. rewrite zlen_cons, zlen_app in Ca2.
  exists m, (if Bool.eqb t b then u64 (i + zlen (varint n) + n) else u64 (i + zlen (varint n))).
  split; [|split; [destruct (Bool.eqb t b); idx|exact L]].
  intros exec k. destruct (look_st _ _ _ _ _ _ _ _ _ L) as [Es _]. pose proof (look_top _ _ _ _ _ _ _ _ _ _ L) as Et. destruct Ho as [[-> ->]|[-> ->]].
  - change (instr w exec k m bp i OP_JMP_NEUTRAL_TRUE op) with
     ('(n, l) <- operand bp (i + 1) ;; t <- is_truthy (m_st m) (sk_top (m_stack m)) ;;
      OK (Go m bp (if t : bool then u64 (i + l + n) else u64 (i + l)))).
    rewrite (at_operand _ _ _ _ Ca') by lia. cbn [bind]. rewrite Es, Et, Ht. cbn [bind]. destruct t; reflexivity.
  - change (instr w exec k m bp i OP_JMP_NEUTRAL_FALSE op) with
     ('(n, l) <- operand bp (i + 1) ;; t <- is_truthy (m_st m) (sk_top (m_stack m)) ;;
      OK (Go m bp (if t : bool then u64 (i + l) else u64 (i + l + n)))).
    rewrite (at_operand _ _ _ _ Ca') by lia. cbn [bind]. rewrite Es, Et, Ht. cbn [bind]. destruct t; reflexivity.
Qed.
Lemma g_drop i op v S C A SC LP T la h : code_at bp i [OP_DROP] -> go (cf' i op (v :: S) C A SC LP T la h) (cf' (i + 1) OP_DROP S C A SC LP T la h).
Proof.
  start (@nil Z). destruct (look_pop _ _ _ _ _ _ _ _ _ _ L) as (m1 & Ep & L1). exists m1, i. split; [|split; [idx|exact L1]].
  intros exec k. change (instr w exec k m bp i OP_DROP op) with (OK (Go (snd (pop m)) bp i)). rewrite Ep. reflexivity.
Qed.
Lemma g_dup i op v S C A SC LP T la h : code_at bp i [OP_DUP] -> go (cf' i op (v :: S) C A SC LP T la h) (cf' (i + 1) OP_DUP (v :: v :: S) C A SC LP T la h).
Proof.
  start (@nil Z). exists (push m (sk_top (m_stack m))), i. split; [intros; reflexivity|]. split; [idx|].
  rewrite (look_top _ _ _ _ _ _ _ _ _ _ L). apply look_push. exact L.
Qed.
Lemma g_append i op a v S C A SC LP T la h h' : code_at bp i [OP_APPEND] -> array_push h mext a v = OK (h', E_OK) ->
  go (cf' i op (v :: a :: S) C A SC LP T la h) (cf' (i + 1) OP_APPEND S C A SC LP T la h').
Proof.
  intros Ca0 Ap; revert Ca0. start (@nil Z). destruct (look_pop _ _ _ _ _ _ _ _ _ _ L) as (m1 & Ep & L1). destruct (look_pop _ _ _ _ _ _ _ _ _ _ L1) as (m2 & Ep2 & L2).
  exists (set_heap m2 h'), i. split; [|split; [idx|eapply look_heap; exact L2]].
  intros exec k. change (instr w exec k m bp i OP_APPEND op) with (let '(val, m) := pop m in let '(arr, m) := pop m in
    '(h, e) <- array_push (m_heap m) (m_ext m) arr val ;; let m := set_heap m h in OK (Go (if negb (e =? E_OK) then set_err m E_TYPE else m) bp i)).
  rewrite Ep, Ep2. destruct (look_st _ _ _ _ _ _ _ _ _ L2) as [_ Ee]. rewrite (look_h _ _ _ _ _ _ _ _ _ L2), Ee, Ap. reflexivity.
Qed.
Lemma g_swap i op a b S C A SC LP T la h : code_at bp i [OP_SWAP] -> go (cf' i op (a :: b :: S) C A SC LP T la h) (cf' (i + 1) OP_SWAP (b :: a :: S) C A SC LP T la h).
Proof.
  start (@nil Z). destruct (look_pop _ _ _ _ _ _ _ _ _ _ L) as (m1 & Ep & L1). destruct (look_pop _ _ _ _ _ _ _ _ _ _ L1) as (m2 & Ep2 & L2).
  exists (push (push m2 a) b), i. split; [|split; [idx|do 2 apply look_push; exact L2]].
  intros exec k. change (instr w exec k m bp i OP_SWAP op) with (let '(a, m) := pop m in let '(b, m) := pop m in OK (Go (push (push m a) b) bp i)). rewrite Ep, Ep2. reflexivity.
Qed.

(** ** Scopes *)
Lemma g_push_scope i op S C A x SC LP T la h : code_at bp i [OP_PUSH_SCOPE] ->
  go (cf' i op S C A (x :: SC) LP T la h) (cf' (i + 1) OP_PUSH_SCOPE (x :: S) C A (x :: SC) LP T la h).
Proof.
  start (@nil Z). destruct (look_size _ _ _ _ _ _ _ _ _ L) as (_ & _ & _ & Ez & _).
  assert (Et : sk_top (m_scopes m) = x) by (destruct L as (_ & _ & _ & H & _); unfold sk_top; rewrite H; reflexivity).
  exists (push m x), i. split; [|split; [idx|apply look_push; exact L]].
  intros exec k. change (instr w exec k m bp i OP_PUSH_SCOPE op) with (if sk_size (m_scopes m) =? 0 then Abort else OK (Go (push m (sk_top (m_scopes m))) bp i)).
  rewrite Ez, zlen_cons, Et. replace (1 + zlen SC =? 0) with false by (pose proof (zlen_nonneg SC); lia). reflexivity.
Qed.
Lemma g_new_scope i op S C A SC LP T la h h' v : code_at bp i [OP_NEW_SCOPE] -> mk_object h = OK (h', v) ->
  go (cf' i op S C A SC LP T la h) (cf' (i + 1) OP_NEW_SCOPE S C A (v :: SC) LP T la h').
Proof.
  intros Ca0 Mk; revert Ca0. start (@nil Z). exists (set_scopes (set_heap m h') (sk_push (m_scopes m) v)), i. split; [|split; [idx|]].
  - intros exec k. change (instr w exec k m bp i OP_NEW_SCOPE op) with ('(h, v) <- mk_object (m_heap m) ;; OK (Go (set_scopes (set_heap m h) (sk_push (m_scopes m) v)) bp i)).
    rewrite (look_h _ _ _ _ _ _ _ _ _ L). rewrite Mk. reflexivity.
  - eapply look_scopes; [eapply look_heap; exact L|]. cbn [sk_push sk_live]. destruct L as (_ & _ & _ & -> & _). reflexivity.
Qed.
Lemma g_del_scope i op S C A x SC LP T la h : code_at bp i [OP_DEL_SCOPE] ->
  go (cf' i op S C A (x :: SC) LP T la h) (cf' (i + 1) OP_DEL_SCOPE S C A SC LP T la h).
Proof.
  start (@nil Z). destruct (look_size _ _ _ _ _ _ _ _ _ L) as (_ & _ & _ & Ez & _). pose proof L as (_ & _ & _ & El & _).
  eexists _, i. split; [|split; [idx|]].
  - intros exec k. change (instr w exec k m bp i OP_DEL_SCOPE op) with
      (if 8 * sk_size (m_scopes m) <=? 1 then OK (Go (set_err m E_INTERNAL) bp i) else '(_, sc) <- sk_pop (m_scopes m) ;; OK (Go (set_scopes m sc) bp i)).
    rewrite Ez, zlen_cons. replace (8 * (1 + zlen SC) <=? 1) with false by (pose proof (zlen_nonneg SC); lia).
    unfold sk_pop. rewrite El. cbn [bind]. reflexivity.
  - eapply look_scopes; [exact L|reflexivity].
Qed.

(** ** Strings and names *)
Lemma g_str i op S C A SC LP T la h d st v : code_at bp i (OP_PUSH_STR :: varint (zlen d) ++ d) -> mk_string (h_st h) d = OK (st, v) ->
  go (cf' i op S C A SC LP T la h) (cf' (i + zlen (OP_PUSH_STR :: varint (zlen d) ++ d)) OP_PUSH_STR (v :: S) C A SC LP T la (with_st h st)).
Proof.
  intros Ca0 Mk; revert Ca0. start (varint (zlen d) ++ d). pose proof (varint_zlen (zlen d)). pose proof (zlen_nonneg d).
  pose proof (proj2 (at_cons _ _ _ _ Ca)) as Ca'. pose proof (proj2 (at_app _ _ _ _ Ca')) as Cd. rewrite zlen_cons, zlen_app in *.
  exists (push (set_st m st) v), (u64 (i + (zlen (varint (zlen d)) + zlen d))). split; [|split; [idx|apply look_push; apply look_set_st; exact L]].
  intros exec k. change (instr w exec k m bp i OP_PUSH_STR op) with
    ('(n, l) <- operand bp (i + 1) ;; '(m, v) <- code_str m bp (i + 1 + l) n ;; OK (Go (push m v) bp (u64 (i + (l + n))))).
  rewrite (at_operand _ _ _ _ Ca') by lia. cbn [bind]. unfold code_str. destruct (look_st _ _ _ _ _ _ _ _ _ L) as [Es _].
  replace ((0 <=? zlen d) && (i + 1 + zlen (varint (zlen d)) + zlen d <=? zlen (bp_data bp))) with true by lia.
  destruct Cd as (pre & rest & E & Ei).
  replace (sub (bp_data bp) (i + 1 + zlen (varint (zlen d))) (zlen d)) with d by (rewrite Ei, E; symmetry; apply sub_app_mid).
  rewrite Es, Mk. reflexivity.
Qed.
Lemma g_find i op S C A SC LP T la h M key n s x : code_at bp i [OP_FIND_SCOPE] ->
  hrep h mext M -> holds (h_st h) mext key n -> bytes_ok n -> zlen n < 2 ^ 31 -> zlen (so (h_st h)) < 2 ^ 48 -> resolves M n SC s x ->
  go (cf' i op (key :: S) C A SC LP T la h) (cf' (i + 1) OP_FIND_SCOPE (s :: key :: S) C A SC LP T la h).
Proof.
  intros Ca0 Hr Hk Nb Nl Hs Rs; revert Ca0. start (@nil Z). exists (push m s), i. split; [|split; [idx|apply look_push; exact L]].
  intros exec k. change (instr w exec k m bp i OP_FIND_SCOPE op) with ('(m, s) <- find_scope m (sk_top (m_stack m)) ;; OK (Go (push m s) bp i)).
  rewrite (look_top _ _ _ _ _ _ _ _ _ _ L). destruct (look_st _ _ _ _ _ _ _ _ _ L) as [Es Ee]. pose proof (look_h _ _ _ _ _ _ _ _ _ L) as Eh.
  rewrite (find_scope_resolves m M key n) with (s := s) (x := x); [reflexivity| | | | | |].
  - rewrite Eh, Ee. exact Hr.
  - rewrite Es, Ee. exact Hk.
  - exact Nb.
  - exact Nl.
  - rewrite Es. exact Hs.
  - unfold chain. destruct L as (_ & _ & _ & -> & _). exact Rs.
Qed.
(** Setting a property. *)
Lemma look_set_v m S C A SC LP T la h o key n v h' : look m S C A SC LP T la h -> to_string (h_st h) mext key = OK (Some n) -> obj_set_v h mext o key v = OK (h', E_OK) ->
  exists m', set_v m o key v = OK m' /\ look m' S C A SC LP T la h'.
Proof.
  intros L Hk E. destruct (look_st _ _ _ _ _ _ _ _ _ L) as [Es Ee]. pose proof (look_h _ _ _ _ _ _ _ _ _ L) as Eh.
  unfold set_v. rewrite Es, Ee, Eh, Hk. cbn [bind]. rewrite E. cbn [bind]. eexists. split; [reflexivity|]. eapply look_heap. exact L.
Qed.
Lemma look_own m S C A SC LP T la h M o oa mp key n : look m S C A SC LP T la h -> hrep h mext M -> holds (h_st h) mext key n ->
  bytes_ok n -> zlen n < 2 ^ 31 -> zlen (so (h_st h)) < 2 ^ 48 -> refers o oa -> M oa = Some mp ->
  exists a, own_v m o key = OK (m, a) /\ match lookup mp n with Some x => a <> 0 | None => a = 0 end.
Proof.
  intros L Hr Hk Nb Nl Hs Rf Em. destruct (look_st _ _ _ _ _ _ _ _ _ L) as [Es Ee]. pose proof (look_h _ _ _ _ _ _ _ _ _ L) as Eh.
  apply (own_v_spec m M key n) with (o := oa); rewrite ?Es, ?Ee, ?Eh; assumption.
Qed.
Lemma g_create i op S C A SC LP T la h h' M o oa mp key n : code_at bp i [OP_CREATE] -> hrep h mext M -> holds (h_st h) mext key n ->
  bytes_ok n -> zlen n < 2 ^ 31 -> zlen (so (h_st h)) < 2 ^ 48 -> refers o oa -> M oa = Some mp ->
  match lookup mp n with Some _ => h' = h | None => obj_set_v h mext o key V_UNDEFINED = OK (h', E_OK) end ->
  go (cf' i op (o :: key :: S) C A SC LP T la h) (cf' (i + 1) OP_CREATE S C A SC LP T la h').
Proof.
  intros Ca0 Hr Hk Nb Nl Hs Rf Em Hx; revert Ca0. start (@nil Z).
  destruct (look_pop _ _ _ _ _ _ _ _ _ _ L) as (m1 & Ep & L1). destruct (look_pop _ _ _ _ _ _ _ _ _ _ L1) as (m2 & Ep2 & L2).
  destruct (look_own _ _ _ _ _ _ _ _ _ M o oa mp key n L2 Hr Hk Nb Nl Hs Rf Em) as (a & Eo & Qa).
  assert (In : forall exec k, instr w exec k m bp i OP_CREATE op =
    if a =? 0 then m <- set_v m2 o key V_UNDEFINED ;; OK (Go m bp i) else OK (Go m2 bp i)).
  { intros exec k. change (instr w exec k m bp i OP_CREATE op) with
      (let '(obj, m) := pop m in let '(key, m) := pop m in '(m, p) <- own_v m obj key ;;
       if p =? 0 then m <- set_v m obj key V_UNDEFINED ;; OK (Go m bp i) else OK (Go m bp i)).
    rewrite Ep, Ep2, Eo. reflexivity. }
  destruct (lookup mp n).
  - subst h'. exists m2, i. split; [|split; [idx|exact L2]]. intros exec k. rewrite In. replace (a =? 0) with false by lia. reflexivity.
  - subst a. destruct (look_set_v _ _ _ _ _ _ _ _ _ o key n V_UNDEFINED h' L2 (to_string_holds _ _ _ _ Hk) Hx) as (m3 & E3 & L3). exists m3, i.
    split; [|split; [idx|exact L3]]. intros exec k. rewrite In, E3. reflexivity.
Qed.

(** The next key of an object. *)
Lemma sk_get_in s l j v : sk_live s = l -> nth_error l j = Some v -> sk_get s (- Z.of_nat j - 1) = OK v.
Proof.
  intros <- E. assert (H : (j < length (sk_live s))%nat) by (apply nth_error_Some; congruence). unfold sk_get, vptr, sk_size, zlen. replace (- Z.of_nat j - 1 <? 0) with true by lia.
  replace ((0 <=? Z.of_nat (length (sk_live s)) + (- Z.of_nat j - 1)) && (Z.of_nat (length (sk_live s)) + (- Z.of_nat j - 1) <? Z.of_nat (length (sk_live s)))) with true by lia.
  replace (Z.to_nat (Z.of_nat (length (sk_live s)) - 1 - (Z.of_nat (length (sk_live s)) + (- Z.of_nat j - 1)))) with j by lia.
  f_equal. apply nth_error_nth. exact E.
Qed.
Lemma sk_set_top s x l v : sk_live s = x :: l -> exists s', sk_set s (-1) v = OK s' /\ sk_live s' = v :: l.
Proof.
  intros E. unfold sk_set, vptr, sk_size. rewrite E, zlen_cons. pose proof (zlen_nonneg l). change (-1 <? 0) with true. cbv iota.
  replace ((0 <=? 1 + zlen l + -1) && (1 + zlen l + -1 <? 1 + zlen l)) with true by lia.
  replace (Z.to_nat (1 + zlen l - 1 - (1 + zlen l + -1))) with O by lia. rewrite ?E. eexists. split; reflexivity.
Qed.
Lemma g_for_in_end i op S C A SC LP T la h it ov var : code_at bp i [OP_FOR_IN_NEXT] -> is_object ov = true -> obj_next h ov it = OK (V_UNDEFINED, V_UNDEFINED) ->
  go (cf' i op (it :: ov :: var :: S) C A SC LP T la h) (cf' (i + 1) OP_FOR_IN_NEXT (V_UNDEFINED :: ov :: var :: S) C A SC LP T la h).
Proof.
  intros Ca0 Ho Hn; revert Ca0. start (@nil Z). pose proof L as (Es & _). destruct (sk_set_top _ _ _ V_UNDEFINED Es) as (s' & E' & L').
  exists (set_stack m s'), i. split; [|split; [idx|eapply look_stack; [exact L|exact L']]].
  intros exec k. change (instr w exec k m bp i OP_FOR_IN_NEXT op) with (m <- for_in_next m ;; OK (Go m bp i)). unfold for_in_next.
  pose proof (sk_get_in _ _ 0%nat _ Es eq_refl) as G1. pose proof (sk_get_in _ _ 1%nat _ Es eq_refl) as G2. pose proof (sk_get_in _ _ 2%nat _ Es eq_refl) as G3.
  change (- Z.of_nat 0 - 1) with (-1) in G1. change (- Z.of_nat 1 - 1) with (-2) in G2. change (- Z.of_nat 2 - 1) with (-3) in G3.
  destruct (vptr (m_stack m) (-1)) eqn:Ev; [|unfold sk_get in G1; rewrite Ev in G1; discriminate G1].
  rewrite G2. cbn [bind]. rewrite Ho, G3. cbn [bind]. rewrite G1. cbn [bind]. rewrite (look_h _ _ _ _ _ _ _ _ _ L), Hn. cbn [bind]. rewrite E'. reflexivity.
Qed.
Lemma g_for_in_next i op S C A SC LP T la h it ov var key it' M n s x h' : code_at bp i [OP_FOR_IN_NEXT] -> is_object ov = true -> obj_next h ov it = OK (key, it') ->
  (key =? V_UNDEFINED) = false ->
  hrep h mext M -> holds (h_st h) mext var n -> bytes_ok n -> zlen n < 2 ^ 31 -> zlen (so (h_st h)) < 2 ^ 48 -> resolves M n SC s x ->
  obj_set_v h mext s var key = OK (h', E_OK) ->
  go (cf' i op (it :: ov :: var :: S) C A SC LP T la h) (cf' (i + 1) OP_FOR_IN_NEXT (it' :: ov :: var :: S) C A SC LP T la h').
Proof.
  intros Ca0 Ho Hn Nu Hr Hk Nb Nl Hs Rs Hx; revert Ca0. start (@nil Z). pose proof L as (Es & _). destruct (sk_set_top _ _ _ it' Es) as (s' & E' & L').
  assert (L1 : look (set_stack m s') (it' :: ov :: var :: S) C A SC LP T la h) by (eapply look_stack; [exact L|exact L']).
  destruct (look_set_v _ _ _ _ _ _ _ _ _ s var n key h' L1 (to_string_holds _ _ _ _ Hk) Hx) as (m3 & E3 & L3).
  exists m3, i. split; [|split; [idx|exact L3]].
  intros exec k. change (instr w exec k m bp i OP_FOR_IN_NEXT op) with (m <- for_in_next m ;; OK (Go m bp i)). unfold for_in_next.
  pose proof (sk_get_in _ _ 0%nat _ Es eq_refl) as G1. pose proof (sk_get_in _ _ 1%nat _ Es eq_refl) as G2. pose proof (sk_get_in _ _ 2%nat _ Es eq_refl) as G3.
  change (- Z.of_nat 0 - 1) with (-1) in G1. change (- Z.of_nat 1 - 1) with (-2) in G2. change (- Z.of_nat 2 - 1) with (-3) in G3.
  destruct (vptr (m_stack m) (-1)) eqn:Ev; [|unfold sk_get in G1; rewrite Ev in G1; discriminate G1].
  rewrite G2. cbn [bind]. rewrite Ho, G3. cbn [bind]. rewrite G1. cbn [bind]. rewrite (look_h _ _ _ _ _ _ _ _ _ L), Hn. cbn [bind]. rewrite E'. cbn [bind]. rewrite Nu. cbn [negb].
  destruct (look_st _ _ _ _ _ _ _ _ _ L1) as [Es1 Ee1]. pose proof (look_h _ _ _ _ _ _ _ _ _ L1) as Eh1.
  rewrite (find_scope_resolves (set_stack m s') M var n) with (s := s) (x := x); [cbn [bind]; rewrite E3; reflexivity| | | | | |].
  - rewrite Eh1, Ee1. exact Hr.
  - rewrite Es1, Ee1. exact Hk.
  - exact Nb.
  - exact Nl.
  - rewrite Es1. exact Hs.
  - unfold chain. destruct L1 as (_ & _ & _ & -> & _). exact Rs.
Qed.

(** ** Operators *)
Lemma g_expr i op o S S' C A SC LP T la h h' : code_at bp i [OP_EXPR; o] ->
  (forall m, look m S C A SC LP T la h -> exists m', exec_expr m o = OK m' /\ look m' S' C A SC LP T la h') ->
  go (cf' i op S C A SC LP T la h) (cf' (i + 2) OP_EXPR S' C A SC LP T la h').
Proof.
  intros Ca0 H; revert Ca0. start [o]. destruct (H m L) as (m1 & E & L1). exists m1, (u64 (i + 1)). split; [|split; [idx|exact L1]].
  intros exec k. change (instr w exec k m bp i OP_EXPR op) with
    (match nthz (bp_data bp) (i + 1) with None => UB | Some o => m <- exec_expr m o ;; OK (Go m bp (u64 (i + 1))) end).
  rewrite (at_nth _ _ _ _ (proj2 (at_cons _ _ _ _ Ca))), E. reflexivity.
Qed.

(** ** Loops *)
Lemma g_loop i op S C A SC LP T la h n1 n2 d : code_at bp i (OP_LOOP :: varint n1 ++ varint n2 ++ d) ->
  0 <= n1 -> zlen (varint n2) + zlen d <= n1 -> i + 1 + zlen (varint n1) + n1 <= zlen (bp_data bp) -> 0 <= n2 -> i + 1 + zlen (varint n1) + zlen (varint n2) + n2 <= zlen (bp_data bp) ->
  go (cf' i op S C A SC LP T la h)
     (cf' (i + 1 + zlen (varint n1) + zlen (varint n2)) OP_LOOP S C A SC
        (vnum (i + 1 + zlen (varint n1) + zlen (varint n2) + n2) :: vnum (i + 1 + zlen (varint n1) + n1) :: vnum (zlen SC) :: LP) T la h).
Proof.
  intros Ca0 H1 H2 H3 H4 H5; revert Ca0. start (varint n1 ++ varint n2 ++ d). pose proof (varint_zlen n1). pose proof (varint_zlen n2). pose proof (zlen_nonneg d).
  pose proof (proj2 (at_cons _ _ _ _ Ca)) as Ca'. pose proof (proj2 (at_app _ _ _ _ Ca')) as Ca''. rewrite zlen_cons, !zlen_app in Ca2.
  destruct (look_size _ _ _ _ _ _ _ _ _ L) as (_ & _ & _ & Ez & _). pose proof L as (_ & _ & _ & _ & El & _).
  eexists _, (u64 (i + (zlen (varint n1) + zlen (varint n2)))). split; [|split; [idx|]].
  - intros exec k. change (instr w exec k m bp i OP_LOOP op) with
      ('(o1, l1) <- operand bp (i + 1) ;; '(o2, l2) <- operand bp (i + 1 + l1) ;;
       let lp := sk_push (m_loops m) (vnum (sk_size (m_scopes m))) in
       let lp := sk_push lp (vnum (u64 (i + 1 + l1 + o1))) in
       let lp := sk_push lp (vnum (u64 (i + 1 + l1 + l2 + o2))) in
       OK (Go (set_loops m lp) bp (u64 (i + (l1 + l2))))).
    rewrite (at_operand _ _ _ _ Ca') by lia. cbn [bind]. rewrite (at_operand _ _ _ _ Ca'') by lia. cbn [bind]. cbv zeta. reflexivity.
  - eapply look_loops; [exact L|]. cbn [sk_push sk_live]. rewrite El, Ez, !u64_id by lia. reflexivity.
Qed.
Lemma g_continue i op S C A isc osc LP T la h ct bk : code_at bp i [OP_CONTINUE] -> 0 < ct < 2 ^ 31 -> zlen osc < 2 ^ 31 ->
  go (cf' i op S C A (isc ++ osc) (vnum ct :: bk :: vnum (zlen osc) :: LP) T la h)
     (cf' ct OP_CONTINUE S C A osc (vnum ct :: bk :: vnum (zlen osc) :: LP) T la h).
Proof.
  intros Ca0 Hc Ho; revert Ca0. start (@nil Z). destruct (look_size _ _ _ _ _ _ _ _ _ L) as (_ & _ & _ & Ez & Ey). pose proof L as (_ & _ & _ & Es & El & _).
  pose proof (zlen_nonneg LP). pose proof (zlen_nonneg osc). pose proof (zlen_nonneg isc).
  eexists _, (u64 (ct - 1)). split; [|split; [idx|]].
  - intros exec k. change (instr w exec k m bp i OP_CONTINUE op) with ('(m, i) <- do_continue m i ;; OK (Go m bp i)). unfold do_continue.
    rewrite Ey. replace (3 <=? zlen (vnum ct :: bk :: vnum (zlen osc) :: LP)) with true by (rewrite !zlen_cons; lia).
    assert (G3 : sk_get (m_loops m) (-3) = OK (vnum (zlen osc))).
    { unfold sk_get, vptr. rewrite Ey, !zlen_cons. change (-3 <? 0) with true. cbv iota.
      replace ((0 <=? 1 + (1 + (1 + zlen LP)) + -3) && (1 + (1 + (1 + zlen LP)) + -3 <? 1 + (1 + (1 + zlen LP)))) with true by lia.
      replace (Z.to_nat (1 + (1 + (1 + zlen LP)) - 1 - (1 + (1 + (1 + zlen LP)) + -3))) with 2%nat by lia. rewrite El. reflexivity. }
    rewrite G3. cbn [bind]. rewrite get_int_vnum by lia. cbn [bind]. rewrite Ez, zlen_app, size_of_int_id by lia.
    replace (zlen isc + zlen osc <? zlen osc) with false by lia. rewrite (set_len_live _ _ isc osc Es eq_refl). cbn [bind].
    unfold sk_top. rewrite El. rewrite get_int_vnum by lia. cbn [bind]. reflexivity.
  - eapply look_scopes; [exact L|reflexivity].
Qed.
Lemma g_break i op S C A isc osc LP T la h ct bk : code_at bp i [OP_BREAK] -> 0 < bk < 2 ^ 31 -> zlen osc < 2 ^ 31 ->
  go (cf' i op S C A (isc ++ osc) (ct :: vnum bk :: vnum (zlen osc) :: LP) T la h)
     (cf' bk OP_BREAK S C A osc LP T la h).
Proof.
  intros Ca0 Hc Ho; revert Ca0. start (@nil Z). destruct (look_size _ _ _ _ _ _ _ _ _ L) as (_ & _ & _ & Ez & Ey). pose proof L as (_ & _ & _ & Es & El & _).
  pose proof (zlen_nonneg LP). pose proof (zlen_nonneg osc). pose proof (zlen_nonneg isc).
  eexists _, (u64 (bk - 1)). split; [|split; [idx|]].
  - intros exec k. change (instr w exec k m bp i OP_BREAK op) with ('(m, i) <- do_break m i ;; OK (Go m bp i)). unfold do_break.
    rewrite Ey. replace (3 <=? zlen (ct :: vnum bk :: vnum (zlen osc) :: LP)) with true by (rewrite !zlen_cons; lia).
    unfold sk_pop. rewrite El. cbn [bind sk_live sk_stale sk_cap]. rewrite get_int_vnum by lia. cbn [bind sk_live sk_stale sk_cap]. rewrite get_int_vnum by lia. cbn [bind].
    rewrite Ez, zlen_app, size_of_int_id by lia.
    replace (zlen isc + zlen osc <? zlen osc) with false by lia. rewrite (set_len_live _ _ isc osc Es eq_refl). cbn [bind]. reflexivity.
  - eapply look_scopes; [eapply look_loops; [exact L|reflexivity]|reflexivity].
Qed.

(** ** Calls *)
Lemma g_args i op S C A SC LP T la h : code_at bp i [OP_ARGS] ->
  go (cf' i op S C A SC LP T la h)
     (cf' (i + 1) OP_ARGS S C (vnum (zlen S) :: (if op =? OP_GET then la else V_UNDEFINED) :: A) SC LP T (if op =? OP_GET then la else V_UNDEFINED) h).
Proof.
  start (@nil Z). set (m1 := if op =? OP_GET then m else set_last m V_UNDEFINED).
  assert (L1 : look m1 S C A SC LP T (if op =? OP_GET then la else V_UNDEFINED) h).
  { unfold m1. destruct (op =? OP_GET); [exact L|eapply look_last; exact L]. }
  exists (set_arg m1 (sk_push (sk_push (m_arg m1) (m_last m1)) (vnum (sk_size (m_stack m1))))), i. split; [intros; reflexivity|]. split; [idx|].
  eapply look_arg; [exact L1|]. destruct (look_size _ _ _ _ _ _ _ _ _ L1) as (Ez & _). cbn [sk_push sk_live]. rewrite Ez.
  destruct L1 as (_ & _ & -> & _ & _ & _ & -> & _). reflexivity.
Qed.
End Part.
End Go.

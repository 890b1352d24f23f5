(** Executing the code of a tree. *)
From Verif Require Import Base BaseFacts Value_Model Value_Spec Value_Proofs Str_Model Str_Spec Str_Proofs Str_Proofs2 Float_Proofs
  Ops_Model Ops_Spec Ops_Proofs Ops_Proofs2 TokNum_Model Txt_Model Obj_Model Obj_Spec Obj_Proofs Conv_Model Varint_Model Bcode_Model Bcode_Proofs Vm_Model Vm_Spec Vm_Proofs Vm_Proofs4
  Tok_Spec Num_Model Parse_Model Expr_Spec Run_Spec Lit_Proofs Expr_Proofs1 Expr_Proofs3 Expr_Proofs4.
Ltac Zify.zify_post_hook ::= Z.div_mod_to_equations.

(** Trees a derivation can produce. *)
Fixpoint wf_expr (e : expr) : Prop :=
  match e with
  | EInt n => 0 <= n < 2 ^ 63
  | EDec txt p => literal txt p /\ forall q, num_stop q -> fst (strtod (txt ++ q)) = p
  | EStr s => bytes_ok s
  | EUn op e => In op prefix_ops /\ wf_expr e
  | EBin op a b => (1 <= prec op <= 8)%nat /\ wf_expr a /\ wf_expr b
  | EAnd a b | EOr a b => wf_expr a /\ wf_expr b
  | ECond c a b => wf_expr c /\ wf_expr a /\ wf_expr b
  | _ => True
  end.

Lemma env_effect m m' M env n : effect m m' n -> env_ok m M env -> env_ok m' M env.
Proof.
  intros Ef (H & V). pose proof (effect_ext _ _ _ Ef) as Ee. destruct Ef as (F & Hh & G & _). split.
  - rewrite Hh, Ee. apply hrep_grows; [exact H|exact G].
  - intros x a Hx. destruct (V x a Hx) as (N & A & s & v & Rs & T & Rp). split; [exact N|]. split; [exact A|]. exists s, v.
    split; [|split; [exact T|rewrite Ee; eapply rep_grows; eassumption]].
    destruct F as (_ & _ & Fs & _). unfold chain. rewrite Fs. exact Rs.
Qed.

Lemma next_shift c c' d1 d2 : next_code c (d1 ++ d2) -> k_bp c' = k_bp c -> k_i c' = k_i c + zlen d1 -> next_code c' d2.
Proof.
  intros (pre & rest & E & Ei) B I. exists (pre ++ d1), rest. rewrite B, I, zlen_app, Ei. split; [|reflexivity].
  rewrite E, <- !app_assoc. reflexivity.
Qed.
Lemma next_prefix c d1 d2 : next_code c (d1 ++ d2) -> next_code c d1.
Proof. intros (pre & rest & E & Ei). exists pre, (d2 ++ rest). split; [rewrite E, <- app_assoc; reflexivity|exact Ei]. Qed.
Lemma next_len c d : next_code c d -> 0 <= k_i c /\ k_i c + zlen d <= zlen (bp_data (k_bp c)).
Proof.
  intros (pre & rest & E & Ei). rewrite E, !zlen_app, Ei. pose proof (zlen_nonneg pre). pose proof (zlen_nonneg rest). lia.
Qed.

(** Code after which no byte continues a number. *)
Definition follow (c : conf) (d : list Z) : Prop :=
  exists pre rest, bp_data (k_bp c) = pre ++ d ++ rest /\ k_i c = zlen pre /\ num_stop rest.
Definition quiet (d : list Z) : Prop := match d with [] => False | x :: _ => (x <=? 35) = true end.
Lemma fnext c d : follow c d -> next_code c d.
Proof. intros (pre & rest & E & Ei & _). exists pre, rest. split; assumption. Qed.
Lemma follow_op c d1 d2 : next_code c (d1 ++ d2) -> quiet d2 -> follow c d1.
Proof.
  intros (pre & rest & E & Ei) Q. exists pre, (d2 ++ rest). split; [rewrite E, <- app_assoc; reflexivity|]. split; [exact Ei|].
  destruct d2 as [|x d2]; [destruct Q|]. cbn [quiet] in Q. cbn [app num_stop]. unfold ident_char, letter. lia.
Qed.
Lemma follow_shift c c' d1 d2 : follow c (d1 ++ d2) -> k_bp c' = k_bp c -> k_i c' = k_i c + zlen d1 -> follow c' d2.
Proof.
  intros (pre & rest & E & Ei & Q) B I. exists (pre ++ d1), rest. rewrite B, I, zlen_app, Ei. split; [|split; [reflexivity|exact Q]].
  rewrite E, <- !app_assoc. reflexivity.
Qed.
Lemma comp_quiet e d : quiet (comp e ++ d).
Proof.
  revert d. induction e as [z|txt p|s|b| | |x|op e IH|op e1 IH1 e2 IH2|e1 IH1 e2 IH2|e1 IH1 e2 IH2|e1 IH1 e2 IH2 e3 IH3]; intros d;
    cbn [comp]; try exact eq_refl; cbv zeta; rewrite <- ?app_assoc.
  - destruct b; exact eq_refl.
  - apply IH.
  - apply IH1.
  - apply IH1.
  - apply IH1.
  - apply IH1.
Qed.

Section Run.
Context (w : host) (sv : saved).

Lemma steps_app c1 c2 c3 : steps w sv c1 c2 -> steps w sv c2 c3 -> steps w sv c1 c3.
Proof. induction 1 as [c|c a b H S IH]; intros T; [exact T|]. eapply steps_next; [exact H|]. apply IH. exact T. Qed.

(** One instruction that goes on [n] bytes after its opcode. *)
Lemma one c op args m' i' n : next_code c (op :: args) -> zlen (bp_data (k_bp c)) < 2 ^ 31 -> 0 <= n < 2 ^ 32 ->
  (forall exec k, instr w exec k (set_off (k_m c) (k_i c)) (k_bp c) (k_i c) op (k_op c) = OK (Go m' (k_bp c) i')) ->
  u64 i' = k_i c + n -> m_err m' = E_OK ->
  steps w sv c {| k_m := m'; k_bp := k_bp c; k_i := k_i c + n + 1; k_op := op |}.
Proof.
  intros N L Hn I Ei He. pose proof (next_len _ _ N) as NL. rewrite zlen_cons in NL. destruct N as (pre & rest & E & E2). pose proof (zlen_nonneg args).
  eapply steps_next; [intros exec k|apply steps_end].
  rewrite (step_at w sv exec k c pre op (args ++ rest) m' i' E E2 (I exec k) He).
  replace (u64 (i' + 1)) with (k_i c + n + 1); [reflexivity|].
  unfold u64 in *. rewrite Z.add_mod by lia. rewrite Ei. change (1 mod 2 ^ 64) with 1. rewrite Z.mod_small; lia.
Qed.
Lemma operand_next c op n d : next_code c (op :: varint n ++ d) -> 0 <= n < 2 ^ 31 ->
  operand (k_bp c) (k_i c + 1) = OK (n, zlen (varint n)).
Proof.
  intros (pre & rest & E & Ei) Hn. replace (k_i c + 1) with (zlen (pre ++ [op])) by (rewrite zlen_app, Ei; reflexivity).
  apply (operand_at _ _ _ (d ++ rest)); [rewrite E, <- app_assoc; cbn [app]; rewrite <- app_assoc; reflexivity|exact Hn].
Qed.

(** [d] is executed, pushes [a] and takes at most [n] bytes of string memory. *)
Definition pushes (c c' : conf) (d : list Z) (a : aval) (n : Z) : Prop :=
  steps w sv c c' /\ after_code c c' d /\ effect (k_m c) (k_m c') n /\
  exists v, sk_live (m_stack (k_m c')) = v :: sk_live (m_stack (k_m c)) /\ rep (m_st (k_m c')) (m_ext (k_m c')) v a.

Lemma effect_off m i : effect m (set_off m i) 0.
Proof. apply effect_same; [repeat split|reflexivity]. Qed.
Lemma off_effect m i m' n : effect (set_off m i) m' n -> effect m m' n.
Proof. intros H. replace n with (0 + n) by lia. eapply effect_trans; [apply effect_off|exact H]. Qed.

(** Constants. *)
Lemma const_pushes c op v a : next_code c [op] -> zlen (bp_data (k_bp c)) < 2 ^ 31 -> m_err (k_m c) = E_OK ->
  (forall exec k m i p, instr w exec k m (k_bp c) i op p = OK (Go (push m v) (k_bp c) i)) ->
  (forall st ext, rep st ext v a) -> exists c', pushes c c' [op] a 0.
Proof.
  intros N L He I R. pose proof (next_len _ _ N) as NL. change (zlen [op]) with 1 in NL.
  eexists. split; [apply (one c op [] _ _ 0 N L ltac:(lia) (fun exec k => I exec k _ _ _)); [rewrite u64_id; lia|exact He]|].
  split; [split; [reflexivity|cbn [k_i]; change (zlen [op]) with 1; lia]|].
  split; [apply effect_same; [repeat split|reflexivity]|]. exists v. split; [reflexivity|apply R].
Qed.

(** The code of an operator, after its operands. *)
Lemma expr_pushes c c1 d op a n l r :
  steps w sv c c1 -> after_code c c1 d -> effect (k_m c) (k_m c1) n -> m_err (k_m c) = E_OK ->
  next_code c (d ++ [OP_EXPR; op]) -> zlen (bp_data (k_bp c)) < 2 ^ 31 ->
  (exists m', exec_expr (set_off (k_m c1) (k_i c1)) op = OK m' /\ gives (set_off (k_m c1) (k_i c1)) m' l r) ->
  l = sk_live (m_stack (k_m c)) -> a = r -> exists c', pushes c c' (d ++ [OP_EXPR; op]) a (n + val_cost r).
Proof.
  intros St (B & I) Ef He N L (m' & E & v & Ls & Rv & Ef') -> ->.
  pose proof (next_shift c c1 _ _ N B I) as N1. pose proof (next_len _ _ N1) as NL. change (zlen [OP_EXPR; op]) with 2 in NL.
  rewrite <- B in L. destruct N1 as (pre & rest & Ed & Ei).
  assert (X : nthz (bp_data (k_bp c1)) (k_i c1 + 1) = Some op).
  { rewrite Ed. change (pre ++ [OP_EXPR; op] ++ rest) with (pre ++ [OP_EXPR] ++ op :: rest). rewrite app_assoc.
    replace (k_i c1 + 1) with (zlen (pre ++ [OP_EXPR])) by (rewrite zlen_app, Ei; reflexivity). apply nthz_at. }
  assert (In1 : forall exec k, instr w exec k (set_off (k_m c1) (k_i c1)) (k_bp c1) (k_i c1) OP_EXPR (k_op c1) = OK (Go m' (k_bp c1) (u64 (k_i c1 + 1)))).
  { intros exec k. change (instr w exec k (set_off (k_m c1) (k_i c1)) (k_bp c1) (k_i c1) OP_EXPR (k_op c1)) with
      (match nthz (bp_data (k_bp c1)) (k_i c1 + 1) with None => UB
       | Some o => m <- exec_expr (set_off (k_m c1) (k_i c1)) o ;; OK (Go m (k_bp c1) (u64 (k_i c1 + 1))) end).
    rewrite X, E. reflexivity. }
  assert (E1 : m_err m' = E_OK) by (rewrite (effect_err _ _ _ Ef'); cbn [set_off m_err]; rewrite (effect_err _ _ _ Ef); exact He).
  eexists. split; [|split; [|split]].
  - eapply steps_app; [exact St|]. eapply (one c1 OP_EXPR [op] m' (u64 (k_i c1 + 1)) 1); [exists pre, rest; split; assumption|exact L|lia|exact In1| |exact E1].
    rewrite !u64_id; rewrite ?u64_id; lia.
  - split; [exact B|]. cbn [k_i]. rewrite I, zlen_app. change (zlen [OP_EXPR; op]) with 2. lia.
  - eapply effect_trans; [exact Ef|]. eapply off_effect. exact Ef'.
  - exists v. split; [exact Ls|exact Rv].
Qed.

Lemma value_cost env e : forall a n, value env e = Some (a, n) -> 0 <= n.
Proof.
  assert (V : forall a, 0 <= val_cost a) by (intros [| | | |s]; cbn [val_cost]; try lia; unfold str_cost; pose proof (zlen_nonneg s); lia).
  induction e as [z|txt p|s|b| | |x|op e IH|op e1 IH1 e2 IH2|e1 IH1 e2 IH2|e1 IH1 e2 IH2|e1 IH1 e2 IH2 e3 IH3]; intros a n H; cbn [value] in H.
  1,2,4,5,6: (assert (n = 0) by congruence; lia).
  - assert (n = str_cost s) by congruence. unfold str_cost in *. pose proof (zlen_nonneg s). lia.
  - destruct (env x); [|discriminate]. assert (n = str_cost x) by congruence. unfold str_cost in *. pose proof (zlen_nonneg x). lia.
  - destruct (value env e) as [[a1 n1]|]; [|discriminate]. destruct (un_val op a1) as [r|]; [|discriminate].
    specialize (IH _ _ eq_refl). specialize (V r). assert (n = n1 + val_cost r) by congruence. lia.
  - destruct (value env e1) as [[a1 n1]|]; [|discriminate]. destruct (value env e2) as [[a2 n2]|]; [|discriminate].
    destruct (bin_val op a1 a2) as [r|]; [|discriminate]. specialize (IH1 _ _ eq_refl). specialize (IH2 _ _ eq_refl). specialize (V r).
    assert (n = n1 + n2 + val_cost r) by congruence. lia.
  - destruct (value env e1) as [[a1 n1]|]; [|discriminate]. specialize (IH1 _ _ eq_refl). destruct (truthy a1).
    + destruct (value env e2) as [[a2 n2]|]; [|discriminate]. specialize (IH2 _ _ eq_refl). assert (n = n1 + n2) by congruence. lia.
    + assert (n = n1) by congruence. lia.
  - destruct (value env e1) as [[a1 n1]|]; [|discriminate]. specialize (IH1 _ _ eq_refl). destruct (truthy a1).
    + assert (n = n1) by congruence. lia.
    + destruct (value env e2) as [[a2 n2]|]; [|discriminate]. specialize (IH2 _ _ eq_refl). assert (n = n1 + n2) by congruence. lia.
  - destruct (value env e1) as [[a1 n1]|]; [|discriminate]. specialize (IH1 _ _ eq_refl). destruct (truthy a1).
    + destruct (value env e2) as [[a2 n2]|]; [|discriminate]. specialize (IH2 _ _ eq_refl). assert (n = n1 + n2) by congruence. lia.
    + destruct (value env e3) as [[a2 n2]|]; [|discriminate]. specialize (IH3 _ _ eq_refl). assert (n = n1 + n2) by congruence. lia.
Qed.

(** Jumps over [n] bytes. *)
Lemma jmp_steps c n d : next_code c (OP_JMP :: varint n ++ d) -> zlen (bp_data (k_bp c)) < 2 ^ 31 -> m_err (k_m c) = E_OK -> zlen d = n ->
  exists c', steps w sv c c' /\ after_code c c' (OP_JMP :: varint n ++ d) /\ k_m c' = set_off (k_m c) (k_i c).
Proof.
  intros N L He Hd. pose proof (next_len _ _ N) as NL. rewrite zlen_cons, zlen_app in NL. pose proof (zlen_nonneg d). pose proof (zlen_nonneg (varint n)).
  assert (I : forall exec k, instr w exec k (set_off (k_m c) (k_i c)) (k_bp c) (k_i c) OP_JMP (k_op c) =
    OK (Go (set_off (k_m c) (k_i c)) (k_bp c) (u64 (k_i c + (n + zlen (varint n)))))).
  { intros exec k. change (instr w exec k (set_off (k_m c) (k_i c)) (k_bp c) (k_i c) OP_JMP (k_op c)) with
     ('(n, l) <- operand (k_bp c) (k_i c + 1) ;; OK (Go (set_off (k_m c) (k_i c)) (k_bp c) (u64 (k_i c + (n + l))))).
    rewrite (operand_next c OP_JMP n d N) by lia. reflexivity. }
  eexists. split; [apply (one c OP_JMP (varint n ++ d) _ _ (n + zlen (varint n)) N L ltac:(lia) I); [rewrite !u64_id; rewrite ?u64_id; lia|exact He]|].
  split; [|reflexivity]. split; [reflexivity|]. cbn [k_i]. rewrite zlen_cons, zlen_app. lia.
Qed.
Lemma drop_steps c l v : next_code c [OP_DROP] -> zlen (bp_data (k_bp c)) < 2 ^ 31 -> m_err (k_m c) = E_OK ->
  sk_live (m_stack (k_m c)) = v :: l ->
  exists c', steps w sv c c' /\ after_code c c' [OP_DROP] /\ effect (k_m c) (k_m c') 0 /\ sk_live (m_stack (k_m c')) = l.
Proof.
  intros N L He Hs. pose proof (next_len _ _ N) as NL. change (zlen [OP_DROP]) with 1 in NL.
  destruct (pop_cons (set_off (k_m c) (k_i c)) v l Hs) as (s & P & Ls).
  assert (I : forall exec k, instr w exec k (set_off (k_m c) (k_i c)) (k_bp c) (k_i c) OP_DROP (k_op c) =
    OK (Go (set_stack (set_off (k_m c) (k_i c)) s) (k_bp c) (k_i c))).
  { intros exec k. change (instr w exec k (set_off (k_m c) (k_i c)) (k_bp c) (k_i c) OP_DROP (k_op c)) with
     (OK (Go (snd (pop (set_off (k_m c) (k_i c)))) (k_bp c) (k_i c))). rewrite P. reflexivity. }
  eexists. split; [apply (one c OP_DROP [] _ _ 0 N L ltac:(lia) I); [rewrite u64_id; lia|exact He]|].
  split; [split; [reflexivity|cbn [k_i]; change (zlen [OP_DROP]) with 1; lia]|].
  split; [apply effect_same; [repeat split|reflexivity]|exact Ls].
Qed.
(** The jumps that look at the top of the stack; [op] jumps when its truth is [b]. *)
Lemma neutral_steps c op b n d v l a :
  (op = OP_JMP_NEUTRAL_TRUE /\ b = true \/ op = OP_JMP_NEUTRAL_FALSE /\ b = false) ->
  next_code c (op :: varint n ++ d) -> zlen (bp_data (k_bp c)) < 2 ^ 31 -> m_err (k_m c) = E_OK -> zlen d = n ->
  sk_live (m_stack (k_m c)) = v :: l -> rep (m_st (k_m c)) (m_ext (k_m c)) v a ->
  exists c', steps w sv c c' /\ k_bp c' = k_bp c /\
    k_i c' = k_i c + zlen (op :: varint n) + (if Bool.eqb (truthy a) b then n else 0) /\ k_m c' = set_off (k_m c) (k_i c).
Proof.
  intros Ho N L He Hd Ls Rv. pose proof (next_len _ _ N) as NL. rewrite zlen_cons, zlen_app in NL. pose proof (zlen_nonneg d). pose proof (zlen_nonneg (varint n)).
  assert (T : sk_top (m_stack (k_m c)) = v) by (unfold sk_top; rewrite Ls; reflexivity).
  assert (I : forall exec k, instr w exec k (set_off (k_m c) (k_i c)) (k_bp c) (k_i c) op (k_op c) =
    OK (Go (set_off (k_m c) (k_i c)) (k_bp c) (u64 (k_i c + zlen (varint n) + (if Bool.eqb (truthy a) b then n else 0))))).
  { intros exec k. destruct Ho as [[-> ->]|[-> ->]].
    - change (instr w exec k (set_off (k_m c) (k_i c)) (k_bp c) (k_i c) OP_JMP_NEUTRAL_TRUE (k_op c)) with
       ('(n, l) <- operand (k_bp c) (k_i c + 1) ;; t <- is_truthy (m_st (k_m c)) (sk_top (m_stack (k_m c))) ;;
        OK (Go (set_off (k_m c) (k_i c)) (k_bp c) (if t : bool then u64 (k_i c + l + n) else u64 (k_i c + l)))).
      rewrite (operand_next c _ n d N) by lia. cbn [bind]. rewrite T, (rep_truthy _ _ _ _ Rv). cbn [bind].
      destruct (truthy a); cbn [Bool.eqb]; rewrite ?Z.add_0_r; reflexivity.
    - change (instr w exec k (set_off (k_m c) (k_i c)) (k_bp c) (k_i c) OP_JMP_NEUTRAL_FALSE (k_op c)) with
       ('(n, l) <- operand (k_bp c) (k_i c + 1) ;; t <- is_truthy (m_st (k_m c)) (sk_top (m_stack (k_m c))) ;;
        OK (Go (set_off (k_m c) (k_i c)) (k_bp c) (if t : bool then u64 (k_i c + l) else u64 (k_i c + l + n)))).
      rewrite (operand_next c _ n d N) by lia. cbn [bind]. rewrite T, (rep_truthy _ _ _ _ Rv). cbn [bind].
      destruct (truthy a); cbn [Bool.eqb]; rewrite ?Z.add_0_r; reflexivity. }
  eexists. split; [apply (one c op (varint n ++ d) _ _ (zlen (varint n) + (if Bool.eqb (truthy a) b then n else 0)) N L ltac:(destruct (Bool.eqb _ _); lia) I);
    [destruct (Bool.eqb (truthy a) b); rewrite !u64_id; rewrite ?u64_id; lia|exact He]|].
  split; [reflexivity|]. split; [|reflexivity]. cbn [k_i]. rewrite zlen_cons. lia.
Qed.
(** OP_JMP_FALSE takes the value; when it jumps it leaves undefined. *)
Lemma jmp_false_steps c n d v l a : next_code c (OP_JMP_FALSE :: varint n ++ d) -> zlen (bp_data (k_bp c)) < 2 ^ 31 -> m_err (k_m c) = E_OK -> zlen d = n ->
  sk_live (m_stack (k_m c)) = v :: l -> rep (m_st (k_m c)) (m_ext (k_m c)) v a ->
  exists c', steps w sv c c' /\ k_bp c' = k_bp c /\ effect (k_m c) (k_m c') 0 /\
    k_i c' = k_i c + zlen (OP_JMP_FALSE :: varint n) + (if truthy a then 0 else n) /\
    sk_live (m_stack (k_m c')) = (if truthy a then l else V_UNDEFINED :: l).
Proof.
  intros N L He Hd Ls Rv. pose proof (next_len _ _ N) as NL. rewrite zlen_cons, zlen_app in NL. pose proof (zlen_nonneg d). pose proof (zlen_nonneg (varint n)).
  destruct (pop_cons (set_off (k_m c) (k_i c)) v l Ls) as (s & P & Ls1).
  set (m1 := set_stack (set_off (k_m c) (k_i c)) s) in *.
  assert (I : forall exec k, instr w exec k (set_off (k_m c) (k_i c)) (k_bp c) (k_i c) OP_JMP_FALSE (k_op c) =
    OK (Go (if truthy a then m1 else push m1 V_UNDEFINED) (k_bp c) (u64 (k_i c + zlen (varint n) + (if truthy a then 0 else n))))).
  { intros exec k. change (instr w exec k (set_off (k_m c) (k_i c)) (k_bp c) (k_i c) OP_JMP_FALSE (k_op c)) with
     ('(n, l) <- operand (k_bp c) (k_i c + 1) ;;
      let '(v, m) := pop (set_off (k_m c) (k_i c)) in
      t <- is_truthy (m_st m) v ;;
      OK (if t : bool then Go m (k_bp c) (u64 (k_i c + l)) else Go (push m V_UNDEFINED) (k_bp c) (u64 (k_i c + l + n)))).
    rewrite (operand_next c _ n d N) by lia. cbn [bind]. rewrite P. change (m_st m1) with (m_st (k_m c)). rewrite (rep_truthy _ _ _ _ Rv). cbn [bind].
    destruct (truthy a); rewrite ?Z.add_0_r; reflexivity. }
  eexists. split; [apply (one c OP_JMP_FALSE (varint n ++ d) _ _ (zlen (varint n) + (if truthy a then 0 else n)) N L ltac:(destruct (truthy a); lia) I);
    [destruct (truthy a); rewrite !u64_id; rewrite ?u64_id; lia|destruct (truthy a); exact He]|].
  split; [reflexivity|]. split; [destruct (truthy a); apply effect_same; repeat split|].
  split; [cbn [k_i]; rewrite zlen_cons; lia|]. cbn [k_m]. destruct (truthy a); [exact Ls1|]. unfold push. cbn [set_stack m_stack sk_push sk_live].
  change (m_stack m1) with s. rewrite Ls1. reflexivity.
Qed.

Definition evals (e : expr) : Prop := forall env a n c M,
  value env e = Some (a, n) -> follow c (comp e) -> zlen (bp_data (k_bp c)) < 2 ^ 31 -> m_err (k_m c) = E_OK ->
  env_ok (k_m c) M env -> zlen (so (m_st (k_m c))) + n < 2 ^ 48 -> exists c', pushes c c' (comp e) a n.

Lemma effect_room m m' n k0 : effect m m' n -> zlen (so (m_st m)) + (n + k0) < 2 ^ 48 -> zlen (so (m_st m')) + k0 < 2 ^ 48.
Proof. intros (_ & _ & _ & L) H. lia. Qed.
Lemma effect_rep m m' n v a : effect m m' n -> rep (m_st m) (m_ext m) v a -> rep (m_st m') (m_ext m') v a.
Proof. intros Ef H. rewrite (effect_ext _ _ _ Ef). destruct Ef as (_ & _ & G & _). eapply rep_grows; eassumption. Qed.

Theorem comp_evals e : wf_expr e -> evals e.
Proof.
  induction e as [z|txt p|s|b| | |x|op e IH|op e1 IH1 e2 IH2|e1 IH1 e2 IH2|e1 IH1 e2 IH2|e1 IH1 e2 IH2 e3 IH3];
    intros W env a n c M H NF L He V Hs; cbn [value] in H; cbn [comp] in NF |- *; pose proof (fnext _ _ NF) as N; cbn [wf_expr] in W;
    pose proof (zlen_nonneg (so (m_st (k_m c)))) as Ps.
  - (* integers *)
    assert (a = ANum (of_int z) /\ n = 0) as [-> ->] by (split; congruence).
    pose proof (next_len _ _ N) as NL. rewrite zlen_cons in NL. pose proof (zlen_nonneg (varint z)).
    assert (I : forall exec k, instr w exec k (set_off (k_m c) (k_i c)) (k_bp c) (k_i c) OP_PUSH_INT (k_op c) =
      OK (Go (push (set_off (k_m c) (k_i c)) (d_of_Z z)) (k_bp c) (u64 (k_i c + zlen (varint z))))).
    { intros exec k. change (instr w exec k (set_off (k_m c) (k_i c)) (k_bp c) (k_i c) OP_PUSH_INT (k_op c)) with
       ('(n, l) <- varint_decode_unsafe (skipn (Z.to_nat (k_i c + 1)) (bp_data (k_bp c))) ;;
        OK (Go (push (set_off (k_m c) (k_i c)) (mk_number (d_of_Z (Ops_Model.s64 n)))) (k_bp c) (u64 (k_i c + l)))).
      destruct N as (pre & rest & Ed & Ei). rewrite Ed.
      replace (k_i c + 1) with (zlen (pre ++ [OP_PUSH_INT])) by (rewrite zlen_app, Ei; reflexivity).
      change (pre ++ (OP_PUSH_INT :: varint z) ++ rest) with (pre ++ [OP_PUSH_INT] ++ varint z ++ rest). rewrite app_assoc, skipn_zlen, varint_decodes.
      cbn [bind]. rewrite u64_id by lia. rewrite s64_small by lia. destruct (d_of_Z_valid z) as (_ & _ & ->). reflexivity. }
    eexists. split; [apply (one c OP_PUSH_INT (varint z) _ _ (zlen (varint z)) N L ltac:(lia) I); [rewrite !u64_id; rewrite ?u64_id; lia|exact He]|].
    split; [split; [reflexivity|cbn [k_i]; rewrite zlen_cons; lia]|]. split; [apply effect_same; [repeat split|reflexivity]|].
    exists (d_of_Z z). split; [reflexivity|]. destruct (d_of_Z_valid z) as (U & Nb & _). split; [reflexivity|]. split; [exact U|exact Nb].
  - (* fractions *)
    assert (a = ANum p /\ n = 0) as [-> ->] by (split; congruence). destruct W as [Lt Sd]. destruct (literal_number _ _ Lt) as (U & Nb & Mk).
    pose proof (next_len _ _ N) as NL. unfold strb in *. rewrite zlen_cons, zlen_app in NL. pose proof (zlen_nonneg (varint (zlen txt))). pose proof (zlen_nonneg txt).
    assert (I : forall exec k, instr w exec k (set_off (k_m c) (k_i c)) (k_bp c) (k_i c) OP_PUSH_DBL (k_op c) =
      OK (Go (push (set_off (k_m c) (k_i c)) p) (k_bp c) (u64 (k_i c + (zlen (varint (zlen txt)) + zlen txt))))).
    { intros exec k. change (instr w exec k (set_off (k_m c) (k_i c)) (k_bp c) (k_i c) OP_PUSH_DBL (k_op c)) with
       ('(n, l) <- operand (k_bp c) (k_i c + 1) ;;
        let v := fst (strtod (skipn (Z.to_nat (k_i c + 1 + l)) (bp_data (k_bp c)))) in
        OK (Go (push (set_off (k_m c) (k_i c)) (mk_number v)) (k_bp c) (u64 (k_i c + (l + n))))).
      rewrite (operand_next c OP_PUSH_DBL (zlen txt) txt N) by lia. cbn [bind]. cbv zeta.
      destruct NF as (pre & rest & Ed & Ei & Q). rewrite Ed.
      replace (k_i c + 1 + zlen (varint (zlen txt))) with (zlen (pre ++ OP_PUSH_DBL :: varint (zlen txt))) by (rewrite zlen_app, zlen_cons, Ei; lia).
      replace (pre ++ (OP_PUSH_DBL :: varint (zlen txt) ++ txt) ++ rest) with ((pre ++ OP_PUSH_DBL :: varint (zlen txt)) ++ txt ++ rest)
        by (rewrite <- !app_assoc; cbn [app]; rewrite <- !app_assoc; reflexivity).
      rewrite skipn_zlen, (Sd rest Q), Mk. reflexivity. }
    eexists. split; [apply (one c OP_PUSH_DBL (varint (zlen txt) ++ txt) _ _ (zlen (varint (zlen txt)) + zlen txt) N L ltac:(lia) I); [rewrite !u64_id; rewrite ?u64_id; lia|exact He]|].
    split; [split; [reflexivity|cbn [k_i]; rewrite zlen_cons, zlen_app; lia]|]. split; [apply effect_same; [repeat split|reflexivity]|].
    exists p. split; [reflexivity|]. split; [reflexivity|]. split; [exact U|exact Nb].
  - (* strings *)
    assert (a = AStr s /\ n = str_cost s) as [-> ->] by (split; congruence). unfold str_cost in Hs. pose proof (zlen_nonneg s) as Pz.
    destruct N as (pre & rest & Ed & Ei).
    assert (Ed1 : bp_data (k_bp c) = pre ++ OP_PUSH_STR :: varint (zlen s) ++ s ++ rest).
    { rewrite Ed. unfold strb. cbn [app]. rewrite <- app_assoc. reflexivity. }
    destruct (push_str_step w sv c pre s rest Ed1 Ei L W ltac:(lia) He) as (st & v & Mk & St).
    destruct (mk_string_holds (m_st (k_m c)) (m_ext (k_m c)) s W ltac:(lia) ltac:(lia)) as (st' & v' & Mk' & Hh & _).
    assert (st' = st) by congruence. assert (v' = v) by congruence. subst st' v'.
    eexists. split; [eapply steps_next; [exact St|apply steps_end]|].
    split; [split; [reflexivity|cbn [k_i]; unfold strb; rewrite zlen_cons, zlen_app; lia]|].
    split.
    + cbn [k_m]. replace (str_cost s) with (0 + (str_cost s + 0)) by lia. eapply effect_trans; [apply effect_off|]. eapply effect_trans; [|apply effect_stack].
      apply effect_st; [exact (mk_string_grows _ _ _ _ Mk)|]. destruct (mk_string_room _ _ _ _ Mk ltac:(lia)) as [Rm _]. unfold str_cost.
      change (m_st (set_off (k_m c) (k_i c))) with (m_st (k_m c)). lia.
    + exists v. split; [reflexivity|]. split; [exact Hh|exact W].
  - (* booleans *)
    assert (a = ABool b /\ n = 0) as [-> ->] by (split; congruence).
    destruct b; [apply (const_pushes c _ (mk_boolean true) _ N L He)|apply (const_pushes c _ (mk_boolean false) _ N L He)]; intros; reflexivity.
  - assert (a = ANull /\ n = 0) as [-> ->] by (split; congruence). apply (const_pushes c _ V_NULL _ N L He); intros; reflexivity.
  - assert (a = AUndef /\ n = 0) as [-> ->] by (split; congruence). apply (const_pushes c _ V_UNDEFINED _ N L He); intros; reflexivity.
  - (* variables *)
    destruct (env x) as [y|] eqn:Ex; [|discriminate]. assert (a = y /\ n = str_cost x) as [-> ->] by (split; congruence). unfold str_cost in *.
    destruct V as (Hr & V). destruct (V x y Ex) as (Nx & Ax & s & v & Rs & T & Rp).
    assert (Ec : var_bytes x = var_code x) by (unfold var_bytes, var_code, strb; rewrite <- app_assoc; reflexivity). rewrite Ec in *.
    destruct (variable_read_steps w sv c M x s v N L He Hr ltac:(lia) Nx Ax Rs T) as (c' & St & Af & Fr & Ls & _ & _ & Hh & G & Rm).
    assert (Ef : effect (k_m c) (k_m c') (zlen x + 16)) by (split; [exact Fr|split; [exact Hh|split; [exact G|lia]]]).
    exists c'. split; [exact St|]. split; [exact Af|]. split; [exact Ef|]. exists v. split; [exact Ls|]. eapply effect_rep; eassumption.
  - (* prefix operators *)
    destruct W as [Wo W]. specialize (IH W). destruct (value env e) as [[a1 n1]|] eqn:E1; [|discriminate].
    destruct (un_val op a1) as [r|] eqn:Er; [|discriminate]. assert (a = r /\ n = n1 + val_cost r) as [-> ->] by (split; congruence).
    assert (Pr : 0 <= val_cost r) by (destruct r as [| | | |t]; cbn [val_cost]; try lia; unfold str_cost; pose proof (zlen_nonneg t); lia).
    destruct (IH env a1 n1 c M E1 (follow_op _ _ _ N eq_refl) L He V ltac:(lia)) as (c1 & St & Af & Ef & v & Ls & Rv).
    pose proof (effect_room _ _ _ _ Ef Hs) as Rm.
    apply (expr_pushes c c1 (comp e) (unary_code op) r n1 (sk_live (m_stack (k_m c))) r St Af Ef He N L); [|reflexivity|reflexivity].
    apply (un_exec (set_off (k_m c1) (k_i c1)) op v a1 r _ Wo Er Ls Rv). change (zlen (so (m_st (k_m c1))) < 2 ^ 48). lia.
  - (* binary operators *)
    destruct W as [Wo [W1 W2]]. specialize (IH1 W1). specialize (IH2 W2). destruct (value env e1) as [[a1 n1]|] eqn:E1; [|discriminate].
    destruct (value env e2) as [[a2 n2]|] eqn:E2; [|discriminate].
    destruct (bin_val op a1 a2) as [r|] eqn:Er; [|discriminate]. assert (a = r /\ n = n1 + n2 + val_cost r) as [-> ->] by (split; congruence).
    assert (Pr : 0 <= val_cost r) by (destruct r as [| | | |t]; cbn [val_cost]; try lia; unfold str_cost; pose proof (zlen_nonneg t); lia).
    pose proof (value_cost _ _ _ _ E1). pose proof (value_cost _ _ _ _ E2).
    destruct (IH1 env a1 n1 c M E1 (follow_op _ _ _ N (comp_quiet _ _)) L He V ltac:(lia)) as (c1 & St & Af & Ef & v & Ls & Rv).
    assert (N1 : next_code c1 (comp e2 ++ [OP_EXPR; op])) by (destruct Af as [B I]; exact (next_shift _ _ _ _ N B I)).
    assert (L1 : zlen (bp_data (k_bp c1)) < 2 ^ 31) by (destruct Af as [-> _]; exact L).
    assert (He1 : m_err (k_m c1) = E_OK) by (rewrite (effect_err _ _ _ Ef); exact He).
    destruct (IH2 env a2 n2 c1 M E2 (follow_op _ _ _ N1 eq_refl) L1 He1 (env_effect _ _ _ _ _ Ef V)
      ltac:(apply (effect_room _ _ _ _ Ef); lia)) as (c2 & St2 & Af2 & Ef2 & v2 & Ls2 & Rv2).
    pose proof (effect_trans _ _ _ _ _ Ef Ef2) as Ef12.
    rewrite app_assoc in N |- *.
    apply (expr_pushes c c2 (comp e1 ++ comp e2) op r (n1 + n2) (sk_live (m_stack (k_m c))) r); try assumption; try reflexivity.
    + eapply steps_app; eassumption.
    + destruct Af as [B I], Af2 as [B2 I2]. split; [congruence|rewrite zlen_app; lia].
    + apply (bin_exec (set_off (k_m c2) (k_i c2)) op v v2 a1 a2 r _ Wo Er); [cbn [set_off m_stack]; rewrite Ls2, Ls; reflexivity|exact (effect_rep _ _ _ _ _ Ef2 Rv)|exact Rv2|].
      change (zlen (so (m_st (k_m c2))) + val_cost r < 2 ^ 48). apply (effect_room _ _ _ _ Ef12). lia.
  - (* and *)
    destruct W as [W1 W2]. specialize (IH1 W1). specialize (IH2 W2). destruct (value env e1) as [[a1 n1]|] eqn:E1; [|discriminate].
    pose proof (value_cost _ _ _ _ E1).
    assert (Hn : n1 <= n).
    { destruct (truthy a1); [|assert (n = n1) by congruence; lia]. destruct (value env e2) as [[a2 n2]|] eqn:E2; [|discriminate].
      pose proof (value_cost _ _ _ _ E2). assert (n = n1 + n2) by congruence. lia. }
    destruct (IH1 env a1 n1 c M E1 (follow_op _ _ _ N eq_refl) L He V ltac:(lia)) as (c1 & St & Af & Ef & v & Ls & Rv).
    set (nj := 1 + zlen (comp e2)) in *.
    assert (N1 : follow c1 (OP_JMP_NEUTRAL_FALSE :: varint nj ++ OP_DROP :: comp e2)) by (destruct Af as [B I]; exact (follow_shift _ _ _ _ NF B I)).
    assert (L1 : zlen (bp_data (k_bp c1)) < 2 ^ 31) by (destruct Af as [-> _]; exact L).
    assert (He1 : m_err (k_m c1) = E_OK) by (rewrite (effect_err _ _ _ Ef); exact He).
    destruct (neutral_steps c1 OP_JMP_NEUTRAL_FALSE false nj _ v _ a1 (or_intror (conj eq_refl eq_refl)) (fnext _ _ N1) L1 He1
      ltac:(rewrite zlen_cons; reflexivity) Ls Rv) as (c2 & St2 & B2 & I2 & Em).
    assert (Ef2 : effect (k_m c) (k_m c2) n1) by (rewrite Em; replace n1 with (n1 + 0) by lia; eapply effect_trans; [exact Ef|apply effect_off]).
    destruct (truthy a1) eqn:T1; cbn [Bool.eqb] in I2.
    + destruct (value env e2) as [[a2 n2]|] eqn:E2; [|discriminate]. assert (a = a2 /\ n = n1 + n2) as [-> ->] by (split; congruence).
      assert (N2 : follow c2 (OP_DROP :: comp e2)).
      { apply (follow_shift c1 c2 (OP_JMP_NEUTRAL_FALSE :: varint nj)); [exact N1|exact B2|lia]. }
      assert (Ls2 : sk_live (m_stack (k_m c2)) = v :: sk_live (m_stack (k_m c))) by (rewrite Em; exact Ls).
      assert (L2 : zlen (bp_data (k_bp c2)) < 2 ^ 31) by (rewrite B2; exact L1).
      assert (He2 : m_err (k_m c2) = E_OK) by (rewrite (effect_err _ _ _ Ef2); exact He).
      destruct (drop_steps c2 _ v (next_prefix c2 [OP_DROP] (comp e2) (fnext _ _ N2)) L2 He2 Ls2) as (c3 & St3 & Af3 & Ef3 & Ls3).
      assert (Ef13 : effect (k_m c) (k_m c3) n1) by (replace n1 with (n1 + 0) by lia; eapply effect_trans; eassumption).
      assert (N3 : follow c3 (comp e2)) by (destruct Af3 as [B3 I3]; exact (follow_shift c2 c3 [OP_DROP] _ N2 B3 I3)).
      destruct (IH2 env a2 n2 c3 M E2 N3 ltac:(destruct Af3 as [-> _]; exact L2) ltac:(rewrite (effect_err _ _ _ Ef13); exact He)
        (env_effect _ _ _ _ _ Ef13 V) ltac:(apply (effect_room _ _ _ _ Ef13); lia)) as (c4 & St4 & Af4 & Ef4 & v4 & Ls4 & Rv4).
      exists c4. split; [eapply steps_app; [exact St|]; eapply steps_app; [exact St2|]; eapply steps_app; eassumption|].
      split; [|split; [eapply effect_trans; eassumption|exists v4; split; [rewrite Ls4, Ls3; reflexivity|exact Rv4]]].
      destruct Af as [B I], Af3 as [B3 I3], Af4 as [B4 I4]. split; [congruence|].
      change (zlen [OP_DROP]) with 1 in I3. rewrite zlen_cons in I2. rewrite zlen_app, zlen_cons, zlen_app, zlen_cons. lia.
    + assert (a = a1 /\ n = n1) as [-> ->] by (split; congruence).
      exists c2. split; [eapply steps_app; eassumption|]. split.
      * destruct Af as [B I]. split; [congruence|]. rewrite zlen_app, zlen_cons, zlen_app, zlen_cons. rewrite zlen_cons in I2. unfold nj in *. lia.
      * split; [exact Ef2|]. exists v. rewrite Em. split; [exact Ls|exact Rv].
  - (* or *)
    destruct W as [W1 W2]. specialize (IH1 W1). specialize (IH2 W2). destruct (value env e1) as [[a1 n1]|] eqn:E1; [|discriminate].
    pose proof (value_cost _ _ _ _ E1).
    assert (Hn : n1 <= n).
    { destruct (truthy a1); [assert (n = n1) by congruence; lia|]. destruct (value env e2) as [[a2 n2]|] eqn:E2; [|discriminate].
      pose proof (value_cost _ _ _ _ E2). assert (n = n1 + n2) by congruence. lia. }
    destruct (IH1 env a1 n1 c M E1 (follow_op _ _ _ N eq_refl) L He V ltac:(lia)) as (c1 & St & Af & Ef & v & Ls & Rv).
    set (nj := 1 + zlen (comp e2)) in *.
    assert (N1 : follow c1 (OP_JMP_NEUTRAL_TRUE :: varint nj ++ OP_DROP :: comp e2)) by (destruct Af as [B I]; exact (follow_shift _ _ _ _ NF B I)).
    assert (L1 : zlen (bp_data (k_bp c1)) < 2 ^ 31) by (destruct Af as [-> _]; exact L).
    assert (He1 : m_err (k_m c1) = E_OK) by (rewrite (effect_err _ _ _ Ef); exact He).
    destruct (neutral_steps c1 OP_JMP_NEUTRAL_TRUE true nj _ v _ a1 (or_introl (conj eq_refl eq_refl)) (fnext _ _ N1) L1 He1
      ltac:(rewrite zlen_cons; reflexivity) Ls Rv) as (c2 & St2 & B2 & I2 & Em).
    assert (Ef2 : effect (k_m c) (k_m c2) n1) by (rewrite Em; replace n1 with (n1 + 0) by lia; eapply effect_trans; [exact Ef|apply effect_off]).
    destruct (truthy a1) eqn:T1; cbn [Bool.eqb] in I2.
    + assert (a = a1 /\ n = n1) as [-> ->] by (split; congruence).
      exists c2. split; [eapply steps_app; eassumption|]. split.
      * destruct Af as [B I]. split; [congruence|]. rewrite zlen_app, zlen_cons, zlen_app, zlen_cons. rewrite zlen_cons in I2. unfold nj in *. lia.
      * split; [exact Ef2|]. exists v. rewrite Em. split; [exact Ls|exact Rv].
    + destruct (value env e2) as [[a2 n2]|] eqn:E2; [|discriminate]. assert (a = a2 /\ n = n1 + n2) as [-> ->] by (split; congruence).
      assert (N2 : follow c2 (OP_DROP :: comp e2)).
      { apply (follow_shift c1 c2 (OP_JMP_NEUTRAL_TRUE :: varint nj)); [exact N1|exact B2|lia]. }
      assert (Ls2 : sk_live (m_stack (k_m c2)) = v :: sk_live (m_stack (k_m c))) by (rewrite Em; exact Ls).
      assert (L2 : zlen (bp_data (k_bp c2)) < 2 ^ 31) by (rewrite B2; exact L1).
      assert (He2 : m_err (k_m c2) = E_OK) by (rewrite (effect_err _ _ _ Ef2); exact He).
      destruct (drop_steps c2 _ v (next_prefix c2 [OP_DROP] (comp e2) (fnext _ _ N2)) L2 He2 Ls2) as (c3 & St3 & Af3 & Ef3 & Ls3).
      assert (Ef13 : effect (k_m c) (k_m c3) n1) by (replace n1 with (n1 + 0) by lia; eapply effect_trans; eassumption).
      assert (N3 : follow c3 (comp e2)) by (destruct Af3 as [B3 I3]; exact (follow_shift c2 c3 [OP_DROP] _ N2 B3 I3)).
      destruct (IH2 env a2 n2 c3 M E2 N3 ltac:(destruct Af3 as [-> _]; exact L2) ltac:(rewrite (effect_err _ _ _ Ef13); exact He)
        (env_effect _ _ _ _ _ Ef13 V) ltac:(apply (effect_room _ _ _ _ Ef13); lia)) as (c4 & St4 & Af4 & Ef4 & v4 & Ls4 & Rv4).
      exists c4. split; [eapply steps_app; [exact St|]; eapply steps_app; [exact St2|]; eapply steps_app; eassumption|].
      split; [|split; [eapply effect_trans; eassumption|exists v4; split; [rewrite Ls4, Ls3; reflexivity|exact Rv4]]].
      destruct Af as [B I], Af3 as [B3 I3], Af4 as [B4 I4]. split; [congruence|].
      change (zlen [OP_DROP]) with 1 in I3. rewrite zlen_cons in I2. rewrite zlen_app, zlen_cons, zlen_app, zlen_cons. lia.
  - (* conditional *)
    destruct W as [W1 [W2 W3]]. specialize (IH1 W1). specialize (IH2 W2). specialize (IH3 W3).
    destruct (value env e1) as [[a1 n1]|] eqn:E1; [|discriminate]. pose proof (value_cost _ _ _ _ E1).
    destruct (value env (if truthy a1 then e2 else e3)) as [[a2 n2]|] eqn:E2; [|discriminate].
    assert (a = a2 /\ n = n1 + n2) as [-> ->] by (split; congruence). pose proof (value_cost _ _ _ _ E2).
    cbv zeta in NF, N |- *. set (nb := 1 + zlen (comp e3)) in *. set (na := zlen (comp e2) + 1 + zlen (varint nb)) in *.
    destruct (IH1 env a1 n1 c M E1 (follow_op _ _ _ N eq_refl) L He V ltac:(lia)) as (c1 & St & Af & Ef & v & Ls & Rv).
    set (rest := comp e2 ++ OP_JMP :: varint nb ++ OP_DROP :: comp e3) in *.
    assert (N1 : follow c1 (OP_JMP_FALSE :: varint na ++ rest)) by (destruct Af as [B I]; exact (follow_shift _ _ _ _ NF B I)).
    assert (L1 : zlen (bp_data (k_bp c1)) < 2 ^ 31) by (destruct Af as [-> _]; exact L).
    assert (He1 : m_err (k_m c1) = E_OK) by (rewrite (effect_err _ _ _ Ef); exact He).
    set (d1 := comp e2 ++ OP_JMP :: varint nb).
    assert (Er : rest = d1 ++ OP_DROP :: comp e3) by (unfold rest, d1; rewrite <- app_assoc; reflexivity).
    assert (Ld1 : zlen d1 = na) by (unfold d1, na; rewrite zlen_app, zlen_cons; lia).
    assert (N1' : next_code c1 (OP_JMP_FALSE :: varint na ++ d1)).
    { apply (next_prefix c1 _ (OP_DROP :: comp e3)). apply fnext. rewrite Er in N1. rewrite app_assoc in N1. exact N1. }
    destruct (jmp_false_steps c1 na d1 v _ a1 N1' L1 He1 Ld1 Ls Rv) as (c2 & St2 & B2 & Ef2 & I2 & Ls2).
    assert (Ef12 : effect (k_m c) (k_m c2) n1) by (replace n1 with (n1 + 0) by lia; eapply effect_trans; eassumption).
    assert (L2 : zlen (bp_data (k_bp c2)) < 2 ^ 31) by (rewrite B2; exact L1).
    assert (He2 : m_err (k_m c2) = E_OK) by (rewrite (effect_err _ _ _ Ef12); exact He).
    assert (Lr : zlen (comp e1 ++ OP_JMP_FALSE :: varint na ++ rest) = zlen (comp e1) + zlen (OP_JMP_FALSE :: varint na) + na + 1 + zlen (comp e3)).
    { rewrite Er, zlen_app, !zlen_cons, !zlen_app, zlen_cons. lia. }
    destruct (truthy a1).
    + assert (N2 : next_code c2 rest) by (apply (next_shift c1 c2 (OP_JMP_FALSE :: varint na)); [exact (fnext _ _ N1)|exact B2|lia]).
      destruct (IH2 env a2 n2 c2 M E2 (follow_op _ _ _ N2 eq_refl) L2 He2 (env_effect _ _ _ _ _ Ef12 V)
        ltac:(apply (effect_room _ _ _ _ Ef12); lia)) as (c3 & St3 & Af3 & Ef3 & v3 & Ls3 & Rv3).
      assert (N3 : next_code c3 (OP_JMP :: varint nb ++ OP_DROP :: comp e3)) by (destruct Af3 as [B3 I3]; exact (next_shift _ _ _ _ N2 B3 I3)).
      assert (Ef13 : effect (k_m c) (k_m c3) (n1 + n2)) by (eapply effect_trans; eassumption).
      destruct (jmp_steps c3 nb _ N3 ltac:(destruct Af3 as [-> _]; exact L2) ltac:(rewrite (effect_err _ _ _ Ef13); exact He)
        ltac:(rewrite zlen_cons; reflexivity)) as (c4 & St4 & Af4 & Em4).
      exists c4. split; [eapply steps_app; [exact St|]; eapply steps_app; [exact St2|]; eapply steps_app; eassumption|]. split.
      * destruct Af as [B I], Af3 as [B3 I3], Af4 as [B4 I4]. split; [congruence|]. rewrite Lr.
        rewrite !zlen_cons, zlen_app, zlen_cons in I4. unfold na in *. lia.
      * rewrite Em4. split; [replace (n1 + n2) with (n1 + n2 + 0) by lia; eapply effect_trans; [exact Ef13|apply effect_off]|].
        exists v3. split; [cbn [set_off m_stack]; rewrite Ls3, Ls2; reflexivity|exact Rv3].
    + assert (N2 : follow c2 (OP_DROP :: comp e3)).
      { apply (follow_shift c1 c2 (OP_JMP_FALSE :: varint na ++ d1)); [|exact B2|].
        - rewrite Er in N1. rewrite app_assoc in N1. exact N1.
        - rewrite I2, !zlen_cons, zlen_app. lia. }
      destruct (drop_steps c2 _ V_UNDEFINED (next_prefix c2 [OP_DROP] (comp e3) (fnext _ _ N2)) L2 He2 Ls2) as (c3 & St3 & Af3 & Ef3 & Ls3).
      assert (Ef13 : effect (k_m c) (k_m c3) n1) by (replace n1 with (n1 + 0) by lia; eapply effect_trans; eassumption).
      assert (N3 : follow c3 (comp e3)) by (destruct Af3 as [B3 I3]; exact (follow_shift c2 c3 [OP_DROP] _ N2 B3 I3)).
      destruct (IH3 env a2 n2 c3 M E2 N3 ltac:(destruct Af3 as [-> _]; exact L2) ltac:(rewrite (effect_err _ _ _ Ef13); exact He)
        (env_effect _ _ _ _ _ Ef13 V) ltac:(apply (effect_room _ _ _ _ Ef13); lia)) as (c4 & St4 & Af4 & Ef4 & v4 & Ls4 & Rv4).
      exists c4. split; [eapply steps_app; [exact St|]; eapply steps_app; [exact St2|]; eapply steps_app; eassumption|].
      split; [|split; [eapply effect_trans; eassumption|exists v4; split; [rewrite Ls4, Ls3; reflexivity|exact Rv4]]].
      destruct Af as [B I], Af3 as [B3 I3], Af4 as [B4 I4]. split; [congruence|]. rewrite Lr.
      change (zlen [OP_DROP]) with 1 in I3. lia.
Qed.
End Run.

(** Property reads, calls, returns and constants as instructions. *)
From Verif Require Import Base BaseFacts Value_Model Value_Spec Value_Proofs Data_Model Str_Model Str_Spec Str_Proofs Str_Proofs2 Float_Proofs Lit_Proofs
  Ops_Model Ops_Spec Ops_Proofs Ops_Proofs2 TokNum_Model Txt_Model Obj_Model Obj_Spec Obj_Proofs Obj_Proofs2 Conv_Model Num_Model Varint_Model Varint_Proofs Bcode_Model Bcode_Proofs
  Vm_Model Vm_Spec Vm_Proofs Vm_Proofs2 Vm_Proofs4 Tok_Spec Parse_Model Expr_Spec Run_Spec Expr_Proofs1 Expr_Proofs3 Expr_Proofs4 Expr_Proofs5 Lang_Spec Lang_Code Lang_Spec2 Lang_Exec1 Lang_Exec2 Lang_Exec3 Lang_Exec4.
From Coq Require Import ZifyBool.
Ltac Zify.zify_post_hook ::= idtac.


Lemma nth_from_bottom (args base : list Z) r n : 0 <= n < zlen args ->
  nth (Z.to_nat (zlen (args ++ r :: base) - 1 - (zlen base + 1 + n))) (args ++ r :: base) 0 = nth (Z.to_nat n) (rev args) 0.
Proof.
  intros H. rewrite zlen_app, zlen_cons. pose proof (zlen_nonneg base). unfold zlen in *.
  rewrite app_nth1 by lia. rewrite rev_nth by lia. f_equal. lia.
Qed.
Lemma replace_at (xs base : list Z) r v : Vm_Model.replace (xs ++ r :: base) (length xs) v = xs ++ v :: base.
Proof. induction xs as [|x xs IH]; cbn [app length Vm_Model.replace]; [reflexivity|]. rewrite IH. reflexivity. Qed.

Section Calls.
Context (w : host) (sv : saved) (cd : code) (mem : rawmem) (res : list (Z * Z)).
Notation ext := (mext mem).
Notation vrep := (vrep cd ext).
Notation rel := (rel cd ext).
Notation look := (look cd mem res).
Notation go := (go w sv cd mem res).

Lemma sk_get_at s xs r base : sk_live s = xs ++ r :: base -> sk_get s (zlen base) = OK r /\
  forall v, exists s', sk_set s (zlen base) v = OK s' /\ sk_live s' = xs ++ v :: base.
Proof.
  intros L. unfold sk_get, sk_set, vptr, sk_size. rewrite L, !zlen_app, !zlen_cons. pose proof (zlen_nonneg xs). pose proof (zlen_nonneg base).
  replace (zlen base <? 0) with false by lia. replace ((0 <=? zlen base) && (zlen base <? zlen xs + (1 + zlen base))) with true by lia.
  replace (Z.to_nat (zlen xs + (1 + zlen base) - 1 - zlen base)) with (length xs) by (unfold zlen; lia).
  split; [rewrite app_nth2, Nat.sub_diag by lia; reflexivity|]. intros v. eexists. split; [reflexivity|]. cbn [sk_live]. apply replace_at.
Qed.

Section Part.
Context (bp : part) (P : part_of cd bp).
Notation cf' := (Cf bp).
Ltac start d := intros Ca; pose proof (at_len _ _ _ Ca) as [Ca1 Ca2]; pose proof (part_len cd bp P) as (Pl1 & Pl2 & Pl3);
  eapply (go_one _ _ _ _ _ _ _ _ d); [exact Ca|reflexivity|]; unfold looks; cbn [f_bp f_i f_op f_s f_c f_a f_sc f_lp f_t f_la f_h]; intros m L.
Ltac idx := rewrite ?zlen_cons, ?zlen_app in *; change (zlen (@nil Z)) with 0 in *; repeat match goal with |- context [u64 ?e] => rewrite (u64_id e) by lia end; lia.

Lemma g_get W s i op ov o key k v S C A SC LP T la : code_at bp i [OP_GET] ->
  rel W s -> vrep W ov o -> vrep W key k -> member s o k = Some v ->
  exists x, vrep W x v /\ go (cf' i op (ov :: key :: S) C A SC LP T la (w_heap W))
    (cf' (i + 1) OP_GET (x :: S) C A SC LP T (if op =? OP_FIND_SCOPE then V_UNDEFINED else ov) (w_heap W)).
Proof.
  intros Ca0 Rl Hv Vk Hm. destruct (x_get cd mem res W s ov o key k v op S C A SC LP T la Rl Hv Vk Hm) as (x & Hx & H). exists x. split; [exact Hx|].
  revert Ca0. start (@nil Z). destruct (H m L) as (m' & E & L'). exists m', i. split; [|split; [idx|exact L']].
  intros exec k0. change (instr w exec k0 m bp i OP_GET op) with (m <- do_get m op ;; OK (Go m bp i)). rewrite E. reflexivity.
Qed.

Lemma g_call i op xs f fb j base C A SC LP T th la h : code_at bp i [OP_CALL] -> part_of cd fb -> 0 < j < zlen (bp_data fb) ->
  f = mk_function (bp_start fb + j) -> zlen base + 1 < 2 ^ 31 ->
  go (cf' i op (xs ++ f :: base) C (vnum (zlen base + 1) :: th :: A) SC LP T la h)
     (Cf fb j OP_CALL (xs ++ V_UNDEFINED :: base) (vnum (zlen base + 1) :: vnum (zlen LP) :: vnum (zlen SC) :: vnum (bp_start bp + i) :: T :: C) A SC LP th la h).
Proof.
  intros Ca0 Pf Hj Hf Hb; revert Ca0. start (@nil Z). pose proof (zlen_nonneg base). destruct (part_len cd fb Pf) as (Q1 & Q2 & Q3).
  assert (B : 0 <= bp_start fb + j < 2 ^ 48) by lia. destruct (function_round_trip _ B) as [Ad Kd]. rewrite <- Hf in Ad, Kd.
  assert (Uf : is_u64 f) by (rewrite Hf, mk_function_val by exact B; unfold is_u64; lia).
  destruct (kinds f Uf) as (_ & _ & _ & _ & If & _). rewrite Kd in If. cbn [kind_eqb] in If.
  pose proof L as (Ls & Lc & La & Lsc & Llp & Lt & _ & _ & _ & Lcd & _). destruct (look_size _ _ _ _ _ _ _ _ _ _ _ _ L) as (_ & _ & _ & Zsc & Zlp).
  set (a1 := {| sk_live := th :: A; sk_stale := vnum (zlen base + 1) :: sk_stale (m_arg m); sk_cap := sk_cap (m_arg m) |}).
  set (a2 := {| sk_live := A; sk_stale := th :: vnum (zlen base + 1) :: sk_stale (m_arg m); sk_cap := sk_cap (m_arg m) |}).
  destruct (sk_get_at (m_stack m) xs f base Ls) as [Gf Sf]. destruct (Sf V_UNDEFINED) as (s' & Es & Ls').
  set (c' := sk_push (sk_push (sk_push (sk_push (sk_push (m_call m) T) (vnum (bp_start bp + i))) (vnum (zlen SC))) (vnum (zlen LP))) (vnum (zlen base + 1))).
  exists (set_stack (set_call (set_this (set_arg (set_arg m a1) a2) th) c') s'), (j - 1). split; [|split; [idx|]].
  - intros exec k. change (instr w exec k m bp i OP_CALL op) with (do_call w exec k m bp i). unfold do_call.
    assert (Et : sk_top (m_arg m) = vnum (zlen base + 1)) by (unfold sk_top; rewrite La; reflexivity). rewrite Et. cbv zeta.
    rewrite get_int_vnum by lia. cbn [bind]. unfold sk_pop at 1. rewrite La. cbn [bind].
    change (m_stack (set_arg m {| sk_live := th :: A; sk_stale := vnum (zlen base + 1) :: sk_stale (m_arg m); sk_cap := sk_cap (m_arg m) |})) with (m_stack m).
    replace (zlen base + 1 - 1) with (zlen base) by lia. rewrite Gf. cbn [bind]. rewrite If.
    unfold push_frame. cbn [set_arg m_arg sk_pop sk_live sk_stale sk_cap bind m_call m_this m_scopes m_loops].
    rewrite Lt, Zsc, Zlp. cbv zeta. rewrite Ad. rewrite (u64_id (bp_start fb + j - 1)) by lia.
    unfold the_part. cbn [set_call set_this set_arg m_code m_stack]. rewrite Lcd. replace (bp_start fb + j - 1) with (bp_start fb + (j - 1)) by lia.
    rewrite (proj2 (proj2 Pf)) by lia. cbn [bind]. rewrite Es. cbn [bind]. rewrite u64_id by lia. f_equal. f_equal. lia.
  - eapply look_stack; [|exact Ls']. eapply look_call; [eapply look_this; eapply look_arg; [eapply look_arg; [exact L|reflexivity]|reflexivity]|].
    cbn [sk_push sk_live c']. unfold c'. cbn [sk_push sk_live]. rewrite Lc. reflexivity.
Qed.

Lemma g_return i op xs r bp0 i0 base C A isc sc ilp lp T th la h : code_at bp i [OP_RETURN] -> part_of cd bp0 -> 0 <= i0 < zlen (bp_data bp0) ->
  zlen base + 1 < 2 ^ 31 -> zlen sc < 2 ^ 31 -> zlen lp < 2 ^ 31 ->
  go (cf' i op (xs ++ r :: base) (vnum (zlen base + 1) :: vnum (zlen lp) :: vnum (zlen sc) :: vnum (bp_start bp0 + i0) :: T :: C) A (isc ++ sc) (ilp ++ lp) th la h)
     (Cf bp0 (i0 + 1) OP_RETURN (r :: base) C A sc lp T la h).
Proof.
  intros Ca0 P0 Hi Hb Hs Hl; revert Ca0. start (@nil Z). pose proof (zlen_nonneg base). pose proof (zlen_nonneg sc). pose proof (zlen_nonneg lp). destruct (part_len cd bp0 P0) as (Q1 & Q2 & Q3).
  pose proof L as (Ls & Lc & La & Lsc & Llp & Lt & _ & _ & _ & Lcd & _). destruct (look_size _ _ _ _ _ _ _ _ _ _ _ _ L) as (_ & Zc & _ & Zsc & Zlp).
  destruct (shrink_exact (m_scopes m) isc sc Lsc) as (s1 & E1 & L1). destruct (shrink_exact (m_loops m) ilp lp Llp) as (s2 & E2 & L2).
  assert (Ls3 : sk_live (m_stack m) = xs ++ r :: base) by exact Ls.
  pose proof (set_len_live (m_stack m) (zlen base + 1) xs (r :: base) Ls3 ltac:(rewrite zlen_cons; lia)) as E3.
  eexists _, i0. split; [|split; [idx|]].
  - intros exec k. change (instr w exec k m bp i OP_RETURN op) with
      ('(a, m) <- restore_frame m ;; if a =? EXIT_ADDR then OK (Done m) else bp <- the_part m a ;; OK (Go m bp (u64 (a - bp_start bp)))).
    unfold restore_frame. rewrite Zc. rewrite !zlen_cons. pose proof (zlen_nonneg C). replace (_ <? 5) with false by lia.
    unfold sk_pop. rewrite Lc. cbn [bind sk_live sk_stale sk_cap]. rewrite get_int_vnum by lia. cbn [bind sk_live sk_stale sk_cap].
    rewrite get_int_vnum by lia. cbn [bind sk_live sk_stale sk_cap]. rewrite get_int_vnum by lia. cbn [bind sk_live sk_stale sk_cap].
    rewrite get_int_vnum by lia. cbn [bind sk_live sk_stale sk_cap]. rewrite !size_of_int_id by lia. rewrite E1. cbn [bind]. rewrite E2. cbn [bind]. rewrite E3. cbn [bind].
    replace (bp_start bp0 + i0 =? EXIT_ADDR) with false by (unfold EXIT_ADDR; lia).
    unfold the_part. cbn [set_stack set_loops set_scopes set_this set_call m_code]. rewrite Lcd, (proj2 (proj2 P0)) by lia. cbn [bind].
    rewrite u64_id by lia. replace (bp_start bp0 + i0 - bp_start bp0) with i0 by lia. reflexivity.
  - eapply look_stack; [|reflexivity]. eapply look_loops; [|exact L2]. eapply look_scopes; [|exact L1]. eapply look_this. eapply look_call; [exact L|reflexivity].
Qed.

(** SET_ARG stores the argument number [n]. *)
Lemma g_set_arg i op xs r base C' C A x SC LP T la h n p st key h' : code_at bp i (OP_SET_ARG :: varint n ++ varint (zlen p) ++ p) -> 0 <= n < 2 ^ 31 -> C = vnum (zlen base + 1) :: C' ->
  zlen base + 1 < 2 ^ 31 -> mk_string (h_st h) p = OK (st, key) -> holds st ext key p ->
  obj_set_v (with_st h st) ext x key (nth (Z.to_nat n) (rev xs) V_UNDEFINED) = OK (h', E_OK) ->
  go (cf' i op (xs ++ r :: base) C A (x :: SC) LP T la h) (cf' (i + zlen (OP_SET_ARG :: varint n ++ varint (zlen p) ++ p)) OP_SET_ARG (xs ++ r :: base) C A (x :: SC) LP T la h').
Proof.
  intros Ca0 Hn HC Hb Mk Hk Hset; revert Ca0. start (varint n ++ varint (zlen p) ++ p). pose proof (varint_zlen n). pose proof (varint_zlen (zlen p)). pose proof (zlen_nonneg p).
  pose proof (zlen_nonneg base). pose proof (zlen_nonneg xs).
  pose proof (proj2 (at_cons _ _ _ _ Ca)) as Ca'. pose proof (proj2 (at_app _ _ _ _ Ca')) as Cp. pose proof (proj2 (at_app _ _ _ _ Cp)) as Cd. rewrite zlen_cons, !zlen_app in *.
  pose proof (look_set_st _ _ _ _ st _ _ _ _ _ _ _ _ L) as L1. destruct (look_set_v _ _ _ _ _ _ _ _ _ _ _ _ x key p _ h' L1 (to_string_holds _ _ _ _ Hk) Hset) as (m2 & E2 & L2).
  pose proof L1 as (Ls & Lc & _ & Lsc & _). destruct (look_size _ _ _ _ _ _ _ _ _ _ _ _ L1) as (Zs & Zc & _).
  exists m2, (u64 (i + (zlen (varint n) + zlen (varint (zlen p)) + zlen p))). split; [|split; [idx|exact L2]].
  intros exec k. change (instr w exec k m bp i OP_SET_ARG op) with
    ('(an, l1) <- operand bp (i + 1) ;; '(n, l2) <- operand bp (i + l1 + 1) ;; '(m, key) <- code_str m bp (i + 1 + l1 + l2) n ;;
     v <- arg m an ;; m <- set_v m (sk_top (m_scopes m)) key v ;; OK (Go m bp (u64 (i + (l1 + l2 + n))))).
  rewrite (at_operand _ _ _ _ Ca') by lia. cbn [bind]. replace (i + zlen (varint n) + 1) with (i + 1 + zlen (varint n)) by lia.
  rewrite (at_operand _ _ _ _ Cp) by lia. cbn [bind]. unfold code_str. destruct (look_st _ _ _ _ _ _ _ _ _ _ _ _ L) as [Es _].
  replace ((0 <=? zlen p) && (i + 1 + zlen (varint n) + zlen (varint (zlen p)) + zlen p <=? zlen (bp_data bp))) with true by lia.
  assert (Esub : sub (bp_data bp) (i + 1 + zlen (varint n) + zlen (varint (zlen p))) (zlen p) = p).
  { destruct Cd as (pre & rest & E & Ei). rewrite Ei, E. apply sub_app_mid. }
  rewrite Esub, Es, Mk. cbn [bind].
  assert (Ea : arg (set_st m st) n = OK (nth (Z.to_nat n) (rev xs) V_UNDEFINED)).
  { unfold arg, getretvalpos. assert (Gc : sk_get (m_call (set_st m st)) (-1) = OK (vnum (zlen base + 1)) /\ vptr (m_call (set_st m st)) (-1) <> None).
    { unfold sk_get, vptr. rewrite Zc, HC, zlen_cons. pose proof (zlen_nonneg C'). change (-1 <? 0) with true. cbv iota.
      replace ((0 <=? 1 + zlen C' + -1) && (1 + zlen C' + -1 <? 1 + zlen C')) with true by lia. split; [|discriminate].
      replace (Z.to_nat (1 + zlen C' - 1 - (1 + zlen C' + -1))) with 0%nat by lia. rewrite Lc, HC. reflexivity. }
    destruct Gc as [Gc Gp]. destruct (vptr (m_call (set_st m st)) (-1)); [|congruence]. rewrite Gc. cbn [bind].
    assert (Inb : is_number (vnum (zlen base + 1)) = true) by (unfold vnum; destruct (d_of_Z_valid (zlen base + 1)) as (_ & H' & ->); exact H').
    rewrite Inb. cbn [negb]. rewrite get_int_vnum by lia. cbn [bind]. rewrite Zs, zlen_app, zlen_cons.
    replace (zlen base + 1 - 1 <? zlen xs + (1 + zlen base)) with true by lia. cbn [bind]. cbv zeta. replace (zlen base + 1 - 1 + 1) with (zlen base + 1) by lia.
    replace (0 <? zlen base + 1) with true by lia. cbn [andb]. destruct (zlen base + 1 + n <? zlen xs + (1 + zlen base)) eqn:Q.
    - unfold sk_get, vptr. rewrite Zs, zlen_app, zlen_cons. replace (zlen base + 1 + n <? 0) with false by lia.
      replace ((0 <=? zlen base + 1 + n) && (zlen base + 1 + n <? zlen xs + (1 + zlen base))) with true by lia. rewrite Ls. f_equal.
      rewrite <- (nth_indep (rev xs) 0 V_UNDEFINED) by (rewrite rev_length; unfold zlen in *; lia).
      rewrite <- (nth_from_bottom xs base r n) by lia. f_equal. rewrite zlen_app, zlen_cons. lia.
    - f_equal. symmetry. apply nth_overflow. rewrite rev_length. unfold zlen in *; lia. }
  rewrite Ea. cbn [bind]. unfold sk_top. rewrite Lsc. rewrite E2. cbn [bind]. reflexivity.
Qed.
Lemma g_setret i op v xs r base C' A SC LP T la h C : code_at bp i [OP_SETRETVAL] -> C = vnum (zlen base + 1) :: C' -> 4 <= zlen C' ->
  zlen base + 1 < 2 ^ 31 ->
  go (cf' i op (v :: xs ++ r :: base) C A SC LP T la h) (cf' (i + 1) OP_SETRETVAL (xs ++ v :: base) C A SC LP T la h).
Proof.
  intros Ca0 HC H4 Hb; revert Ca0. start (@nil Z). destruct (look_pop _ _ _ _ _ _ _ _ _ _ _ _ _ L) as (m1 & Ep & L1). pose proof (zlen_nonneg base).
  pose proof L1 as (Ls & Lc1 & _). pose proof L as (_ & Lc & _). destruct (look_size _ _ _ _ _ _ _ _ _ _ _ _ L) as (_ & Zc & _).
  destruct (sk_get_at (m_stack m1) xs r base Ls) as [_ Sf]. destruct (Sf v) as (s' & Es & Ls').
  exists (set_stack m1 s'), i. split; [|split; [idx|eapply look_stack; [exact L1|exact Ls']]].
  intros exec k. change (instr w exec k m bp i OP_SETRETVAL op) with (m <- set_retval m ;; OK (Go m bp i)). unfold set_retval. rewrite Zc, HC, zlen_cons.
  replace (1 + zlen C' <? 5) with false by lia.
  assert (Gc : sk_get (m_call m) (-1) = OK (vnum (zlen base + 1))).
  { unfold sk_get, vptr. rewrite Zc, HC, zlen_cons. change (-1 <? 0) with true. cbv iota.
    replace ((0 <=? 1 + zlen C' + -1) && (1 + zlen C' + -1 <? 1 + zlen C')) with true by lia.
    replace (Z.to_nat (1 + zlen C' - 1 - (1 + zlen C' + -1))) with 0%nat by lia. rewrite Lc, HC. reflexivity. }
  rewrite Gc. cbn [bind]. rewrite get_int_vnum by lia. cbn [bind]. rewrite Ep. replace (zlen base + 1 - 1) with (zlen base) by lia. rewrite Es. reflexivity.
Qed.

(** ** Constants *)
Lemma g_plain i op o v S C A SC LP T la h : code_at bp i [o] -> (forall exec k m p, instr w exec k m bp i o p = OK (Go (push m v) bp i)) ->
  go (cf' i op S C A SC LP T la h) (cf' (i + 1) o (v :: S) C A SC LP T la h).
Proof. intros Ca0 H; revert Ca0. start (@nil Z). exists (push m v), i. split; [intros; apply H|]. split; [idx|apply look_push; exact L]. Qed.
Lemma g_const W s s' i op e a n S C A SC LP T la : code_to bp i (comp e) -> constant e -> value (fun _ => None) e = Some (a, n) -> take n s = Some s' -> rel W s ->
  exists st o x, rel (str_world W st) s' /\ later W (str_world W st) /\ vrep (str_world W st) x (VPrim a) /\ o <> OP_GET /\
   go (cf' i op S C A SC LP T la (w_heap W)) (cf' (i + zlen (comp e)) o (x :: S) C A SC LP T la (w_heap (str_world W st))).
Proof.
  intros Ct Ce Hv Ht Rl. destruct (rel_so _ _ W s Rl) as [R1 R2]. pose proof (to_at _ _ _ Ct) as Ca0.
  assert (Same : forall x o, n = 0 -> vrep W x (VPrim a) -> o <> OP_GET ->
     go (cf' i op S C A SC LP T la (w_heap W)) (cf' (i + zlen (comp e)) o (x :: S) C A SC LP T la (w_heap W)) ->
     exists st o x, rel (str_world W st) s' /\ later W (str_world W st) /\ vrep (str_world W st) x (VPrim a) /\ o <> OP_GET /\
   go (cf' i op S C A SC LP T la (w_heap W)) (cf' (i + zlen (comp e)) o (x :: S) C A SC LP T la (w_heap (str_world W st)))).
  { intros x o -> Hx Ho H. exists (w_st W), o, x. rewrite str_same. rewrite take0 in Ht by lia. injection Ht as <-. split; [exact Rl|]. split; [apply later_refl|]. split; [exact Hx|]. split; [exact Ho|exact H]. }
  destruct e as [z|txt p|t|b| | |x|o e|o e1 e2|e1 e2|e1 e2|e1 e2 e3]; cbn [constant] in Ce; try contradiction; cbn [value] in Hv; cbn [comp] in *.
  - injection Hv as <- <-. apply (Same (d_of_Z z) OP_PUSH_INT eq_refl); [|discriminate|].
    { destruct (d_of_Z_valid z) as (U & Nb & _). split; [reflexivity|]. split; [exact U|exact Nb]. }
    revert Ca0. start (varint z). pose proof (varint_zlen z). rewrite zlen_cons in Ca2. exists (push m (d_of_Z z)), (u64 (i + zlen (varint z))).
    split; [|split; [idx|apply look_push; exact L]]. intros exec k. change (instr w exec k m bp i OP_PUSH_INT op) with
       ('(n, l) <- varint_decode_unsafe (skipn (Z.to_nat (i + 1)) (bp_data bp)) ;; OK (Go (push m (mk_number (d_of_Z (Ops_Model.s64 n)))) bp (u64 (i + l)))).
    destruct (at_cons _ _ _ _ Ca) as [_ (pre & rest & E & Ei)]. rewrite Ei, E, skipn_zlen, varint_decodes. cbn [bind]. rewrite u64_id by lia. rewrite s64_small by lia.
    destruct (d_of_Z_valid z) as (_ & _ & ->). reflexivity.
  - injection Hv as <- <-. destruct Ce as [Lt Sd]. destruct (literal_number _ _ Lt) as (U & Nb & Mk).
    apply (Same p OP_PUSH_DBL eq_refl); [split; [reflexivity|]; split; [exact U|exact Nb]|discriminate|].
    unfold strb in *. revert Ca0. start (varint (zlen txt) ++ txt). pose proof (varint_zlen (zlen txt)). pose proof (zlen_nonneg txt). rewrite zlen_cons, zlen_app in Ca2.
    exists (push m p), (u64 (i + (zlen (varint (zlen txt)) + zlen txt))). split; [|split; [idx|apply look_push; exact L]].
    intros exec k. change (instr w exec k m bp i OP_PUSH_DBL op) with
       ('(n, l) <- operand bp (i + 1) ;; let v := fst (strtod (skipn (Z.to_nat (i + 1 + l)) (bp_data bp))) in
        OK (Go (push m (mk_number v)) bp (u64 (i + (l + n))))).
    rewrite (at_operand _ _ _ _ (proj2 (at_cons _ _ _ _ Ca))) by lia. cbn [bind]. cbv zeta.
    destruct Ct as (pre & rest & Ed & Ei & Q). 
    replace (i + 1 + zlen (varint (zlen txt))) with (zlen (pre ++ OP_PUSH_DBL :: varint (zlen txt))) by (rewrite zlen_app, zlen_cons, Ei; lia).
    replace (skipn _ (bp_data bp)) with (txt ++ rest).
    2:{ replace (bp_data bp) with ((pre ++ OP_PUSH_DBL :: varint (zlen txt)) ++ txt ++ rest) by (rewrite Ed, <- !app_assoc; cbn [app]; rewrite <- !app_assoc; reflexivity).
        rewrite skipn_zlen. reflexivity. }
    rewrite (Sd rest Q), Mk. reflexivity.
  - injection Hv as <- <-. unfold str_cost in Ht. destruct (take_some _ _ _ Ht) as (T1 & _). destruct (make_str cd ext W s t Rl Ce ltac:(lia)) as (st & x & Mk & Gr & Rm & Nm).
    exists st, OP_PUSH_STR, x. split; [eapply rel_str; eassumption|]. split; [apply str_later; exact Gr|]. split; [split; [exact Nm|exact Ce]|]. split; [discriminate|].
    apply (g_str w sv cd mem res bp P); [exact Ca0|exact Mk].
  - injection Hv as <- <-. destruct b; [apply (Same (mk_boolean true) OP_PUSH_TRUE eq_refl)|apply (Same (mk_boolean false) OP_PUSH_FALSE eq_refl)]; try reflexivity; try discriminate;
      (apply g_plain; [exact Ca0|intros; reflexivity]).
  - injection Hv as <- <-. apply (Same V_NULL OP_PUSH_NULL eq_refl); [reflexivity|discriminate|]. apply g_plain; [exact Ca0|intros; reflexivity].
  - injection Hv as <- <-. apply (Same V_UNDEFINED OP_PUSH_UNDEF eq_refl); [reflexivity|discriminate|]. apply g_plain; [exact Ca0|intros; reflexivity].
Qed.
End Part.
End Calls.

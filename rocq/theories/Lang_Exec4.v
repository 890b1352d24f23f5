(** The operators, property reads and assignments of the language on represented values. *)
From Verif Require Import Base BaseFacts Value_Model Value_Spec Value_Proofs Data_Model Str_Model Str_Spec Str_Proofs Str_Proofs2 Float_Proofs
  Ops_Model Ops_Spec Ops_Proofs Ops_Proofs2 TokNum_Model Txt_Model Obj_Model Obj_Spec Obj_Proofs Obj_Proofs2 Conv_Model Num_Model Varint_Model Varint_Proofs Bcode_Model Bcode_Proofs
  SUtil_Spec SUtil_Proofs Arr_Model Arr_Spec Arr_Proofs Vm_Model Vm_Spec Vm_Proofs Vm_Proofs2 Vm_Proofs4 Tok_Spec Parse_Model Expr_Spec Run_Spec Expr_Proofs1 Expr_Proofs3 Expr_Proofs4 Expr_Proofs5 Lang_Spec Lang_Code Lang_Spec2 Lang_Exec1 Lang_Key Lang_Exec2 Lang_Exec3.
From Coq Require Import ZifyBool.
Ltac Zify.zify_post_hook ::= idtac.

Lemma str_same W : str_world W (w_st W) = W.
Proof. destruct W as [h a M]. unfold str_world, w_st. cbn [w_heap w_addr w_store]. rewrite with_st_id. reflexivity. Qed.
Lemma take0 s : 0 <= left s -> take 0 s = Some s.
Proof. intros H. unfold take. replace ((0 <=? 0) && (0 <=? left s)) with true by lia. destruct s as [o l]. cbn. f_equal. f_equal. lia. Qed.
Lemma v_same_sym a b : v_same a b = v_same b a.
Proof.
  destruct a as [x|i|i|p k|p], b as [y|j|j|q l|q]; try (destruct x; reflexivity); try (destruct y; reflexivity); try reflexivity.
  - assert (E : forall x y, v_same (VPrim x) (VPrim y) = Some (same x y)) by (intros [] []; reflexivity). rewrite !E, same_sym_ext. reflexivity.
  - cbn [v_same]. rewrite Nat.eqb_sym. reflexivity.
  - cbn [v_same]. rewrite Nat.eqb_sym. reflexivity.
  - cbn [v_same]. rewrite Z.eqb_sym. reflexivity.
Qed.
Lemma name_text_full m key n : holds (m_st m) (m_ext m) key n -> nul_terminated (m_st m) (m_ext m) key n ->
  exists r, name_text m key = OK (Some (n ++ 0 :: r, zlen n)).
Proof.
  intros (U & K & l & G & NP & Rd) (l' & G' & Rd'). assert (l' = l) by congruence. subst l'. unfold name_text.
  assert (S : is_string key = true) by (rewrite (is_string_kind key U), K; reflexivity). rewrite S, G. cbn [bind].
  pose proof (zlen_nonneg n). destruct l as [|o|o|a]; [contradiction| | |].
  - rewrite Rd'. cbn [bind]. exists []. reflexivity.
  - rewrite Rd'. cbn [bind]. exists []. reflexivity.
  - destruct (loc_read (m_st m) (m_ext m) key (PExt a) (zlen n + 16)) as [t| | |] eqn:Q.
    + cbn [bind]. pose proof (loc_read_prefix (m_st m) (m_ext m) key (PExt a) (zlen n + 1) (zlen n + 16) _ t ltac:(lia) Rd' Q) as Pf.
      exists (skipn (Z.to_nat (zlen n + 1)) t). f_equal. f_equal. f_equal.
      rewrite <- (firstn_skipn (Z.to_nat (zlen n + 1)) t) at 1. rewrite Pf, <- app_assoc. reflexivity.
    + exfalso. cbn [loc_read] in Q. destruct (0 <=? zlen n + 16) eqn:P; [discriminate|lia].
    + exfalso. cbn [loc_read] in Q. destruct (0 <=? zlen n + 16) eqn:P; [discriminate|lia].
    + exfalso. cbn [loc_read] in Q. destruct (0 <=? zlen n + 16) eqn:P; [discriminate|lia].
Qed.
Lemma name_text_key m key n : key_of (m_ext m) (m_st m) key n -> exists r, name_text m key = OK (Some (n ++ 0 :: r, zlen n)).
Proof.
  intros [Hk Hs]. destruct (is_string key) eqn:S.
  - destruct (Hs eq_refl) as (H1 & H2 & _). apply name_text_full; assumption.
  - unfold name_text. rewrite S, Hk. cbn [bind]. exists []. reflexivity.
Qed.
Lemma cstr_eq_name n lit r : Forall (fun c => c <> 0) n -> Forall (fun c => c <> 0) lit -> cstr_eq (n ++ 0 :: r) lit = OK (name_eqb n lit).
Proof.
  intros Hn. revert lit. induction Hn as [|c n Hc Hn IH]; intros lit Hl; destruct Hl as [|x lit Hx Hl]; cbn [app cstr_eq].
  - reflexivity.
  - replace (0 =? x) with false by lia. reflexivity.
  - replace (c =? 0) with false by lia. reflexivity.
  - destruct (c =? x) eqn:E.
    + rewrite (IH lit Hl). apply Z.eqb_eq in E. subst x. f_equal. unfold name_eqb. destruct (list_eq_dec Z.eq_dec n lit), (list_eq_dec Z.eq_dec (c :: n) (c :: lit)); congruence.
    + f_equal. symmetry. unfold name_eqb. destruct (list_eq_dec Z.eq_dec (c :: n) (x :: lit)); [exfalso; injection e; lia|reflexivity].
Qed.
Lemma good_bytes n : good_name n = true -> name_ok n /\ bytes_ok n /\ zlen n < 2 ^ 31 /\ Forall (fun c => c <> 0) n.
Proof.
  intros H. split; [apply good_name_ok; exact H|]. unfold good_name in H. apply andb_prop in H. destruct H as [H1 H2]. rewrite forallb_forall in H1.
  split; [|split; [lia|]].
  - apply Forall_forall. intros c Hc. specialize (H1 c Hc). unfold is_byte. lia.
  - apply Forall_forall. intros c Hc. specialize (H1 c Hc). lia.
Qed.

Section Values.
Context (w : host) (sv : saved) (cd : code) (mem : rawmem) (res : list (Z * Z)).
Notation ext := (mext mem).
Notation vrep := (vrep cd ext).
Notation rel := (rel cd ext).
Notation look := (look cd mem res).

(** ** Operators *)
Lemma x_un W s s' v a r op S C A SC LP T la : rel W s -> vrep W v a -> In op prefix_ops -> un_op op a = Some r -> take (v_cost r) s = Some s' ->
  exists st x, rel (str_world W st) s' /\ later W (str_world W st) /\ vrep (str_world W st) x r /\
    forall m, look m (v :: S) C A SC LP T la (w_heap W) -> exists m', exec_expr m (unary_code op) = OK m' /\ look m' (x :: S) C A SC LP T la (w_heap (str_world W st)).
Proof.
  intros Rl Hv Hin Hop Hc. destruct (rel_so _ _ W s Rl) as [R1 R2].
  assert (Same : forall x, vrep W x r -> v_cost r = 0 -> (forall m, look m (v :: S) C A SC LP T la (w_heap W) ->
     exists m', exec_expr m (unary_code op) = OK m' /\ look m' (x :: S) C A SC LP T la (w_heap W)) ->
     exists st x, rel (str_world W st) s' /\ later W (str_world W st) /\ vrep (str_world W st) x r /\
    forall m, look m (v :: S) C A SC LP T la (w_heap W) -> exists m', exec_expr m (unary_code op) = OK m' /\ look m' (x :: S) C A SC LP T la (w_heap (str_world W st))).
  { intros x Hx H0 H. exists (w_st W), x. rewrite str_same. rewrite H0, take0 in Hc by lia. injection Hc as <-. split; [exact Rl|]. split; [apply later_refl|]. split; assumption. }
  unfold prefix_ops in Hin. cbn [In] in Hin.
  repeat match type of Hin with _ \/ _ => destruct Hin as [<-|Hin] | False => destruct Hin end.
  - change (un_op TOK_NOT a) with (Some (VPrim (ABool (negb (v_truthy a))))) in Hop. injection Hop as <-.
    apply (Same (mk_boolean (negb (v_truthy a)))); [reflexivity|reflexivity|]. intros m L.
    change (exec_expr m (unary_code TOK_NOT)) with (let '(a, m) := pop m in t <- is_truthy (m_st m) a ;; OK (push m (mk_boolean (negb t)))).
    destruct (look_pop _ _ _ _ _ _ _ _ _ _ _ _ _ L) as (m1 & Ep & L1). rewrite Ep. destruct (look_st _ _ _ _ _ _ _ _ _ _ _ _ L1) as [-> _].
    change (h_st (w_heap W)) with (w_st W). rewrite (vrep_truthy _ _ W s v a Rl Hv). cbn [bind]. eexists. split; [reflexivity|]. apply look_push. exact L1.
  - destruct a as [a| | | |]; try discriminate Hop.
    change (un_op TOK_TILDA (VPrim a)) with (option_map VPrim (un_val TOK_TILDA a)) in Hop. destruct a as [p| | | |]; try discriminate Hop.
    change (un_val TOK_TILDA (ANum p)) with (match int64_part p with Some n => Some (ANum (canon (of_int (- n - 1)))) | None => None end) in Hop.
    destruct Hv as (-> & U & N). destruct (int64_part p) as [n|] eqn:Ei; [|discriminate Hop]. cbn [option_map] in Hop. rewrite canon_eq in Hop.
    assert (r = VPrim (ANum (mk_number (d_of_Z (Z.lnot n))))).
    { unfold of_int in Hop. unfold d_of_Z. replace (Z.lnot n) with (- n - 1) by (unfold Z.lnot; lia). congruence. }
    subst r. apply (Same (mk_number (d_of_Z (Z.lnot n)))); [apply rep_number; apply d_of_Z_valid|reflexivity|]. intros m L.
    change (exec_expr m (unary_code TOK_TILDA)) with (let '(a, m) := pop m in v <- un_tilda a ;; OK (push m v)).
    destruct (look_pop _ _ _ _ _ _ _ _ _ _ _ _ _ L) as (m1 & Ep & L1). rewrite Ep. unfold un_tilda, get_double. rewrite i64_part, Ei. cbn [bind].
    eexists. split; [reflexivity|]. apply look_push. exact L1.
  - change (un_op TOK_KEYWORD_TYPEOF a) with (Some (VPrim (AStr (v_type a)))) in Hop. injection Hop as <-. cbn [v_cost val_cost] in Hc. unfold str_cost in Hc.
    assert (B : bytes_ok (v_type a)).
    { destruct a as [x| | | |]; [apply type_name_ok| | | |]; (unfold bytes_ok; cbn; repeat (constructor; [unfold is_byte; lia|]); constructor). }
    destruct (take_some _ _ _ Hc) as (T1 & _). destruct (make_str cd ext W s (v_type a) Rl B ltac:(lia)) as (st & x & Mk & Gr & Rm & Nm).
    exists st, x. split; [eapply rel_str; eassumption|]. split; [apply str_later; exact Gr|]. split; [split; [exact Nm|exact B]|]. intros m L.
    change (exec_expr m (unary_code TOK_KEYWORD_TYPEOF)) with
      (let '(a, m) := pop m in t <- get_type a ;; '(st, v) <- mk_string (m_st m) (type_text t) ;; OK (push (set_st m st) v)).
    destruct (look_pop _ _ _ _ _ _ _ _ _ _ _ _ _ L) as (m1 & Ep & L1). rewrite Ep. destruct (vrep_type _ _ W s v a Rl Hv) as (t & -> & Et). cbn [bind]. rewrite Et.
    destruct (look_st _ _ _ _ _ _ _ _ _ _ _ _ L1) as [-> _]. change (h_st (w_heap W)) with (w_st W). rewrite Mk. cbn [bind]. eexists. split; [reflexivity|].
    apply look_push. apply look_set_st. exact L1.
  - destruct a as [a| | | |]; try discriminate Hop.
    change (un_op TOK_MINUS (VPrim a)) with (option_map VPrim (un_val TOK_MINUS a)) in Hop. destruct a as [p| | | |]; try discriminate Hop.
    change (un_val TOK_MINUS (ANum p)) with (Some (ANum (canon (flip p)))) in Hop. cbn [option_map] in Hop. rewrite canon_eq, flip_eq in Hop. injection Hop as <-.
    destruct Hv as (-> & U & N).
    apply (Same (mk_number (d_neg p))); [apply rep_number; unfold d_neg, d_sign, is_u64 in *; destruct (2 ^ 63 <=? p) eqn:E; lia|reflexivity|]. intros m L.
    change (exec_expr m (unary_code TOK_MINUS)) with (let '(a, m) := pop m in OK (push m (un_minus a))).
    destruct (look_pop _ _ _ _ _ _ _ _ _ _ _ _ _ L) as (m1 & Ep & L1). rewrite Ep. eexists. split; [reflexivity|]. apply look_push. exact L1.
  - destruct a as [a| | | |]; try discriminate Hop.
    change (un_op TOK_PLUS (VPrim a)) with (option_map VPrim (un_val TOK_PLUS a)) in Hop. destruct a as [p| | | |]; try discriminate Hop.
    change (un_val TOK_PLUS (ANum p)) with (Some (ANum p)) in Hop. injection Hop as <-. apply (Same v); [exact Hv|reflexivity|]. intros m L. exists m. split; [reflexivity|exact L].
Qed.

Lemma in_list_in x l : In x l -> in_list x l = true.
Proof. intros H. unfold in_list. apply existsb_exists. exists x. split; [exact H|apply Z.eqb_refl]. Qed.
Lemma look_op m S C A SC LP T la W v x op st r : look m S C A SC LP T la (w_heap W) -> do_op (w_st W) ext v x op = OK (st, r, E_OK) ->
  exists m', vm_op m v x op = OK (m', r) /\ look m' S C A SC LP T la (w_heap (str_world W st)).
Proof.
  intros L E. unfold vm_op. destruct (look_st _ _ _ _ _ _ _ _ _ _ _ _ L) as [-> ->]. change (h_st (w_heap W)) with (w_st W). rewrite E. cbn [bind].
  eexists. split; [reflexivity|]. unfold prepend. change (E_OK =? E_OK) with true. cbv iota. apply look_set_st. exact L.
Qed.
Lemma x_bin W s s' v x a b r op S C A SC LP T la : rel W s -> vrep W v a -> vrep W x b -> (1 <= prec op <= 8)%nat -> bin_op op a b = Some r -> take (v_cost r) s = Some s' ->
  exists st y, rel (str_world W st) s' /\ later W (str_world W st) /\ vrep (str_world W st) y r /\
    forall m, look m (x :: v :: S) C A SC LP T la (w_heap W) -> exists m', exec_expr m op = OK m' /\ look m' (y :: S) C A SC LP T la (w_heap (str_world W st)).
Proof.
  intros Rl Hv Hx Hp Hop Hc. destruct (rel_so _ _ W s Rl) as [R1 R2]. destruct (take_some _ _ _ Hc) as (T1 & _).
  assert (Ar : In op arith_ops -> exists st y, rel (str_world W st) s' /\ later W (str_world W st) /\ vrep (str_world W st) y r /\
    forall m, look m (x :: v :: S) C A SC LP T la (w_heap W) -> exists m', exec_expr m op = OK m' /\ look m' (y :: S) C A SC LP T la (w_heap (str_world W st))).
  { intros Hin. destruct (op_val _ _ W s v x a b r op Rl Hv Hx Hin Hop ltac:(lia)) as (st & y & Eo & Gr & Rm & Vy).
    exists st, y. split; [eapply rel_str; eassumption|]. split; [apply str_later; exact Gr|]. split; [exact Vy|]. intros m L.
    destruct (look_pop _ _ _ _ _ _ _ _ _ _ _ _ _ L) as (m1 & Ep & L1). destruct (look_pop _ _ _ _ _ _ _ _ _ _ _ _ _ L1) as (m2 & Ep2 & L2).
    destruct (look_op _ _ _ _ _ _ _ _ _ _ _ _ _ _ L2 Eo) as (m3 & E3 & L3).
    unfold exec_expr. rewrite (in_list_in op arith_ops Hin), Ep, Ep2, E3. cbn [bind]. eexists. split; [reflexivity|]. apply look_push. exact L3. }
  assert (Same : forall y, vrep W y r -> v_cost r = 0 -> (forall m, look m (x :: v :: S) C A SC LP T la (w_heap W) ->
     exists m', exec_expr m op = OK m' /\ look m' (y :: S) C A SC LP T la (w_heap W)) ->
     exists st y, rel (str_world W st) s' /\ later W (str_world W st) /\ vrep (str_world W st) y r /\
    forall m, look m (x :: v :: S) C A SC LP T la (w_heap W) -> exists m', exec_expr m op = OK m' /\ look m' (y :: S) C A SC LP T la (w_heap (str_world W st))).
  { intros y Hy H0 H. exists (w_st W), y. rewrite str_same. rewrite H0, take0 in Hc by lia. injection Hc as <-. split; [exact Rl|]. split; [apply later_refl|]. split; assumption. }
  assert (Eq : forall e, v_same a b = Some e -> forall m, look m (x :: v :: S) C A SC LP T la (w_heap W) ->
     exists m1 m2, pop m = (x, m1) /\ pop m1 = (v, m2) /\ check_equal (m_st m2) (m_ext m2) x v = OK e /\ look m2 S C A SC LP T la (w_heap W)).
  { intros e He m L. destruct (look_pop _ _ _ _ _ _ _ _ _ _ _ _ _ L) as (m1 & Ep & L1). destruct (look_pop _ _ _ _ _ _ _ _ _ _ _ _ _ L1) as (m2 & Ep2 & L2).
    exists m1, m2. split; [exact Ep|]. split; [exact Ep2|]. split; [|exact L2]. destruct (look_st _ _ _ _ _ _ _ _ _ _ _ _ L2) as [-> ->].
    change (h_st (w_heap W)) with (w_st W). rewrite v_same_sym in He. exact (vrep_equal _ _ W s x v b a e Rl Hx Hv He). }
  assert (Cmp : In op [TOK_LT; TOK_LE; TOK_GT; TOK_GE] -> exists st y, rel (str_world W st) s' /\ later W (str_world W st) /\ vrep (str_world W st) y r /\
    forall m, look m (x :: v :: S) C A SC LP T la (w_heap W) -> exists m', exec_expr m op = OK m' /\ look m' (y :: S) C A SC LP T la (w_heap (str_world W st))).
  { intros Hin. destruct a as [a| | | |]; [|destruct Hin as [<-|[<-|[<-|[<-|[]]]]]; discriminate Hop ..].
    destruct b as [b| | | |]; [|destruct Hin as [<-|[<-|[<-|[<-|[]]]]]; discriminate Hop ..].
    assert (Hop' : option_map VPrim (bin_val op a b) = Some r) by (destruct Hin as [<-|[<-|[<-|[<-|[]]]]]; exact Hop).
    assert (Hn : exists p q, a = ANum p /\ b = ANum q /\ r = VPrim (ABool (rel_op p q op))).
    { destruct a as [p| | | |], b as [q| | | |]; try (destruct Hin as [<-|[<-|[<-|[<-|[]]]]]; discriminate Hop').
      exists p, q. split; [reflexivity|]. split; [reflexivity|]. destruct Hin as [<-|[<-|[<-|[<-|[]]]]];
        (unfold bin_val in Hop'; repeat match type of Hop' with context [?x =? ?y] =>
           let v := eval vm_compute in (x =? y) in lazymatch v with true => change (x =? y) with true in Hop' | false => change (x =? y) with false in Hop' end end;
         cbv iota beta delta [orb option_map] in Hop'; injection Hop' as <-; reflexivity). }
    destruct Hn as (p & q & -> & -> & ->). destruct Hv as (-> & _), Hx as (-> & _).
    apply (Same (mk_boolean (rel_op p q op))); [reflexivity|reflexivity|]. intros m L.
    destruct (look_pop _ _ _ _ _ _ _ _ _ _ _ _ _ L) as (m1 & Ep & L1). destruct (look_pop _ _ _ _ _ _ _ _ _ _ _ _ _ L1) as (m2 & Ep2 & L2).
    exists (push m2 (mk_boolean (rel_op p q op))). split; [|apply look_push; exact L2].
    destruct Hin as [<-|[<-|[<-|[<-|[]]]]];
      (match goal with |- exec_expr m ?o = _ => change (exec_expr m o) with (let '(b, m) := pop m in let '(a, m) := pop m in OK (push m (mk_boolean (rel_op (get_double a) (get_double b) o)))) end;
       rewrite Ep, Ep2; reflexivity). }
  pose proof (prec_in op Hp) as Hin. cbn [In] in Hin.
  repeat match type of Hin with _ \/ _ => destruct Hin as [<-|Hin] | False => destruct Hin end;
    try (apply Ar; unfold arith_ops; cbn [In]; intuition congruence); try (apply Cmp; cbn [In]; intuition congruence).
  - destruct a as [a| | | |]; try discriminate Hop. destruct b as [b| | | |]; discriminate Hop.
  - destruct a as [a| | | |]; try discriminate Hop. destruct b as [b| | | |]; discriminate Hop.
  - change (bin_op TOK_EQ_EQ a b) with (option_map (fun r => VPrim (ABool r)) (v_same a b)) in Hop. destruct (v_same a b) as [e|] eqn:Es; [|discriminate Hop].
    injection Hop as <-. apply (Same (mk_boolean e)); [reflexivity|reflexivity|]. intros m L. destruct (Eq e eq_refl m L) as (m1 & m2 & Ep & Ep2 & E2 & L2).
    exists (push m2 (mk_boolean e)). split; [|apply look_push; exact L2].
    change (exec_expr m TOK_EQ_EQ) with (let '(a, m) := pop m in let '(b, m) := pop m in e <- check_equal (m_st m) (m_ext m) a b ;; OK (push m (mk_boolean e))).
    rewrite Ep, Ep2, E2. reflexivity.
  - change (bin_op TOK_NE_NE a b) with (option_map (fun r => VPrim (ABool (negb r))) (v_same a b)) in Hop. destruct (v_same a b) as [e|] eqn:Es; [|discriminate Hop].
    injection Hop as <-. apply (Same (mk_boolean (negb e))); [reflexivity|reflexivity|]. intros m L. destruct (Eq e eq_refl m L) as (m1 & m2 & Ep & Ep2 & E2 & L2).
    exists (push m2 (mk_boolean (negb e))). split; [|apply look_push; exact L2].
    change (exec_expr m TOK_NE_NE) with (let '(a, m) := pop m in let '(b, m) := pop m in e <- check_equal (m_st m) (m_ext m) a b ;; OK (push m (mk_boolean (negb e)))).
    rewrite Ep, Ep2, E2. reflexivity.
Qed.

(** ** Properties *)
Lemma array_object s o : refers s o -> s / 2 ^ 48 = 65532 ->
  is_string s = false /\ is_array s = true /\ is_foreign s = false /\ is_object s = true.
Proof.
  intros Hr T. destruct (refers_object s o Hr) as (I1 & _ & U).
  assert (L : Z.land s TAG_MASK = 65532 * 2 ^ 48).
  { unfold TAG_MASK. rewrite land_mask by exact U. rewrite T. reflexivity. }
  unfold is_string, is_array, is_foreign. rewrite L. repeat split; try reflexivity. exact I1.
Qed.
Lemma prop_read W s i n v ov key : rel W s -> (ov = obj_at W i \/ ov = arr_at W i) -> key_of ext (w_st W) key n -> good_name n = true ->
  prop_of s i n = Some v ->
  exists x, vrep W x v /\ forall fuel, get_v_proto (Datatypes.S fuel) (w_heap W) ext ov key = OK x.
Proof.
  intros Rl Ho Nk Gn Hm. destruct (good_bytes n Gn) as (_ & B1 & B2 & _). unfold prop_of in Hm. destruct (name_eqb n n_apply); [discriminate Hm|].
  destruct (nth_error (objs s) i) as [c|] eqn:Ec; [|discriminate Hm].
  destruct (cell_of _ _ W s i c Rl Ec) as (Hi & mp & Em & Fe). destruct (obj_refers cd ext W s i Rl Hi) as (R1 & R2 & _).
  assert (Rf : refers ov (nth i (w_addr W) 0)) by (destruct Ho as [-> | ->]; assumption).
  pose proof (rel_so _ _ W s Rl) as [Q1 Q2].
  assert (Sm : zlen (so (h_st (w_heap W))) < 2 ^ 48) by (change (h_st (w_heap W)) with (w_st W); lia).
  pose proof (lookup_find _ _ W mp c n Fe) as Qn. pose proof (lookup_find _ _ W mp c n_proto Fe) as Qp.
  assert (St : forall fuel, get_v_proto (Datatypes.S fuel) (w_heap W) ext ov key =
     match lookup mp n with Some x => OK x | None => match lookup mp proto_name with None => OK V_UNDEFINED | Some pv => get_v_proto fuel (w_heap W) ext pv key end end).
  { intros fuel. apply (proto_step_key ext (w_heap W) (w_store W) key n) with (o := nth i (w_addr W) 0); try assumption; [apply Rl|apply Nk]. }
  destruct (find_name c n) as [a|].
  - injection Hm as ->. destruct Qn as (x & El & Hx). exists x. split; [exact Hx|]. intros fuel. rewrite St, El. reflexivity.
  - destruct (find_name c n_proto); [discriminate Hm|]. injection Hm as <-. exists V_UNDEFINED. split; [reflexivity|]. intros fuel. rewrite St, Qn.
    change proto_name with n_proto. rewrite Qp. reflexivity.
Qed.
Lemma not_apply n r : name_eqb n n_apply = false -> (zlen n =? 5) && bytes_eqb (firstn 5 (n ++ r)) (bs "apply") = false.
Proof.
  intros H. apply andb_false_iff. destruct (zlen n =? 5) eqn:Q; [|left; reflexivity]. right.
  assert (E5 : length n = 5%nat) by (unfold zlen in Q; lia). rewrite firstn_app, E5, Nat.sub_diag, firstn_O, app_nil_r, <- E5, firstn_all.
  rewrite name_eqb_bytes in H. exact H.
Qed.
Lemma prop_not_apply s i n v : prop_of s i n = Some v -> name_eqb n n_apply = false.
Proof. unfold prop_of. destruct (name_eqb n n_apply); [discriminate|reflexivity]. Qed.
Lemma vint_num n : vnum n = of_int n.
Proof. exact (proj2 (proj2 (d_of_Z_valid n))). Qed.
Lemma vint_rep W n : vrep W (vnum n) (vint n).
Proof. unfold vint. rewrite <- vint_num. cbn [Lang_Spec2.vrep]. apply rep_number. apply d_of_Z_valid. Qed.
Lemma host_rep W p : 0 <= p < 2 ^ 48 -> foreign_fn p = 65522 * 2 ^ 48 + p -> vrep W (foreign_fn p) (VHost (host_bits p)).
Proof.
  intros Hp E. unfold host_bits. cbn [Lang_Spec2.vrep]. split; [exact E|]. split; [unfold is_u64; lia|].
  assert (U : is_u64 (65522 * 2 ^ 48 + p)) by (unfold is_u64; lia).
  destruct (preds_kind _ U) as (_ & _ & _ & _ & _ & _ & _ & _ & _ & Q). clear Q.
  unfold kind_of. replace ((65522 * 2 ^ 48 + p) / 2 ^ 48) with 65522 by (apply (Z.div_unique _ _ _ p); lia). reflexivity.
Qed.
Lemma dec_name_digit i : 0 <= i < 2 ^ 63 -> exists c r, dec_name i = c :: r /\ 48 <= c <= 57.
Proof.
  intros Hi. destruct (numeral_digits i _ (dec_name_num i ltac:(lia))) as ((D0 & D1) & _). destruct (dec_name i) as [|c r]; [congruence|].
  exists c, r. split; [reflexivity|]. exact (Forall_inv D1).
Qed.
Lemma x_get W s ov o key k v prev S C A SC LP T la : rel W s -> vrep W ov o -> vrep W key k -> member s o k = Some v ->
  exists x, vrep W x v /\ forall m, look m (ov :: key :: S) C A SC LP T la (w_heap W) ->
    exists m', do_get m prev = OK m' /\ look m' (x :: S) C A SC LP T (if prev =? OP_FIND_SCOPE then V_UNDEFINED else ov) (w_heap W).
Proof.
  intros Rl Hv Vk Hm. destruct (rel_so _ _ W s Rl) as [R1 R2].
  assert (Gk : exists n, key_name k = Some n).
  { destruct o as [[| | | |t]|i|i|ps b|p]; cbn [member] in Hm; try discriminate Hm; (destruct (key_name k) as [n|]; [exists n; reflexivity|discriminate Hm]). }
  destruct Gk as (n & Ek). destruct (key_ok cd ext W key k n Vk Ek) as [Gn Nk]. destruct (good_bytes n Gn) as (_ & B1 & B2 & B3).
  (* what the built-in properties give *)
  assert (Bi : forall x, vrep W x v -> (forall m r, look m S C A SC LP T la (w_heap W) -> name_text m key = OK (Some (n ++ 0 :: r, zlen n)) ->
       exists m', getprop_builtin m ov key = OK (m', Some x) /\ look m' S C A SC LP T la (w_heap W)) ->
     exists x, vrep W x v /\ forall m, look m (ov :: key :: S) C A SC LP T la (w_heap W) ->
    exists m', do_get m prev = OK m' /\ look m' (x :: S) C A SC LP T (if prev =? OP_FIND_SCOPE then V_UNDEFINED else ov) (w_heap W)).
  { intros x Hx H. exists x. split; [exact Hx|]. intros m L.
    destruct (look_pop _ _ _ _ _ _ _ _ _ _ _ _ _ L) as (m1 & Ep & L1). destruct (look_pop _ _ _ _ _ _ _ _ _ _ _ _ _ L1) as (m2 & Ep2 & L2).
    destruct (look_st _ _ _ _ _ _ _ _ _ _ _ _ L2) as [Es Ee].
    destruct (name_text_key m2 key n) as (r & Et); [rewrite Es, Ee; exact Nk|].
    destruct (H m2 r L2 Et) as (m3 & E3 & L3). unfold do_get. rewrite Ep, Ep2, E3. cbn [bind]. eexists. split; [reflexivity|]. eapply look_last. apply look_push. exact L3. }
  assert (Ob : forall i, (ov = obj_at W i \/ ov = arr_at W i) -> prop_of s i n = Some v -> is_string ov = false -> is_foreign ov = false -> is_object ov = true ->
     (is_array ov = true -> name_eqb n (bs "splice") = false /\ name_eqb n (bs "push") = false /\ name_eqb n (bs "length") = false) ->
     exists x, vrep W x v /\ forall m, look m (ov :: key :: S) C A SC LP T la (w_heap W) ->
    exists m', do_get m prev = OK m' /\ look m' (x :: S) C A SC LP T (if prev =? OP_FIND_SCOPE then V_UNDEFINED else ov) (w_heap W)).
  { intros i Ho Hp K1 K2 K3 K4. destruct (prop_read W s i n v ov key Rl Ho Nk Gn Hp) as (x & Hx & Gx). exists x. split; [exact Hx|]. intros m L.
    destruct (look_pop _ _ _ _ _ _ _ _ _ _ _ _ _ L) as (m1 & Ep & L1). destruct (look_pop _ _ _ _ _ _ _ _ _ _ _ _ _ L1) as (m2 & Ep2 & L2).
    destruct (look_st _ _ _ _ _ _ _ _ _ _ _ _ L2) as [Es Ee]. pose proof (look_h _ _ _ _ _ _ _ _ _ _ _ _ L2) as Eh.
    destruct (name_text_key m2 key n) as (r & Et); [rewrite Es, Ee; exact Nk|].
    unfold do_get. rewrite Ep, Ep2. unfold getprop_builtin. rewrite Et. cbn [bind]. rewrite K1. rewrite (not_apply n (0 :: r) (prop_not_apply _ _ _ _ Hp)).
    assert (Nb : (if is_array ov then r0 <- getprop_array m2 ov (n ++ 0 :: r) ;; OK (m2, r0) else if is_foreign ov then '(m, v) <- getprop_foreign m2 ov (n ++ 0 :: r) (zlen n) ;; OK (m, Some v) else OK (m2, None)) = OK (m2, None)).
    { rewrite K2. destruct (is_array ov); [|reflexivity]. destruct (K4 eq_refl) as (Q1 & Q2 & Q3).
      unfold getprop_array. rewrite !cstr_eq_name; try exact B3; try (cbn; repeat (constructor; [lia|]); constructor). rewrite Q1, Q2, Q3. reflexivity. }
    rewrite Nb. cbn [bind]. rewrite K3, Es, Ee. change (h_st (w_heap W)) with (w_st W). rewrite (proj1 Nk). cbn [bind]. unfold proto_fuel. rewrite Eh, Gx. cbn [bind]. eexists. split; [reflexivity|].
    eapply look_last. apply look_push. exact L2. }
  destruct o as [a|i|i|ps b|p]; cbn [member] in Hm; try discriminate Hm.
  - destruct a as [ | | | |t]; try discriminate Hm. rewrite Ek in Hm. destruct Hv as [Hv Bt].
    assert (St : forall x, vrep W x v -> (forall r, exists y, getprop_string (w_st W) ext ov (n ++ 0 :: r) (zlen n) = OK (w_st W, y) /\
        match y with GP_val u => Some u | GP_fn SF_char_code_at => Some (foreign_fn F_CHAR_CODE_AT) | GP_fn SF_index_of => Some (foreign_fn F_INDEX_OF)
                   | GP_fn SF_slice => Some (foreign_fn F_SLICE) | GP_no => None end = Some x) ->
       exists x, vrep W x v /\ forall m, look m (ov :: key :: S) C A SC LP T la (w_heap W) ->
    exists m', do_get m prev = OK m' /\ look m' (x :: S) C A SC LP T (if prev =? OP_FIND_SCOPE then V_UNDEFINED else ov) (w_heap W)).
    { intros x Hx H. apply (Bi x Hx). intros m r L Et. destruct (look_st _ _ _ _ _ _ _ _ _ _ _ _ L) as [Es Ee]. destruct (H r) as (y & Ey & Hy).
      unfold getprop_builtin. rewrite Et. cbn [bind]. pose proof Hv as ((U & K & _) & _). rewrite (is_string_kind ov U), K. cbn [kind_eqb].
      rewrite Es, Ee. change (h_st (w_heap W)) with (w_st W). rewrite Ey. cbn [bind]. rewrite Hy. eexists. split; [reflexivity|].
      rewrite <- (with_st_id (w_heap W)). apply look_set_st. exact L. }
    assert (Gp : forall r, getprop_string (w_st W) ext ov (n ++ 0 :: r) (zlen n) =
      if name_eqb n (bs "length") then '(_, n) <- get_string (w_st W) ov ;; OK (w_st W, GP_val (mk_number (d_of_Z n)))
      else if name_eqb n (bs "at") || name_eqb n (bs "charCodeAt") then OK (w_st W, GP_fn SF_char_code_at)
      else if name_eqb n (bs "indexOf") then OK (w_st W, GP_fn SF_index_of)
      else if name_eqb n (bs "slice") then OK (w_st W, GP_fn SF_slice)
      else getprop_string (w_st W) ext ov (n ++ 0 :: r) (zlen n)).
    { intros r. unfold getprop_string at 1.
      change ascii_length with (bs "length"). change ascii_at with (bs "at"). change ascii_charCodeAt with (bs "charCodeAt"). change ascii_indexOf with (bs "indexOf"). change ascii_slice with (bs "slice").
      rewrite !cstr_eq_name; try exact B3; try (cbn; repeat (constructor; [lia|]); constructor). cbn [bind].
      destruct (name_eqb n (bs "length")) eqn:Q1; [reflexivity|]. destruct (name_eqb n (bs "at")) eqn:Q2; [reflexivity|]. cbn [bind orb].
      destruct (name_eqb n (bs "charCodeAt")) eqn:Q3; [reflexivity|]. destruct (name_eqb n (bs "indexOf")) eqn:Q4; [reflexivity|].
      destruct (name_eqb n (bs "slice")) eqn:Q5; [reflexivity|]. unfold getprop_string.
      change ascii_length with (bs "length"). change ascii_at with (bs "at"). change ascii_charCodeAt with (bs "charCodeAt"). change ascii_indexOf with (bs "indexOf"). change ascii_slice with (bs "slice").
      rewrite !cstr_eq_name; try exact B3; try (cbn; repeat (constructor; [lia|]); constructor). cbn [bind]. rewrite Q1, Q2, Q3, Q4, Q5. reflexivity. }
    destruct (name_eqb n (bs "length")) eqn:Q1.
    { injection Hm as <-. apply (St (vnum (zlen t)) (vint_rep W _)). intros r. rewrite Gp. destruct Hv as ((_ & _ & l & G & _) & _). rewrite G. cbn [bind]. eexists. split; reflexivity. }
    destruct (name_eqb n (bs "at") || name_eqb n (bs "charCodeAt")) eqn:Q2.
    { injection Hm as <-. apply (St (foreign_fn F_CHAR_CODE_AT)); [apply host_rep; [unfold F_CHAR_CODE_AT; lia|vm_compute; reflexivity]|]. intros r. rewrite Gp. eexists. split; reflexivity. }
    destruct (name_eqb n (bs "indexOf")) eqn:Q3.
    { injection Hm as <-. apply (St (foreign_fn F_INDEX_OF)); [apply host_rep; [unfold F_INDEX_OF; lia|vm_compute; reflexivity]|]. intros r. rewrite Gp. eexists. split; reflexivity. }
    destruct (name_eqb n (bs "slice")) eqn:Q4.
    { injection Hm as <-. apply (St (foreign_fn F_SLICE)); [apply host_rep; [unfold F_SLICE; lia|vm_compute; reflexivity]|]. intros r. rewrite Gp. eexists. split; reflexivity. }
    destruct (key_index k) as [i|] eqn:Ei; [|discriminate Hm]. destruct (zlen t <? 2 ^ 31) eqn:Lt; [|discriminate Hm]. injection Hm as <-.
    destruct (key_index_int _ _ Ei) as [-> Hi]. assert (n = dec_name i).
    { unfold key_name in Ek. rewrite Ei in Ek. cbn [option_map] in Ek. congruence. }
    subst n. destruct (numeral_digits i _ (dec_name_num i ltac:(lia))) as (D & Dv). destruct Hv as [Hv _].
    destruct (getprop_string_digits (w_st W) ext ov t (dec_name i) Hv Bt ltac:(lia) ltac:(lia) D ltac:(lia)) as (st' & y & E & _ & Hy).
    rewrite Dv, s32_small in Hy by lia.
    assert (Nt : forall m r, look m S C A SC LP T la (w_heap W) -> name_text m key = OK (Some (dec_name i ++ 0 :: r, zlen (dec_name i))) -> r = []).
    { intros m r L Et. destruct Vk as (-> & U & N). unfold name_text in Et. destruct (is_string (of_int i)) eqn:Q.
      - exfalso. destruct (preds_kind (of_int i) U) as (P3 & _ & _ & _ & P4 & _). rewrite P4 in Q. rewrite P3 in N. clear - Q N. destruct (kind_of (of_int i)); cbn [kind_eqb] in Q, N; congruence.
      - destruct (look_st _ _ _ _ _ _ _ _ _ _ _ _ L) as [Es Ee]. rewrite Es, Ee in Et. change (h_st (w_heap W)) with (w_st W) in Et. rewrite (proj1 Nk) in Et. cbn [bind] in Et.
        assert (X : dec_name i ++ [0] = dec_name i ++ 0 :: r) by congruence. apply app_inv_head in X. congruence. }
    assert (Hs : st' = w_st W /\ vrep W y (match nth_error t (Z.to_nat i) with Some c => VPrim (AStr [c]) | None => undef end)).
    { unfold nthz in Hy. replace (i <? 0) with false in Hy by lia. unfold getprop_string in E. rewrite !(cstr_eq_digits (dec_name i) _ _ D eq_refl) in E by (cbn; lia). cbn [bind] in E.
      rewrite cstr_to_ulong_digits in E by (try exact D; lia). rewrite Dv, s32_small in E by lia. destruct Hv as (U & K & l & G & NP & Rd). rewrite G in E. cbn [bind] in E.
      rewrite s32_small in E by (pose proof (zlen_nonneg t); lia). 
      destruct ((0 <=? i) && (i <? zlen t)) eqn:Ci.
      - destruct (loc_read (w_st W) ext ov (loc_add l i) 1) as [d| | |] eqn:El; cbn [bind] in E; try discriminate E.
        rewrite (holds_read_inside (w_st W) ext ov t l i 1 ltac:(split; [exact U|split; [exact K|exists l; auto]]) G) in El by lia.
        destruct (nthz_in t i ltac:(lia)) as (c & Hc). rewrite (sub_one t i c Hc) in El. injection El as <-.
        unfold nthz in Hc. replace (i <? 0) with false in Hc by lia. rewrite Hc.
        assert (Bc : bytes_ok [c]) by (constructor; [|constructor]; apply (proj1 (Forall_forall _ t) Bt); eapply nth_error_In; exact Hc).
        destruct (mk_string_holds (w_st W) ext [c] Bc ltac:(lia) ltac:(cbn; lia)) as (st & u & Mk & Hh & Hn & _ & _ & Hs).
        rewrite Mk in E. cbn [bind] in E. assert (st' = st /\ y = u) as [-> ->] by (split; congruence). specialize (Hs ltac:(cbn; lia)). subst st.
        split; [reflexivity|]. split; [|exact Bc]. split; [exact Hh|split; [exact Hn|]]. intros _. exact Mk.
      - assert (st' = w_st W /\ y = V_UNDEFINED) as [-> ->] by (split; congruence). split; [reflexivity|].
        destruct (nth_error t (Z.to_nat i)) as [c|] eqn:Q; [|reflexivity]. exfalso. assert (Z.to_nat i < length t)%nat by (apply nth_error_Some; congruence). unfold zlen in Ci. lia. }
    destruct Hs as [-> Vy]. apply (Bi y Vy). intros m r L Et. pose proof (Nt m r L Et) as ->.
    destruct (look_st _ _ _ _ _ _ _ _ _ _ _ _ L) as [Es Ee]. unfold getprop_builtin. rewrite Et. cbn [bind]. destruct Hv as (U & K & _). rewrite (is_string_kind ov U), K. cbn [kind_eqb].
    rewrite Es, Ee. change (h_st (w_heap W)) with (w_st W). rewrite E. cbn [bind]. eexists. split; [reflexivity|]. rewrite <- (with_st_id (w_heap W)). apply look_set_st. exact L.
  - rewrite Ek in Hm. destruct Hv as [Hi ->]. destruct (obj_refers cd ext W s i Rl Hi) as (Ra & _ & K & _). destruct (plain_object _ _ Ra K) as (P1 & P2 & P3 & P4).
    apply (Ob i); try assumption; [left; reflexivity|]. rewrite P2. discriminate.
  - rewrite Ek in Hm. destruct Hv as [Hi ->]. destruct (obj_refers cd ext W s i Rl Hi) as (_ & Ra & _ & K). destruct (array_object _ _ Ra K) as (P1 & P2 & P3 & P4).
    assert (Ar : forall lit x, n = lit -> name_eqb lit n_apply = false -> vrep W x v -> (forall m r, look m S C A SC LP T la (w_heap W) -> getprop_array m (arr_at W i) (lit ++ 0 :: r) = OK (Some x)) ->
       exists x, vrep W x v /\ forall m, look m (arr_at W i :: key :: S) C A SC LP T la (w_heap W) ->
    exists m', do_get m prev = OK m' /\ look m' (x :: S) C A SC LP T (if prev =? OP_FIND_SCOPE then V_UNDEFINED else arr_at W i) (w_heap W)).
    { intros lit x -> Na Hx H. apply (Bi x Hx). intros m r L Et. exists m. split; [|exact L]. unfold getprop_builtin. rewrite Et. cbn [bind]. rewrite P1, (not_apply lit (0 :: r) Na), P2, (H m r L). reflexivity. }
    destruct (name_eqb n (bs "length")) eqn:Q1.
    { apply name_eqb_eq in Q1. destruct (arr_len s i) as [l|] eqn:El; [|discriminate Hm]. injection Hm as <-.
      apply (Ar (bs "length") (vnum l) Q1 eq_refl (vint_rep W l)). intros m r L. destruct (look_st _ _ _ _ _ _ _ _ _ _ _ _ L) as [_ Ee].
      change (getprop_array m (arr_at W i) (bs "length" ++ 0 :: r)) with (n <- array_length (m_heap m) (m_ext m) (arr_at W i) ;; OK (Some (vnum n))).
      rewrite (look_h _ _ _ _ _ _ _ _ _ _ _ _ L), Ee, (proj1 (arr_len_ok cd ext W s i _ l Rl (or_intror eq_refl) El)). reflexivity. }
    destruct (name_eqb n (bs "push")) eqn:Q2.
    { apply name_eqb_eq in Q2. injection Hm as <-. apply (Ar (bs "push") (foreign_fn F_PUSH) Q2 eq_refl); [apply host_rep; [unfold F_PUSH; lia|vm_compute; reflexivity]|]. intros; reflexivity. }
    destruct (name_eqb n (bs "splice")) eqn:Q3.
    { apply name_eqb_eq in Q3. injection Hm as <-. apply (Ar (bs "splice") (foreign_fn F_SPLICE) Q3 eq_refl); [apply host_rep; [unfold F_SPLICE; lia|vm_compute; reflexivity]|]. intros; reflexivity. }
    apply (Ob i); try assumption; [right; reflexivity|]. intros _. auto.
Qed.
(** Assignment of a value. *)
Lemma obj_kinds W s i ov : rel W s -> (i < length (w_addr W))%nat -> ov = obj_at W i \/ ov = arr_at W i -> is_object ov = true /\ refers ov (nth i (w_addr W) 0).
Proof.
  intros Rl Hi Ho. destruct (obj_refers cd ext W s i Rl Hi) as (R1 & R2 & _). assert (Rf : refers ov (nth i (w_addr W) 0)) by (destruct Ho as [-> | ->]; assumption).
  split; [exact (proj1 (refers_object _ _ Rf))|exact Rf].
Qed.
Lemma set_own_in W s i n a s' : rel W s -> set_own s i n a = Some s' -> (i < length (w_addr W))%nat.
Proof.
  intros Rl H. unfold set_own in H. destruct (nth_error (objs s) i) eqn:E; [|discriminate H]. rewrite (rel_len _ _ W s Rl). apply nth_error_Some. congruence.
Qed.
Lemma x_assign W s s' i n key ov v a S C A SC LP T la : rel W s -> vrep W v a -> key_of ext (w_st W) key n -> good_name n = true ->
  (ov = obj_at W i \/ ov = arr_at W i) -> set_own s i n a = Some s' ->
  exists W', rel W' s' /\ later W W' /\
   forall m, look m (v :: ov :: key :: S) C A SC LP T la (w_heap W) -> exists m', exec_expr m TOK_ASSIGN = OK m' /\ look m' (v :: S) C A SC LP T la (w_heap W').
Proof.
  intros Rl Hv Nk Gn Ho Hs. destruct (good_bytes n Gn) as (B0 & _).
  destruct (set_prop_ok _ _ W s s' i n key ov v a Rl Hv Nk B0 Ho Hs) as (h & mp & Eo & Rl' & Lt). eexists. split; [exact Rl'|]. split; [exact Lt|]. intros m L.
  destruct (look_pop _ _ _ _ _ _ _ _ _ _ _ _ _ L) as (m1 & Ep & L1). destruct (look_pop _ _ _ _ _ _ _ _ _ _ _ _ _ L1) as (m2 & Ep2 & L2).
  destruct (look_pop _ _ _ _ _ _ _ _ _ _ _ _ _ L2) as (m3 & Ep3 & L3).
  change (exec_expr m TOK_ASSIGN) with (assign m). unfold assign. rewrite Ep, Ep2, Ep3. destruct (obj_kinds W s i ov Rl (set_own_in _ _ _ _ _ _ Rl Hs) Ho) as [-> _].
  destruct (look_set_v _ _ _ m3 _ _ _ _ _ _ _ _ ov key n v h L3 (proj1 Nk) Eo) as (m4 & E4 & L4). rewrite E4. cbn [bind]. eexists. split; [reflexivity|]. apply look_push. exact L4.
Qed.
(** The common part of compound assignments and increments. *)
Lemma look_get_v m S C A SC LP T la W s i n a ov key : look m S C A SC LP T la (w_heap W) -> rel W s -> (ov = obj_at W i \/ ov = arr_at W i) ->
  name_of (w_st W) ext key n -> good_name n = true -> own s i n = Some a -> forall x mp, w_store W (nth i (w_addr W) 0) = Some mp -> lookup mp n = Some x ->
  (i < length (w_addr W))%nat -> get_v m ov key = OK (m, x).
Proof.
  intros L Rl Ho Nk Gn _ x mp Em El Hi. destruct (good_bytes n Gn) as (_ & B1 & B2 & _). destruct (obj_kinds W s i ov Rl Hi Ho) as [_ Rf].
  destruct (look_st _ _ _ _ _ _ _ _ _ _ _ _ L) as [Es Ee]. pose proof (look_h _ _ _ _ _ _ _ _ _ _ _ _ L) as Eh. pose proof (rel_so _ _ W s Rl) as [Q1 Q2].
  unfold get_v. rewrite Es, Ee, Eh. rewrite (to_string_holds _ _ _ _ (proj1 Nk : holds (h_st (w_heap W)) ext key n)). cbn [bind]. unfold obj_get_v.
  rewrite (to_string_holds _ _ _ _ (proj1 Nk : holds (h_st (w_heap W)) ext key n)). cbn [bind].
  rewrite (obj_get_spec (w_heap W) ext (w_store W) ov (nth i (w_addr W) 0) mp n); [rewrite El; reflexivity|apply Rl|exact Em|exact Rf|exact B1|exact B2|].
  change (h_st (w_heap W)) with (w_st W). lia.
Qed.
Lemma x_modify W s s' o ov k key op v a old r S C A SC LP T la : rel W s -> vrep W v a -> vrep W ov o -> vrep W key k ->
  In op arith_ops -> modify s o k op a = Some (old, r, s') ->
  exists x y W', rel W' s' /\ later W W' /\ vrep W' x old /\ vrep W' y r /\ is_object ov && is_string key = true /\
   forall m, look m S C A SC LP T la (w_heap W) -> exists m', ('(m, p) <- get_v m ov key ;; '(m, w) <- vm_op m p v op ;; m <- set_v m ov key w ;; OK (m, p, w)) = OK (m', x, y) /\
     look m' S C A SC LP T la (w_heap W').
Proof.
  intros Rl Hv Ho Vk Hop Hm.
  assert (Gk : exists n, text_key k = Some n).
  { destruct o as [p|i|i|ps b|p]; try discriminate Hm; cbn [modify] in Hm; (destruct (text_key k) as [n|]; [exists n; reflexivity|discriminate Hm]). }
  destruct Gk as (n & Ek). destruct (text_key_name _ _ Ek) as [-> Gn]. pose proof (proj1 Vk) as Nk. destruct (good_bytes n Gn) as (B0 & _).
  assert (Hi : exists i, (ov = obj_at W i \/ ov = arr_at W i) /\ (let? old := own s i n in let? w := bin_op op old a in let? s := take (v_cost w) s in let? s := set_own s i n w in Some (old, w, s)) = Some (old, r, s')).
  { destruct o as [p|i|i|ps b|p]; try discriminate Hm; cbn [modify] in Hm; rewrite Ek in Hm; exists i; (split; [|exact Hm]); destruct Ho as [_ ->]; [left|right]; reflexivity. }
  destruct Hi as (i & Hi & Hq). clear Hm.
  destruct (own s i n) as [o1|] eqn:Eo; [|discriminate Hq]. destruct (bin_op op o1 a) as [r1|] eqn:Eb; [|discriminate Hq].
  destruct (take (v_cost r1) s) as [s1|] eqn:Et; [|discriminate Hq]. destruct (set_own s1 i n r1) as [s2|] eqn:Es; [|discriminate Hq].
  injection Hq as <- <- <-. pose proof Eo as Eo2. unfold own in Eo. destruct (nth_error (objs s) i) as [c|] eqn:Ec; [|discriminate Eo].
  destruct (cell_of _ _ W s i c Rl Ec) as (Hl & mp & Em & Fe). pose proof (lookup_find _ _ W mp c n Fe) as Qn. rewrite Eo in Qn. destruct Qn as (x & El & Hx).
  destruct (take_some _ _ _ Et) as (T1 & _). destruct (op_val _ _ W s x v o1 a r1 op Rl Hx Hv Hop Eb ltac:(lia)) as (st & y & Ey & Gr & Rm & Vy).
  pose proof (rel_str _ _ W s st s1 _ Rl Gr Rm Et) as Rl1. pose proof (str_later W st Gr) as Lt1.
  assert (Nk1 : name_of (w_st (str_world W st)) ext key n) by (apply (name_of_grows (w_st W)); assumption).
  destruct (set_prop_ok _ _ (str_world W st) s1 s2 i n key ov y r1 Rl1 Vy (key_name_of _ _ _ _ Nk1) B0 Hi Es) as (h & mp' & Eset & Rl2 & Lt2).
  exists x, y. eexists. split; [exact Rl2|]. split; [eapply later_trans; eassumption|]. split; [eapply vrep_later; [exact Lt2|]; eapply vrep_later; eassumption|].
  split; [eapply vrep_later; eassumption|]. destruct (obj_kinds W s i ov Rl Hl Hi) as [Ko _].
  split. { rewrite Ko. destruct Nk as ((U & K & _) & _). rewrite (is_string_kind key U), K. reflexivity. }
  intros m L. rewrite (look_get_v m _ _ _ _ _ _ _ W s i n o1 ov key L Rl Hi Nk Gn Eo2 x mp Em El Hl). cbn [bind].
  destruct (look_op _ _ _ _ _ _ _ _ _ _ _ _ _ _ L Ey) as (m1 & E1 & L1). rewrite E1. cbn [bind].
  destruct (look_set_v _ _ _ m1 _ _ _ _ _ _ _ _ ov key n y h L1 (to_string_holds _ _ _ _ (proj1 Nk1)) Eset) as (m2 & E2 & L2). rewrite E2. cbn [bind]. eexists. split; [reflexivity|exact L2].
Qed.
Lemma compound_arith t op : compound_op t = Some op -> In op arith_ops /\ aget assign_ops t = Some op /\ t <> TOK_ASSIGN /\ forall m, exec_expr m t = op_assign m op.
Proof.
  unfold compound_op, compound. cbn [find fst].
  repeat match goal with |- context [?x =? t] => destruct (x =? t) eqn:?; [intros [= <-]; match goal with H : (_ =? _) = true |- _ => apply Z.eqb_eq in H; subst t end;
    split; [cbn; intuition congruence|split; [reflexivity|split; [discriminate|intros m; reflexivity]]]|] end.
  discriminate.
Qed.
Lemma x_compound W s s' o ov k key t v a r S C A SC LP T la : rel W s -> vrep W v a -> vrep W ov o -> vrep W key k ->
  assign_to s t o k a = Some (r, s') ->
  exists x W', rel W' s' /\ later W W' /\ vrep W' x r /\
   forall m, look m (v :: ov :: key :: S) C A SC LP T la (w_heap W) -> exists m', exec_expr m t = OK m' /\ look m' (x :: S) C A SC LP T la (w_heap W').
Proof.
  intros Rl Hv Ho Vk Hm. unfold assign_to in Hm. destruct (t =? TOK_ASSIGN) eqn:Et.
  - apply Z.eqb_eq in Et. subst t. destruct (set_member s o k a) as [s1|] eqn:Es; [|discriminate Hm]. injection Hm as <- <-.
    unfold set_member in Es. destruct (key_name k) as [n|] eqn:Ek; [|discriminate Es]. destruct (key_ok cd ext W key k n Vk Ek) as [Gn Nk].
    assert (Hi : exists i, (ov = obj_at W i \/ ov = arr_at W i) /\ set_own s i n a = Some s1).
    { destruct o as [p|i|i|ps b|p]; try discriminate Es; exists i; (split; [|exact Es]); destruct Ho as [_ ->]; [left|right]; reflexivity. }
    destruct Hi as (i & Hi & Hs). destruct (x_assign W s s1 i n key ov v a S C A SC LP T la Rl Hv Nk Gn Hi Hs) as (W' & R' & L' & H).
    exists v, W'. split; [exact R'|]. split; [exact L'|]. split; [eapply vrep_later; eassumption|exact H].
  - destruct (compound_op t) as [op|] eqn:Ec; [|discriminate Hm]. destruct (compound_arith t op Ec) as (Ha & _ & _ & Ex).
    destruct (modify s o k op a) as [[[old w1] s1]|] eqn:Em; [|discriminate Hm]. injection Hm as <- <-.
    destruct (x_modify W s s1 o ov k key op v a old w1 S C A SC LP T la Rl Hv Ho Vk Ha Em) as (x & y & W' & R' & L' & Hx & _ & Ko & H).
    exists x, W'. split; [exact R'|]. split; [exact L'|]. split; [exact Hx|]. intros m L. rewrite Ex. unfold op_assign.
    destruct (look_pop _ _ _ _ _ _ _ _ _ _ _ _ _ L) as (m1 & Ep & L1). destruct (look_pop _ _ _ _ _ _ _ _ _ _ _ _ _ L1) as (m2 & Ep2 & L2).
    destruct (look_pop _ _ _ _ _ _ _ _ _ _ _ _ _ L2) as (m3 & Ep3 & L3). rewrite Ep, Ep2, Ep3, Ko. destruct (H m3 L3) as (m' & E & Lm).
    exists (push m' x). split; [|apply look_push; exact Lm]. 
    destruct (get_v m3 ov key) as [[m4 p]| | |]; cbn [bind] in E |- *; try discriminate E.
    destruct (vm_op m4 p v op) as [[m5 q]| | |]; cbn [bind] in E |- *; try discriminate E.
    destruct (set_v m5 ov key q) as [m6| | |]; cbn [bind] in E |- *; try discriminate E. injection E as -> -> ->. reflexivity.
Qed.
Lemma x_inc W s s' o ov k key t r S C A SC LP T la : rel W s -> vrep W ov o -> vrep W key k ->
  inc_to s t o k = Some (r, s') ->
  exists x W', rel W' s' /\ later W W' /\ vrep W' x r /\
   forall m, look m (ov :: key :: S) C A SC LP T la (w_heap W) -> exists m', exec_expr m t = OK m' /\ look m' (x :: S) C A SC LP T la (w_heap W').
Proof.
  intros Rl Ho Vk Hm.
  assert (V1 : vrep W (vnum 1) (VPrim (ANum (of_int 1)))) by (split; [vm_compute; reflexivity|split; [unfold is_u64; vm_compute; intuition congruence|vm_compute; reflexivity]]).
  assert (K : forall op (post : bool), In op arith_ops -> (forall m, exec_expr m t = incdec m op post) ->
     (let? (old, w, s) := modify s o k op (VPrim (ANum (of_int 1))) in Some (if post then old else w, s)) = Some (r, s') ->
     exists x W', rel W' s' /\ later W W' /\ vrep W' x r /\
   forall m, look m (ov :: key :: S) C A SC LP T la (w_heap W) -> exists m', exec_expr m t = OK m' /\ look m' (x :: S) C A SC LP T la (w_heap W')).
  { intros op post Ha Ex Hq. destruct (modify s o k op (VPrim (ANum (of_int 1)))) as [[[old w1] s1]|] eqn:Em; [|discriminate Hq]. injection Hq as <- <-.
    destruct (x_modify W s s1 o ov k key op (vnum 1) _ old w1 S C A SC LP T la Rl V1 Ho Vk Ha Em) as (x & y & W' & R' & L' & Hx & Hy & Ko & H).
    exists (if post then x else y), W'. split; [exact R'|]. split; [exact L'|]. split; [destruct post; assumption|]. intros m L. rewrite Ex. unfold incdec.
    destruct (look_pop _ _ _ _ _ _ _ _ _ _ _ _ _ L) as (m1 & Ep & L1). destruct (look_pop _ _ _ _ _ _ _ _ _ _ _ _ _ L1) as (m2 & Ep2 & L2).
    rewrite Ep, Ep2, Ko. destruct (H m2 L2) as (m' & E & Lm). exists (push m' (if post then x else y)). split; [|apply look_push; exact Lm].
    destruct (get_v m2 ov key) as [[m4 p]| | |]; cbn [bind] in E |- *; try discriminate E.
    destruct (vm_op m4 p (vnum 1) op) as [[m5 q]| | |]; cbn [bind] in E |- *; try discriminate E.
    destruct (set_v m5 ov key q) as [m6| | |]; cbn [bind] in E |- *; try discriminate E. injection E as -> -> ->. reflexivity. }
  unfold inc_to in Hm. destruct (t =? TOK_PLUS_PLUS) eqn:E1; [apply Z.eqb_eq in E1; subst t; apply (K TOK_PLUS false); [cbn; intuition congruence|intros; reflexivity|exact Hm]|].
  destruct (t =? TOK_MINUS_MINUS) eqn:E2; [apply Z.eqb_eq in E2; subst t; apply (K TOK_MINUS false); [cbn; intuition congruence|intros; reflexivity|exact Hm]|].
  destruct (t =? TOK_POSTFIX_PLUS) eqn:E3; [apply Z.eqb_eq in E3; subst t; apply (K TOK_PLUS true); [cbn; intuition congruence|intros; reflexivity|exact Hm]|].
  destruct (t =? TOK_POSTFIX_MINUS) eqn:E4; [apply Z.eqb_eq in E4; subst t; apply (K TOK_MINUS true); [cbn; intuition congruence|intros; reflexivity|exact Hm]|].
  discriminate Hm.
Qed.
End Values.

(** Running lists of statements and calls. *)
From Verif Require Import Base BaseFacts Value_Model Value_Spec Value_Proofs Data_Model Str_Model Str_Spec Str_Proofs Str_Proofs2 Float_Proofs Lit_Proofs
  Ops_Model Ops_Spec Ops_Proofs Ops_Proofs2 TokNum_Model Txt_Model Obj_Model Obj_Spec Obj_Proofs Obj_Proofs2 Conv_Model Num_Model Varint_Model Varint_Proofs Bcode_Model Bcode_Proofs
  Vm_Model Vm_Spec Vm_Proofs Vm_Proofs2 Vm_Proofs4 Tok_Spec Parse_Model Expr_Spec Run_Spec Expr_Proofs1 Expr_Proofs3 Expr_Proofs4 Expr_Proofs5 Lang_Spec Lang_Code Lang_Spec2 Lang_Exec1 Lang_Key Lang_Exec2 Lang_Exec3 Lang_Exec4 Lang_Exec5 Lang_Native Lang_Exec6 Lang_Exec7.
From Coq Require Import ZifyBool.
Ltac Zify.zify_post_hook ::= idtac.


Lemma skipn_nth {A} (d : A) n l : match skipn n l with [] => nth n l d = d | y :: r => nth n l d = y /\ skipn (S n) l = r end.
Proof.
  revert n. induction l as [|x l IH]; intros [|n]; cbn [skipn nth]; try reflexivity; try (split; reflexivity). exact (IH n).
Qed.
Lemma skipn_S {A} n (l : list A) : skipn n l = [] -> skipn (S n) l = [].
Proof. revert n. induction l as [|x l IH]; intros [|n] H; try reflexivity; try discriminate H. cbn [skipn] in *. exact (IH n H). Qed.

Lemma to_args bp i d1 d2 : code_to bp i (d1 ++ OP_ARGS :: d2) -> code_to bp i d1 /\ code_to bp (i + zlen d1) (OP_ARGS :: d2).
Proof.
  intros H. split; [|apply (to_skip bp i d1 _ H)]. destruct H as (pre & rest & E & Ei & _). exists pre, ((OP_ARGS :: d2) ++ rest).
  split; [rewrite E, <- app_assoc; reflexivity|]. split; [exact Ei|]. cbn [app num_stop]. unfold ident_char, letter, OP_ARGS. lia.
Qed.

Section Calls.
Context (w : host) (sv : saved) (cd : code) (mem : rawmem) (res : list (Z * Z)).
Notation ext := (mext mem).
Notation vrep := (vrep cd ext).
Notation rel := (rel cd ext).
Notation go := (go w sv cd mem res).
Notation sim := (sim cd mem).
Notation evs := (evs w sv cd mem res). Notation refs := (refs w sv cd mem res). Notation argss := (argss w sv cd mem res). Notation exs := (exs w sv cd mem res).
Notation done := (done w sv cd mem res).
Context (E : evaluator) (rounds : nat) (K K' N : Z).
Context (IHev : evs K (ev E)) (IHref : refs K (ev_ref E)) (IHargs : argss K N (ev_args E)) (IHex : exs K (ex E)) (HN : 0 <= N) (HK : 0 <= K) (HK' : K + N + 8 <= K').
Ltac opt H := match type of H with match ?m with _ => _ end = Some _ => let E := fresh "E" in destruct m eqn:E; [|discriminate H] end.
Ltac optp H a b := match type of H with match ?m with _ => _ end = Some _ => let E := fresh "E" in destruct m as [[a b]|] eqn:E; [|discriminate H] end.

(** ** Statements one after the other *)
Lemma tail_ok l : forall sc th v s o s', ex_list E sc th l v s = Some (o, s') -> all wfs l ->
  forall bp i op v' S C A SC LP T la W, part_of cd bp -> code_to bp i (dropcode (map cst l)) -> fits K S SC LP -> sim W s SC sc T th -> vrep W v' v ->
  exists W', rel W' s' /\ later W W' /\ done bp (i + zlen (dropcode (map cst l))) S C A SC LP T (Cf bp i op (v' :: S) C A SC LP T la (w_heap W)) W' o.
Proof.
  induction l as [|a l IH]; intros sc th v s o s' H Wf bp i op v' S C A SC LP T la W P Ca Ft Sm V; cbn [ex_list map dropcode flat_map] in *.
  - injection H as <- <-. exists W. split; [apply Sm|]. split; [apply later_refl|]. cbn [Lang_Exec6.done]. exists op, la, v'. split; [eapply go_at; [apply go_refl|zl]|exact V].
  - optp H o1 s1. destruct Wf as [Wa Wl]. fold (dropcode (map cst l)) in *. cbn [app] in *. destruct (to_cons _ _ _ _ Ca) as [Ca1 Ca2].
    destruct (to_split _ _ _ _ Ca2 (drop_calm _)) as [Ca3 Ca4].
    pose proof (g_drop w sv cd mem res bp P i op v' S C A SC LP T la (w_heap W) Ca1) as G1.
    destruct (IHex _ _ _ _ _ _ E0 Wa bp _ OP_DROP S C A SC LP T la W P Ca3 Ft Sm) as (W1 & R1 & L1 & D1).
    assert (Stop : o = o1 -> s' = s1 -> (forall x, o1 <> ONormal x) -> exists W', rel W' s' /\ later W W' /\
      done bp (i + zlen (OP_DROP :: cst a ++ dropcode (map cst l))) S C A SC LP T (Cf bp i op (v' :: S) C A SC LP T la (w_heap W)) W' o).
    { intros -> -> Hn. exists W1. split; [exact R1|]. split; [exact L1|]. eapply done_from; [exact G1|]. eapply done_jump; [exact D1|]. intros x Hx. destruct (Hn x Hx). }
    destruct o1 as [v1| | |v1]; try (injection H as <- <-; apply Stop; [reflexivity|reflexivity|discriminate]).
    cbn [Lang_Exec6.done] in D1. destruct D1 as (op1 & la1 & x1 & G2 & V1). pose proof (sim_later _ _ _ _ _ _ _ _ _ _ Sm R1 L1) as Sm1.
    destruct (IH sc th v1 s1 o s' H Wl bp _ op1 x1 S C A SC LP T la1 W1 P Ca4 Ft Sm1 V1) as (W2 & R2 & L2 & D2).
    exists W2. split; [exact R2|]. split; [eapply later_trans; eassumption|]. eapply done_from; [eapply go_trans; [exact G1|exact G2]|].
    eapply done_jump; [exact D2|]. intros _ _. zl.
Qed.
Lemma seq_ok l : forall sc th s o s', ex_list E sc th l undef s = Some (o, s') -> all wfs l ->
  forall bp i op S C A SC LP T la W, part_of cd bp -> code_to bp i (seqcode (map cst l)) -> fits K S SC LP -> sim W s SC sc T th ->
  exists W', rel W' s' /\ later W W' /\ done bp (i + zlen (seqcode (map cst l))) S C A SC LP T (Cf bp i op S C A SC LP T la (w_heap W)) W' o.
Proof.
  intros sc th s o s' H Wf bp i op S C A SC LP T la W P Ca Ft Sm. destruct l as [|a l]; cbn [ex_list map seqcode] in *.
  - injection H as <- <-. exists W. split; [apply Sm|]. split; [apply later_refl|]. exists OP_PUSH_UNDEF, la, V_UNDEFINED.
    split; [apply (g_undef w sv cd mem res bp P); apply to_at; exact Ca|reflexivity].
  - optp H o1 s1. destruct Wf as [Wa Wl]. destruct (to_split _ _ _ _ Ca (drop_calm _)) as [Ca3 Ca4].
    destruct (IHex _ _ _ _ _ _ E0 Wa bp _ op S C A SC LP T la W P Ca3 Ft Sm) as (W1 & R1 & L1 & D1).
    destruct o1 as [v1| | |v1]; try (injection H as <- <-; exists W1; split; [exact R1|]; split; [exact L1|]; eapply done_jump; [exact D1|discriminate]).
    cbn [Lang_Exec6.done] in D1. destruct D1 as (op1 & la1 & x1 & G2 & V1). pose proof (sim_later _ _ _ _ _ _ _ _ _ _ Sm R1 L1) as Sm1.
    destruct (tail_ok l sc th v1 s1 o s' H Wl bp _ op1 x1 S C A SC LP T la1 W1 P Ca4 Ft Sm1 V1) as (W2 & R2 & L2 & D2).
    exists W2. split; [exact R2|]. split; [eapply later_trans; eassumption|]. eapply done_from; [exact G2|].
    eapply done_jump; [exact D2|]. intros _ _. zl.
Qed.

(** ** Parameters *)
Lemma bind_ok ps : forall n j vs s s', bind_pars j ps vs s = Some s' ->
  forall bp i op xs r base C' C A SC LP T la W, part_of cd bp -> code_at bp i (parcode n ps) -> 0 <= n <= i -> C = vnum (zlen base + 1) :: C' -> zlen base + 1 < 2 ^ 31 ->
  rel W s -> (j < length (w_addr W))%nat -> Forall2 (vrep W) (skipn (Z.to_nat n) xs) vs ->
  exists op' W', go (Cf bp i op (rev xs ++ r :: base) C A (obj_at W j :: SC) LP T la (w_heap W))
      (Cf bp (i + zlen (parcode n ps)) op' (rev xs ++ r :: base) C A (obj_at W j :: SC) LP T la (w_heap W')) /\ rel W' s' /\ later W W'.
Proof.
  induction ps as [|p ps IH]; intros n j vs s s' H bp i op xs r base C' C A SC LP T la W P Ca Hn EC Hb R Hj F; cbn [bind_pars parcode] in *.
  - injection H as <-. exists op, W. split; [eapply go_at; [apply go_refl|zl]|]. split; [exact R|apply later_refl].
  - opt H. rename s0 into s1. opt H. rename s0 into s2. set (v := match vs with v :: _ => v | [] => undef end) in *.
    replace (OP_SET_ARG :: varint n ++ strb p ++ parcode (n + 1) ps) with ((OP_SET_ARG :: varint n ++ strb p) ++ parcode (n + 1) ps) in * by (cbn [app]; rewrite <- app_assoc; reflexivity).
    destruct (at_app _ _ _ _ Ca) as [Ca1 Ca2].
    destruct (use_name_ok _ _ _ E0) as [Gn Ht]. destruct (good_bytes p Gn) as (N0 & B & _). destruct (take_some _ _ _ Ht) as (T1 & _).
    destruct (make_str cd ext W s p R B ltac:(lia)) as (st & key & Mk & Gr & Rm & Nm).
    pose proof (rel_str cd ext W s st s1 _ R Gr Rm Ht) as R1. pose proof (str_later W st Gr) as L1. destruct (obj_later _ _ _ L1 Hj) as [Eo Hj1].
    assert (Vn : vrep (str_world W st) (nth (Z.to_nat n) xs V_UNDEFINED) v /\ Forall2 (vrep W) (skipn (Z.to_nat (n + 1)) xs) (tl vs)).
    { pose proof (skipn_nth V_UNDEFINED (Z.to_nat n) xs) as Q. replace (Z.to_nat (n + 1)) with (Datatypes.S (Z.to_nat n)) by lia.
      destruct (skipn (Z.to_nat n) xs) as [|y ys] eqn:Es; inversion F; subst; unfold v; cbn [tl].
      - rewrite Q, (skipn_S _ _ Es). split; [reflexivity|constructor].
      - destruct Q as [-> ->]. split; [eapply vrep_later; eassumption|assumption]. }
    destruct Vn as [Vn Ft].
    destruct (set_prop_ok cd ext (str_world W st) s1 s2 j p key (obj_at W j) _ v R1 Vn (key_name_of _ _ _ _ Nm) N0 (or_introl (eq_sym Eo)) E1) as (h & mp & Es & R2 & L2). cbv zeta in R2, L2.
    set (W2 := set_world (str_world W st) h (nth j (w_addr (str_world W st)) 0) mp) in *. pose proof (later_trans _ _ _ L1 L2) as L12. destruct (obj_later _ _ _ L12 Hj) as [Eo2 Hj2].
    destruct (at_len _ _ _ Ca1) as [_ Cl]. pose proof (part_len cd bp P) as (Pl & _ & _). rewrite zlen_cons in Cl. pose proof (zlen_nonneg (varint n ++ strb p)).
    pose proof (g_set_arg w sv cd mem res bp P i op (rev xs) r base C' C A (obj_at W j) SC LP T la (w_heap W) n p st key h Ca1 ltac:(lia) EC Hb Mk (proj1 Nm) ltac:(rewrite rev_involutive; exact Es)) as G1.
    destruct (IH (n + 1) j (tl vs) s2 s' H bp _ OP_SET_ARG xs r base C' C A SC LP T la W2 P Ca2 ltac:(rewrite zlen_cons; lia) EC Hb R2 Hj2) as (op' & W' & G2 & R3 & L3).
    { clear -Ft L12. induction Ft; constructor; [eapply vrep_later; eassumption|assumption]. }
    exists op', W'. rewrite Eo2 in G2. split; [|split; [exact R3|eapply later_trans; eassumption]].
    rewrite zlen_app, Z.add_assoc. eapply go_trans; [exact G1|exact G2].
Qed.

(** ** Calls *)
Lemma callee_ok sc th f s v t s1 : eval_callee E sc th f s = Some (v, t, s1) -> wfx f ->
  forall bp i op S C A SC LP T la W, part_of cd bp -> code_to bp i (cex f) -> fits K' S SC LP -> sim W s SC sc T th ->
  exists op' la' v' W', go (Cf bp i op S C A SC LP T la (w_heap W)) (Cf bp (i + zlen (cex f)) op' (v' :: S) C A SC LP T la' (w_heap W')) /\
    rel W' s1 /\ later W W' /\ vrep W' v' v /\ vrep W' (if op' =? OP_GET then la' else V_UNDEFINED) t.
Proof.
  intros H Wf bp i op S C A SC LP T la W P Ca Ft Sm.
  assert (Pl : (let? (v, s) := ev E sc th f s in Some (v, undef, s)) = Some (v, t, s1) -> plain f = true ->
    exists op' la' v' W', go (Cf bp i op S C A SC LP T la (w_heap W)) (Cf bp (i + zlen (cex f)) op' (v' :: S) C A SC LP T la' (w_heap W')) /\
    rel W' s1 /\ later W W' /\ vrep W' v' v /\ vrep W' (if op' =? OP_GET then la' else V_UNDEFINED) t).
  { intros Hp Pf. optp Hp v1 s2. injection Hp as <- <- <-.
    destruct (IHev _ _ _ _ _ _ E0 Wf bp i op S C A SC LP T la W P Ca ltac:(ft) Sm) as (op1 & la1 & x1 & W1 & G1 & R1 & L1 & V1 & Q).
    exists op1, la1, x1, W1. split; [exact G1|]. split; [exact R1|]. split; [exact L1|]. split; [exact V1|].
    destruct (op1 =? OP_GET) eqn:Eg; [rewrite (Q Pf) by lia|]; reflexivity. }
  assert (Mb : (let? (o, n, s) := ev_ref E sc th f s in let? v := member s o n in Some (v, o, s)) = Some (v, t, s1) -> (match f with XDot _ _ | XIdx _ _ => True | _ => False end) ->
    exists op' la' v' W', go (Cf bp i op S C A SC LP T la (w_heap W)) (Cf bp (i + zlen (cex f)) op' (v' :: S) C A SC LP T la' (w_heap W')) /\
    rel W' s1 /\ later W W' /\ vrep W' v' v /\ vrep W' (if op' =? OP_GET then la' else V_UNDEFINED) t).
  { intros Hp Pf. optp Hp p s2. destruct p as [o n]. opt Hp. injection Hp as <- <- <-.
    destruct (e_member w sv cd mem res E K K' N IHref HN HK' f sc th s o n s2 v0 Pf E0 E1 Wf bp i op S C A SC LP T la W P Ca Ft Sm) as (la1 & x1 & W1 & G1 & R1 & L1 & V1 & V2).
    exists OP_GET, la1, x1, W1. split; [exact G1|]. split; [exact R1|]. split; [exact L1|]. split; [exact V1|]. rewrite Z.eqb_refl. exact V2. }
  unfold eval_callee in H. destruct f; try (apply Mb; [exact H|exact I]); try (apply Pl; [exact H|reflexivity]); cbn [plain] in H; discriminate H.
Qed.
(** From the first instruction of a function to its RETURN: the slot of the result has the value
    that is returned, and what was in it before if nothing is. *)
Lemma fun_ok sc ps b t vs s j s1 s2 o s3 : new_cell s = Some (j, s1) -> bind_pars j ps vs s1 = Some s2 -> ex_list E (j :: sc) t b undef s2 = Some (o, s3) -> all wfs b ->
  match o with ONormal _ | OReturn _ => True | _ => False end -> zlen vs <= N ->
  forall fb i op xs f S C' A SC LP T la W, part_of cd fb -> code_at fb i (bracket ps (seqcode (map cst b))) -> fits K' S SC LP -> rel W s -> scopes_are W SC sc -> vrep W T t ->
    4 <= zlen C' -> Forall2 (vrep W) xs vs ->
  exists i' op' xs' isc ilp la' v' W', let C := vnum (zlen S + 1) :: C' in
    go (Cf fb i op (rev xs ++ f :: S) C A SC LP T la (w_heap W)) (Cf fb i' op' (xs' ++ v' :: S) C A (isc ++ SC) (ilp ++ LP) T la' (w_heap W')) /\
    code_at fb i' [OP_RETURN] /\ rel W' s3 /\ later W W' /\ match o with OReturn v => vrep W' v' v | _ => v' = f end.
Proof.
  intros E0 E1 E2 Wb Ho Hv fb i op xs f S C' A SC LP T la W Pf Cf Ft Rl Sc Vt H4 Fx. cbv zeta.
  pose proof (proj1 (at_len _ _ _ Cf)) as Hi0. unfold bracket in Cf. assert (Lx : zlen (rev xs) <= N) by (unfold zlen in *; rewrite rev_length, (Forall2_len _ _ _ Fx); exact Hv).
  set (C1 := vnum (zlen S + 1) :: C').
  destruct (at_cons _ _ _ _ Cf) as [Cf1 Cf2]. destruct (at_app _ _ _ _ Cf2) as [Cf3 Cf4]. destruct (at_split _ _ _ _ Cf4) as [Cf5 Cf6]; [sn|].
  destruct (new_cell_ok cd ext W s s1 j Rl E0) as (h & Mk & R1 & L1 & Ej & Hj).
  pose proof (g_new_scope w sv cd mem res fb Pf _ op (rev xs ++ f :: S) C1 A SC LP T la _ _ _ Cf1 Mk) as G2.
  destruct (bind_ok ps 0 j vs s1 s2 E1 fb _ OP_NEW_SCOPE xs f S _ C1 A SC LP T la (new_world W h) Pf Cf3 ltac:(lia) eq_refl ltac:(ft) R1 Hj) as (op3 & W3 & G3 & R3 & L3).
  { cbn [skipn Z.to_nat]. clear -Fx L1. induction Fx; constructor; [eapply vrep_later; eassumption|assumption]. }
  pose proof (later_trans _ _ _ L1 L3) as L13.
  assert (Sm3 : sim W3 s2 (obj_at (new_world W h) j :: SC) (j :: sc) T t).
  { split; [exact R3|]. split; [|eapply vrep_later; eassumption]. destruct (scopes_later _ _ _ _ L13 Sc) as [ES FS].
    destruct (obj_later _ _ _ L3 Hj) as [Eo Hj3]. split; [cbn [map]; rewrite Eo; f_equal; exact ES|constructor; [exact Hj3|exact FS]]. }
  destruct (seq_ok b (j :: sc) t s2 o s3 E2 Wb fb _ op3 (rev xs ++ f :: S) C1 A (obj_at (new_world W h) j :: SC) LP T la W3 Pf Cf5 ltac:(ft) Sm3) as (W4 & R4 & L4 & D4).
  pose proof (later_trans _ _ _ L13 L4) as L14.
  pose proof (go_trans _ _ _ _ _ _ _ _ G2 G3) as G13.
  destruct o as [v| | |v]; try contradiction; cbn [Lang_Exec6.done] in D4.
  - destruct D4 as (op4 & la4 & x4 & G4 & V4). eexists _, op4, (x4 :: rev xs), [obj_at (new_world W h) j], [], la4, f, W4.
    split; [eapply go_trans; [exact G13|exact G4]|]. split; [exact Cf6|]. split; [exact R4|]. split; [exact L14|reflexivity].
  - destruct (D4 (rev xs) f S C' eq_refl H4 eq_refl ltac:(ft)) as (i5 & op5 & xs5 & isc & ilp & la5 & v5 & Cr & G5 & V5).
    exists i5, op5, xs5, (isc ++ [obj_at (new_world W h) j]), ilp, la5, v5, W4. rewrite <- app_assoc.
    split; [eapply go_trans; [exact G13|exact G5]|]. split; [exact Cr|]. split; [exact R4|]. split; [exact L14|exact V5].
Qed.
Lemma call_ok sc v t vs s r s' : call E sc v t vs s = Some (r, s') -> zlen vs <= N ->
  forall bp i op xs f S C A SC LP T th th' la W, part_of cd bp -> code_at bp i [OP_CALL] -> fits K' S SC LP -> sim W s SC sc T th -> vrep W f v -> vrep W th' t -> Forall2 (vrep W) xs vs ->
  exists op' la' v' W', go (Cf bp i op (rev xs ++ f :: S) C (vnum (zlen S + 1) :: th' :: A) SC LP T la (w_heap W)) (Cf bp (i + 1) op' (v' :: S) C A SC LP T la' (w_heap W')) /\
    rel W' s' /\ later W W' /\ vrep W' v' r /\ op' <> OP_GET.
Proof.
  intros H Hv bp i op xs f S C A SC LP T th th' la W P Ca Ft Sm Vf Vt Fx. unfold call in H. destruct v as [| | |ps b|p]; try discriminate H.
  2: { destruct (call_host_ok w cd mem res p f th' t vs xs W s s' r (proj1 Sm) Vf Vt Fx H) as (W' & x & R' & L' & V' & Hn). pose proof Vf as (Ef & Uf & Kf). rewrite <- Ef in Uf, Kf.
    exists OP_CALL, la, x, W'. split; [|split; [exact R'|split; [exact L'|split; [exact V'|discriminate]]]].
    eapply (g_native w sv cd mem res); [exact P|exact Ca|exact Uf|exact Kf|ft|ft|ft|].
    intros m. cbv zeta. intros L. apply (Hn m S f _ A SC LP la L). ft. }
  cbn [Lang_Spec2.vrep] in Vf.
  optp H j s1. opt H. rename s0 into s2. optp H o s3. destruct Vf as (fb & pre & rest & Pf & Ed & Np & -> & Wb).
  assert (Hp : 0 < zlen pre) by (destruct pre; [congruence|rewrite zlen_cons; pose proof (zlen_nonneg pre); lia]).
  assert (Cf : code_at fb (zlen pre) (bracket ps (seqcode (map cst b)))) by (exists pre, rest; split; [exact Ed|reflexivity]).
  pose proof (at_len _ _ _ Ca) as [Hi1 Hi2]. change (zlen [OP_CALL]) with 1 in Hi2.
  pose proof (at_len _ _ _ Cf) as [_ Cl]. unfold bracket in Cl. rewrite zlen_cons in Cl.
  match type of Cl with context [zlen ?a] => pose proof (zlen_nonneg (parcode 0 ps ++ seqcode (map cst b) ++ [OP_RETURN])) end.
  pose proof (g_call w sv cd mem res bp P i op (rev xs) _ fb (zlen pre) S C A SC LP T th' la (w_heap W) Ca Pf ltac:(lia) eq_refl ltac:(ft)) as G1.
  assert (Ho : match o with ONormal _ | OReturn _ => True | _ => False end) by (destruct o; [exact I|discriminate H|discriminate H|exact I]).
  destruct Sm as (Rl & Sc & Vt0).
  destruct (fun_ok sc ps b t vs s j s1 s2 o s3 E0 E1 E2 Wb Ho Hv fb _ OP_CALL xs V_UNDEFINED S (vnum (zlen LP) :: vnum (zlen SC) :: vnum (bp_start bp + i) :: T :: C) A SC LP th' la W Pf Cf Ft Rl Sc Vt)
    as (i5 & op5 & xs5 & isc & ilp & la5 & v5 & W5 & G5 & Cr & R5 & L5 & V5); [rewrite !zlen_cons; pose proof (zlen_nonneg C); lia|exact Fx|].
  pose proof (g_return w sv cd mem res fb Pf i5 op5 xs5 v5 bp i S C A isc SC ilp LP T th' la5 (w_heap W5) Cr P ltac:(lia) ltac:(ft) ltac:(ft) ltac:(ft)) as G6.
  exists OP_RETURN, la5, v5, W5. destruct o as [v| | |v]; try contradiction; injection H as <- <-.
  - subst v5. split; [eapply go_trans; [exact G1|]; eapply go_trans; [exact G5|exact G6]|]. split; [exact R5|]. split; [exact L5|]. split; [reflexivity|discriminate].
  - split; [eapply go_trans; [exact G1|]; eapply go_trans; [exact G5|exact G6]|]. split; [exact R5|]. split; [exact L5|]. split; [exact V5|discriminate].
Qed.
Lemma e_call f l : evs1 w sv cd mem res E K' (XCall f l).
Proof.
  intros sc th s v s' H Wf bp i op S C A SC LP T la W P Ca Ft Sm. cbn [eval1] in H. cbn [cex] in Ca |- *. cbn [wfx] in Wf. destruct Wf as [Wf Wl].
  optp H p s1. destruct p as [fv t]. optp H vs s2. destruct (to_args _ _ _ _ Ca) as [Ca1 Ca2]. destruct (to_cons _ _ _ _ Ca2) as [Ca3 Ca4].
  destruct (to_split _ _ _ _ Ca4) as [Ca5 Ca6]; [cm|]. apply to_at in Ca6.
  destruct (callee_ok sc th f s fv t s1 E0 Wf bp i op S C A SC LP T la W P Ca1 Ft Sm) as (op1 & la1 & x1 & W1 & G1 & R1 & L1 & V1 & V1').
  pose proof (g_args w sv cd mem res bp P _ op1 (x1 :: S) C A SC LP T la1 (w_heap W1) Ca3) as G2. set (t1 := if op1 =? OP_GET then la1 else V_UNDEFINED) in *.
  pose proof (sim_later _ _ _ _ _ _ _ _ _ _ Sm R1 L1) as Sm1. destruct (IHargs _ _ _ _ _ _ E1 Wl) as [Hl IHa].
  destruct (IHa bp _ OP_ARGS (x1 :: S) C (vnum (zlen (x1 :: S)) :: t1 :: A) SC LP T t1 W1 P Ca5 ltac:(ft) Sm1) as (op2 & la2 & xs & W2 & G3 & R2 & L2 & F2).
  pose proof (sim_later _ _ _ _ _ _ _ _ _ _ Sm1 R2 L2) as Sm2.
  destruct (call_ok sc fv t vs s2 v s' H Hl bp _ op2 xs x1 S C A SC LP T th t1 la2 W2 P Ca6 Ft Sm2 (vrep_later _ _ _ _ _ _ L2 V1) (vrep_later _ _ _ _ _ _ L2 V1') F2) as (op3 & la3 & x3 & W3 & G4 & R3 & L3 & V3 & Nop).
  exists op3, la3, x3, W3. split.
  - replace (zlen S + 1) with (zlen (x1 :: S)) in G4 by zl. eapply go_at; [eapply go_trans; [exact G1|]; eapply go_trans; [exact G2|]; eapply go_trans; [exact G3|exact G4]|zl].
  - split; [exact R3|]. split; [eapply later_trans; [exact L1|]; eapply later_trans; eassumption|]. split; [exact V3|]. intros _ Hq. contradiction.
Qed.
Lemma ev_ok : evs K' (eval1 E).
Proof.
  intros sc th e. destruct e as [c| |x|op a|op a b|a b|a b|c a b|op r a|op r|o x|o k|f l|l|l|f ps b]; generalize sc th; clear sc th; intros sc th s v s' H; revert sc th s v s' H;
  match goal with |- forall sc th s v s', eval1 E sc th ?e s = _ -> _ => change (evs1 w sv cd mem res E K' e) end.
  all: eauto using e_const, e_this, e_var, e_un, e_bin, e_and, e_or, e_cond, e_asg, e_inc, e_dot, e_idx, e_call, e_obj, e_arr, e_fun.
Qed.
End Calls.

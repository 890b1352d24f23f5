(** Values of the language and their representation. *)
From Verif Require Import Base BaseFacts Value_Model Value_Spec Value_Proofs Str_Model Str_Spec Str_Proofs Str_Proofs2 Float_Proofs
  Ops_Model Ops_Spec Ops_Proofs Ops_Proofs2 TokNum_Model Txt_Model Obj_Model Obj_Spec Obj_Proofs Obj_Proofs2 Conv_Model Num_Model Bcode_Model Bcode_Proofs
  Vm_Model Vm_Spec Vm_Proofs Vm_Proofs4 Parse_Model Expr_Spec Run_Spec Expr_Proofs1 Expr_Proofs3 Expr_Proofs4 Lang_Spec Lang_Code Lang_Spec2.
From Coq Require Import ZifyBool.
Ltac Zify.zify_post_hook ::= idtac.

Lemma rep_name st ext v s : name_of st ext v s /\ bytes_ok s -> rep st ext v (AStr s).
Proof. intros [(H & _) B]. split; assumption. Qed.

Section Values.
Context (cd : code) (ext : extmem).
Notation vrep := (vrep cd ext). Notation rel := (rel cd ext).

(** The part of a value that is a primitive. *)
Lemma vrep_prim W v a : vrep W v (VPrim a) -> rep (w_st W) ext v a.
Proof. destruct a; cbn [Lang_Spec2.vrep]; try exact (fun H => H). apply rep_name. Qed.

Lemma kept_refl h : kept h h.
Proof. intros a c H. exists c. auto. Qed.
Lemma kept_trans h1 h2 h3 : kept h1 h2 -> kept h2 h3 -> kept h1 h3.
Proof. intros H1 H2 a c H. destruct (H1 a c H) as (c' & E & N & X). destruct (H2 a c' E) as (c'' & E2 & N2 & X2). exists c''. split; [exact E2|]. split; congruence. Qed.
Lemma later_refl W : later W W.
Proof.
  split; [exists []; rewrite app_nil_r; split; [reflexivity|constructor]|]. split; [auto|]. split; [auto|]. split; [apply grows_refl|apply kept_refl].
Qed.
Lemma later_trans W1 W2 W3 : later W1 W2 -> later W2 W3 -> later W1 W3.
Proof.
  intros ((e1 & A1 & N1) & S1 & F1 & G1 & K1) ((e2 & A2 & N2) & S2 & F2 & G2 & K2). split; [|split; [|split; [|split]]].
  - exists (e1 ++ e2). rewrite A2, A1, app_assoc. split; [reflexivity|]. apply Forall_app. split; [exact N1|].
    eapply Forall_impl; [|exact N2]. cbn beta. intros o Ho. destruct (w_store W1 o) as [mp|] eqn:E; [|reflexivity].
    exfalso. apply (S1 o); [congruence|exact Ho].
  - intros o Ho. apply S2, S1, Ho.
  - intros o Ho Na. rewrite F2; [apply F1; assumption|apply S1; exact Ho|]. rewrite A1, in_app_iff. intros [H|H]; [exact (Na H)|].
    rewrite Forall_forall in N1. apply Ho, N1, H.
  - eapply grows_trans; eassumption.
  - eapply kept_trans; eassumption.
Qed.
Lemma later_nth W W' i : later W W' -> (i < length (w_addr W))%nat ->
  (i < length (w_addr W'))%nat /\ nth i (w_addr W') 0 = nth i (w_addr W) 0.
Proof.
  intros ((e & A & _) & _) H. rewrite A, app_length. split; [lia|]. apply app_nth1. exact H.
Qed.
Lemma vrep_later W W' v a : later W W' -> vrep W v a -> vrep W' v a.
Proof.
  intros L H. pose proof L as (_ & _ & _ & G & _).
  destruct a as [a|i|i|ps b|p]; cbn [Lang_Spec2.vrep] in *; try exact H.
  - destruct a; try exact H. destruct H as [H B]. split; [|exact B]. eapply name_of_grows; eassumption.
  - destruct H as [Hi ->]. destruct (later_nth W W' i L Hi) as [Hi' E]. split; [exact Hi'|]. unfold obj_at. rewrite E. reflexivity.
  - destruct H as [Hi ->]. destruct (later_nth W W' i L Hi) as [Hi' E]. split; [exact Hi'|]. unfold arr_at. rewrite E. reflexivity.
Qed.
Lemma scopes_later W W' vs sc : later W W' -> scopes_are W vs sc -> scopes_are W' vs sc.
Proof.
  intros L [-> F]. split.
  - apply map_ext_in. intros i Hi. rewrite Forall_forall in F. destruct (later_nth W W' i L (F i Hi)) as [_ E]. unfold obj_at. rewrite E. reflexivity.
  - eapply Forall_impl; [|exact F]. cbn beta. intros i Hi. apply (later_nth W W' i L Hi).
Qed.
Lemma entry_later W W' x y : later W W' -> entry_is cd ext W x y -> entry_is cd ext W' x y.
Proof. intros L [E H]. split; [exact E|]. eapply vrep_later; eassumption. Qed.

(** ** Addresses *)
Lemma Forall2_len {A B} (P : A -> B -> Prop) l m : Forall2 P l m -> length l = length m.
Proof. induction 1; cbn [length]; congruence. Qed.
Lemma Forall2_nth {A B} (P : A -> B -> Prop) l m d i y : Forall2 P l m -> nth_error m i = Some y -> P (nth i l d) y /\ (i < length l)%nat.
Proof.
  intros H. revert i. induction H as [|a b l m Hab _ IH]; intros i E; [destruct i; discriminate|].
  destruct i as [|i]; cbn [nth_error nth length] in *; [split; [congruence|lia]|]. destruct (IH i E). split; [assumption|lia].
Qed.
Lemma addr_bound W s o : rel W s -> In o (w_addr W) -> 0 < o < h_next (w_heap W) /\ o < 2 ^ 47 /\ exists mp, w_store W o = Some mp.
Proof.
  intros (Hr & ND & F & L0 & N0 & N1 & _) Hi. destruct Hr as (C & A1 & A2 & A3 & A4 & A5).
  assert (X : exists mp, w_store W o = Some mp).
  { clear - F Hi. induction F as [|a b l m (mp & E & _) _ IH]; [destruct Hi|]. destruct Hi as [<-|Hi]; [exists mp; exact E|exact (IH Hi)]. }
  destruct X as (mp & E). assert (aget (h_objs (w_heap W)) o <> None) as Q by (intros Q; apply A1 in Q; congruence).
  destruct (aget (h_objs (w_heap W)) o) as [p|] eqn:Eo; [|congruence]. specialize (A5 _ _ Eo). split; [lia|]. split; [lia|]. exists mp. exact E.
Qed.
Lemma obj_refers W s i : rel W s -> (i < length (w_addr W))%nat ->
  refers (obj_at W i) (nth i (w_addr W) 0) /\ refers (arr_at W i) (nth i (w_addr W) 0) /\
  obj_at W i / 2 ^ 48 = 65521 /\ arr_at W i / 2 ^ 48 = 65532.
Proof.
  intros Rl H. destruct (addr_bound W s _ Rl (nth_In _ 0 H)) as (B1 & B2 & _). unfold refers, obj_at, arr_at.
  assert (B : 0 < nth i (w_addr W) 0 < 2 ^ 48) by lia.
  split; [split; [exact B|left; reflexivity]|]. split; [split; [exact B|right; reflexivity]|].
  rewrite !Z.div_add_l by lia. rewrite Z.div_small by lia. split; reflexivity.
Qed.
Lemma addr_inj W s i j : rel W s -> (i < length (w_addr W))%nat -> (j < length (w_addr W))%nat ->
  nth i (w_addr W) 0 = nth j (w_addr W) 0 -> i = j.
Proof. intros (_ & ND & _) Hi Hj E. eapply (proj1 (NoDup_nth _ 0)); eassumption. Qed.
Lemma rel_len W s : rel W s -> length (w_addr W) = length (objs s).
Proof. intros (_ & _ & F & _). eapply Forall2_len, F. Qed.

(** ** Kinds *)
Definition vkind (a : val) : Value_Spec.kind :=
  match a with VPrim a => akind a | VObj _ => KObject | VArr _ => KArray | VFun _ _ => KFunction | VHost _ => KForeign end.
Lemma fun_kind v ps b : fun_at cd v ps b -> is_u64 v /\ kind_of v = KFunction.
Proof.
  intros (bp & pre & rest & (P0 & P1 & _) & E & _ & -> & _). pose proof (zlen_nonneg pre). pose proof (zlen_nonneg rest).
  assert (B : 0 <= bp_start bp + zlen pre < 2 ^ 48).
  { rewrite E, !zlen_app in P1. unfold bracket in P1. rewrite zlen_cons in P1. pose proof (zlen_nonneg (parcode 0 ps ++ seqcode (map cst b) ++ [OP_RETURN])). lia. }
  split; [|apply (proj2 (function_round_trip _ B))]. rewrite mk_function_val by exact B. unfold is_u64. lia.
Qed.
Lemma tag_kind v : is_u64 v -> (v / 2 ^ 48 = 65521 -> kind_of v = KObject) /\ (v / 2 ^ 48 = 65532 -> kind_of v = KArray).
Proof.
  intros U. unfold kind_of. split; intros T; rewrite T || (cbv zeta; rewrite T); reflexivity.
Qed.
Lemma vrep_kind W s v a : rel W s -> vrep W v a -> is_u64 v /\ kind_of v = vkind a.
Proof.
  intros Rl H. destruct a as [a|i|i|ps b|p]; cbn [vkind].
  - apply (rep_kind (w_st W) ext). apply vrep_prim. exact H.
  - destruct H as [Hi ->]. destruct (obj_refers W s i Rl Hi) as (R1 & _ & T & _). destruct (refers_object _ _ R1) as (_ & _ & U). split; [exact U|]. apply tag_kind; assumption.
  - destruct H as [Hi ->]. destruct (obj_refers W s i Rl Hi) as (_ & R1 & _ & T). destruct (refers_object _ _ R1) as (_ & _ & U). split; [exact U|]. apply tag_kind; assumption.
  - eapply fun_kind. exact H.
  - destruct H as (-> & U & K). split; assumption.
Qed.

(** ** Truth, type, equality *)
Lemma vrep_truthy W s v a : rel W s -> vrep W v a -> is_truthy (w_st W) v = OK (v_truthy a).
Proof.
  intros Rl H. destruct (vrep_kind W s v a Rl H) as [U K].
  destruct a as [a|i|i|ps b|p]; [exact (rep_truthy _ _ _ _ (vrep_prim _ _ _ H))| | | |];
    (rewrite truthy_non_string_ok by (try exact U; rewrite K; discriminate); unfold truthy_non_string; rewrite K; reflexivity).
Qed.
Lemma vrep_type W s v a : rel W s -> vrep W v a -> exists t, get_type v = OK t /\ type_text t = v_type a.
Proof.
  intros Rl H. destruct (vrep_kind W s v a Rl H) as [U K].
  destruct a as [a|i|i|ps b|p]; [exact (rep_type _ _ _ _ (vrep_prim _ _ _ H))| | | |].
  all: assert (Kn : is_number v = false) by (destruct (kinds v U) as (K1 & _); rewrite K1, K; reflexivity).
  all: unfold get_type; rewrite Kn; rewrite Z.shiftr_div_pow2 by lia.
  all: assert (L : Z.land v TAG_MASK = (v / 2 ^ 48) * 2 ^ 48) by (apply land_mask; exact U); rewrite L, Z.div_mul by lia.
  - destruct H as [Hi ->]. destruct (obj_refers W s i Rl Hi) as (_ & _ & T & _). rewrite T. exists TyObject. split; reflexivity.
  - destruct H as [Hi ->]. destruct (obj_refers W s i Rl Hi) as (_ & _ & _ & T). rewrite T. exists TyArray. split; reflexivity.
  - assert (T : v / 2 ^ 48 = 65533).
    { pose proof (is_function_hi v U) as F. destruct (kinds v U) as (_ & _ & _ & _ & F2 & _). rewrite K in F2. change (is_function v = true) in F2. rewrite F2 in F. symmetry in F. apply Z.eqb_eq in F. exact F. }
    rewrite T. exists TyFunction. split; reflexivity.
  - assert (T : v / 2 ^ 48 = 65522).
    { pose proof (is_foreign_hi v U) as F. destruct (kinds v U) as (_ & _ & F2 & _). rewrite K in F2. change (is_foreign v = true) in F2. rewrite F2 in F. symmetry in F. apply Z.eqb_eq in F. exact F. }
    rewrite T. exists TyForeign. split; reflexivity.
Qed.
Lemma vrep_equal W s v w a b r : rel W s -> vrep W v a -> vrep W w b -> v_same a b = Some r -> check_equal (w_st W) ext v w = OK r.
Proof.
  intros Rl Hv Hw E. destruct (vrep_kind W s v a Rl Hv) as [Uv Kv]. destruct (vrep_kind W s w b Rl Hw) as [Uw Kw].
  assert (D : (exists x y, a = VPrim x /\ b = VPrim y) \/ ~ (kind_of v = KString /\ kind_of w = KString) /\ (forall x y, a = VPrim x -> b <> VPrim y)).
  { rewrite Kv, Kw. destruct a as [a|i|i|ps bb|p], b as [b|j|j|ps' bb'|q]; cbn [vkind]; try (right; split; [intros [? ?]; discriminate|intros ? ? ?; discriminate]). left. eauto. }
  destruct D as [(x & y & -> & ->)|[D Np]].
  - assert (X : v_same (VPrim x) (VPrim y) = Some (same x y)) by (destruct x, y; reflexivity). rewrite (rep_equal _ _ _ _ _ _ (vrep_prim _ _ _ Hv) (vrep_prim _ _ _ Hw)). assert (same x y = r) by congruence. subst r. reflexivity.
  - destruct (equal_others (w_st W) ext v w Uv Uw D) as (r' & -> & Hr). f_equal.
    assert (Dif : vkind a <> vkind b -> v_same a b = Some false -> (forall p, a = VHost p -> b <> VPrim ANull) -> (forall p, b = VHost p -> a <> VPrim ANull) -> r' = r).
    { intros Dk Ef N1 N2. assert (r = false) by congruence. subst r. destruct r'; [|reflexivity]. exfalso.
      destruct (proj1 Hr eq_refl) as [[Q _]|[[Q1 Q2]|[Q1 Q2]]].
      - subst w. congruence.
      - subst v w. change (kind_of (65522 * 2 ^ 48)) with KForeign in Kv. change (kind_of (65535 * 2 ^ 48)) with KNull in Kw.
        destruct a as [[]| | | |p], b as [[]| | | |q]; try discriminate.
      - subst v w. change (kind_of (65522 * 2 ^ 48)) with KForeign in Kw. change (kind_of (65535 * 2 ^ 48)) with KNull in Kv.
        destruct a as [[]| | | |p], b as [[]| | | |q]; try discriminate. }
    assert (Sam : vkind a = vkind b -> vkind a <> KNumber -> vkind a <> KForeign \/ v = w -> vkind a <> KNull -> (r' = true <-> v = w)).
    { intros Q N _ Nn. rewrite Hr. split.
      - intros [[Q1 _]|[[-> ->]|[-> ->]]]; [exact Q1| |]; exfalso.
        + change (kind_of (65535 * 2 ^ 48)) with KNull in Kw. congruence.
        + change (kind_of (65535 * 2 ^ 48)) with KNull in Kv. congruence.
      - intros <-. left. split; [reflexivity|]. intros ->. change (kind_of (65525 * 2 ^ 48)) with KNumber in Kv. congruence. }
    destruct a as [a|i|i|ps bb|p], b as [b|j|j|ps' bb'|q]; cbn [v_same] in E; try discriminate E; try (exfalso; exact (Np _ _ eq_refl eq_refl));
      try (apply Dif; [cbn [vkind]; try destruct a; try destruct b; discriminate|cbn [v_same]; try destruct a; try destruct b; try discriminate E; reflexivity
                      |intros ? ?; try destruct b; try discriminate E; discriminate|intros ? ?; try destruct a; try discriminate E; discriminate]).
    + destruct Hv as [Hi ->], Hw as [Hj ->]. assert (r = Nat.eqb i j) by congruence. subst r.
      assert (Q : r' = true <-> obj_at W i = obj_at W j) by (apply Sam; try discriminate; try reflexivity; left; discriminate).
      destruct (Nat.eqb_spec i j) as [->|Ne]; [apply Q; reflexivity|]. destruct r'; [|reflexivity]. exfalso. apply Ne. apply (addr_inj W s i j Rl Hi Hj).
      pose proof (proj1 Q eq_refl) as X. unfold obj_at in X. lia.
    + destruct Hv as [Hi ->], Hw as [Hj ->]. assert (r = Nat.eqb i j) by congruence. subst r.
      assert (Q : r' = true <-> arr_at W i = arr_at W j) by (apply Sam; try discriminate; try reflexivity; left; discriminate).
      destruct (Nat.eqb_spec i j) as [->|Ne]; [apply Q; reflexivity|]. destruct r'; [|reflexivity]. exfalso. apply Ne. apply (addr_inj W s i j Rl Hi Hj).
      pose proof (proj1 Q eq_refl) as X. unfold arr_at in X. lia.
    + destruct Hv as (-> & _ & Kp), Hw as (-> & _ & Kq). assert (r = (p =? q)) by congruence. subst r.
      assert (Q : r' = true <-> p = q).
      { rewrite Hr. split.
        - intros [[Q1 _]|[[-> ->]|[-> ->]]]; [exact Q1| |]; exfalso; discriminate.
        - intros <-. left. split; [reflexivity|]. intros ->. discriminate Kp. }
      destruct (Z.eqb_spec p q) as [->|Ne]; [apply Q; reflexivity|]. destruct r'; [|reflexivity]. exfalso. apply Ne, Q. reflexivity.
Qed.
End Values.

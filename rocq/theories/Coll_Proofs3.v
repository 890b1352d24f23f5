From Verif Require Import Base BaseFacts Value_Model Value_Spec Value_Proofs Str_Model Str_Spec Str_Proofs Gc_Model Gc_Spec Gc_Fuel Gc_Proofs Gc_Proofs3 Gc_Proofs5 Props_Gc
  Obj_Model Obj_Spec Obj_Proofs Bcode_Model Bcode_Proofs Vm_Model Vm_Spec TokNum_Model Expr_Spec Run_Spec Run_Model Lang_Spec Lang_Code Lang_Spec2 Lang_Spec3 Lang_Exec10 Props_Lang
  Iso_Spec Iso_Proofs Coll_Spec Coll_Spec2 Coll_Proofs Coll_Proofs2.
From Coq Require Import ZifyBool.
Ltac Zify.zify_post_hook ::= idtac.

(** * The executor's picture of the memory after a collection *)
Lemma aget_filter {A} (t : Z -> bool) (l : list (Z * A)) a : aget (filter (fun x => t (fst x)) l) a = if t a then aget l a else None.
Proof.
  induction l as [|[k x] l IH]; cbn [filter fst aget]; [destruct (t a); reflexivity|]. destruct (k =? a) eqn:E.
  - apply Z.eqb_eq in E. subst. destruct (t a) eqn:T; [cbn [aget]; rewrite Z.eqb_refl; reflexivity|exact IH].
  - destruct (t k); [cbn [aget]; rewrite E|]; exact IH.
Qed.
Lemma aget_map {A B} (f : A -> B) (l : list (Z * A)) a : aget (map (fun x => (fst x, f (snd x))) l) a = option_map f (aget l a).
Proof. induction l as [|[k x] l IH]; cbn [map fst snd aget]; [reflexivity|]. destruct (k =? a); [reflexivity|exact IH]. Qed.
Definition member (x : Z) (l : list Z) : bool := existsb (Z.eqb x) l.
Lemma member_spec x l : member x l = true <-> In x l.
Proof. unfold member. rewrite existsb_exists. split; [intros (y & H & E); apply Z.eqb_eq in E; subst; exact H|intros H; exists x; split; [exact H|apply Z.eqb_refl]]. Qed.
Definition in_use (cells fl : list Z) (x : Z) : bool := member x cells && negb (member x fl).
Lemma in_use_spec cells fl x : in_use cells fl x = true <-> In x cells /\ ~ In x fl.
Proof.
  unfold in_use. rewrite andb_true_iff, negb_true_iff, member_spec. split; intros [H1 H2]; (split; [exact H1|]).
  - intros H. apply member_spec in H. congruence.
  - destruct (member x fl) eqn:E; [apply member_spec in E; tauto|reflexivity].
Qed.
Definition map_stk (f : Z -> Z) (s : stk) : stk := {| sk_live := map f (sk_live s); sk_stale := sk_stale s; sk_cap := sk_cap s |}.

Section Picture.
Context (phi : Z -> Z) (g g' : gstate) (ds ds' : list (list Z)) (flo flp fls flo' flp' fls' : list Z) (mv : Z -> Z).
Context (CO : collection g g' ds ds' flo flp fls flo' flp' fls' mv).
Context (m : vm) (D : depicts phi g flo flp m).
Let HP : placing phi := d_place _ _ _ _ _ D.
Let st' : strs := {| so := g_str g'; so_size := so_size (h_st (m_heap m)); sf := sf (h_st (m_heap m)); s_need_gc := false |}.
Let moved (c : pcell) : pcell := {| pc_next := pc_next c; pc_name := mvv mv (pc_name c); pc_val := mvv mv (pc_val c) |}.
Let heap' : heap := {| h_st := st';
  h_objs := filter (fun x => in_use (acells (g_obj g')) flo' (phi (fst x))) (h_objs (m_heap m));
  Obj_Model.h_props := map (fun x => (fst x, moved (snd x))) (filter (fun x => in_use (acells (g_prop g')) flp' (phi (fst x))) (Obj_Model.h_props (m_heap m)));
  h_next := h_next (m_heap m) |}.
Let m1 : vm := {| m_heap := heap'; m_mem := m_mem m; m_stack := map_stk (mvv mv) (m_stack m); m_call := map_stk (mvv mv) (m_call m); m_arg := m_arg m;
  m_scopes := map_stk (mvv mv) (m_scopes m); m_loops := m_loops m; m_err := m_err m; m_this := mvv mv (m_this m); m_last := mvv mv (m_last m);
  m_code := m_code m; m_off := m_off m; m_res := m_res m |}.
Let mw := mvv_word phi g g' ds ds' flo flp fls flo' flp' fls' mv CO HP.
Lemma array_picture bl bl' l : bl' = bl -> array_is phi g bl (rev l) -> (forall k, 0 <= k < snd bl -> root g (fst bl + 8 * k)) -> array_is phi g' bl' (rev (map (mvv mv) l)).
Proof.
  intros -> [L H] Hr. rewrite <- map_rev. split; [unfold zlen in *; rewrite map_length; exact L|].
  intros k v E. rewrite nth_error_map in E. destruct (nth_error (rev l) k) as [x|] eqn:Ex; [|discriminate E]. injection E as <-.
  apply mw; [|apply H, Ex]. apply r_root, roots_are_marked, Hr. rewrite L. unfold zlen.
  assert (k < length (rev l))%nat by (apply nth_error_Some; congruence). lia.
Qed.
Lemma picture : depicts phi g' flo' flp' m1 /\ same_rest m m1.
Proof.
  destruct (c_fields _ _ _ _ _ _ _ _ _ _ _ CO) as (F1 & F2 & F3 & F4). split; [|repeat split].
  constructor.
  - exact HP.
  - intros o p. cbn [m1 m_heap heap' h_objs]. rewrite (aget_filter (fun x => in_use (acells (g_obj g')) flo' (phi x))). cbv beta. split.
    + destruct (in_use _ _ _) eqn:U; [|discriminate]. intros H. apply in_use_spec in U. apply (d_obj _ _ _ _ _ D) in H. destruct H as (B1 & B2 & _ & _ & E).
      pose proof (proj1 (obj_live _ _ _ _ _ _ _ _ _ _ _ CO (phi o)) U) as Rr. destruct (obj_was _ _ _ _ _ _ _ _ _ _ _ CO _ Rr) as (_ & _ & X). rewrite X. tauto.
    + intros (B1 & B2 & I1 & I2 & E). pose proof (conj I1 I2) as U. pose proof (proj1 (obj_live _ _ _ _ _ _ _ _ _ _ _ CO (phi o)) U) as Rr.
      apply in_use_spec in U. rewrite U. apply (d_obj _ _ _ _ _ D). destruct (obj_was _ _ _ _ _ _ _ _ _ _ _ CO _ Rr) as (X1 & X2 & X). rewrite X in E. auto.
  - intros a c. cbn [m1 m_heap heap' Obj_Model.h_props]. rewrite (aget_map moved), (aget_filter (fun x => in_use (acells (g_prop g')) flp' (phi x))). cbv beta. split.
    + destruct (in_use _ _ _) eqn:U; [|discriminate]. intros H. destruct (aget _ a) as [c0|] eqn:Ea; [|discriminate H]. injection H as <-. apply in_use_spec in U.
      apply (d_prop _ _ _ _ _ D) in Ea. destruct Ea as (B1 & B2 & _ & _ & E1 & E2 & E3). cbn [moved pc_next pc_name pc_val].
      pose proof (proj1 (prop_live _ _ _ _ _ _ _ _ _ _ _ CO (phi a)) U) as Rr. destruct (prop_was _ _ _ _ _ _ _ _ _ _ _ CO _ Rr) as (_ & _ & X).
      rewrite X, (mw _ _ (r_name _ _ _ Rr) E2), (mw _ _ (r_val _ _ _ Rr) E3). tauto.
    + intros (B1 & B2 & I1 & I2 & E1 & E2 & E3). pose proof (conj I1 I2) as U. pose proof (proj1 (prop_live _ _ _ _ _ _ _ _ _ _ _ CO (phi a)) U) as Rr.
      apply in_use_spec in U. rewrite U. destruct (prop_was _ _ _ _ _ _ _ _ _ _ _ CO _ Rr) as (X1 & X2 & X). rewrite X in E1.
      destruct (was_word phi g g' ds ds' flo flp fls flo' flp' fls' mv CO _ _ (r_name _ _ _ Rr) E2) as (n & En).
      destruct (was_word phi g g' ds ds' flo flp fls flo' flp' fls' mv CO _ _ (r_val _ _ _ Rr) E3) as (v & Ev).
      assert (A : aget (Obj_Model.h_props (m_heap m)) a = Some {| pc_next := pc_next c; pc_name := n; pc_val := v |})
        by (apply (d_prop _ _ _ _ _ D); cbn [pc_next pc_name pc_val]; auto 10).
      rewrite A. cbn [option_map moved pc_next pc_name pc_val]. rewrite (mw _ _ (r_name _ _ _ Rr) En) in E2. rewrite (mw _ _ (r_val _ _ _ Rr) Ev) in E3.
      injection E2 as E2. injection E3 as E3. apply (word_inj phi HP) in E2. apply (word_inj phi HP) in E3. unfold moved. cbn [pc_next pc_name pc_val].
      rewrite E2, E3. destruct c. reflexivity.
  - reflexivity.
  - apply (array_picture _ _ _ F2 (d_scopes _ _ _ _ _ D)). intros k. apply rt_scope.
  - apply (array_picture _ _ _ F3 (d_stack _ _ _ _ _ D)). intros k. apply rt_stack.
  - apply (array_picture _ _ _ F4 (d_call _ _ _ _ _ D)). intros k. apply rt_call.
  - rewrite F1. apply mw; [|apply (d_this _ _ _ _ _ D)]. apply r_root, roots_are_marked. replace (g_vals g) with (g_vals g + 8 * 0) by lia. apply rt_val. lia.
  - rewrite F1. apply mw; [|apply (d_last _ _ _ _ _ D)]. apply r_root, roots_are_marked. replace (g_vals g + 16) with (g_vals g + 8 * 2) by lia. apply rt_val. lia.
Qed.
End Picture.

(** * Sessions *)
Definition comp (R1 R2 : pairing) : pairing := fun i k => exists j, R1 i j /\ R2 j k.
Lemma val_comp R1 R2 u v w : same_val R1 u v -> same_val R2 v w -> same_val (comp R1 R2) u w.
Proof.
  destruct u, v; cbn [same_val]; try contradiction; destruct w; cbn [same_val]; try contradiction; try congruence.
  all: try (intros X Y; eexists; split; eassumption).
  intros [-> ->] [-> ->]. auto.
Qed.
Lemma cell_comp R1 R2 c d e : same_cell R1 c d -> same_cell R2 d e -> same_cell (comp R1 R2) c e.
Proof.
  intros F. revert e. induction F as [|x y c d [X1 X2] F IH]; intros e G; inversion G as [|? z ? e' [Y1 Y2] G']; subst; constructor; [|apply IH, G'].
  split; [congruence|exact (val_comp _ _ _ _ _ X2 Y2)].
Qed.
Lemma state_comp R1 R2 s t u : same_state R1 s t -> same_state R2 t u -> same_state (comp R1 R2) s u.
Proof.
  intros ((A1 & A2) & A3 & A4) ((B1 & B2) & B3 & B4). split; [split|split; [congruence|]].
  - intros i j k (x & X1 & X2) (y & Y1 & Y2). rewrite (A1 _ _ _ X1 Y1) in X2. exact (B1 _ _ _ X2 Y2).
  - intros i j k (x & X1 & X2) (y & Y1 & Y2). rewrite (B2 _ _ _ X2 Y2) in X1. exact (A2 _ _ _ X1 Y1).
  - intros i k (j & X1 & X2). destruct (A4 _ _ X1) as (c & d & C1 & C2 & C3). destruct (B4 _ _ X2) as (d' & e & E1 & E2 & E3).
    rewrite C2 in E1. injection E1 as <-. exists c, e. split; [exact C1|]. split; [exact E2|]. exact (cell_comp _ _ _ _ _ C3 E3).
Qed.
Lemma list_comp R1 R2 a b c : Forall2 R1 a b -> Forall2 R2 b c -> Forall2 (comp R1 R2) a c.
Proof.
  intros F. revert c. induction F as [|x y a b q F IH]; intros c G; inversion G as [|? z ? c' q' G']; subst; constructor; [exists y; auto|apply IH, G'].
Qed.

Lemma collected_state m m' W s sc th depth : collected m m' -> in_state m W s sc th -> stack_room m depth ->
  m_code m' = m_code m /\ stack_room m' depth /\
  exists W' s' sc' th' R, in_state m' W' s' sc' th' /\ same_state R s s' /\ Forall2 R sc sc' /\ same_val R th th'.
Proof.
  intros (phi & g & ds & flo & flp & fls & g' & ds' & flo' & flp' & fls' & HK & Dm & (F & HF) & HK' & Dm' & SR) St Sr.
  destruct (collects g ds flo flp fls HK) as (F2 & HF2).
  destruct (HF2 (max F F2) ltac:(lia)) as (g2 & ds2 & mv & flo2 & flp2 & fls2 & E & HK2 & CO). rewrite (gc_fuel F (max F F2) g g' (Nat.le_max_l F F2) HF) in E. injection E as <-.
  assert (flo2 = flo') by exact (flist_fun _ _ _ _ (ok_free _ _ _ (h_obj _ _ _ _ _ HK2)) (ok_free _ _ _ (h_obj _ _ _ _ _ HK'))).
  assert (flp2 = flp') by exact (flist_fun _ _ _ _ (ok_free _ _ _ (h_prop _ _ _ _ _ HK2)) (ok_free _ _ _ (h_prop _ _ _ _ _ HK'))). subst.
  destruct (state_after phi g g' ds ds2 flo flp fls flo' flp' fls2 mv m m' W s sc th CO Dm Dm' SR St) as (W' & s' & sc' & th' & R & H1 & H2 & H3 & H4 & L1 & L2).
  split; [apply SR|]. split; [|exists W', s', sc', th', R; auto].
  unfold stack_room, zlen in *. rewrite L1, L2. replace (m_loops m') with (m_loops m) by (symmetry; apply SR). exact Sr.
Qed.

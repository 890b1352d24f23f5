From Verif Require Import Ops_Proofs2 Base BaseFacts Varint_Model Value_Model Value_Spec Value_Proofs Str_Model Str_Spec Str_Proofs Gc_Model Gc_Spec Gc_Proofs3 Gc_Proofs5 Props_Gc
  Obj_Model Obj_Spec Obj_Proofs Bcode_Model Vm_Model Vm_Spec TokNum_Model Expr_Spec Run_Spec Lang_Spec Lang_Code Lang_Spec2 Iso_Spec Coll_Spec Coll_Proofs.
From Coq Require Import ZifyBool.
Ltac Zify.zify_post_hook ::= idtac.

(** * Lists: those that satisfy a test, and where they are *)
Section Pick.
Context {A B : Type} (P : A -> bool).
Definition rank (l : list A) (k : nat) : nat := length (filter P (firstn k l)).
Definition pick (l : list A) (c : list B) : list B := map snd (filter (fun x => P (fst x)) (combine l c)).
Lemma rank_nth l : forall k a, nth_error l k = Some a -> P a = true -> nth_error (filter P l) (rank l k) = Some a.
Proof.
  induction l as [|x l IH]; intros [|k] a E H; try discriminate E.
  - injection E as ->. cbn. rewrite H. reflexivity.
  - unfold rank. cbn [nth_error firstn filter] in *. destruct (P x); cbn [length nth_error]; apply IH; assumption.
Qed.
Lemma pick_nth l : forall c k a b, nth_error l k = Some a -> nth_error c k = Some b -> P a = true -> nth_error (pick l c) (rank l k) = Some b.
Proof.
  induction l as [|x l IH]; intros [|y c] [|k] a b E E2 H; try discriminate E; try discriminate E2.
  - injection E as ->. injection E2 as ->. unfold pick, rank. cbn. rewrite H. reflexivity.
  - unfold rank, pick in *. cbn [nth_error firstn filter combine fst] in *. destruct (P x); cbn [length map nth_error snd]; eapply IH; eassumption.
Qed.
Lemma pick_all (Q Q' : A -> B -> Prop) l c : Forall2 Q l c -> (forall a b, P a = true -> Q a b -> Q' a b) -> Forall2 Q' (filter P l) (pick l c).
Proof.
  intros F H. induction F as [|a b l c q F IH]; [constructor|]. unfold pick in *. cbn [filter combine fst]. destruct (P a) eqn:E; cbn [map snd]; [constructor; auto|exact IH].
Qed.
End Pick.
Lemma filter_nodup {A} (P : A -> bool) l : NoDup l -> NoDup (filter P l).
Proof. apply NoDup_filter. Qed.
Lemma nodup_nth {A} (l : list A) i j a : NoDup l -> nth_error l i = Some a -> nth_error l j = Some a -> i = j.
Proof. intros N E1 E2. apply (proj1 (NoDup_nth_error l) N); [apply nth_error_Some; congruence|congruence]. Qed.
Lemma Forall2_nth2 {A B} (Q : A -> B -> Prop) l c k b : Forall2 Q l c -> nth_error c k = Some b -> exists a, nth_error l k = Some a /\ Q a b.
Proof. intros F. revert k. induction F as [|x y l c q F IH]; intros [|k] E; try discriminate E; [injection E as ->; exists x; split; [reflexivity|exact q]|exact (IH k E)]. Qed.
Lemma Forall2_nth1 {A B} (Q : A -> B -> Prop) l c k a : Forall2 Q l c -> nth_error l k = Some a -> exists b, nth_error c k = Some b /\ Q a b.
Proof. intros F. revert k. induction F as [|x y l c q F IH]; intros [|k] E; try discriminate E; [injection E as ->; exists y; split; [reflexivity|exact q]|exact (IH k E)]. Qed.

Section Engine.
Context (phi : Z -> Z) (g g' : gstate) (ds ds' : list (list Z)) (flo flp fls flo' flp' fls' : list Z) (mv : Z -> Z).
Context (CO : collection g g' ds ds' flo flp fls flo' flp' fls' mv).
Context (m m' : vm) (D : depicts phi g flo flp m) (D' : depicts phi g' flo' flp' m') (SR : same_rest m m').
Let HP : placing phi := d_place _ _ _ _ _ D.
Notation h := (m_heap m). Notation h' := (m_heap m').
Notation mt := (moved_to phi g g').
Lemma phi_inj a b : 0 <= a < 2 ^ 48 -> 0 <= b < 2 ^ 48 -> phi a = phi b -> a = b. Proof. apply HP. Qed.
Lemma phi_0 a : 0 < a < 2 ^ 48 -> phi a <> 0.
Proof. intros H E. rewrite <- (proj1 HP) in E. apply phi_inj in E; lia. Qed.

(** Cells *)
Lemma obj_after o p : aget (h_objs h') o = Some p <-> aget (h_objs h) o = Some p /\ reachable g (Obj (phi o)).
Proof.
  rewrite (d_obj _ _ _ _ _ D o p), (d_obj _ _ _ _ _ D' o p). split.
  - intros (B1 & B2 & I1 & I2 & E). assert (R : reachable g (Obj (phi o))) by (apply (obj_live _ _ _ _ _ _ _ _ _ _ _ CO); auto).
    destruct (obj_was _ _ _ _ _ _ _ _ _ _ _ CO _ R) as (X1 & X2 & X3). rewrite X3 in E. auto 10.
  - intros ((B1 & B2 & _ & _ & E) & R). destruct (obj_was _ _ _ _ _ _ _ _ _ _ _ CO _ R) as (X1 & X2 & X3).
    apply (obj_live _ _ _ _ _ _ _ _ _ _ _ CO) in R. rewrite X3. tauto.
Qed.
Lemma was_word a v' : reachable g (Slot a) -> g_mem g' a = Some (word phi v') -> exists v, g_mem g a = Some (word phi v).
Proof.
  intros R E. destruct (h_slot _ _ _ _ _ (c_ok _ _ _ _ _ _ _ _ _ _ _ CO) a R) as (n & En & _). destruct (c_keeps _ _ _ _ _ _ _ _ _ _ _ CO) as (_ & _ & _ & K).
  destruct (K a n R En) as [_ K2]. destruct (Z.eq_dec (n / 2 ^ 48) 65528) as [T|T].
  - exists n. rewrite (word_not phi n (str_not_ref n T)). exact En.
  - exists v'. rewrite K2 in E by exact T. congruence.
Qed.
Lemma prop_before a c' : aget (Obj_Model.h_props h') a = Some c' ->
  reachable g (Prop_ (phi a)) /\ exists c, aget (Obj_Model.h_props h) a = Some c /\ pc_next c' = pc_next c.
Proof.
  intros H. apply (d_prop _ _ _ _ _ D') in H. destruct H as (B1 & B2 & I1 & I2 & E1 & E2 & E3).
  assert (R : reachable g (Prop_ (phi a))) by (apply (prop_live _ _ _ _ _ _ _ _ _ _ _ CO); auto). split; [exact R|].
  (* what it was *)
  destruct (prop_was _ _ _ _ _ _ _ _ _ _ _ CO _ R) as (X1 & X2 & X3). rewrite X3 in E1.
  destruct (was_word _ _ (r_name _ _ _ R) E2) as (n & En). destruct (was_word _ _ (r_val _ _ _ R) E3) as (v & Ev).
  exists {| pc_next := pc_next c'; pc_name := n; pc_val := v |}. split; [|reflexivity]. apply (d_prop _ _ _ _ _ D). cbn [pc_next pc_name pc_val]. auto 10.
Qed.
Lemma prop_after a c : aget (Obj_Model.h_props h) a = Some c -> reachable g (Prop_ (phi a)) ->
  exists c', aget (Obj_Model.h_props h') a = Some c' /\ pc_next c' = pc_next c /\ mt (pc_name c) (pc_name c') /\ mt (pc_val c) (pc_val c').
Proof.
  intros H R. apply (d_prop _ _ _ _ _ D) in H. destruct H as (B1 & B2 & I1 & I2 & E1 & E2 & E3).
  pose proof (r_name _ _ _ R) as Rn. pose proof (r_val _ _ _ R) as Rv.
  pose proof (mvv_word phi g g' ds ds' flo flp fls flo' flp' fls' mv CO HP _ _ Rn E2) as W2.
  pose proof (mvv_word phi g g' ds ds' flo flp fls flo' flp' fls' mv CO HP _ _ Rv E3) as W3.
  exists {| pc_next := pc_next c; pc_name := mvv mv (pc_name c); pc_val := mvv mv (pc_val c) |}. cbn [pc_next pc_name pc_val].
  split; [|split; [reflexivity|split; eexists; eauto]].
  apply (d_prop _ _ _ _ _ D'). cbn [pc_next pc_name pc_val]. destruct (prop_was _ _ _ _ _ _ _ _ _ _ _ CO _ R) as (X1 & X2 & X3).
  apply (prop_live _ _ _ _ _ _ _ _ _ _ _ CO) in R. rewrite X3. tauto.
Qed.

(** Property lists *)
Definition cell_at (a : Z) : pcell := match aget (Obj_Model.h_props h') a with Some c => c | None => {| pc_next := 0; pc_name := 0; pc_val := 0 |} end.
Definition cells_at (l : list (Z * pcell)) : list (Z * pcell) := map (fun x => (fst x, cell_at (fst x))) l.
Lemma cells_after : forall l p, Obj_Spec.cells h p l -> (p <> 0 -> reachable g (Prop_ (phi p))) ->
  Obj_Spec.cells h' p (cells_at l) /\ Forall2 (fun x y => mt (pc_name (snd x)) (pc_name (snd y)) /\ mt (pc_val (snd x)) (pc_val (snd y))) l (cells_at l).
Proof.
  induction l as [|[a c] l IH]; intros p H R; [split; [exact H|constructor]|]. cbn [Obj_Spec.cells] in H. destruct H as (-> & N & E & H).
  destruct (prop_after a c E (R N)) as (c' & E' & X1 & X2 & X3).
  assert (Hn : pc_next c <> 0 -> reachable g (Prop_ (phi (pc_next c)))).
  { intros Nz. apply (d_prop _ _ _ _ _ D) in E. destruct E as (_ & B & _ & _ & E & _). apply (r_next _ _ (phi a)); [exact (R N)|exact E|]. apply phi_0. lia. }
  destruct (IH _ H Hn) as [I1 I2]. cbn [cells_at map fst]. unfold cell_at at 1 3. rewrite E'. split.
  - cbn [Obj_Spec.cells]. rewrite X1. auto.
  - constructor; [split; assumption|exact I2].
Qed.
Definition retell (l : list (Z * pcell)) (mp : omap) : omap := map (fun x => (fst (snd x), pc_val (cell_at (fst (fst x))))) (combine l mp).
Definition entry_moved (e e' : list Z * Z) : Prop := fst e' = fst e /\ mt (snd e) (snd e').
Lemma st_facts : so (h_st h) = g_str g /\ so (h_st h') = g_str g' /\ sf (h_st h') = sf (h_st h).
Proof. split; [apply (d_str _ _ _ _ _ D)|]. split; [apply (d_str _ _ _ _ _ D')|apply SR]. Qed.
Lemma retell_spec ext l mp : Forall2 (entry_rep (h_st h) ext) l mp ->
  Forall2 (fun x y => mt (pc_name (snd x)) (pc_name (snd y)) /\ mt (pc_val (snd x)) (pc_val (snd y))) l (cells_at l) ->
  Forall2 (entry_rep (h_st h') ext) (cells_at l) (retell l mp) /\ Forall2 entry_moved mp (retell l mp) /\ map fst (retell l mp) = map fst mp.
Proof.
  destruct st_facts as (S1 & S2 & S3).
  induction 1 as [|x e l mp [H1 H2] F IH]; intros G; [repeat split; constructor|]. cbn [cells_at map] in G. inversion G as [|? ? ? ? [G1 G2] G3]; subst.
  destruct (IH G3) as (I1 & I2 & I3). cbn [snd] in G1, G2. unfold retell in *. cbn [cells_at map combine fst snd]. split; [|split].
  - constructor; [|exact I1]. split; [|reflexivity]. cbn [fst snd].
    exact (name_moved phi g g' ds ds' flo flp fls flo' flp' fls' mv CO HP _ _ ext _ _ _ S1 S2 S3 G1 H1).
  - constructor; [|exact I2]. split; [reflexivity|]. cbn [snd]. rewrite <- H2. exact G2.
  - f_equal. exact I3.
Qed.
Definition surv (o : Z) : bool := match aget (h_objs h') o with Some _ => true | None => false end.
Lemma cells_fst l : map fst (cells_at l) = map fst l.
Proof. unfold cells_at. rewrite map_map. reflexivity. Qed.

Theorem hrep_after ext M : hrep h ext M ->
  exists M', hrep h' ext M' /\ (forall o mp, M o = Some mp -> surv o = true -> exists mp', M' o = Some mp' /\ Forall2 entry_moved mp mp').
Proof.
  intros (C & A1 & A2 & A3 & A4 & A5).
  exists (fun o => if surv o then option_map (retell (C o)) (M o) else None).
  assert (Sv : forall o, surv o = true -> reachable g (Obj (phi o)) /\ exists p, aget (h_objs h) o = Some p /\ aget (h_objs h') o = Some p).
  { intros o H. unfold surv in H. destruct (aget (h_objs h') o) as [p|] eqn:E; [|discriminate H]. apply obj_after in E. destruct E as [E R]. split; [exact R|]. eauto. }
  assert (Q : forall o mp, M o = Some mp -> surv o = true -> obj_rep h' ext o (cells_at (C o)) (retell (C o) mp) /\ Forall2 entry_moved mp (retell (C o) mp) /\ map fst (retell (C o) mp) = map fst mp).
  { intros o mp E H. destruct (A2 o mp E) as ((p & Ep & Cp & F) & _). destruct (Sv o H) as (R & p' & Ep1 & Ep2). rewrite Ep in Ep1. injection Ep1 as <-.
    assert (Rp : p <> 0 -> reachable g (Prop_ (phi p))).
    { intros N. apply (d_obj _ _ _ _ _ D) in Ep. destruct Ep as (_ & B & _ & _ & Em). apply (r_first _ _ (phi o)); [exact R|exact Em|]. apply phi_0. lia. }
    destruct (cells_after _ _ Cp Rp) as [X1 X2]. destruct (retell_spec ext _ _ F X2) as (Y1 & Y2 & Y3). split; [|split; assumption]. exists p. auto. }
  split.
  - exists (fun o => cells_at (C o)). split; [|split; [|split; [|split]]].
    + intros o. unfold surv. destruct (aget (h_objs h') o) as [p|] eqn:E; [|tauto]. apply obj_after in E. destruct E as [E _]. split; [|discriminate].
      intros H. exfalso. destruct (M o) eqn:Em; [discriminate H|]. apply A1 in Em. congruence.
    + intros o mp' H. destruct (surv o) eqn:Es; [|discriminate H]. destruct (M o) as [mp|] eqn:Em; [|discriminate H]. injection H as <-.
      destruct (Q o mp Em Es) as (X1 & X2 & X3). destruct (A2 o mp Em) as (_ & N & Nk). split; [exact X1|]. split; [rewrite X3; exact N|].
      apply Forall_map in Nk. rewrite <- X3 in Nk. apply (Forall_map fst name_ok (retell (C o) mp)) in Nk. exact Nk.
    + intros o1 o2 m1 m2 a N H1 H2. rewrite !cells_fst. destruct (surv o1), (surv o2); try discriminate.
      destruct (M o1) eqn:E1; [|discriminate]. destruct (M o2) eqn:E2; [|discriminate]. exact (A3 o1 o2 _ _ a N E1 E2).
    + intros a c' H. apply prop_before in H. destruct H as (_ & c & H & _). destruct SR as (_ & _ & _ & _ & _ & _ & _ & -> & _). exact (A4 a c H).
    + intros o p H. apply obj_after in H. destruct SR as (_ & _ & _ & _ & _ & _ & _ & -> & _). exact (A5 o p (proj1 H)).
  - intros o mp E H. rewrite H, E. cbn [option_map]. eexists. split; [reflexivity|]. apply Q; assumption.
Qed.

(** Values *)
Lemma mt_same v v' : ~ is_str_o v -> mt v v' -> v' = v.
Proof. intros N H. rewrite (moved_mvv phi g g' ds ds' flo flp fls flo' flp' fls' mv CO HP _ _ H). apply mvv_same, N. Qed.
Lemma str_kind v : is_str_o v -> kind_of v = KString.
Proof. intros H. unfold kind_of. cbv zeta. unfold is_str_o in H. rewrite H. reflexivity. Qed.
Context (W : world) (s : state) (HW : h = w_heap W) (RL : rel (m_code m) (m_ext m) W s).
Context (M' : store) (HM : hrep h' (m_ext m) M') (HE : forall o mp, w_store W o = Some mp -> surv o = true -> exists mp', M' o = Some mp' /\ Forall2 entry_moved mp mp').
Definition W2 : world := {| w_heap := h'; w_addr := filter surv (w_addr W); w_store := M' |}.
Definition rk (i : nat) : nat := rank surv (w_addr W) i.
Definition ren (a : val) : val := match a with VObj i => VObj (rk i) | VArr i => VArr (rk i) | a => a end.
Definition ren_cell (c : cell) : cell := map (fun e => (fst e, ren (snd e))) c.
Definition s2 : state := {| objs := map ren_cell (pick surv (w_addr W) (objs s)); left := left s |}.
Definition RR : pairing := fun i j => exists a, nth_error (w_addr W) i = Some a /\ nth_error (w_addr W2) j = Some a.

Lemma addr_in i : (i < length (w_addr W))%nat -> exists p, nth_error (w_addr W) i = Some (nth i (w_addr W) 0) /\ aget (h_objs h) (nth i (w_addr W) 0) = Some p /\
  0 < nth i (w_addr W) 0 < 2 ^ 47.
Proof.
  intros L. pose proof (nth_error_nth' (w_addr W) 0 L) as E. destruct RL as (HR & _ & F & B0 & B1 & B2 & _).
  destruct (Forall2_nth1 _ _ _ _ _ F E) as (c & _ & mp & Em & _). destruct HR as (C & A1 & _ & _ & _ & A5). rewrite <- HW in A1, A5, B2.
  destruct (aget (h_objs h) (nth i (w_addr W) 0)) as [p|] eqn:Ea; [|apply A1 in Ea; congruence]. exists p. split; [exact E|]. split; [reflexivity|].
  specialize (A5 _ _ Ea). lia.
Qed.
Lemma ref_moved k i v v' : k = 65521 \/ k = 65532 -> (i < length (w_addr W))%nat -> v = k * 2 ^ 48 + nth i (w_addr W) 0 -> mt v v' ->
  v' = v /\ RR i (rk i) /\ (rk i < length (w_addr W2))%nat /\ nth (rk i) (w_addr W2) 0 = nth i (w_addr W) 0.
Proof.
  intros K L Ev Mv. destruct (addr_in i L) as (p & E & Ep & B). set (o := nth i (w_addr W) 0) in *.
  assert (Hd : v / 2 ^ 48 = k) by (rewrite Ev, Z.div_add_l by lia; rewrite Z.div_small by lia; lia).
  assert (Ha : addr v = o) by (unfold addr; rewrite Ev, Z.add_comm, Z.mod_add by lia; apply Z.mod_small; lia).
  assert (Rf : is_ref v = true) by (unfold is_ref; rewrite Hd; lia).
  assert (Ns : ~ is_str_o v) by (unfold is_str_o; rewrite Hd; lia).
  split; [exact (mt_same v v' Ns Mv)|]. destruct Mv as (a & R & Em & _).
  assert (Ro : reachable g (Obj (phi o))).
  { rewrite <- Ha, <- (word_lo phi HP v Rf). apply (r_obj _ _ a (word phi v) R Em). apply kind_hi. rewrite (word_ref phi HP). exact Rf. }
  assert (Sv : surv o = true) by (unfold surv; rewrite (proj2 (obj_after o p) (conj Ep Ro)); reflexivity).
  pose proof (rank_nth surv (w_addr W) i o E Sv) as E2. split; [exists o; split; [exact E|exact E2]|].
  split; [apply nth_error_Some; cbn [w_addr W2]; unfold rk; congruence|]. apply nth_error_nth, E2.
Qed.
Lemma vrep_moved v v' a : vrep (m_code m) (m_ext m) W v a -> mt v v' -> vrep (m_code m) (m_ext m) W2 v' (ren a) /\ same_val RR a (ren a).
Proof.
  intros V Mv. destruct st_facts as (S1 & S2 & S3).
  assert (Q : kind_of v <> KString -> v' = v) by (intros K; apply mt_same; [intros X; apply K, str_kind, X|exact Mv]).
  destruct a as [[p|b| | |t]|i|i|ps b|p]; cbn [vrep ren same_val rep] in *.
  - destruct V as (-> & U & Nn). split; [|reflexivity]. split; [|split; assumption]. apply Q.
    destruct (Ops_Proofs2.kinds p U) as (X & _). rewrite Nn in X. destruct (kind_of p); try discriminate X. discriminate.
  - subst v. split; [|reflexivity]. apply Q. destruct b; discriminate.
  - subst v. split; [|reflexivity]. apply Q. discriminate.
  - subst v. split; [|reflexivity]. apply Q. discriminate.
  - destruct V as [N B]. split; [|reflexivity]. split; [|exact B]. unfold w_st in *. rewrite <- HW in N. cbn [w_heap W2].
    exact (name_moved phi g g' ds ds' flo flp fls flo' flp' fls' mv CO HP _ _ _ _ _ _ S1 S2 S3 Mv N).
  - destruct V as [L E]. destruct (ref_moved 65521 i v v' (or_introl eq_refl) L E Mv) as (-> & R & L2 & En). split; [|exact R]. split; [exact L2|].
    unfold obj_at in *. rewrite En. exact E.
  - destruct V as [L E]. destruct (ref_moved 65532 i v v' (or_intror eq_refl) L E Mv) as (-> & R & L2 & En). split; [|exact R]. split; [exact L2|].
    unfold arr_at in *. rewrite En. exact E.
  - split; [|split; reflexivity]. replace v' with v; [exact V|]. symmetry. apply Q. destruct V as (bp & pre & rest & (B1 & B2 & _) & Ed & _ & -> & _).
    rewrite Ed in B2. rewrite !zlen_app in B2. pose proof (zlen_nonneg pre). pose proof (zlen_nonneg (bracket ps (seqcode (map cst b)))). pose proof (zlen_nonneg rest).
    rewrite (proj2 (function_round_trip (bp_start bp + zlen pre) ltac:(lia))). discriminate.
  - destruct V as (-> & U & K). split; [|reflexivity]. split; [apply Q; rewrite K; discriminate|]. split; assumption.
Qed.
Lemma cell_moved mp mp' c : Forall2 (entry_is (m_code m) (m_ext m) W) mp c -> Forall2 entry_moved mp mp' ->
  Forall2 (entry_is (m_code m) (m_ext m) W2) mp' (ren_cell c) /\ same_cell RR c (ren_cell c).
Proof.
  intros F. revert mp'. induction F as [|x y mp c [H1 H2] F IH]; intros mp' G; inversion G as [|? ? ? ? [G1 G2] G3]; subst; [split; constructor|].
  destruct (IH _ G3) as [I1 I2]. destruct (vrep_moved _ _ _ H2 G2) as [V1 V2]. split; constructor; try assumption.
  - split; [cbn [fst]; congruence|exact V1].
  - split; [reflexivity|exact V2].
Qed.
Lemma rel_after : rel (m_code m) (m_ext m) W2 s2 /\ same_state RR s s2.
Proof.
  pose proof RL as (HR & ND & F & B0 & B1 & B2 & B3).
  assert (X : forall o c, surv o = true -> cell_is (m_code m) (m_ext m) W o c -> cell_is (m_code m) (m_ext m) W2 o (ren_cell c) /\ same_cell RR c (ren_cell c)).
  { intros o c Hs (mp & Em & Fc). destruct (HE o mp Em Hs) as (mp' & Em' & Fm). destruct (cell_moved mp mp' c Fc Fm) as [Y1 Y2]. split; [|exact Y2]. exists mp'. auto. }
  assert (N2 : NoDup (w_addr W2)) by (apply NoDup_filter, ND).
  split.
  - split; [exact HM|]. split; [exact N2|]. split; [|split; [exact B0|]].
    + cbn [s2 objs W2 w_addr]. assert (Y : Forall2 (fun o c => cell_is (m_code m) (m_ext m) W2 o (ren_cell c)) (filter surv (w_addr W)) (pick surv (w_addr W) (objs s))).
      { eapply pick_all; [exact F|]. intros o c Hs Hc. apply X; assumption. }
      clear -Y. induction Y; cbn [map]; constructor; auto.
    + destruct SR as (_ & _ & _ & _ & _ & _ & _ & Hn & _). unfold w_st, W2, s2. cbn [w_heap left]. rewrite Hn, HW. split; [exact B1|]. split; [exact B2|].
      destruct st_facts as (S1 & S2 & _). rewrite S2. unfold w_st in B3. rewrite <- HW, S1 in B3. pose proof (proj2 (proj2 (proj2 (c_comp _ _ _ _ _ _ _ _ _ _ _ CO)))). lia.
  - split; [split|split; [reflexivity|]].
    + intros i j k (a & E1 & E2) (b & E3 & E4). rewrite E1 in E3. injection E3 as <-. exact (nodup_nth _ _ _ _ N2 E2 E4).
    + intros i j k (a & E1 & E2) (b & E3 & E4). rewrite E2 in E4. injection E4 as <-. exact (nodup_nth _ _ _ _ ND E1 E3).
    + intros i j (a & E1 & E2). destruct (Forall2_nth1 _ _ _ _ _ F E1) as (c & Ec & Hc).
      assert (Hs : surv a = true) by (apply nth_error_In in E2; apply filter_In in E2; apply E2).
      destruct (X a c Hs Hc) as [_ Sc]. exists c, (ren_cell c). split; [exact Ec|]. split; [|exact Sc].
      pose proof (rank_nth surv _ _ _ E1 Hs) as E3. rewrite (nodup_nth _ _ _ _ N2 E2 E3). cbn [s2 objs].
      apply map_nth_error. exact (pick_nth surv _ _ _ _ _ E1 Ec Hs).
Qed.
Context (sc : list nat) (th : val) (SC : scopes_are W (chain m) sc) (TH : vrep (m_code m) (m_ext m) W (m_this m) th).
Lemma array_moved bl bl' vs vs' : bl' = bl -> array_is phi g bl vs -> array_is phi g' bl' vs' -> (forall k, (k < length vs)%nat -> In (fst bl + 8 * Z.of_nat k) (gc_slots g)) ->
  Forall2 mt vs vs'.
Proof.
  intros -> [L1 H1] [L2 H2] Hi. assert (Ln : length vs = length vs') by (unfold zlen in *; lia). clear L1 L2.
  assert (G : forall n l l', length l = length l' -> (forall k v, nth_error l k = Some v -> g_mem g (fst bl + 8 * Z.of_nat (n + k)) = Some (word phi v)) ->
     (forall k v, nth_error l' k = Some v -> g_mem g' (fst bl + 8 * Z.of_nat (n + k)) = Some (word phi v)) ->
     (forall k, (k < length l)%nat -> In (fst bl + 8 * Z.of_nat (n + k)) (gc_slots g)) -> Forall2 mt l l').
  { intros n l. revert n. induction l as [|x l IH]; intros n [|y l'] E A1 A2 A3; try discriminate E; constructor.
    - exists (fst bl + 8 * Z.of_nat (n + 0)). split; [apply r_root, A3; cbn; lia|]. split; [apply A1|apply A2]; reflexivity.
    - apply (IH (S n)); [cbn in E; lia| | |]; intros k; replace (S n + k)%nat with (n + S k)%nat by lia.
      + intros v Hv. apply A1. exact Hv.
      + intros v Hv. apply A2. exact Hv.
      + intros Hk. apply A3. cbn. lia. }
  apply (G O); assumption.
Qed.
Lemma scopes_after : scopes_are W2 (chain m') (map rk sc) /\ Forall2 RR sc (map rk sc).
Proof.
  destruct (c_fields _ _ _ _ _ _ _ _ _ _ _ CO) as (_ & Fs & _ & _).
  assert (Mv : Forall2 mt (rev (chain m)) (rev (chain m'))).
  { apply (array_moved (g_scopes g) (g_scopes g') _ _ Fs (d_scopes _ _ _ _ _ D) (d_scopes _ _ _ _ _ D')).
    intros k Hk. apply roots_are_marked. apply rt_scope. pose proof (proj1 (d_scopes _ _ _ _ _ D)) as L. unfold zlen in L. rewrite L. unfold chain in *. lia. }
  assert (Mv2 : Forall2 mt (chain m) (chain m')).
  { rewrite <- (rev_involutive (chain m)), <- (rev_involutive (chain m')). clear -Mv. induction Mv as [|x y l l' q F IH]; [constructor|].
    cbn [rev]. apply Forall2_app; [exact IH|constructor; [exact q|constructor]]. }
  destruct SC as [E L]. rewrite E in Mv2. clear E SC. unfold scopes_are. set (c' := chain m') in *. clearbody c'. clear Mv.
  revert c' Mv2. induction sc as [|i l IH]; intros c' Mv; cbn [map] in Mv; inversion Mv as [|? ? ? ? X1 X2]; subst; cbn [map]; [repeat split; constructor|].
  inversion L as [|? ? Li Ll]; subst. destruct (IH Ll _ X2) as ((I1 & I2) & I3).
  destruct (ref_moved 65521 i _ _ (or_introl eq_refl) Li eq_refl X1) as (Ev & R & L2 & En). split; [split|].
  - rewrite I1, Ev. f_equal. unfold obj_at. rewrite En. reflexivity.
  - constructor; assumption.
  - constructor; assumption.
Qed.
Lemma this_after : vrep (m_code m) (m_ext m) W2 (m_this m') (ren th) /\ same_val RR th (ren th).
Proof.
  apply (vrep_moved (m_this m)); [exact TH|]. exists (g_vals g). split; [|split].
  - apply r_root, roots_are_marked. replace (g_vals g) with (g_vals g + 8 * 0) by lia. apply rt_val. lia.
  - apply (d_this _ _ _ _ _ D).
  - destruct (c_fields _ _ _ _ _ _ _ _ _ _ _ CO) as (<- & _). apply (d_this _ _ _ _ _ D').
Qed.
Lemma stack_lengths : length (sk_live (m_stack m')) = length (sk_live (m_stack m)) /\ length (sk_live (m_scopes m')) = length (sk_live (m_scopes m)).
Proof.
  destruct (c_fields _ _ _ _ _ _ _ _ _ _ _ CO) as (_ & F1 & F2 & _).
  pose proof (proj1 (d_stack _ _ _ _ _ D)) as A1. pose proof (proj1 (d_stack _ _ _ _ _ D')) as A2. pose proof (proj1 (d_scopes _ _ _ _ _ D)) as A3. pose proof (proj1 (d_scopes _ _ _ _ _ D')) as A4.
  unfold zlen in *. rewrite rev_length in *. rewrite F2 in A2. rewrite F1 in A4. lia.
Qed.
End Engine.

(** The engine after the collection is in a state that is the same but for the numbers of the
    objects. *)
Theorem state_after phi g g' ds ds' flo flp fls flo' flp' fls' mv m m' W s sc th :
  collection g g' ds ds' flo flp fls flo' flp' fls' mv -> depicts phi g flo flp m -> depicts phi g' flo' flp' m' -> same_rest m m' ->
  in_state m W s sc th ->
  exists W' s' sc' th' R, in_state m' W' s' sc' th' /\ same_state R s s' /\ Forall2 R sc sc' /\ same_val R th th' /\
    length (sk_live (m_stack m')) = length (sk_live (m_stack m)) /\ length (sk_live (m_scopes m')) = length (sk_live (m_scopes m)).
Proof.
  intros CO D D' SR (HW & RL & SC & TH).
  destruct (hrep_after phi g g' ds ds' flo flp fls flo' flp' fls' mv CO m m' D D' SR (m_ext m) (w_store W)) as (M' & HM & HE); [rewrite HW; apply RL|].
  destruct (rel_after phi g g' ds ds' flo flp fls flo' flp' fls' mv CO m m' D D' SR W s HW RL M' HM HE) as [R1 R2].
  destruct (scopes_after phi g g' ds ds' flo flp fls flo' flp' fls' mv CO m m' D D' W s HW RL M' sc SC) as [S1 S2].
  destruct (this_after phi g g' ds ds' flo flp fls flo' flp' fls' mv CO m m' D D' SR W s HW RL M' th TH) as [T1 T2].
  assert (Ec : m_code m' = m_code m) by apply SR. assert (Ee : m_ext m' = m_ext m) by (unfold m_ext; replace (m_mem m') with (m_mem m) by (symmetry; apply SR); reflexivity).
  exists (W2 m' W M'), (s2 m' W s), (map (rk m' W) sc), (ren m' W th), (RR m' W M').
  split; [|split; [exact R2|split; [exact S2|split; [exact T2|]]]].
  - split; [reflexivity|]. rewrite Ec, Ee. split; [exact R1|]. split; [exact S1|exact T1].
  - exact (stack_lengths phi g g' ds ds' flo flp fls flo' flp' fls' mv CO m m' D D').
Qed.

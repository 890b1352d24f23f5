From Verif Require Import Base BaseFacts Varint_Model Value_Model Value_Spec Value_Proofs Str_Model Str_Spec Str_Proofs Gc_Model Gc_Spec Gc_Proofs3 Gc_Proofs5 Props_Gc
  Obj_Model Obj_Spec Obj_Proofs Bcode_Model Vm_Model Vm_Spec TokNum_Model Expr_Spec Run_Spec Lang_Spec Lang_Code Lang_Spec2 Iso_Spec Coll_Spec.
From Coq Require Import ZifyBool.
Ltac Zify.zify_post_hook ::= idtac.

(** * Words *)
Lemma kind_hi v : objlike v <-> is_ref v = true.
Proof.
  unfold objlike, is_ref, kind_of. cbv zeta. set (hi := v / 2 ^ 48). clearbody hi. destruct (hi <? 65520) eqn:L.
  - split.
    + intros [H|H]; destruct (_ || _); try discriminate H; destruct (v =? _); discriminate H.
    + intros H. exfalso. lia.
  - assert (E1 : forall k, (hi =? 65520 + k) = (hi - 65520 =? k)) by (intros k; lia).
    change 65521 with (65520 + 1). change 65532 with (65520 + 12). rewrite !E1. clear E1 L. set (d := hi - 65520). clearbody d. split.
    + intros [H|H].
      * assert (d = 1); [|subst; reflexivity]. destruct d as [|p|p]; try (destruct (_ =? 0); discriminate H).
        do 4 (destruct p as [p|p|]; try discriminate H; try reflexivity; try (destruct (_ =? 0); discriminate H)).
      * assert (d = 12); [|subst; reflexivity]. destruct d as [|p|p]; try (destruct (_ =? 0); discriminate H).
        do 4 (destruct p as [p|p|]; try discriminate H; try reflexivity; try (destruct (_ =? 0); discriminate H)).
    + intros H. apply orb_true_iff in H. destruct H as [H|H]; apply Z.eqb_eq in H; subst; [left|right]; reflexivity.
Qed.
Section Words.
Context (phi : Z -> Z) (HP : placing phi).
Lemma low48 v : 0 <= v mod 2 ^ 48 < 2 ^ 48. Proof. apply Z.mod_pos_bound. lia. Qed.
Lemma word_hi v : word phi v / 2 ^ 48 = v / 2 ^ 48.
Proof.
  unfold word. destruct (is_ref v); [|reflexivity]. pose proof (proj1 (proj2 HP) (v mod 2 ^ 48) (low48 v)).
  rewrite Z.div_add_l by lia. rewrite (Z.div_small (phi _)) by lia. lia.
Qed.
Lemma word_ref v : is_ref (word phi v) = is_ref v.
Proof. unfold is_ref. rewrite word_hi. reflexivity. Qed.
Lemma word_lo v : is_ref v = true -> addr (word phi v) = phi (addr v).
Proof.
  intros H. unfold word, addr. rewrite H. pose proof (proj1 (proj2 HP) (v mod 2 ^ 48) (low48 v)).
  rewrite Z.add_comm, Z.mod_add by lia. apply Z.mod_small. lia.
Qed.
Lemma word_not v : is_ref v = false -> word phi v = v.
Proof. intros H. unfold word. rewrite H. reflexivity. Qed.
Lemma word_inj v w : word phi v = word phi w -> v = w.
Proof.
  intros E. pose proof (f_equal is_ref E) as R. rewrite !word_ref in R. pose proof (f_equal (fun x => x / 2 ^ 48) E) as D. cbv beta in D. rewrite !word_hi in D.
  destruct (is_ref v) eqn:Rv.
  - assert (A : phi (addr v) = phi (addr w)) by (rewrite <- !word_lo by congruence; f_equal; exact E).
    apply (proj2 (proj2 HP)) in A; [|apply low48|apply low48]. unfold addr in A.
    rewrite (Z.div_mod v (2 ^ 48)), (Z.div_mod w (2 ^ 48)) by lia. congruence.
  - rewrite !word_not in E by congruence. exact E.
Qed.
Lemma word_str v : is_str_o (word phi v) <-> is_str_o v.
Proof. unfold is_str_o. rewrite word_hi. reflexivity. Qed.
Lemma str_not_ref v : is_str_o v -> is_ref v = false.
Proof. unfold is_str_o, is_ref. intros ->. reflexivity. Qed.
End Words.

(** * Strings that move *)
Section Strings.
Context (st st' : strs) (ext : extmem) (Hsf : sf st' = sf st).
Lemma get_other v : is_u64 v -> ~ is_str_o v -> get_string st' v = get_string st v.
Proof.
  intros U N. unfold get_string. cbv zeta. rewrite Hsf.
  replace (Z.land v TAG_MASK =? TAG_STRING_O) with false; [reflexivity|]. symmetry.
  change TAG_STRING_O with (65528 * 2 ^ 48). rewrite land_tag_eqb by exact U. unfold is_str_o in N. lia.
Qed.
Lemma other_loc v l n : is_u64 v -> ~ is_str_o v -> get_string st v = OK (l, n) -> forall k, loc_read st' ext v l k = loc_read st ext v l k.
Proof.
  intros U N H k. destruct l as [|o|o|a]; try reflexivity. exfalso. unfold get_string in H. cbv zeta in H.
  replace (Z.land v TAG_MASK =? TAG_STRING_O) with false in H.
  2:{ symmetry. change TAG_STRING_O with (65528 * 2 ^ 48). rewrite land_tag_eqb by exact U. unfold is_str_o in N. lia. }
  repeat match type of H with (if ?b then _ else _) = _ => destruct b; try discriminate H end.
  all: repeat (first [discriminate H | match type of H with
    | bind ?x _ = _ => destruct x as [[[? ?]|]| | |]; cbn [bind] in H
    | (if ?b then _ else _) = _ => destruct b
    | match ?x with _ => _ end = _ => destruct x end]).
Qed.
Lemma holds_other v d : ~ is_str_o v -> holds st ext v d -> holds st' ext v d.
Proof.
  intros N (U & K & l & E & Hl & Hr). split; [exact U|]. split; [exact K|]. exists l. rewrite (get_other v U N). split; [exact E|]. split; [exact Hl|].
  rewrite (other_loc v l _ U N E). exact Hr.
Qed.
Lemma name_other v d : ~ is_str_o v -> name_of st ext v d -> name_of st' ext v d.
Proof.
  intros N (H1 & (l & E & Hr) & H3). split; [apply holds_other; assumption|]. destruct H1 as (U & _). split.
  - exists l. rewrite (get_other v U N), (other_loc v l _ U N E). split; assumption.
  - intros L. specialize (H3 L). unfold mk_string, mk_string_src in *. destruct (negb _); [discriminate H3|].
    destruct (zlen d <=? 4) eqn:E4; [injection H3 as <-; reflexivity|]. destruct (zlen d =? 5) eqn:E5; [injection H3 as <-; reflexivity|]. lia.
Qed.
Lemma holds_fun v d d' : holds st ext v d -> holds st ext v d' -> d = d'.
Proof.
  intros (_ & _ & l & E & _ & H) (_ & _ & l' & E' & _ & H'). rewrite E in E'. injection E' as <- Ez. rewrite Ez in H. rewrite H in H'. injection H' as <-. reflexivity.
Qed.
End Strings.
(** Only the bytes matter for strings of the heap. *)
Lemma holds_so st1 st2 ext v d : so st1 = so st2 -> is_str_o v -> holds st1 ext v d -> holds st2 ext v d.
Proof.
  intros E S (U & K & l & G & Hl & Hr). split; [exact U|]. split; [exact K|]. exists l.
  assert (T : Z.land v TAG_MASK = 65528 * 2 ^ 48) by (rewrite land_mask by exact U; unfold is_str_o in S; rewrite S; reflexivity).
  unfold get_string, loc_read in *. cbv zeta in *. rewrite T in *. change (65528 * 2 ^ 48 =? TAG_STRING_I) with false in *. change (65528 * 2 ^ 48 =? TAG_STRING_5) with false in *.
  change (65528 * 2 ^ 48 =? TAG_STRING_O) with true in *. cbv iota in *. rewrite <- E. auto.
Qed.
Lemma nul_so st1 st2 ext v d : is_u64 v -> so st1 = so st2 -> is_str_o v -> nul_terminated st1 ext v d -> nul_terminated st2 ext v d.
Proof.
  intros U E S (l & G & Hr). exists l.
  assert (T : Z.land v TAG_MASK = 65528 * 2 ^ 48) by (rewrite land_mask by exact U; unfold is_str_o in S; rewrite S; reflexivity).
  unfold get_string, loc_read in *. cbv zeta in *. rewrite T in *. change (65528 * 2 ^ 48 =? TAG_STRING_I) with false in *. change (65528 * 2 ^ 48 =? TAG_STRING_5) with false in *.
  change (65528 * 2 ^ 48 =? TAG_STRING_O) with true in *. cbv iota in *. rewrite <- E. auto.
Qed.

(** * A collection *)
Lemma gc_fields f g g' : mjs_gc f g = OK g' -> g_vals g' = g_vals g /\ g_scopes g' = g_scopes g /\ g_stack g' = g_stack g /\ g_call g' = g_call g.
Proof.
  unfold mjs_gc. intros H.
  repeat match type of H with bind ?x _ = _ => destruct x as [[? ?]| | |]; cbn [bind] in H; try discriminate H; try match type of H with context [let (_, _) := ?p in _] => destruct p end end.
  injection H as <-. auto.
Qed.
(** Everything that collect_spec says. *)
Record collection (g g' : gstate) (ds ds' : list (list Z)) (flo flp fls flo' flp' fls' : list Z) (mv : Z -> Z) : Prop := {
  c_ok : heap_ok g ds flo flp fls; c_ok' : heap_ok g' ds' flo' flp' fls';
  c_keeps : keeps_reachable g g' mv; c_frees : frees_unreachable g g' flo' flp' fls'; c_comp : compacts g g' ds ds' mv;
  c_deco : forall c, In c (acells (g_obj g)) -> reachable g (Obj c) \/ ~ reachable g (Obj c);
  c_decp : forall c, In c (acells (g_prop g)) -> reachable g (Prop_ c) \/ ~ reachable g (Prop_ c);
  c_fields : g_vals g' = g_vals g /\ g_scopes g' = g_scopes g /\ g_stack g' = g_stack g /\ g_call g' = g_call g }.
Lemma collects g ds flo flp fls : heap_ok g ds flo flp fls -> exists F, forall f, (F <= f)%nat ->
  exists g' ds' mv flo' flp' fls', mjs_gc f g = OK g' /\ heap_ok g' ds' flo' flp' fls' /\ collection g g' ds ds' flo flp fls flo' flp' fls' mv.
Proof.
  intros HK. destruct (collect_spec_dec g ds flo flp fls HK) as (F & HF). exists F. intros f Hf.
  destruct (HF f Hf) as (g' & ds' & mv & flo' & flp' & fls' & H1 & H2 & H3 & H4 & H5 & H6 & H7 & H8 & H9).
  exists g', ds', mv, flo', flp', fls'. split; [exact H1|]. split; [exact H2|]. constructor; auto. eapply gc_fields, H1.
Qed.
Lemma in_cells_incl cs bs bs' c : incl bs' bs -> In c (Gc_Spec.cells cs bs') -> In c (Gc_Spec.cells cs bs).
Proof. intros I H. unfold Gc_Spec.cells in *. apply in_flat_map in H. destruct H as (b & H1 & H2). apply in_flat_map. exists b. split; [apply I, H1|exact H2]. Qed.

Section Coll.
Context (phi : Z -> Z) (g g' : gstate) (ds ds' : list (list Z)) (flo flp fls flo' flp' fls' : list Z) (mv : Z -> Z).
Context (CO : collection g g' ds ds' flo flp fls flo' flp' fls' mv).
Context (HP : placing phi).
Notation wd := (word phi).
(** The value [v] in a reachable place is [v'] after the collection. *)
Definition moved_to (v v' : Z) : Prop := exists a, reachable g (Slot a) /\ g_mem g a = Some (wd v) /\ g_mem g' a = Some (wd v').
Definition mvv (v : Z) : Z := if v / 2 ^ 48 =? 65528 then 65528 * 2 ^ 48 + mv (addr v) else v.

Lemma obj_live c : In c (acells (g_obj g')) /\ ~ In c flo' <-> reachable g (Obj c).
Proof.
  destruct (c_frees _ _ _ _ _ _ _ _ _ _ _ CO) as (F1 & _ & _ & I1 & _). split.
  - intros [H1 H2]. destruct (c_deco _ _ _ _ _ _ _ _ _ _ _ CO c) as [H|H]; [|exact H|exfalso; apply H2, F1; auto].
    unfold acells in *. destruct (h_cs _ _ _ _ _ (c_ok _ _ _ _ _ _ _ _ _ _ _ CO)) as (A & _). destruct (h_cs _ _ _ _ _ (c_ok' _ _ _ _ _ _ _ _ _ _ _ CO)) as (A' & _).
    rewrite A. rewrite A' in H1. exact (in_cells_incl _ _ _ _ I1 H1).
  - intros H. destruct (c_keeps _ _ _ _ _ _ _ _ _ _ _ CO) as (K1 & _). split; [apply K1, H|]. intros X. apply F1 in X. tauto.
Qed.
Lemma prop_live c : In c (acells (g_prop g')) /\ ~ In c flp' <-> reachable g (Prop_ c).
Proof.
  destruct (c_frees _ _ _ _ _ _ _ _ _ _ _ CO) as (_ & F1 & _ & _ & I1 & _). split.
  - intros [H1 H2]. destruct (c_decp _ _ _ _ _ _ _ _ _ _ _ CO c) as [H|H]; [|exact H|exfalso; apply H2, F1; auto].
    unfold acells in *. destruct (h_cs _ _ _ _ _ (c_ok _ _ _ _ _ _ _ _ _ _ _ CO)) as (_ & A & _). destruct (h_cs _ _ _ _ _ (c_ok' _ _ _ _ _ _ _ _ _ _ _ CO)) as (_ & A' & _).
    rewrite A. rewrite A' in H1. exact (in_cells_incl _ _ _ _ I1 H1).
  - intros H. destruct (c_keeps _ _ _ _ _ _ _ _ _ _ _ CO) as (_ & K1 & _). split; [apply K1, H|]. intros X. apply F1 in X. tauto.
Qed.
Lemma obj_was c : reachable g (Obj c) -> In c (acells (g_obj g)) /\ ~ In c flo /\ g_mem g' c = g_mem g c.
Proof.
  intros H. pose proof (obj_cell _ _ _ _ _ (c_ok _ _ _ _ _ _ _ _ _ _ _ CO) c H) as [A B]. split; [exact A|]. split; [exact B|].
  apply (proj1 (c_keeps _ _ _ _ _ _ _ _ _ _ _ CO) c), H.
Qed.
Lemma prop_was c : reachable g (Prop_ c) -> In c (acells (g_prop g)) /\ ~ In c flp /\ g_mem g' c = g_mem g c.
Proof.
  intros H. destruct (Gc_Spec.h_props _ _ _ _ _ (c_ok _ _ _ _ _ _ _ _ _ _ _ CO)) as (props & HP1 & _).
  pose proof (prop_cell _ _ _ HP1 c H) as [A B]. split; [exact A|]. split; [exact B|].
  apply (proj1 (proj2 (c_keeps _ _ _ _ _ _ _ _ _ _ _ CO)) c), H.
Qed.
Lemma str_slot a v : reachable g (Slot a) -> g_mem g a = Some (wd v) -> is_str_o v ->
  exists d, str_at ds (addr v) d /\ str_at ds' (mv (addr v)) d /\ 0 <= mv (addr v) < 2 ^ 48 /\ 6 <= zlen d.
Proof.
  intros R E S. rewrite (word_not phi v (str_not_ref v S)) in E. pose proof (c_ok _ _ _ _ _ _ _ _ _ _ _ CO) as HK. pose proof (c_ok' _ _ _ _ _ _ _ _ _ _ _ CO) as HK'.
  destruct (h_slot _ _ _ _ _ HK a R) as (v0 & E0 & _ & (_ & _ & V3)). rewrite E in E0. injection E0 as <-. destruct (V3 S) as (d & D). exists d.
  destruct (c_comp _ _ _ _ _ _ _ _ _ _ _ CO) as (C1 & _). pose proof (C1 a v d R E S D) as D'. split; [exact D|]. split; [exact D'|].
  pose proof (h_strlen _ _ _ _ _ HK') as L. rewrite (h_str _ _ _ _ _ HK') in L. unfold str_heap in L. rewrite zlen_app in L.
  pose proof (h_strs _ _ _ _ _ HK) as Fd. destruct D as (x1 & x2 & Ex & _). rewrite Ex in Fd. apply Forall_app in Fd. destruct Fd as [_ Fd]. apply Forall_inv in Fd.
  destruct D' as (y1 & y2 & -> & ->). rewrite Gc_Proofs3.chunks_app, zlen_app in L.
  pose proof (zlen_nonneg (chunks y1)). pose proof (zlen_nonneg (chunks (d :: y2))). change (zlen [0]) with 1 in L. lia.
Qed.
Lemma mvv_word a v : reachable g (Slot a) -> g_mem g a = Some (wd v) -> g_mem g' a = Some (wd (mvv v)).
Proof.
  intros R E. destruct (c_keeps _ _ _ _ _ _ _ _ _ _ _ CO) as (_ & _ & _ & K). destruct (K a (wd v) R E) as [K1 K2]. unfold mvv. destruct (v / 2 ^ 48 =? 65528) eqn:T.
  - assert (S : is_str_o v) by (unfold is_str_o; lia). destruct (str_slot a v R E S) as (d & _ & _ & B & _).
    rewrite K1 by (apply word_str; assumption). rewrite (word_not phi v (str_not_ref v S)).
    rewrite word_not; [reflexivity|]. apply str_not_ref. unfold is_str_o. rewrite Z.div_add_l by lia. rewrite Z.div_small by lia. reflexivity.
  - apply K2. rewrite word_str by exact HP. unfold is_str_o. lia.
Qed.
Lemma moved_mvv v v' : moved_to v v' -> v' = mvv v.
Proof.
  intros (a & R & E & E'). pose proof (mvv_word a v R E) as X. rewrite X in E'. injection E' as E'. apply (word_inj phi HP) in E'. auto.
Qed.
Lemma mvv_same v : ~ is_str_o v -> mvv v = v.
Proof. unfold mvv, is_str_o. intros N. destruct (_ =? _) eqn:T; [lia|reflexivity]. Qed.
Lemma name_moved st st' ext v v' n : so st = g_str g -> so st' = g_str g' -> sf st' = sf st -> moved_to v v' -> name_of st ext v n -> name_of st' ext v' n.
Proof.
  intros S S' F Mv N. pose proof (moved_mvv v v' Mv) as ->. destruct Mv as (a & R & E & _).
  destruct (Z.eq_dec (v / 2 ^ 48) 65528) as [T|T].
  2:{ rewrite mvv_same by exact T. apply (name_other st st' ext F); assumption. }
  destruct (str_slot a v R E T) as (d & D & D' & B & L). unfold mvv. rewrite T. change (65528 =? 65528) with true. cbv iota.
  pose proof (c_ok _ _ _ _ _ _ _ _ _ _ _ CO) as HK. pose proof (c_ok' _ _ _ _ _ _ _ _ _ _ _ CO) as HK'.
  destruct (str_reads g ds flo flp fls _ d ext HK D) as [G1 _]. destruct (str_reads g' ds' flo' flp' fls' _ d ext HK' D') as [G2 G3].
  assert (Ev : 65528 * 2 ^ 48 + addr v = v) by (unfold addr; rewrite (Z.div_mod v (2 ^ 48)) at 2 by lia; rewrite T; lia). rewrite Ev in G1.
  apply (holds_so (strs_of g) st ext v d (eq_sym S) T) in G1. pose proof (holds_fun st ext v d n G1 (proj1 N)). subst n.
  assert (T' : is_str_o (65528 * 2 ^ 48 + mv (addr v))) by (unfold is_str_o; rewrite Z.div_add_l by lia; rewrite Z.div_small by lia; reflexivity).
  split; [exact (holds_so (strs_of g') st' ext _ d (eq_sym S') T' G2)|]. split; [exact (nul_so (strs_of g') st' ext _ d (proj1 G2) (eq_sym S') T' G3)|]. lia.
Qed.
End Coll.

(** Changes of the state of the language and of the engine's heap. *)
From Verif Require Import Base BaseFacts Value_Model Value_Spec Value_Proofs Str_Model Str_Spec Str_Proofs Str_Proofs2 Float_Proofs
  Ops_Model Ops_Spec Ops_Proofs Ops_Proofs2 TokNum_Model Txt_Model Obj_Model Obj_Spec Obj_Proofs Obj_Proofs2 Conv_Model Num_Model Bcode_Model Bcode_Proofs
  Vm_Model Vm_Spec Vm_Proofs Vm_Proofs4 Parse_Model Expr_Spec Run_Spec Expr_Proofs1 Expr_Proofs3 Expr_Proofs4 SUtil_Spec SUtil_Proofs Arr_Model Arr_Spec Arr_Proofs Arr_Proofs2 Lang_Spec Lang_Code Lang_Spec2 Obj_Spec Lang_Exec1 Lang_Key.
From Coq Require Import ZifyBool.
Ltac Zify.zify_post_hook ::= idtac.

Lemma name_eqb_bytes a b : name_eqb a b = bytes_eqb a b.
Proof.
  unfold name_eqb. destruct (list_eq_dec Z.eq_dec a b) as [->|N].
  - symmetry. apply bytes_eqb_eq. reflexivity.
  - destruct (bytes_eqb a b) eqn:E; [|reflexivity]. exfalso. apply N, bytes_eqb_eq, E.
Qed.
Lemma name_eqb_eq a b : name_eqb a b = true <-> a = b.
Proof. unfold name_eqb. destruct (list_eq_dec Z.eq_dec a b); split; congruence. Qed.
Lemma good_name_ok n : good_name n = true -> name_ok n.
Proof.
  unfold good_name. intros H. apply andb_true_iff in H. destruct H as [F L]. rewrite forallb_forall in F.
  split; [|split; [|lia]].
  - apply Forall_forall. intros c Hc. specialize (F c Hc). unfold is_byte. lia.
  - apply Forall_forall. intros c Hc. specialize (F c Hc). lia.
Qed.
Lemma take_some n s s' : take n s = Some s' -> 0 <= n <= left s /\ objs s' = objs s /\ left s' = left s - n.
Proof. unfold take. destruct ((0 <=? n) && (n <=? left s)) eqn:E; [|discriminate]. intros H. injection H as <-. split; [lia|split; reflexivity]. Qed.

Lemma NoDup_snoc {A} (l : list A) x : NoDup l -> ~ In x l -> NoDup (l ++ [x]).
Proof.
  intros H. induction H as [|a l Na _ IH]; cbn [app]; intros N; [constructor; [intros []|constructor]|].
  constructor; [|apply IH; intros Hi; apply N; right; exact Hi]. rewrite in_app_iff. intros [Hi|[->|[]]]; [exact (Na Hi)|]. apply N. left. reflexivity.
Qed.
Section Changes.
Context (cd : code) (ext : extmem).
Notation vrep := (vrep cd ext). Notation rel := (rel cd ext).

(** ** Strings *)
Definition str_world (W : world) (st : strs) : world := {| w_heap := with_st (w_heap W) st; w_addr := w_addr W; w_store := w_store W |}.
Lemma str_later W st : grows (w_st W) st -> later W (str_world W st).
Proof.
  intros G. split; [exists []; cbn [str_world w_addr]; rewrite app_nil_r; split; [reflexivity|constructor]|]. split; [auto|]. split; [auto|]. split; [exact G|intros a c H; exists c; auto].
Qed.
Lemma cells_later W W' s : later W W' -> (forall o, In o (w_addr W) -> w_store W' o = w_store W o) ->
  Forall2 (cell_is cd ext W) (w_addr W) s -> Forall2 (cell_is cd ext W') (w_addr W) s.
Proof.
  intros L Q F. assert (H : forall l s, (forall o, In o l -> w_store W' o = w_store W o) -> Forall2 (cell_is cd ext W) l s -> Forall2 (cell_is cd ext W') l s).
  { clear - L. intros l s Q F. induction F as [|o c l s (mp & E & Fe) _ IH]; [constructor|]. constructor; [|apply IH; intros x Hx; apply Q; right; exact Hx].
    exists mp. rewrite Q by (left; reflexivity). split; [exact E|]. eapply Forall2_impl'; [|exact Fe]. intros x y. apply entry_later. exact L. }
  apply H; assumption.
Qed.
Lemma rel_str W s st s' n : rel W s -> grows (w_st W) st -> zlen (so st) <= zlen (so (w_st W)) + n -> take n s = Some s' -> rel (str_world W st) s'.
Proof.
  intros (Hr & ND & F & L0 & N0 & N1 & N2) G B T. apply take_some in T. destruct T as (Bn & Eo & El).
  split; [apply hrep_grows; assumption|]. split; [exact ND|]. split.
  - rewrite Eo. apply (cells_later W (str_world W st)); [apply str_later; exact G|reflexivity|exact F].
  - cbn [str_world w_heap with_st h_next]. unfold w_st in *. cbn [str_world w_heap with_st h_st]. rewrite El. lia.
Qed.
Lemma rel_take W s s' n : rel W s -> take n s = Some s' -> rel W s'.
Proof.
  intros (Hr & ND & F & L0 & N0 & N1 & N2) T. apply take_some in T. destruct T as (Bn & Eo & El).
  split; [exact Hr|]. split; [exact ND|]. rewrite Eo, El. split; [exact F|]. lia.
Qed.
Lemma rel_so W s : rel W s -> zlen (so (w_st W)) + left s + 128 < 2 ^ 48 /\ 0 <= left s.
Proof. intros (_ & _ & _ & L0 & _ & _ & N2). split; assumption. Qed.
Lemma make_str W s d : rel W s -> bytes_ok d -> zlen d + 16 <= left s ->
  exists st v, mk_string (w_st W) d = OK (st, v) /\ grows (w_st W) st /\ zlen (so st) <= zlen (so (w_st W)) + (zlen d + 16) /\ name_of st ext v d.
Proof.
  intros Rl B Hl. destruct (rel_so W s Rl) as [R1 R2]. pose proof (zlen_nonneg d). pose proof (zlen_nonneg (so (w_st W))).
  destruct (mk_string_holds (w_st W) ext d B ltac:(lia) ltac:(lia)) as (st & v & Mk & Hh & Hn & _ & _ & Hs).
  exists st, v. split; [exact Mk|]. split; [exact (mk_string_grows _ _ _ _ Mk)|]. destruct (mk_string_room _ _ _ _ Mk ltac:(lia)) as [Rm _]. split; [lia|].
  split; [exact Hh|]. split; [exact Hn|]. intros L5. rewrite (Hs L5) in *. exact Mk.
Qed.

(** ** Arithmetic *)
Lemma op_val W s v w a b r op : rel W s -> vrep W v a -> vrep W w b -> In op arith_ops -> bin_op op a b = Some r -> v_cost r <= left s ->
  exists st x, do_op (w_st W) ext v w op = OK (st, x, E_OK) /\ grows (w_st W) st /\ zlen (so st) <= zlen (so (w_st W)) + v_cost r /\
    vrep (str_world W st) x r.
Proof.
  intros Rl Ha Hb Hin Hr Hc. destruct (rel_so W s Rl) as [R1 R2].
  assert (Ne : (op =? TOK_EQ_EQ) = false /\ (op =? TOK_NE_NE) = false).
  { unfold arith_ops in Hin. cbn [In] in Hin. repeat match type of Hin with _ \/ _ => destruct Hin as [<-|Hin] | False => destruct Hin end; split; reflexivity. }
  unfold bin_op in Hr. destruct Ne as [Q1 Q2]. rewrite Q1, Q2 in Hr.
  destruct a as [a| | | |]; try discriminate Hr. destruct b as [b| | | |]; try discriminate Hr.
  destruct (bin_val op a b) as [r'|] eqn:Er; [|discriminate Hr]. cbn [option_map] in Hr. injection Hr as <-. cbn [v_cost] in Hc |- *.
  pose proof (vrep_prim _ _ _ _ _ Ha) as Pa. pose proof (vrep_prim _ _ _ _ _ Hb) as Pb.
  destruct (bin_val_arith op a b r' Hin Er) as [(p & q & z & -> & -> & Hz & ->)|(x & y & -> & -> & -> & ->)].
  - pose proof (rep_kind _ _ _ _ Pa) as [Ua Ka]. pose proof (rep_kind _ _ _ _ Pb) as [Ub Kb]. cbn [akind] in Ka, Kb.
    destruct Pa as (-> & _ & Na), Pb as (-> & _ & Nb).
    destruct (kinds p Ua) as (_ & _ & A3 & _). destruct (kinds q Ub) as (_ & _ & B3 & _).
    destruct (num_bin_arith p q op z Hin Hz) as (o & Eo & Ez).
    unfold do_op. rewrite A3, B3, Ka, Kb, Na, Nb. cbn [kind_eqb orb andb xorb]. unfold get_double. rewrite Eo. cbn [bind].
    assert (X : vrep (str_world W (w_st W)) z (VPrim (ANum z))).
    { cbn [Lang_Spec2.vrep]. destruct o as [d|]; subst z.
      - apply rep_number. exact (arith_number p q op d Ua Ub Eo).
      - split; [reflexivity|]. split; [unfold is_u64; vm_compute; intuition congruence|reflexivity]. }
    exists (w_st W), z. split; [destruct o; subst z; reflexivity|]. split; [apply grows_refl|]. split; [cbn [val_cost]; lia|exact X].
  - cbn [Lang_Spec2.vrep] in Ha, Hb. destruct Ha as [Na Ba], Hb as [Nb Bb]. pose proof (proj1 Na) as Ha. pose proof (proj1 Nb) as Hb.
    cbn [val_cost] in Hc |- *. unfold str_cost in *. rewrite zlen_app in *. pose proof (zlen_nonneg x). pose proof (zlen_nonneg y). pose proof (zlen_nonneg (so (w_st W))).
    destruct (s_concat_spec (w_st W) ext v w x y Ba Bb Ha Hb ltac:(lia) ltac:(lia)) as (st & z & Cc & Hh & Hn & G & Hs).
    exists st, z. pose proof (concat_room _ _ _ _ _ _ _ _ Ha Hb ltac:(lia) Cc) as Rm. split; [|split; [exact G|split; [lia|]]].
    + pose proof Ha as (Ua & Ka & _). pose proof Hb as (Ub & Kb & _).
      destruct (kinds v Ua) as (A1 & _ & A3 & A4 & _). destruct (kinds w Ub) as (B1 & _ & B3 & B4 & _).
      unfold do_op. rewrite A1, A3, A4, B1, B3, B4, Ka, Kb. cbn [kind_eqb orb andb]. change (TOK_PLUS =? TOK_PLUS) with true. cbv iota. rewrite Cc. reflexivity.
    + cbn [Lang_Spec2.vrep]. split; [split; [exact Hh|split; [exact Hn|exact Hs]]|apply Forall_app; split; assumption].
Qed.

(** ** Properties *)
Lemma hrep_props h M : hrep h ext M -> forall a c, aget (h_props h) a = Some c -> 0 < a < h_next h.
Proof. intros (C & _ & _ & _ & H & _). exact H. Qed.
Lemma new_property_kept h h' a : new_property h = OK (h', a) -> (forall a c, aget (h_props h) a = Some c -> 0 < a < h_next h) -> kept h h' /\ a = h_next h /\ h_objs h' = h_objs h.
Proof.
  unfold new_property. intros E B. cbv zeta in E. destruct (h_next h + 32 >? 2 ^ 47); [discriminate E|]. injection E as <- <-. split; [|split; reflexivity].
  intros x c Hx. exists c. cbn [h_props aget]. pose proof (B _ _ Hx). replace (h_next h =? x) with false by lia. auto.
Qed.
Lemma aset_other {A} l a (x : A) b : b <> a -> aget (aset l a x) b = aget l b.
Proof. intros H. apply aget_aset_other. congruence. Qed.
Lemma set_prop_kept h o kv n v h' e : (forall a c, aget (h_props h) a = Some c -> 0 < a < h_next h) -> set_prop h ext o kv n v = OK (h', e) -> kept h h'.
Proof.
  intros B. unfold set_prop. destruct (own_property h ext o n) as [p| | |]; try discriminate. cbn [bind]. destruct (p =? 0) eqn:Ep.
  - destruct (negb (is_object o)); [intros E; injection E as <- _; apply kept_refl|].
    match goal with |- ('(h1, kv0) <- ?k ;; _) = _ -> _ => assert (Hk : forall h1 kv1, k = OK (h1, kv1) -> h_props h1 = h_props h /\ h_next h1 = h_next h) end.
    { assert (Hm : forall h1 kv1, ('(s, v0) <- mk_string (h_st h) n ;; OK (with_st h s, v0)) = OK (h1, kv1) -> h_props h1 = h_props h /\ h_next h1 = h_next h).
      { intros h1 kv1. destruct (mk_string (h_st h) n) as [[s v0]| | |]; try discriminate. cbn [bind]. intros E. injection E as <- <-. split; reflexivity. }
      intros h1 kv1. destruct kv as [k|]; [destruct (is_string k); [intros E; injection E as <- <-; split; reflexivity|]|]; apply Hm. }
    match goal with |- ('(h1, kv0) <- ?k ;; _) = _ -> _ => destruct k as [[h1 kv1]| | |]; try discriminate end. destruct (Hk _ _ eq_refl) as [P1 P2]. clear Hk. cbn [bind].
    destruct (new_property h1) as [[h2 a]| | |] eqn:En; try discriminate. destruct (new_property_kept _ _ _ En ltac:(rewrite P1, P2; exact B)) as (K & Ea & _). cbn [bind].
    destruct (get_object_struct o) as [oa| | |]; try discriminate. cbn [bind]. destruct (obj_first h2 oa) as [f| | |]; try discriminate. cbn [bind]. intros E. injection E as <- _.
    intros x c Hx. rewrite <- P1 in Hx. destruct (K x c Hx) as (c' & E' & N). exists c'. split; [|exact N]. cbn [with_objs with_props h_props]. rewrite P1 in Hx. pose proof (B _ _ Hx).
    rewrite aset_other by lia. exact E'.
  - destruct (prop_at h p) as [c0| | |] eqn:Ec; try discriminate. cbn [bind]. intros E. injection E as <- _. intros x c Hx. cbn [with_props h_props].
    destruct (Z.eq_dec x p) as [->|N]; [|rewrite aset_other by exact N; exists c; auto]. unfold prop_at in Ec. rewrite Hx in Ec. injection Ec as <-.
    exists (with_val c v). split; [|split; reflexivity]. eapply aget_aset_same; exact Hx.
Qed.
Lemma mk_object_kept h h' v : mk_object h = OK (h', v) -> kept h h'.
Proof.
  unfold mk_object, new_object. cbv zeta. destruct (h_next h + 32 >? 2 ^ 47); [discriminate|]. cbn [bind]. destruct (object_to_value _); try discriminate. cbn [bind]. intros E. injection E as <- _.
  intros b c H. exists c. auto.
Qed.
Lemma lookup_find W mp c n : Forall2 (entry_is cd ext W) mp c ->
  match find_name c n with Some a => exists v, lookup mp n = Some v /\ vrep W v a | None => lookup mp n = None end.
Proof.
  induction 1 as [|[k v] [k' a] mp c [E H] _ IH]; [reflexivity|]. cbn [fst snd] in *. subst k'. cbn [find_name lookup]. rewrite name_eqb_bytes.
  destruct (bytes_eqb k n); [exists v; split; [reflexivity|exact H]|exact IH].
Qed.
Lemma replace_change W mp c n v a : Forall2 (entry_is cd ext W) mp c -> vrep W v a ->
  Forall2 (entry_is cd ext W) (Obj_Spec.replace mp n v) (change c n a).
Proof.
  intros F Hv. induction F as [|[k x] [k' y] mp c [E H] F IH]; [constructor|]. cbn [fst snd] in *. subst k'. cbn [Obj_Spec.replace change]. rewrite name_eqb_bytes.
  destruct (bytes_eqb k n); (constructor; [split; [reflexivity|assumption]|assumption]).
Qed.
Lemma mput_put W mp c n v a : Forall2 (entry_is cd ext W) mp c -> vrep W v a -> Forall2 (entry_is cd ext W) (mput mp n v) (put c n a).
Proof.
  intros F Hv. unfold mput, put. pose proof (lookup_find W mp c n F) as Q. destruct (find_name c n).
  - destruct Q as (x & -> & _). apply replace_change; assumption.
  - rewrite Q. constructor; [split; [reflexivity|exact Hv]|exact F].
Qed.
Definition set_world (W : world) (h : heap) (o : Z) (mp : omap) : world := {| w_heap := h; w_addr := w_addr W; w_store := supd (w_store W) o mp |}.
Lemma cell_of W s i c : rel W s -> nth_error (objs s) i = Some c ->
  (i < length (w_addr W))%nat /\ exists mp, w_store W (nth i (w_addr W) 0) = Some mp /\ Forall2 (entry_is cd ext W) mp c.
Proof. intros (_ & _ & F & _) E. destruct (Forall2_nth _ _ _ 0 i c F E) as [(mp & H) Hi]. split; [exact Hi|]. exists mp. exact H. Qed.

Lemma Forall2_upd {A B} (P Q : A -> B -> Prop) l m i y : Forall2 P l m -> (i < length l)%nat ->
  (forall d, Q (nth i l d) y) -> (forall j x z, nth_error l j = Some x -> j <> i -> P x z -> Q x z) -> Forall2 Q l (upd m i y).
Proof.
  intros F. revert i. induction F as [|a b l m Hab F IH]; intros i Hi Hy Ho; [cbn [length] in Hi; lia|].
  destruct i as [|i]; cbn [upd].
  - constructor; [apply (Hy a)|]. assert (X : forall l m, Forall2 P l m -> (forall j x z, nth_error l j = Some x -> P x z -> Q x z) -> Forall2 Q l m).
    { clear. intros l m F. induction F as [|a b l m Hab F IH]; intros H; constructor; [apply (H O a b eq_refl Hab)|]. apply IH. intros j x z E. exact (H (Datatypes.S j) x z E). }
    apply X; [exact F|]. intros j x z E. apply (Ho (Datatypes.S j) x z E). lia.
  - constructor; [apply (Ho O a b eq_refl); [lia|exact Hab]|]. apply IH; [cbn [length] in Hi; lia|intros d; apply (Hy d)|].
    intros j x z E Nj. apply (Ho (Datatypes.S j) x z E). lia.
Qed.
Lemma set_core W s s' i n kv ov v a : rel W s -> vrep W v a -> (forall k, kv = Some k -> is_string k = true -> name_of (w_st W) ext k n) -> name_ok n ->
  (ov = obj_at W i \/ ov = arr_at W i) -> set_own s i n a = Some s' ->
  exists h mp, set_prop (w_heap W) ext ov kv n v = OK (h, E_OK) /\
    let W' := set_world W h (nth i (w_addr W) 0) mp in rel W' s' /\ later W W'.
Proof.
  intros Rl Hv Hk Nn Ho E. unfold set_own in E. destruct (nth_error (objs s) i) as [c|] eqn:Ec; [|discriminate E].
  destruct (cell_of W s i c Rl Ec) as (Hi & mp & Em & Fe). apply take_some in E. cbn [objs left] in E. destruct E as (Bn & Eo & El).
  destruct (obj_refers cd ext W s i Rl Hi) as (R1 & R2 & _). set (o := nth i (w_addr W) 0) in *.
  assert (Rf : refers ov o) by (destruct Ho as [-> | ->]; assumption).
  pose proof Rl as (Hr & ND & F & L0 & N0 & N1 & N2).
  assert (Sm : small (w_heap W) (64 + zlen n)) by (unfold small; fold (w_st W); lia).
  destruct (set_prop_spec (w_heap W) ext (w_store W) ov o mp kv n v Hr Em Rf Nn Sm Hk) as (h & Es & Hr' & G & Hn1 & Hn2 & Hn3).
  exists h, (mput mp n v). split; [exact Es|].
  cbv zeta.
  assert (Lt : later W (set_world W h o (mput mp n v))).
  { split; [exists []; cbn [set_world w_addr]; rewrite app_nil_r; split; [reflexivity|constructor]|]. cbn [set_world w_store].
    split; [intros x Hx; unfold supd; destruct (x =? o); [discriminate|exact Hx]|]. split; [|split; [exact G|exact (set_prop_kept _ _ _ _ _ _ _ (hrep_props _ _ Hr) Es)]].
    intros x Hx Na. apply supd_other. intros ->. apply Na. unfold o. apply nth_In. exact Hi. }
  split; [|exact Lt].
  split; [exact Hr'|]. split; [exact ND|]. split.
  - cbn [set_world w_addr]. rewrite Eo. eapply (Forall2_upd (cell_is cd ext W)); [exact F|exact Hi| |].
    + intros d. rewrite (nth_indep _ d 0 Hi). fold o. exists (mput mp n v). cbn [set_world w_store]. rewrite supd_same. split; [reflexivity|].
      apply mput_put.
      * eapply Forall2_impl'; [|exact Fe]. intros x y. apply entry_later. exact Lt.
      * eapply vrep_later; eassumption.
    + intros j x z Ej Nj (mp' & E1 & F1). exists mp'. cbn [set_world w_store]. rewrite supd_other.
      * split; [exact E1|]. eapply Forall2_impl'; [|exact F1]. intros ? ?. apply entry_later. exact Lt.
      * intros Q. apply Nj. apply (proj1 (NoDup_nth_error _) ND j i); [apply nth_error_Some; congruence|]. rewrite Ej, Q. unfold o.
        symmetry. apply nth_error_nth'. exact Hi.
  - unfold w_st in *. cbn [set_world w_heap]. rewrite El. pose proof (zlen_nonneg n). repeat (split; [lia|]). lia.
Qed.

Lemma set_prop_ok W s s' i n key ov v a : rel W s -> vrep W v a -> key_of ext (w_st W) key n -> name_ok n ->
  (ov = obj_at W i \/ ov = arr_at W i) -> set_own s i n a = Some s' ->
  exists h mp, obj_set_v (w_heap W) ext ov key v = OK (h, E_OK) /\
    let W' := set_world W h (nth i (w_addr W) 0) mp in rel W' s' /\ later W W'.
Proof.
  intros Rl Hv [Hk Hs] Nn Ho E. destruct (set_core W s s' i n (Some key) ov v a Rl Hv ltac:(intros k [= <-] Q; exact (Hs Q)) Nn Ho E) as (h & mp & Es & H).
  exists h, mp. split; [|exact H]. unfold obj_set_v. change (h_st (w_heap W)) with (w_st W). rewrite Hk. exact Es.
Qed.
(** A new last element. *)
Lemma append_ok W s s' i ov v a : rel W s -> vrep W v a -> (ov = obj_at W i \/ ov = arr_at W i) -> append s i a = Some s' ->
  exists h mp, array_push (w_heap W) ext ov v = OK (h, E_OK) /\
    let W' := set_world W h (nth i (w_addr W) 0) mp in rel W' s' /\ later W W'.
Proof.
  intros Rl Hv Ho E. unfold append in E. destruct (arr_len s i) as [L|] eqn:El; [|discriminate E].
  destruct (arr_len_ok cd ext W s i ov L Rl Ho El) as [Ea Hl]. destruct (idx_name_spec L ltac:(lia)) as (t & Et & Nt).
  pose proof (numeral_unique 10 L _ _ ltac:(lia) (dec_name_num L ltac:(lia)) Nt) as Q. rewrite Q in E.
  destruct (set_core W s s' i t None ov v a Rl Hv ltac:(discriminate) (proj1 (numeral_name L t Nt ltac:(lia))) Ho E) as (h & mp & Es & H).
  exists h, mp. split; [|exact H]. unfold array_push. rewrite Ea. cbn [bind]. unfold array_set.
  assert (Hi : (i < length (w_addr W))%nat).
  { unfold set_own in E. destruct (nth_error (objs s) i) as [c|] eqn:Ec; [|discriminate E]. exact (proj1 (cell_of W s i c Rl Ec)). }
  destruct (obj_refers cd ext W s i Rl Hi) as (R1 & R2 & _). assert (Rf : refers ov (nth i (w_addr W) 0)) by (destruct Ho as [-> | ->]; assumption).
  rewrite (proj1 (refers_object _ _ Rf)), Et. cbn [bind]. exact Es.
Qed.

(** ** New objects *)
Definition new_world (W : world) (h : heap) : world :=
  {| w_heap := h; w_addr := w_addr W ++ [h_next (w_heap W)]; w_store := supd (w_store W) (h_next (w_heap W)) [] |}.
Lemma new_cell_ok W s s' i : rel W s -> new_cell s = Some (i, s') ->
  exists h, mk_object (w_heap W) = OK (h, obj_at (new_world W h) i) /\ rel (new_world W h) s' /\ later W (new_world W h) /\
    i = length (w_addr W) /\ (i < length (w_addr (new_world W h)))%nat.
Proof.
  intros Rl E. unfold new_cell in E. destruct (take 16 s) as [s1|] eqn:Et; [|discriminate E]. apply take_some in Et. destruct Et as (Bn & Eo & El).
  injection E as Ei <-. rewrite Eo in Ei. pose proof Rl as (Hr & ND & F & L0 & N0 & N1 & N2).
  assert (Sm : small (w_heap W) 64) by (unfold small; fold (w_st W); lia).
  destruct (mk_object_spec (w_heap W) ext (w_store W) Hr Sm) as (h & v & Mk & Rf & T & Fr & Hr' & Hst & Hnx).
  pose proof (rel_len _ _ _ _ Rl) as Ln.
  assert (Lt : later W (new_world W h)).
  { split; [exists [h_next (w_heap W)]; split; [reflexivity|constructor; [exact Fr|constructor]]|]. cbn [new_world w_store].
    split; [intros x Hx; unfold supd; destruct (x =? _); [discriminate|exact Hx]|]. split; [|split].
    - intros x Hx _. apply supd_other. intros ->. apply Hx, Fr.
    - unfold w_st. cbn [new_world w_heap]. rewrite Hst. apply grows_refl.
    - exact (mk_object_kept _ _ _ Mk). }
  exists h. split; [|split; [|split; [exact Lt|split; [lia|cbn [new_world w_addr]; rewrite app_length; cbn [length]; lia]]]].
  - rewrite Mk. do 2 f_equal. unfold obj_at. cbn [new_world w_addr]. rewrite app_nth2 by lia. replace (i - length (w_addr W))%nat with O by lia. cbn [nth].
    destruct Rf as (B & [-> | ->]); [reflexivity|]. exfalso. rewrite Z.div_add_l, Z.div_small in T by lia. lia.
  - split; [exact Hr'|]. split; [|split].
    + cbn [new_world w_addr]. apply NoDup_snoc; [exact ND|]. intros Hin. destruct (addr_bound _ _ W s _ Rl Hin) as (B & _). lia.
    + cbn [new_world w_addr objs]. rewrite Eo. apply Forall2_app.
      * apply (cells_later W); [exact Lt| |exact F]. intros o Hin. cbn [new_world w_store]. apply supd_other.
        destruct (addr_bound _ _ W s _ Rl Hin) as (B & _). lia.
      * constructor; [|constructor]. exists []. cbn [new_world w_store]. rewrite supd_same. split; [reflexivity|constructor].
    + unfold w_st in *. cbn [new_world w_heap left]. rewrite Hst, Hnx, El. lia.
Qed.

Lemma new_arr_ok W s s' i : rel W s -> new_cell s = Some (i, s') ->
  exists h, mk_array (w_heap W) = OK (h, arr_at (new_world W h) i) /\ rel (new_world W h) s' /\ later W (new_world W h) /\
    (i < length (w_addr (new_world W h)))%nat.
Proof.
  intros Rl E. destruct (new_cell_ok W s s' i Rl E) as (h & Mk & R & L & Hi & Hl). exists h. split; [|split; [exact R|split; [exact L|exact Hl]]].
  unfold mk_array. rewrite Mk. cbn [bind]. do 2 f_equal. destruct (obj_refers cd ext _ _ _ R Hl) as ((B & _) & _).
  unfold obj_at, arr_at in *. set (a := nth i (w_addr (new_world W h)) 0) in *. unfold array_of_object.
  rewrite (Z.add_comm (65521 * 2 ^ 48)), untag_mod, mod_tag by lia. unfold TAG_ARRAY. rewrite lor_tag by lia. lia.
Qed.

(** ** Variables *)
Lemma own_has W s i n a : rel W s -> own s i n = Some a ->
  exists v, has_var (w_store W) n (obj_at W i) v /\ vrep W v a /\ (i < length (w_addr W))%nat.
Proof.
  intros Rl E. unfold own in E. destruct (nth_error (objs s) i) as [c|] eqn:Ec; [|discriminate E].
  destruct (cell_of W s i c Rl Ec) as (Hi & mp & Em & Fe). destruct (obj_refers cd ext W s i Rl Hi) as (R1 & _).
  pose proof (lookup_find W mp c n Fe) as Q. rewrite E in Q. destruct Q as (v & El & Hv). exists v. split; [|split; [exact Hv|exact Hi]].
  exists (nth i (w_addr W) 0), mp. split; [exact R1|]. split; [exact Em|exact El].
Qed.
Lemma own_lacks W s i n : rel W s -> (i < length (w_addr W))%nat -> own s i n = None -> lacks_var (w_store W) n (obj_at W i).
Proof.
  intros Rl Hi E. unfold own in E. destruct (nth_error (objs s) i) as [c|] eqn:Ec.
  2:{ apply nth_error_None in Ec. rewrite <- (rel_len _ _ _ _ Rl) in Ec. lia. }
  destruct (cell_of W s i c Rl Ec) as (_ & mp & Em & Fe). destruct (obj_refers cd ext W s i Rl Hi) as (R1 & _).
  pose proof (lookup_find W mp c n Fe) as Q. rewrite E in Q. exists (nth i (w_addr W) 0), mp. split; [exact R1|]. split; [exact Em|exact Q].
Qed.
Lemma find_var_resolves W s vs sc n i a : rel W s -> scopes_are W vs sc -> find_var s sc n = Some i -> own s i n = Some a ->
  exists v, resolves (w_store W) n vs (obj_at W i) v /\ vrep W v a /\ (i < length (w_addr W))%nat.
Proof.
  intros Rl [-> F] Ef Eo. destruct (own_has W s i n a Rl Eo) as (v & Hv & Rv & Hi). exists v. split; [|split; [exact Rv|exact Hi]].
  induction F as [|j sc Hj F IH]; cbn [find_var map] in *; [discriminate Ef|]. destruct (own s j n) eqn:Ej.
  - injection Ef as ->. exists [], (map (obj_at W) sc). split; [reflexivity|]. split; [constructor|exact Hv].
  - destruct (IH Ef) as (inner & outer & E & Fl & H). exists (obj_at W j :: inner), outer. split; [cbn [app]; rewrite E; reflexivity|].
    split; [|exact H]. constructor; [|exact Fl]. apply (own_lacks W s); assumption.
Qed.
Lemma find_var_own s sc n i : find_var s sc n = Some i -> exists a, own s i n = Some a.
Proof. induction sc as [|j sc IH]; cbn [find_var]; [discriminate|]. destruct (own s j n) eqn:E; [intros [= <-]; eauto|exact IH]. Qed.
End Changes.

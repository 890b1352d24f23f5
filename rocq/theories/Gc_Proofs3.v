(** Proofs about the mark phase. *)
From Verif Require Import Base BaseFacts Varint_Model Varint_Proofs Value_Model Value_Spec Value_Proofs
  Str_Model Gc_Model Gc_Spec Gc_Proofs Gc_Proofs2.
Ltac Zify.zify_post_hook ::= Z.div_mod_to_equations.

(** Linked lists have no repetition *)
Lemma flist_suffix m h l c : flist m h l -> In c l -> exists l1 l2, l = l1 ++ c :: l2 /\ flist m c (c :: l2).
Proof.
  induction 1 as [|c0 nx l Hc Hm Hl IH]; [intros []|]. intros [<-|Hin].
  - exists [], l. split; [reflexivity|]. econstructor; eassumption.
  - destruct (IH Hin) as (l1 & l2 & -> & F). exists (c0 :: l1), l2. split; [reflexivity|exact F].
Qed.
Lemma flist_nodup m h l : flist m h l -> NoDup l.
Proof.
  induction 1 as [|c nx l Hc Hm Hl IH]; constructor; [|exact IH].
  intros Hin. destruct (flist_suffix _ _ _ _ Hl Hin) as (l1 & l2 & -> & F).
  assert (E : c :: l1 ++ c :: l2 = c :: l2).
  { apply (flist_fun m c); [|exact F]. econstructor; eassumption. }
  apply (f_equal (@length Z)) in E. cbn in E. rewrite app_length in E. cbn in E. lia.
Qed.

Lemma some_inj {A} (a b : A) : Some a = Some b -> a = b.
Proof. congruence. Qed.

(** Kinds *)
Lemma objlike_hi v : is_u64 v -> (objlike v <-> v / 2 ^ 48 = 65521 \/ v / 2 ^ 48 = 65532).
Proof.
  intros H. destruct (preds_kind v H) as (_ & _ & _ & _ & _ & HO & _). rewrite is_object_hi in HO by exact H.
  unfold objlike. destruct (kind_of v); cbn in HO; split; intros X;
    try (destruct X as [X|X]; discriminate X); try lia; try (left; reflexivity); try (right; reflexivity).
Qed.
Lemma objlike_dec v : is_u64 v -> is_object v = true <-> objlike v.
Proof. intros H. rewrite objlike_hi, is_object_hi by exact H. lia. Qed.
Lemma ffi_kind_hi v : is_u64 v -> (kind_of v = KFfi <-> v / 2 ^ 48 = 65534).
Proof.
  intros H. destruct (preds_kind v H) as (_ & _ & _ & _ & _ & _ & _ & _ & _ & HF). rewrite is_ffi_hi in HF by exact H.
  destruct (kind_of v); cbn in HF; split; intros X; try discriminate X; try lia; reflexivity.
Qed.
Lemma ffi_dec v : is_u64 v -> is_ffi_sig v = true <-> kind_of v = KFfi.
Proof. intros H. rewrite ffi_kind_hi, is_ffi_hi by exact H. lia. Qed.
Lemma str_o_dec v : is_u64 v -> (Z.land v TAG_MASK =? TAG_STRING_O) = true <-> is_str_o v.
Proof. intros H. unfold TAG_STRING_O, is_str_o. rewrite land_tag_eqb by exact H. lia. Qed.
Lemma addr_range v : 0 <= addr v < 2 ^ 48.
Proof. unfold addr. lia. Qed.
Lemma str_o_val v : is_str_o v -> v = 65528 * 2 ^ 48 + addr v.
Proof. unfold is_str_o, addr. lia. Qed.

(** String heap *)
Lemma chunks_app a b : chunks (a ++ b) = chunks a ++ chunks b.
Proof. apply flat_map_app. Qed.
Lemma entry_len d : zlen (entry d) = zlen (varint_bytes (zlen d)) + zlen d.
Proof. apply zlen_app. Qed.
Lemma zlen_chunks_cons d ds : zlen (chunks (d :: ds)) = 1 + zlen (entry d) + zlen (chunks ds).
Proof. change (chunks (d :: ds)) with ((0 :: entry d) ++ chunks ds). rewrite zlen_app, zlen_cons. lia. Qed.
Definition dok (d : list Z) : Prop := bytes_ok d /\ 6 <= zlen d.
Lemma entry_ok d : dok d -> bytes_ok (entry d) /\ 7 <= zlen (entry d).
Proof.
  intros [Hb Hl]. split.
  - apply bytes_ok_app. split; [apply varint_bytes_ok; lia|exact Hb].
  - rewrite entry_len. pose proof (varint_len_pos (zlen d) ltac:(lia)). lia.
Qed.

(** Threads: the slots referring to the string at each offset, last visited first. *)
Definition threads := Z -> list Z.
Definition six (d : list Z) : Z := le_val (firstn 6 (entry d)).
Definition chunk (T : threads) (o : Z) (d : list Z) : list Z :=
  match T o with
  | [] => 0 :: entry d
  | a :: _ => 1 :: le_bytes 6 a ++ skipn 6 (entry d)
  end.
Fixpoint rchunks (T : threads) (o : Z) (ds : list (list Z)) : list Z :=
  match ds with [] => [] | d :: r => chunk T o d ++ rchunks T (o + 1 + zlen (entry d)) r end.

Lemma zlen_firstn_skipn {A} (l : list A) n : zlen (firstn n l) + zlen (skipn n l) = zlen l.
Proof. rewrite <- zlen_app, firstn_skipn. reflexivity. Qed.
Lemma chunk_len T o d : dok d -> zlen (chunk T o d) = 1 + zlen (entry d).
Proof.
  intros H. destruct (entry_ok d H) as [_ Hl]. unfold chunk. destruct (T o) as [|a l]; [apply zlen_cons|].
  rewrite zlen_cons, zlen_app. unfold zlen in *. rewrite le_bytes_length, skipn_length. lia.
Qed.
Lemma rchunks_len T ds : Forall dok ds -> forall o, zlen (rchunks T o ds) = zlen (chunks ds).
Proof.
  induction 1 as [|d ds Hd Hds IH]; intros o; [reflexivity|].
  cbn [rchunks]. rewrite zlen_app, IH, chunk_len, zlen_chunks_cons by exact Hd. lia.
Qed.
Lemma rchunks_app T a b : forall o, rchunks T o (a ++ b) = rchunks T o a ++ rchunks T (o + zlen (chunks a)) b.
Proof.
  induction a as [|d a IH]; intros o; cbn [app rchunks].
  - change (zlen (chunks [])) with 0. rewrite Z.add_0_r. reflexivity.
  - rewrite IH, <- app_assoc, zlen_chunks_cons. do 3 f_equal. lia.
Qed.
Lemma rchunks_ext T T' ds : forall o, (forall x, o <= x < o + zlen (chunks ds) -> T x = T' x) ->
  rchunks T o ds = rchunks T' o ds.
Proof.
  induction ds as [|d ds IH]; intros o H; [reflexivity|]. cbn [rchunks]. rewrite zlen_chunks_cons in H.
  pose proof (zlen_nonneg (entry d)). pose proof (zlen_nonneg (chunks ds)).
  unfold chunk. rewrite (H o) by lia. f_equal. apply IH. intros x Hx. apply H. lia.
Qed.
Lemma rchunks_empty ds : forall o, rchunks (fun _ => []) o ds = chunks ds.
Proof. induction ds as [|d ds IH]; intros o; [reflexivity|]. cbn [rchunks]. rewrite IH. reflexivity. Qed.

Lemma chunk_shape T o d : dok d -> exists k c6, chunk T o d = k :: c6 ++ skipn 6 (entry d) /\ length c6 = 6%nat /\
  match T o with [] => k = 0 /\ c6 = firstn 6 (entry d) | a :: _ => k = 1 /\ c6 = le_bytes 6 a end.
Proof.
  intros H. destruct (entry_ok d H) as [_ Hl]. unfold chunk. destruct (T o) as [|a l].
  - exists 0, (firstn 6 (entry d)). rewrite firstn_skipn. split; [reflexivity|]. split; [|split; reflexivity].
    rewrite firstn_length. unfold zlen in Hl. lia.
  - exists 1, (le_bytes 6 a). split; [reflexivity|]. split; [apply le_bytes_length|split; reflexivity].
Qed.
Lemma six_range d : dok d -> 0 <= six d < 2 ^ 48.
Proof.
  intros H. destruct (entry_ok d H) as [Hb Hl]. unfold six.
  assert (Hf : bytes_ok (firstn 6 (entry d))).
  { unfold bytes_ok in *. rewrite <- (firstn_skipn 6) in Hb. apply Forall_app in Hb. apply Hb. }
  pose proof (le_val_bound _ Hf) as B. replace (zlen (firstn 6 (entry d))) with 6 in B; [exact B|].
  unfold zlen in *. rewrite firstn_length. lia.
Qed.

Fixpoint tchain (m : mem) (l : list Z) (s : Z) : Prop :=
  match l with
  | [] => True
  | a :: r => m a = Some (match r with [] => s + 65530 * 2 ^ 48 | a' :: _ => a' + 65522 * 2 ^ 48 end) /\ tchain m r s
  end.
Lemma tchain_frame m m' l s : tchain m l s -> (forall a, In a l -> m' a = m a) -> tchain m' l s.
Proof.
  induction l as [|a l IH]; [trivial|]. cbn [tchain]. intros [H1 H2] H. split.
  - rewrite H by (left; reflexivity). exact H1.
  - apply IH; [exact H2|]. intros x Hx. apply H. right. exact Hx.
Qed.
Lemma tchain_tag m l s a w : tchain m l s -> 0 <= s < 2 ^ 48 -> (forall x, In x l -> 0 <= x < 2 ^ 48) -> In a l -> m a = Some w ->
  is_u64 w /\ (w / 2 ^ 48 = 65530 \/ w / 2 ^ 48 = 65522).
Proof.
  intros H Hs Hx. induction l as [|x l IH]; [intros []|]. cbn [tchain] in H. destruct H as [H1 H2].
  intros [<-|Hin] Hw.
  - rewrite H1 in Hw. apply some_inj in Hw; subst w. destruct l as [|x' l].
    + unfold is_u64. clear IH; lia.
    + pose proof (Hx x' (or_intror (or_introl eq_refl))). unfold is_u64. clear IH; lia.
  - apply IH; auto. intros y Hy. apply Hx. right. exact Hy.
Qed.

Definition mkb (m : mem) (x : Z) : bool := match m x with Some w => Z.odd w | None => false end.
Lemma odd_mod w : Z.odd w = negb (w mod 2 =? 0).
Proof. rewrite Zmod_odd. destruct (Z.odd w); reflexivity. Qed.

Definition updT (T : threads) (o v : Z) : threads := fun x => if x =? o then v :: T x else T x.

Section Mark.
  Context (g : gstate) (ds : list (list Z)) (flo flp fls : list Z) (props : Z -> list Z).
  Context (HK : heap_ok g ds flo flp fls).
  Let m0 := g_mem g.
  Let roots := gc_slots g.
  Let ao := g_obj g.
  Let ap := g_prop g.
  Let asg := g_sig g.
  Context (HP1 : forall o, reach m0 roots (Obj o) ->
         exists p, m0 o = Some p /\ flist m0 p (props o) /\
           forall q, In q (props o) -> In q (acells ap) /\ ~ In q flp).
  Context (HP2 : forall o1 o2 q, reach m0 roots (Obj o1) -> reach m0 roots (Obj o2) ->
         In q (props o1) -> In q (props o2) -> o1 = o2).

  Definition RS a := reach m0 roots (Slot a).
  Definition RO a := reach m0 roots (Obj a).
  Definition RP a := reach m0 roots (Prop_ a).
  Definition RG a := reach m0 roots (Sig a).
  Definition hdr x := RO x \/ RP x \/ RG x.
  Definition iscell x := In x (acells ao) \/ In x (acells ap) \/ In x (acells asg).

  Lemma prop_owner p : RP p -> exists o, RO o /\ In p (props o).
  Proof.
    unfold RP. remember (Prop_ p) as pl eqn:E. intros H. revert p E.
    induction H as [| | |o q Ho _ Hm Hq|q q' Hq IH Hm Hq'| |]; intros z E; try discriminate E; injection E as <-.
    - exists o. split; [exact Ho|]. destruct (HP1 o Ho) as (f & Hf & F & _).
      assert (f = q) by congruence. subst f. inversion F; subst; [congruence|]. left. reflexivity.
    - destruct (IH q eq_refl) as (o & Ho & Hin). exists o. split; [exact Ho|].
      destruct (HP1 o Ho) as (f & Hf & F & _). destruct (flist_links _ _ _ _ F Hin) as (nx & Hnx & [Hz|Hi]).
      + congruence.
      + replace q' with nx by congruence. exact Hi.
  Qed.
  Lemma props_reach o p : RO o -> In p (props o) -> RP p.
  Proof.
    intros Ho Hin. destruct (HP1 o Ho) as (f & Hf & F & _).
    assert (G : forall h l, flist m0 h l -> (h <> 0 -> RP h) -> In p l -> RP p).
    { clear Hin F. intros h l F. induction F as [|c nx l Hc Hm Hl IH]; intros Hh; [intros []|].
      intros [<-|Hin]; [exact (Hh Hc)|]. apply IH; [|exact Hin].
      intros Hnz. apply (r_next m0 roots c); [exact (Hh Hc)|exact Hm|exact Hnz]. }
    apply (G f (props o) F); [|exact Hin]. intros Hnz. apply (r_first m0 roots o); assumption.
  Qed.
  Lemma slot_val a : RS a -> exists v, m0 a = Some v /\ is_u64 v /\ val_ok ao asg flo fls ds v.
  Proof. exact (h_slot _ _ _ _ _ HK a). Qed.
  Lemma obj_cell o : RO o -> In o (acells ao) /\ ~ In o flo.
  Proof.
    unfold RO. intros H. inversion H as [|a v Ha Hm Hv| | | | |]; subst.
    destruct (slot_val a Ha) as (v' & Hv' & _ & (V1 & _)). assert (v' = v) by congruence. subst v'. exact (V1 Hv).
  Qed.
  Lemma sig_cell o : RG o -> In o (acells asg) /\ ~ In o fls.
  Proof.
    unfold RG. intros H. inversion H as [| |a v Ha Hm Hv| | | |]; subst.
    destruct (slot_val a Ha) as (v' & Hv' & _ & (_ & V2 & _)). assert (v' = v) by congruence. subst v'. exact (V2 Hv).
  Qed.
  Lemma prop_cell p : RP p -> In p (acells ap) /\ ~ In p flp.
  Proof. intros H. destruct (prop_owner p H) as (o & Ho & Hin). destruct (HP1 o Ho) as (f & _ & _ & Hc). exact (Hc p Hin). Qed.
  Lemma slot_where a : RS a -> In a roots \/ exists p, RP p /\ (a = p + 8 \/ a = p + 16).
  Proof.
    unfold RS. intros H. inversion H as [b Hr| | | | |p Hp|p Hp]; subst.
    - left. exact Hr.
    - right. exists p. auto.
    - right. exists p. auto.
  Qed.

  Let cso : a_cs ao = 8 := proj1 (h_cs _ _ _ _ _ HK).
  Let csp : a_cs ap = 24 := proj1 (proj2 (h_cs _ _ _ _ _ HK)).
  Let csg : a_cs asg = 32 := proj2 (proj2 (h_cs _ _ _ _ _ HK)).

  Lemma ocell_arena x : In x (acells ao) -> in_arena ao x.
  Proof. apply cells_in_blocks. rewrite cso. lia. Qed.
  Lemma pcell_arena x : In x (acells ap) -> in_arena ap x.
  Proof. apply cells_in_blocks. rewrite csp. lia. Qed.
  Lemma gcell_arena x : In x (acells asg) -> in_arena asg x.
  Proof. apply cells_in_blocks. rewrite csg. lia. Qed.
  Lemma pword_arena p k : In p (acells ap) -> 0 <= k < 24 -> in_arena ap (p + k).
  Proof.
    intros (bl & Hb & Hc)%cells_in Hk. exists bl. split; [exact Hb|]. apply cell_word; [rewrite csp; lia|exact Hc|rewrite csp; lia].
  Qed.
  Lemma sepop x : in_arena ao x -> in_arena ap x -> False.
  Proof. exact (proj1 (h_sep _ _ _ _ _ HK x)). Qed.
  Lemma sepog x : in_arena ao x -> in_arena asg x -> False.
  Proof. exact (proj1 (proj2 (h_sep _ _ _ _ _ HK x))). Qed.
  Lemma seppg x : in_arena ap x -> in_arena asg x -> False.
  Proof. exact (proj2 (proj2 (h_sep _ _ _ _ _ HK x))). Qed.

  Lemma hdr_cell x : hdr x -> iscell x.
  Proof.
    intros [H|[H|H]]; [left; apply obj_cell|right; left; apply prop_cell|right; right; apply sig_cell]; assumption.
  Qed.
  Lemma cell_aligned x : iscell x -> x mod 8 = 0 /\ 0 < x < 2 ^ 48.
  Proof.
    intros [H|[H|H]];
      [destruct (cell_facts _ _ _ _ (h_obj _ _ _ _ _ HK) H) as (A & B & _)
      |destruct (cell_facts _ _ _ _ (h_prop _ _ _ _ _ HK) H) as (A & B & _)
      |destruct (cell_facts _ _ _ _ (h_sig _ _ _ _ _ HK) H) as (A & B & _)]; split; assumption.
  Qed.
  Lemma hdr_word x : hdr x -> exists w, m0 x = Some w /\ 0 <= w /\ w mod 4 = 0.
  Proof.
    destruct (h_tidy _ _ _ _ _ HK) as (T1 & T2 & T3).
    intros [H|[H|H]];
      [destruct (obj_cell x H)|destruct (prop_cell x H)|destruct (sig_cell x H)];
      [apply T1|apply T2|apply T3]; assumption.
  Qed.
  Lemma slot_aligned a : RS a -> a mod 8 = 0 /\ 0 < a < 2 ^ 48.
  Proof.
    intros H. destruct (slot_where a H) as [Hr|(p & Hp & Ha)].
    - destruct (h_roots _ _ _ _ _ HK a Hr) as (A & B & _). split; assumption.
    - destruct (prop_cell p Hp) as [Hc _].
      destruct (cell_facts _ _ _ _ (h_prop _ _ _ _ _ HK) Hc) as (A & B & _ & C).
      change (a_cs (g_prop g)) with (a_cs ap) in C. rewrite csp in C. destruct Ha; subst; lia.
  Qed.
  Lemma slot_not_cell a : RS a -> iscell a -> False.
  Proof.
    intros H Hc. destruct (slot_where a H) as [Hr|(p & Hp & Ha)].
    - destruct (h_roots _ _ _ _ _ HK a Hr) as (_ & _ & N1 & N2 & N3).
      destruct Hc as [Hc|[Hc|Hc]]; [apply N1, ocell_arena|apply N2, pcell_arena|apply N3, gcell_arena]; exact Hc.
    - destruct (prop_cell p Hp) as [Hpc _].
      assert (Hk : exists k, 0 < k < 24 /\ a = p + k) by (destruct Ha; subst; [exists 8|exists 16]; lia).
      destruct Hk as (k & Hk & ->). pose proof (pword_arena p k Hpc ltac:(lia)) as Hia.
      destruct Hc as [Hc|[Hc|Hc]].
      + apply (sepop (p + k)); [apply ocell_arena; exact Hc|exact Hia].
      + assert (p + k = p); [|lia].
        apply (cells_sep (a_cs ap) (a_blocks ap) (p + k) p 0 k); try (rewrite csp; lia); try lia.
        * exact (ok_disj _ _ _ (h_prop _ _ _ _ _ HK)).
        * exact Hc.
        * exact Hpc.
      + apply (seppg (p + k)); [exact Hia|apply gcell_arena; exact Hc].
  Qed.
  Lemma slot_not_hdr a : RS a -> hdr a -> False.
  Proof. intros H Hh. exact (slot_not_cell a H (hdr_cell a Hh)). Qed.

  (** The state of the heap during the mark phase *)
  Record Inv (T : threads) (m : mem) (b : list Z) : Prop := {
    i_str : b = rchunks T 1 ds ++ [0];
    i_chg : forall x, m x = m0 x \/ (hdr x /\ m x = option_map Z.succ (m0 x)) \/
              (exists v, RS x /\ m0 x = Some v /\ is_str_o v /\ In x (T (addr v)));
    i_T : forall o a, In a (T o) -> RS a /\ m0 a = Some (65528 * 2 ^ 48 + o) /\ 0 <= o < 2 ^ 48;
    i_nodup : forall o, NoDup (T o);
    i_chain : forall o d, str_at ds o d -> tchain m (T o) (six d);
    i_props : forall o p, RO o -> mkb m o = false -> In p (props o) -> mkb m p = false }.

  Lemma hdr_cur T m b x : Inv T m b -> hdr x -> exists w, m0 x = Some w /\ 0 <= w /\ w mod 4 = 0 /\
    (m x = Some w /\ mkb m x = false \/ m x = Some (w + 1) /\ mkb m x = true).
  Proof.
    intros HI Hx. destruct (hdr_word x Hx) as (w & Hw & Hw0 & Hw4). exists w. split; [exact Hw|]. split; [exact Hw0|].
    split; [exact Hw4|]. destruct (i_chg _ _ _ HI x) as [E|[[_ E]|(v & Hs & _)]].
    - left. rewrite Hw in E. split; [exact E|]. unfold mkb. rewrite E, odd_mod. lia.
    - right. rewrite Hw in E. cbn in E. unfold Z.succ in E. split; [exact E|]. unfold mkb. rewrite E, odd_mod. lia.
    - exfalso. exact (slot_not_hdr x Hs Hx).
  Qed.
  Lemma slot_cur T m b a v : Inv T m b -> RS a -> m0 a = Some v ->
    (m a = Some v /\ (is_str_o v -> ~ In a (T (addr v)))) \/
    (is_str_o v /\ In a (T (addr v)) /\ exists w, m a = Some w /\ is_u64 w /\ (w / 2 ^ 48 = 65530 \/ w / 2 ^ 48 = 65522)).
  Proof.
    intros HI Ha Hv. destruct (slot_val a Ha) as (v' & Hv' & Hu & (_ & _ & V3)).
    assert (v' = v) by congruence. subst v'.
    assert (Hin : is_str_o v -> In a (T (addr v)) -> exists w, m a = Some w /\ is_u64 w /\ (w / 2 ^ 48 = 65530 \/ w / 2 ^ 48 = 65522)).
    { intros Hs Hi. destruct (V3 Hs) as (d & Hd). pose proof (i_chain _ _ _ HI _ _ Hd) as Hc.
      destruct Hd as (ds1 & ds2 & Eds & _). pose proof (h_strs _ _ _ _ _ HK) as Hds. rewrite Eds in Hds.
      apply Forall_app in Hds. destruct Hds as [_ Hds]. inversion Hds as [|? ? Hdd _]; subst.
      assert (Hw : exists w, m a = Some w).
      { clear - Hc Hi. induction (T (addr v)) as [|x l IH]; [destruct Hi|]. cbn [tchain] in Hc. destruct Hc as [H1 H2].
        destruct Hi as [<-|Hi]; [eauto|]. apply IH; assumption. }
      destruct Hw as (w & Hw). exists w. split; [exact Hw|].
      apply (tchain_tag m (T (addr v)) (six d) a w Hc (six_range d Hdd)); [|exact Hi|exact Hw].
      intros x Hx. destruct (i_T _ _ _ HI _ _ Hx) as (Hsx & _). destruct (slot_aligned x Hsx). lia. }
    destruct (i_chg _ _ _ HI a) as [E|[[Hh _]|(v' & Hs & Hv'' & Hso & Hi)]].
    - destruct (in_dec Z.eq_dec a (T (addr v))) as [Hi|Hni].
      + destruct (i_T _ _ _ HI _ _ Hi) as (_ & Hm & Ho). rewrite Hv in Hm. apply some_inj in Hm.
        assert (Hs : is_str_o v) by (unfold is_str_o; lia).
        right. split; [exact Hs|]. split; [exact Hi|]. exact (Hin Hs Hi).
      + left. split; [congruence|]. intros _. exact Hni.
    - exfalso. exact (slot_not_hdr a Ha Hh).
    - assert (v' = v) by congruence. subst v'. right. split; [exact Hso|]. split; [exact Hi|]. exact (Hin Hso Hi).
  Qed.

  (** Setting the mark bit of a reachable cell *)
  Lemma inv_mark T m b x w : Inv T m b -> hdr x -> m0 x = Some w -> m x = Some w ->
    (forall o, RO o -> mkb m o = false -> o <> x -> ~ In x (props o)) ->
    Inv T (upd m x (w + 1)) b.
  Proof.
    intros HI Hx Hw Hm Hpr. constructor.
    - exact (i_str _ _ _ HI).
    - intros y. destruct (Z.eq_dec y x) as [->|Hne].
      + right. left. split; [exact Hx|]. rewrite upd_same, Hw. reflexivity.
      + rewrite upd_other by exact Hne. exact (i_chg _ _ _ HI y).
    - exact (i_T _ _ _ HI).
    - exact (i_nodup _ _ _ HI).
    - intros o d Hd. apply (tchain_frame m); [exact (i_chain _ _ _ HI o d Hd)|].
      intros a Ha. apply upd_other. intros ->. destruct (i_T _ _ _ HI _ _ Ha) as (Hs & _). exact (slot_not_hdr x Hs Hx).
    - intros o p Ho Hun Hp. destruct (Z.eq_dec o x) as [->|Hne].
      + exfalso. unfold mkb in Hun. rewrite upd_same in Hun. destruct (hdr_word x Hx) as (w' & Hw' & H0 & H4).
        assert (w' = w) by congruence. subst w'. rewrite odd_mod in Hun. lia.
      + assert (Hun' : mkb m o = false) by (unfold mkb in *; rewrite upd_other in Hun by exact Hne; exact Hun).
        assert (Hpx : p <> x) by (intros ->; exact (Hpr o Ho Hun' Hne Hp)).
        unfold mkb. rewrite upd_other by exact Hpx. exact (i_props _ _ _ HI o p Ho Hun' Hp).
  Qed.

  Lemma dok_at o d : str_at ds o d -> dok d.
  Proof.
    intros (ds1 & ds2 & E & _). pose proof (h_strs _ _ _ _ _ HK) as H. rewrite E in H.
    apply Forall_app in H. destruct H as [_ H]. inversion H; assumption.
  Qed.

  Lemma offset_of v : val_to_offset v = addr v.
  Proof. unfold val_to_offset. rewrite untag_mod, get_ptr_raw_mod. unfold addr. rewrite Z.mod_mod by lia. reflexivity. Qed.

  (** Threading a slot on its string *)
  Lemma mark_string_spec T m b v w : Inv T m b -> RS v -> m0 v = Some w -> is_str_o w -> ~ In v (T (addr w)) ->
    exists m' b', gc_mark_string m b v = OK (m', b') /\ Inv (updT T (addr w) v) m' b' /\
      (forall x, x <> v -> m' x = m x).
  Proof.
    intros HI Hv Hw Hs Hni. destruct (slot_cur T m b v w HI Hv Hw) as [[Hm _]|(_ & Hi & _)]; [|contradiction].
    destruct (slot_aligned v Hv) as [Ha Hr]. destruct (slot_val v Hv) as (w' & Hw' & Hu & (_ & _ & V3)).
    assert (w' = w) by congruence. subst w'. destruct (V3 Hs) as (d & Hd). set (o := addr w) in *.
    pose proof (dok_at o d Hd) as Hdok. destruct (entry_ok d Hdok) as [Heb Hel].
    unfold gc_mark_string. rewrite (ld_ok _ _ _ Ha Hm). cbn [bind]. rewrite offset_of. fold o.
    pose proof Hd as (ds1 & ds2 & Eds & Eo).
    pose proof (h_strs _ _ _ _ _ HK) as Hall. rewrite Eds in Hall. apply Forall_app in Hall. destruct Hall as [Hd1 Hd2].
    inversion Hd2 as [|? ? _ Hd2']; subst.
    (* shape of the buffer *)
    destruct (chunk_shape T o d Hdok) as (k & c6 & Ec & Lc & Hk).
    set (pre := rchunks T 1 ds1). set (post := rchunks T (o + 1 + zlen (entry d)) ds2 ++ [0]).
    assert (Eb : b = pre ++ [k] ++ c6 ++ skipn 6 (entry d) ++ post).
    { rewrite (i_str _ _ _ HI), Eds, rchunks_app. cbn [rchunks].
      replace (1 + zlen (chunks ds1)) with o by lia. rewrite Ec. unfold pre, post. rewrite <- !app_assoc.
      cbn [app]. rewrite <- !app_assoc. reflexivity. }
    assert (Lp : zlen pre = o - 1) by (unfold pre; rewrite rchunks_len by exact Hd1; lia).
    assert (Lc6 : zlen c6 = 6) by (unfold zlen; lia).
    assert (Lb : o + 6 <= zlen b).
    { rewrite Eb, !zlen_app, Lp, Lc6. change (zlen [k]) with 1.
      pose proof (zlen_nonneg (skipn 6 (entry d))). pose proof (zlen_nonneg post). lia. }
    destruct (Z.leb_spec (zlen b) o); [lia|].
    assert (Hnth : nthz b (o - 1) = Some k) by (rewrite Eb, <- Lp; apply nthz_mid).
    rewrite Hnth. destruct (Z.leb_spec (o + 6) (zlen b)); [|lia].
    assert (Hsub : sub b o 6 = c6).
    { rewrite Eb. rewrite app_assoc. replace o with (zlen (pre ++ [k])) by (rewrite zlen_app, Lp; change (zlen [k]) with 1; lia).
      rewrite <- Lc6. apply sub_app_mid. }
    rewrite Hsub.
    assert (Hb' : blit (blit b (o - 1) [1]) o (le_bytes 6 v) = pre ++ [1] ++ le_bytes 6 v ++ skipn 6 (entry d) ++ post).
    { rewrite Eb. rewrite <- Lp. rewrite blit_app_mid by reflexivity.
      replace o with (zlen (pre ++ [1])) by (rewrite zlen_app, Lp; change (zlen [1]) with 1; lia).
      rewrite app_assoc. rewrite blit_app_mid by (rewrite le_bytes_length; symmetry; exact Lc). rewrite <- app_assoc. reflexivity. }
    rewrite Hb'. rewrite sto_ok by (congruence || exact Ha). cbn [bind].
    set (tmp := Z.lor (le_val c6) (if k =? 0 then TAG_STRING_C else TAG_FOREIGN)).
    eexists _, _. split; [reflexivity|].
    assert (Hlv : 0 <= le_val c6 < 2 ^ 48 /\ match T o with [] => le_val c6 = six d | a :: _ => le_val c6 = a end).
    { destruct (T o) as [|a l] eqn:ET; destruct Hk as [Hk1 Hk2]; rewrite Hk2.
      - split; [exact (six_range d Hdok)|reflexivity].
      - assert (HaT : In a (T o)) by (rewrite ET; left; reflexivity).
        destruct (i_T _ _ _ HI _ _ HaT) as (Hsa & _). destruct (slot_aligned a Hsa) as [_ Har].
        rewrite le_val_bytes_small by (change (256 ^ Z.of_nat 6) with (2 ^ 48); lia). lia. }
    destruct Hlv as [Hlv HlvT].
    split; [|intros x Hx; apply upd_other; exact Hx].
    assert (Hslot_inj : forall o' a, In a (T o') -> a = v -> o' = o).
    { intros o' a Hin ->. destruct (i_T _ _ _ HI _ _ Hin) as (_ & Hm' & _). rewrite Hw in Hm'. apply some_inj in Hm'.
      pose proof (str_o_val w Hs) as Ew. fold o in Ew. lia. }
    constructor.
    - rewrite Eds, rchunks_app. cbn [rchunks]. replace (1 + zlen (chunks ds1)) with o by lia.
      unfold chunk at 1. unfold updT at 2. rewrite Z.eqb_refl.
      rewrite (rchunks_ext (updT T o v) T ds1 1).
      2:{ intros x Hx. unfold updT. destruct (Z.eqb_spec x o); [lia|reflexivity]. }
      rewrite (rchunks_ext (updT T o v) T ds2).
      2:{ intros x Hx. unfold updT. destruct (Z.eqb_spec x o); [lia|reflexivity]. }
      unfold pre, post. rewrite <- !app_assoc. cbn [app]. rewrite <- !app_assoc. reflexivity.
    - intros x. destruct (Z.eq_dec x v) as [->|Hne].
      + right. right. exists w. split; [exact Hv|]. split; [exact Hw|]. split; [exact Hs|].
        unfold updT. fold o. rewrite Z.eqb_refl. left. reflexivity.
      + rewrite upd_other by exact Hne. destruct (i_chg _ _ _ HI x) as [E|[E|(u & H1 & H2 & H3 & H4)]]; auto.
        right. right. exists u. repeat split; auto. unfold updT. destruct (addr u =? o); [right|]; exact H4.
    - intros o' a Hin. unfold updT in Hin. destruct (Z.eqb_spec o' o) as [->|]; [|exact (i_T _ _ _ HI _ _ Hin)].
      destruct Hin as [<-|Hin]; [|exact (i_T _ _ _ HI _ _ Hin)].
      split; [exact Hv|]. split; [rewrite Hw; f_equal; apply str_o_val; exact Hs|apply addr_range].
    - intros o'. unfold updT. destruct (Z.eqb_spec o' o) as [->|]; [|exact (i_nodup _ _ _ HI o')].
      constructor; [exact Hni|exact (i_nodup _ _ _ HI o)].
    - intros o' d' Hd'. unfold updT. destruct (Z.eqb_spec o' o) as [->|Hne].
      + assert (d' = d).
        { clear - Hd Hd' HK. destruct Hd as (a1 & a2 & E1 & O1). destruct Hd' as (b1 & b2 & E2 & O2).
          rewrite E1 in E2. clear E1. assert (L : zlen (chunks a1) = zlen (chunks b1)) by lia. clear O1 O2.
          revert b1 E2 L. induction a1 as [|x a1 IH]; intros [|y b1] E2 L; cbn [app] in E2.
          - congruence.
          - rewrite zlen_chunks_cons in L. change (zlen (chunks [])) with 0 in L.
            pose proof (zlen_nonneg (entry y)). pose proof (zlen_nonneg (chunks b1)). lia.
          - rewrite zlen_chunks_cons in L. change (zlen (chunks [])) with 0 in L.
            pose proof (zlen_nonneg (entry x)). pose proof (zlen_nonneg (chunks a1)). lia.
          - injection E2 as -> E2. rewrite !zlen_chunks_cons in L. apply (IH b1); [exact E2|lia]. }
        subst d'. pose proof (i_chain _ _ _ HI o d Hd) as Hc. cbn [tchain]. split.
        * rewrite upd_same. f_equal. unfold tmp. destruct (T o) as [|a l]; destruct Hk as [Hk1 _]; rewrite Hk1; cbn [Z.eqb].
          -- unfold TAG_STRING_C. rewrite lor_tag by exact Hlv. rewrite HlvT. reflexivity.
          -- unfold TAG_FOREIGN. rewrite lor_tag by exact Hlv. rewrite HlvT. reflexivity.
        * apply (tchain_frame m); [exact Hc|]. intros a Hin. apply upd_other. intros ->. contradiction.
      + apply (tchain_frame m); [exact (i_chain _ _ _ HI o' d' Hd')|]. intros a Hin. apply upd_other.
        intros E. apply Hne. exact (Hslot_inj o' a Hin E).
    - intros o' p Ho Hun Hp. assert (No : o' <> v) by (intros ->; exact (slot_not_hdr v Hv (or_introl Ho))).
      assert (Np : p <> v) by (intros ->; exact (slot_not_hdr v Hv (or_intror (or_introl (props_reach o' v Ho Hp))))).
      unfold mkb in *. rewrite upd_other in * by assumption. exact (i_props _ _ _ HI o' p Ho Hun Hp).
  Qed.

  (** What marking achieves *)
  Definition mono (m : mem) (T : threads) (m' : mem) (T' : threads) : Prop :=
    (forall x, iscell x -> mkb m x = true -> mkb m' x = true) /\ (forall o a, In a (T o) -> In a (T' o)).
  Definition done (m : mem) (T : threads) (a : Z) : Prop :=
    exists v, m0 a = Some v /\ (objlike v -> mkb m (addr v) = true) /\
      (kind_of v = KFfi -> mkb m (addr v) = true) /\ (is_str_o v -> In a (T (addr v))).
  Definition scan_prop m T p : Prop := mkb m p = true /\ done m T (p + 8) /\ done m T (p + 16).
  Definition scanned m T o : Prop := forall p, In p (props o) -> scan_prop m T p.

  Lemma mono_refl m T : mono m T m T.
  Proof. split; auto. Qed.
  Lemma mono_trans m T m1 T1 m2 T2 : mono m T m1 T1 -> mono m1 T1 m2 T2 -> mono m T m2 T2.
  Proof. intros [A B] [C D]. split; auto. Qed.
  Lemma done_mono m T m' T' a : RS a -> mono m T m' T' -> done m T a -> done m' T' a.
  Proof.
    intros Ha [M1 M2] (v & Hv & D1 & D2 & D3). exists v. split; [exact Hv|].
    split; [|split].
    - intros H. apply M1; [|exact (D1 H)]. left. apply obj_cell. exact (r_obj m0 roots a v Ha Hv H).
    - intros H. apply M1; [|exact (D2 H)]. right. right. apply sig_cell. exact (r_sig m0 roots a v Ha Hv H).
    - intros H. apply M2, D3, H.
  Qed.
  Lemma scan_prop_mono m T m' T' p : RP p -> mono m T m' T' -> scan_prop m T p -> scan_prop m' T' p.
  Proof.
    intros Hp M (S1 & S2 & S3). split; [|split].
    - apply M; [right; left; apply prop_cell; exact Hp|exact S1].
    - apply (done_mono m T); [apply r_name; exact Hp|exact M|exact S2].
    - apply (done_mono m T); [apply r_val; exact Hp|exact M|exact S3].
  Qed.
  Lemma scanned_mono m T m' T' o : RO o -> mono m T m' T' -> scanned m T o -> scanned m' T' o.
  Proof. intros Ho M H p Hp. apply (scan_prop_mono m T); [exact (props_reach o p Ho Hp)|exact M|exact (H p Hp)]. Qed.

  Record Post (m : mem) (T : threads) (m' : mem) (T' : threads) (b' : list Z) (l : list Z) : Prop := {
    p_inv : Inv T' m' b';
    p_mono : mono m T m' T';
    p_scan : forall o, RO o -> mkb m' o = true -> mkb m o = true \/ scanned m' T' o;
    p_props : forall p, RP p -> mkb m' p = true -> mkb m p = true \/ In p l \/
                exists o, RO o /\ mkb m o = false /\ mkb m' o = true /\ In p (props o) }.

  Lemma post_refl m T b l : Inv T m b -> Post m T m T b l.
  Proof. intros H. constructor; [exact H|apply mono_refl| |]; auto. Qed.
  Lemma bcase (b : bool) : b = true \/ b = false.
  Proof. destruct b; auto. Qed.
  Lemma post_trans m T m1 T1 b1 l1 m2 T2 b2 l2 : Post m T m1 T1 b1 l1 -> Post m1 T1 m2 T2 b2 l2 ->
    Post m T m2 T2 b2 (l1 ++ l2).
  Proof.
    intros P1 P2. constructor.
    - exact (p_inv _ _ _ _ _ _ P2).
    - exact (mono_trans _ _ _ _ _ _ (p_mono _ _ _ _ _ _ P1) (p_mono _ _ _ _ _ _ P2)).
    - intros o Ho Hm. destruct (p_scan _ _ _ _ _ _ P2 o Ho Hm) as [H1|H]; [|auto].
      destruct (p_scan _ _ _ _ _ _ P1 o Ho H1) as [H|H]; [auto|]. right.
      exact (scanned_mono _ _ _ _ o Ho (p_mono _ _ _ _ _ _ P2) H).
    - intros p Hp Hm. destruct (p_props _ _ _ _ _ _ P2 p Hp Hm) as [H1|[H|(o & Ho & Hf & Ht & Hin)]].
      + destruct (p_props _ _ _ _ _ _ P1 p Hp H1) as [H|[H|(o & Ho & Hf & Ht & Hin)]]; [auto| |].
        * right. left. apply in_or_app. auto.
        * right. right. exists o. repeat split; auto. apply (p_mono _ _ _ _ _ _ P2); [|exact Ht].
          left. apply obj_cell. exact Ho.
      + right. left. apply in_or_app. auto.
      + right. right. exists o. repeat split; auto.
        destruct (bcase (mkb m o)) as [E|E]; [|exact E].
        apply (p_mono _ _ _ _ _ _ P1) in E; [congruence|]. left. apply obj_cell. exact Ho.
  Qed.
  Lemma post_weaken m T m' T' b' l l' : incl l l' -> Post m T m' T' b' l -> Post m T m' T' b' l'.
  Proof.
    intros Hl P. constructor.
    - exact (p_inv _ _ _ _ _ _ P).
    - exact (p_mono _ _ _ _ _ _ P).
    - exact (p_scan _ _ _ _ _ _ P).
    - intros p Hp Hm. destruct (p_props _ _ _ _ _ _ P p Hp Hm) as [H|[H|H]]; auto.
  Qed.

  (** Work left: bounds the depth of the recursion *)
  Definition wt (m : mem) (c : Z) : nat := if mkb m c then 0 else 3 + length (props c).
  Definition work (m : mem) : nat := list_sum (map (wt m) (acells ao)).
  Lemma sum_le (f h : Z -> nat) l : (forall x, In x l -> (f x <= h x)%nat) -> (list_sum (map f l) <= list_sum (map h l))%nat.
  Proof.
    induction l as [|x l IH]; cbn [map list_sum fold_right]; intros H; [lia|].
    pose proof (H x (or_introl eq_refl)). assert (list_sum (map f l) <= list_sum (map h l))%nat by (apply IH; intros; apply H; right; assumption).
    unfold list_sum in *. lia.
  Qed.
  Lemma sum_lt (f h : Z -> nat) l k y : (forall x, In x l -> (f x <= h x)%nat) -> In y l -> (f y + k <= h y)%nat ->
    (list_sum (map f l) + k <= list_sum (map h l))%nat.
  Proof.
    induction l as [|x l IH]; cbn [map list_sum fold_right]; intros H Hin Hk; [destruct Hin|].
    destruct Hin as [->|Hin].
    - assert (list_sum (map f l) <= list_sum (map h l))%nat by (apply sum_le; intros; apply H; right; assumption).
      unfold list_sum in *. lia.
    - pose proof (H x (or_introl eq_refl)).
      assert (list_sum (map f l) + k <= list_sum (map h l))%nat by (apply IH; auto; intros; apply H; right; assumption).
      unfold list_sum in *. lia.
  Qed.
  Lemma work_mono m T m' T' : mono m T m' T' -> (work m' <= work m)%nat.
  Proof.
    intros [M _]. apply sum_le. intros x Hx. unfold wt. destruct (mkb m x) eqn:E; [|destruct (mkb m' x); lia].
    rewrite (M x (or_introl Hx) E). lia.
  Qed.

  Lemma check_ok a c : 8 <= a_cs a -> In c (acells a) -> gc_check_ptr a c = true.
  Proof.
    intros Hcs Hc. destruct (cells_in_blocks _ _ _ Hcs Hc) as (bl & Hb & Hin). unfold gc_check_ptr.
    apply existsb_exists. exists bl. split; [exact Hb|]. unfold in_block in Hin. lia.
  Qed.
  Lemma mkb_upd_other m x w y : y <> x -> mkb (upd m x w) y = mkb m y.
  Proof. intros H. unfold mkb. rewrite upd_other by exact H. reflexivity. Qed.
  Lemma mkb_upd_same m x w : mkb (upd m x w) x = Z.odd w.
  Proof. unfold mkb. rewrite upd_same. reflexivity. Qed.
  Lemma odd_succ4 w : w mod 4 = 0 -> Z.odd (w + 1) = true.
  Proof. intros H. rewrite odd_mod. lia. Qed.
  Lemma lor1_word w : 0 <= w -> w mod 4 = 0 -> Z.lor w 1 = w + 1.
  Proof. intros H0 H4. apply lor1_even; lia. Qed.
  Lemma upd_mono m T x w : Z.odd w = true -> mono m T (upd m x w) T.
  Proof.
    intros Hw. split; [|auto]. intros y _ Hy. destruct (Z.eq_dec y x) as [->|Hne].
    - rewrite mkb_upd_same. exact Hw.
    - rewrite mkb_upd_other by exact Hne. exact Hy.
  Qed.
  Lemma upd_id m x w : m x = Some w -> forall y, upd m x w y = m y.
  Proof. intros H y. destruct (Z.eq_dec y x) as [->|Hne]; [rewrite upd_same; auto|apply upd_other; exact Hne]. Qed.

  Definition mark_spec (f : nat) : Prop := forall T m b v, Inv T m b -> RS v -> (work m + 2 <= f)%nat ->
    exists m' b' T', gc_mark f ao ap asg m b v = OK (m', b') /\ Post m T m' T' b' [] /\ done m' T' v.
  Definition object_spec (f : nat) : Prop := forall T m b w, Inv T m b -> is_u64 w -> objlike w -> RO (addr w) ->
    (work m + 1 <= f)%nat ->
    exists m' b' T', gc_mark_object f ao ap asg m b w = OK (m', b') /\ Post m T m' T' b' [] /\ mkb m' (addr w) = true.
  Definition props_spec (f : nat) : Prop := forall T m b o prop l, Inv T m b -> RO o -> mkb m o = true ->
    flist m0 prop l -> incl l (props o) -> (forall p, In p l -> mkb m p = false) ->
    (length l + work m + 3 <= f)%nat ->
    exists m' b' T', gc_mark_props f ao ap asg m b prop = OK (m', b') /\ Post m T m' T' b' l /\
      forall p, In p l -> scan_prop m' T' p.

  Lemma mark_step f : object_spec f -> mark_spec (S f).
  Proof.
    intros IHo T m b v HI Hv Hf. cbn [gc_mark].
    destruct (slot_aligned v Hv) as [Hal _].
    destruct (slot_val v Hv) as (v0 & Hv0 & Hu & (V1 & V2 & V3)).
    destruct (slot_cur T m b v v0 HI Hv Hv0) as [[Hm Hni]|(Hs & Hin & w & Hm & Hwu & Hw)].
    2:{ exists m, b, T. split; [|split; [apply post_refl; exact HI|]].
        - rewrite (ld_ok _ _ _ Hal Hm). cbn [bind].
          replace (is_object w) with false by (rewrite is_object_hi by exact Hwu; lia). cbn [bind].
          rewrite (ld_ok _ _ _ Hal Hm). cbn [bind].
          replace (is_ffi_sig w) with false by (rewrite is_ffi_hi by exact Hwu; lia). cbn [bind].
          rewrite (ld_ok _ _ _ Hal Hm). cbn [bind].
          unfold TAG_STRING_O. rewrite land_tag_eqb by exact Hwu.
          replace (w / 2 ^ 48 =? 65528) with false by lia. reflexivity.
        - exists v0. split; [exact Hv0|]. split; [|split; [|auto]].
          + intros H. apply objlike_hi in H; [|exact Hu]. unfold is_str_o in Hs. lia.
          + intros H. apply ffi_kind_hi in H; [|exact Hu]. unfold is_str_o in Hs. lia. }
    rewrite (ld_ok _ _ _ Hal Hm). cbn [bind].
    destruct (is_object v0) eqn:Eo.
    - (* object *)
      apply objlike_dec in Eo; [|exact Hu].
      assert (Ho : RO (addr v0)) by exact (r_obj m0 roots v v0 Hv Hv0 Eo).
      destruct (IHo T m b v0 HI Hu Eo Ho ltac:(lia)) as (m1 & b1 & T1 & E1 & P1 & Hmk).
      rewrite E1. cbn [bind]. pose proof Eo as Ehi. apply objlike_hi in Ehi; [|exact Hu].
      assert (Hm1 : m1 v = Some v0).
      { destruct (slot_cur T1 m1 b1 v v0 (p_inv _ _ _ _ _ _ P1) Hv Hv0) as [[H _]|(Hs & _)]; [exact H|].
        unfold is_str_o in Hs. lia. }
      exists m1, b1, T1. split; [|split; [exact P1|]].
      + rewrite (ld_ok _ _ _ Hal Hm1). cbn [bind].
        replace (is_ffi_sig v0) with false by (rewrite is_ffi_hi by exact Hu; lia). cbn [bind].
        rewrite (ld_ok _ _ _ Hal Hm1). cbn [bind].
        unfold TAG_STRING_O. rewrite land_tag_eqb by exact Hu.
        replace (v0 / 2 ^ 48 =? 65528) with false by lia. reflexivity.
      + exists v0. split; [exact Hv0|]. split; [auto|]. split.
        * intros H. apply ffi_kind_hi in H; [|exact Hu]. lia.
        * unfold is_str_o. lia.
    - assert (No : ~ objlike v0) by (intros H; apply objlike_dec in H; [congruence|exact Hu]).
      cbn [bind]. rewrite (ld_ok _ _ _ Hal Hm). cbn [bind].
      destruct (is_ffi_sig v0) eqn:Ef.
      + (* signature *)
        apply ffi_dec in Ef; [|exact Hu].
        assert (Hg : RG (addr v0)) by exact (r_sig m0 roots v v0 Hv Hv0 Ef).
        pose proof Ef as Ehi. apply ffi_kind_hi in Ehi; [|exact Hu].
        assert (Hh : hdr (addr v0)) by (right; right; exact Hg).
        destruct (sig_cell _ Hg) as [Hc _]. rewrite get_ptr_raw_mod. fold (addr v0).
        rewrite (check_ok asg (addr v0)) by (first [rewrite csg; lia|exact Hc]).
        destruct (cell_aligned _ (hdr_cell _ Hh)) as [Hal' _].
        assert (Hne : v <> addr v0) by (intros E; apply (slot_not_hdr v Hv); rewrite E; exact Hh).
        destruct (hdr_cur T m b (addr v0) HI Hh) as (w & Hw & Hw0 & Hw4 & [[Hmc Hun]|[Hmc Hmk]]).
        * rewrite (or_word_ok _ _ _ _ Hal' Hmc), lor1_word by assumption. cbn [bind].
          rewrite (ld_ok _ v v0 Hal) by (rewrite upd_other by exact Hne; exact Hm). cbn [bind].
          exists (upd m (addr v0) (w + 1)), b, T. split.
          { unfold TAG_STRING_O. rewrite land_tag_eqb by exact Hu. replace (v0 / 2 ^ 48 =? 65528) with false by lia. reflexivity. }
          assert (Hnp : forall o, RO o -> ~ In (addr v0) (props o)).
          { intros o Ho Hin. destruct (HP1 o Ho) as (_ & _ & _ & Hp). destruct (Hp _ Hin) as [Hpc _].
            exact (seppg _ (pcell_arena _ Hpc) (gcell_arena _ Hc)). }
          assert (Hno : ~ RO (addr v0)).
          { intros Ho. exact (sepog _ (ocell_arena _ (proj1 (obj_cell _ Ho))) (gcell_arena _ Hc)). }
          split.
          -- constructor.
             ++ apply inv_mark; auto.
             ++ apply upd_mono, odd_succ4. exact Hw4.
             ++ intros o Ho Ht. left. destruct (Z.eq_dec o (addr v0)) as [->|Hn]; [contradiction|].
                rewrite mkb_upd_other in Ht by exact Hn. exact Ht.
             ++ intros p Hp Ht. left. destruct (Z.eq_dec p (addr v0)) as [->|Hn].
                ** exfalso. exact (seppg _ (pcell_arena _ (proj1 (prop_cell _ Hp))) (gcell_arena _ Hc)).
                ** rewrite mkb_upd_other in Ht by exact Hn. exact Ht.
          -- exists v0. split; [exact Hv0|]. split; [contradiction|]. split.
             ++ intros _. rewrite mkb_upd_same. apply odd_succ4. exact Hw4.
             ++ unfold is_str_o. lia.
        * rewrite (or_word_ok _ _ _ _ Hal' Hmc). cbn [bind].
          assert (El : Z.lor (w + 1) 1 = w + 1).
          { rewrite <- (lor1_word w Hw0 Hw4). rewrite <- Z.lor_assoc. reflexivity. }
          rewrite El. rewrite (ld_ok _ v v0 Hal) by (rewrite upd_other by exact Hne; exact Hm). cbn [bind].
          exists (upd m (addr v0) (w + 1)), b, T. split.
          { unfold TAG_STRING_O. rewrite land_tag_eqb by exact Hu. replace (v0 / 2 ^ 48 =? 65528) with false by lia. reflexivity. }
          pose proof (upd_id m (addr v0) (w + 1) Hmc) as Hid.
          assert (Hmkid : forall y, mkb (upd m (addr v0) (w + 1)) y = mkb m y) by (intros y; unfold mkb; rewrite Hid; reflexivity).
          split.
          -- constructor.
             ++ constructor.
                ** exact (i_str _ _ _ HI).
                ** intros x. rewrite Hid. exact (i_chg _ _ _ HI x).
                ** exact (i_T _ _ _ HI).
                ** exact (i_nodup _ _ _ HI).
                ** intros o d Hd. apply (tchain_frame m); [exact (i_chain _ _ _ HI o d Hd)|]. intros; apply Hid.
                ** intros o p Ho Hun Hp. rewrite Hmkid in *. exact (i_props _ _ _ HI o p Ho Hun Hp).
             ++ split; [|auto]. intros x _. rewrite Hmkid. auto.
             ++ intros o Ho. rewrite Hmkid. auto.
             ++ intros p Hp. rewrite Hmkid. auto.
          -- exists v0. split; [exact Hv0|]. split; [contradiction|]. split.
             ++ intros _. rewrite Hmkid. exact Hmk.
             ++ unfold is_str_o. lia.
      + assert (Nf : kind_of v0 <> KFfi) by (intros H; apply ffi_dec in H; [congruence|exact Hu]).
        cbn [bind]. rewrite (ld_ok _ _ _ Hal Hm). cbn [bind].
        destruct (Z.land v0 TAG_MASK =? TAG_STRING_O) eqn:Es.
        * apply str_o_dec in Es; [|exact Hu].
          destruct (mark_string_spec T m b v v0 HI Hv Hv0 Es (Hni Es)) as (m' & b' & E & HI' & Hfr).
          exists m', b', (updT T (addr v0) v). split; [exact E|].
          assert (Hmk : forall x, iscell x -> mkb m' x = mkb m x).
          { intros x Hx. unfold mkb. rewrite Hfr; [reflexivity|]. intros ->. exact (slot_not_cell v Hv Hx). }
          assert (Hinv : In v (updT T (addr v0) v (addr v0))) by (unfold updT; rewrite Z.eqb_refl; left; reflexivity).
          split.
          -- constructor.
             ++ exact HI'.
             ++ split; [intros x Hx; rewrite Hmk by exact Hx; auto|].
                intros o a Ha. unfold updT. destruct (o =? addr v0); [right|]; exact Ha.
             ++ intros o Ho Ht. left. rewrite <- Hmk; [exact Ht|]. left. apply obj_cell. exact Ho.
             ++ intros p Hp Ht. left. rewrite <- Hmk; [exact Ht|]. right. left. apply prop_cell. exact Hp.
          -- exists v0. split; [exact Hv0|]. split; [contradiction|]. split; [contradiction|]. intros _. exact Hinv.
        * exists m, b, T. split; [reflexivity|]. split; [apply post_refl; exact HI|].
          exists v0. split; [exact Hv0|]. split; [contradiction|]. split; [contradiction|].
          intros H. apply str_o_dec in H; [congruence|exact Hu].
  Qed.

  Lemma object_step f : props_spec f -> object_spec (S f).
  Proof.
    intros IHp T m b w HI Hu Hw Ho Hf. cbn [gc_mark_object].
    assert (E1 : get_object_struct w = OK (addr w)).
    { unfold get_object_struct. rewrite (proj2 (objlike_dec w Hu) Hw). unfold is_null, V_NULL, TAG_NULL.
      apply objlike_hi in Hw; [|exact Hu]. destruct (Z.eqb_spec w (65535 * 2 ^ 48)); [lia|].
      rewrite get_ptr_raw_mod. reflexivity. }
    rewrite E1. cbn [bind]. set (o := addr w) in *.
    destruct (obj_cell o Ho) as [Hc _]. rewrite (check_ok ao o) by (first [rewrite cso; lia|exact Hc]).
    assert (Hh : hdr o) by (left; exact Ho). destruct (cell_aligned _ (hdr_cell _ Hh)) as [Hal _].
    destruct (hdr_cur T m b o HI Hh) as (w0 & Hw0 & Hge & H4 & [[Hmc Hun]|[Hmc Hmk]]).
    2:{ rewrite (test1_ok _ _ _ Hal Hmc) by lia. cbn [bind].
        replace (negb ((w0 + 1) mod 2 =? 0)) with true by lia.
        exists m, b, T. split; [reflexivity|]. split; [apply post_refl; exact HI|exact Hmk]. }
    rewrite (test1_ok _ _ _ Hal Hmc) by lia. cbn [bind].
    replace (negb (w0 mod 2 =? 0)) with false by lia. rewrite (ld_ok _ _ _ Hal Hmc). cbn [bind].
    rewrite (or_word_ok _ _ _ _ Hal Hmc), lor1_word by assumption. cbn [bind].
    assert (HI1 : Inv T (upd m o (w0 + 1)) b).
    { apply inv_mark; auto. intros o' Ho' _ _ Hin. destruct (HP1 o' Ho') as (_ & _ & _ & Hp). destruct (Hp _ Hin) as [Hpc _].
      exact (sepop _ (ocell_arena _ Hc) (pcell_arena _ Hpc)). }
    set (m1 := upd m o (w0 + 1)) in *.
    assert (Hm1o : mkb m1 o = true) by (unfold m1; rewrite mkb_upd_same; apply odd_succ4; exact H4).
    assert (M1 : mono m T m1 T) by (apply upd_mono, odd_succ4; exact H4).
    destruct (HP1 o Ho) as (p0 & Hp0 & F & Hpc). assert (p0 = w0) by congruence. subst p0.
    assert (Hpn : forall p, In p (props o) -> mkb m1 p = false).
    { intros p Hp. unfold m1. rewrite mkb_upd_other; [exact (i_props _ _ _ HI o p Ho Hun Hp)|].
      intros ->. destruct (Hpc _ Hp) as [Hpp _]. exact (sepop _ (ocell_arena _ Hc) (pcell_arena _ Hpp)). }
    assert (Hwk : (work m1 + (3 + length (props o)) <= work m)%nat).
    { apply (sum_lt _ _ _ _ o); [|exact Hc|].
      - intros x Hx. unfold wt. destruct (mkb m x) eqn:E; [|destruct (mkb m1 x); lia].
        rewrite (proj1 M1 x (or_introl Hx) E). lia.
      - unfold wt. rewrite Hm1o, Hun. lia. }
    destruct (IHp T m1 b o w0 (props o) HI1 Ho Hm1o F (incl_refl _) Hpn ltac:(lia)) as (m' & b' & T' & E & P & HS).
    exists m', b', T'. split; [exact E|].
    assert (Hmo : mkb m' o = true) by (apply (p_mono _ _ _ _ _ _ P); [left; exact Hc|exact Hm1o]).
    split; [|exact Hmo]. constructor.
    - exact (p_inv _ _ _ _ _ _ P).
    - exact (mono_trans _ _ _ _ _ _ M1 (p_mono _ _ _ _ _ _ P)).
    - intros o' Ho' Ht. destruct (Z.eq_dec o' o) as [->|Hne]; [right; exact HS|].
      destruct (p_scan _ _ _ _ _ _ P o' Ho' Ht) as [H|H]; [left|auto]. unfold m1 in H. rewrite mkb_upd_other in H by exact Hne. exact H.
    - intros p Hp Ht. destruct (p_props _ _ _ _ _ _ P p Hp Ht) as [H|[H|(o' & Ho' & Hf' & Ht' & Hin)]].
      + left. unfold m1 in H. rewrite mkb_upd_other in H; [exact H|]. intros ->.
        exact (sepop _ (ocell_arena _ Hc) (pcell_arena _ (proj1 (prop_cell _ Hp)))).
      + right. right. exists o. auto.
      + right. right. exists o'. split; [exact Ho'|]. split; [|auto].
        destruct (bcase (mkb m o')) as [X|X]; [|exact X]. apply (proj1 M1) in X; [congruence|]. left. apply obj_cell. exact Ho'.
  Qed.

  Lemma props_step f : mark_spec f -> props_spec f -> props_spec (S f).
  Proof.
    intros IHm IHp T m b o prop l HI Ho Hmo F Hincl Hun Hf. cbn [gc_mark_props].
    inversion F as [|c nx l' Hc Hnx F']; subst.
    { exists m, b, T. split; [reflexivity|]. split; [apply post_refl; exact HI|]. intros p []. }
    rename l' into l. destruct (Z.eqb_spec prop 0); [contradiction|].
    assert (Hinp : In prop (props o)) by (apply Hincl; left; reflexivity).
    pose proof (props_reach o prop Ho Hinp) as Hp. destruct (prop_cell _ Hp) as [Hpc _].
    rewrite (check_ok ap prop) by (first [rewrite csp; lia|exact Hpc]).
    assert (Hocell : iscell o) by (left; apply obj_cell; exact Ho).
    destruct (IHm T m b (prop + 8) HI (r_name m0 roots prop Hp) ltac:(cbn [length] in Hf; lia)) as (m1 & b1 & T1 & E1 & P1 & D1).
    rewrite E1. cbn [bind].
    pose proof (work_mono _ _ _ _ (p_mono _ _ _ _ _ _ P1)) as W1.
    destruct (IHm T1 m1 b1 (prop + 16) (p_inv _ _ _ _ _ _ P1) (r_val m0 roots prop Hp) ltac:(cbn [length] in Hf; lia))
      as (m2 & b2 & T2 & E2 & P2 & D2).
    rewrite E2. cbn [bind].
    pose proof (work_mono _ _ _ _ (p_mono _ _ _ _ _ _ P2)) as W2.
    pose proof (post_trans _ _ _ _ _ _ _ _ _ _ P1 P2) as P12. cbn [app] in P12.
    assert (Hun2 : forall p, In p (prop :: l) -> mkb m2 p = false).
    { intros p Hin. destruct (bcase (mkb m2 p)) as [X|X]; [|exact X]. exfalso.
      pose proof (Hincl p Hin) as Hpo.
      destruct (p_props _ _ _ _ _ _ P12 p (props_reach o p Ho Hpo) X) as [H|[[]|(o' & Ho' & Hf' & _ & Hin')]].
      - rewrite (Hun p Hin) in H. discriminate H.
      - assert (o' = o) by exact (HP2 o' o p Ho' Ho Hin' Hpo). subst o'. congruence. }
    assert (Hmo2 : mkb m2 o = true) by (apply (p_mono _ _ _ _ _ _ P12); assumption).
    assert (Hh : hdr prop) by (right; left; exact Hp). destruct (cell_aligned _ (hdr_cell _ Hh)) as [Hal _].
    pose proof (p_inv _ _ _ _ _ _ P2) as HI2.
    destruct (hdr_cur T2 m2 b2 prop HI2 Hh) as (w & Hw & Hge & H4 & [[Hmc Hu2]|[_ Hmk]]).
    2:{ rewrite (Hun2 prop (or_introl eq_refl)) in Hmk. discriminate Hmk. }
    rewrite (ld_ok _ _ _ Hal Hmc). cbn [bind]. rewrite (or_word_ok _ _ _ _ Hal Hmc), lor1_word by assumption. cbn [bind].
    assert (w = nx) by congruence. subst w.
    pose proof (flist_nodup _ _ _ F) as Hnd. inversion Hnd as [|? ? Hni Hnd']; subst.
    assert (HI3 : Inv T2 (upd m2 prop (nx + 1)) b2).
    { apply inv_mark; auto. intros o' Ho' Hf' _ Hin'. assert (o' = o) by exact (HP2 o' o prop Ho' Ho Hin' Hinp). subst o'. congruence. }
    set (m3 := upd m2 prop (nx + 1)) in *.
    assert (M3 : mono m2 T2 m3 T2) by (apply upd_mono, odd_succ4; exact H4).
    assert (Hun3 : forall p, In p l -> mkb m3 p = false).
    { intros p Hin. unfold m3. rewrite mkb_upd_other; [apply Hun2; right; exact Hin|]. intros ->. contradiction. }
    assert (P3 : Post m2 T2 m3 T2 b2 [prop]).
    { constructor; [exact HI3|exact M3| |].
      - intros o' Ho' Ht. left. unfold m3 in Ht. rewrite mkb_upd_other in Ht; [exact Ht|]. intros ->.
        exact (sepop _ (ocell_arena _ (proj1 (obj_cell _ Ho'))) (pcell_arena _ Hpc)).
      - intros p Hp' Ht. destruct (Z.eq_dec p prop) as [->|Hne]; [right; left; left; reflexivity|].
        left. unfold m3 in Ht. rewrite mkb_upd_other in Ht by exact Hne. exact Ht. }
    assert (W3 := work_mono _ _ _ _ M3).
    destruct (IHp T2 m3 b2 o nx l HI3 Ho) as (m' & b' & T' & E & P & HS).
    { apply (proj1 M3); assumption. }
    { exact F'. }
    { intros x Hx. apply Hincl. right. exact Hx. }
    { exact Hun3. }
    { cbn [length] in Hf. lia. }
    exists m', b', T'. split; [exact E|]. split.
    - apply (post_weaken _ _ _ _ _ ([] ++ [prop] ++ l)); [apply incl_refl|].
      apply (post_trans _ _ m2 T2 b2); [exact P12|]. exact (post_trans _ _ _ _ _ _ _ _ _ _ P3 P).
    - intros p [<-|Hin]; [|exact (HS p Hin)].
      assert (M' : mono m3 T2 m' T') by exact (p_mono _ _ _ _ _ _ P).
      split; [|split].
      + apply (proj1 M'); [right; left; exact Hpc|]. unfold m3. rewrite mkb_upd_same. apply odd_succ4. exact H4.
      + apply (done_mono m1 T1); [exact (r_name m0 roots prop Hp)| |exact D1].
        exact (mono_trans _ _ _ _ _ _ (p_mono _ _ _ _ _ _ P2) (mono_trans _ _ _ _ _ _ M3 M')).
      + apply (done_mono m2 T2); [exact (r_val m0 roots prop Hp)| |exact D2].
        exact (mono_trans _ _ _ _ _ _ M3 M').
  Qed.

  Lemma mark_specs f : mark_spec f /\ object_spec f /\ props_spec f.
  Proof.
    induction f as [|f (IH1 & IH2 & IH3)].
    - split; [|split]; intros ? **; lia.
    - split; [apply mark_step; exact IH2|]. split; [apply object_step; exact IH3|apply props_step; assumption].
  Qed.

  Lemma mark_all_spec f vs : forall T m b, Inv T m b -> (forall v, In v vs -> RS v) -> (work m + 2 <= f)%nat ->
    exists m' b' T', mark_all f ao ap asg m b vs = OK (m', b') /\ Post m T m' T' b' [] /\
      forall v, In v vs -> done m' T' v.
  Proof.
    induction vs as [|v vs IH]; intros T m b HI Hvs Hf.
    - exists m, b, T. split; [reflexivity|]. split; [apply post_refl; exact HI|intros v []].
    - cbn [mark_all]. destruct (proj1 (mark_specs f) T m b v HI (Hvs v (or_introl eq_refl)) Hf) as (m1 & b1 & T1 & E1 & P1 & D1).
      rewrite E1. cbn [bind]. pose proof (work_mono _ _ _ _ (p_mono _ _ _ _ _ _ P1)) as W1.
      destruct (IH T1 m1 b1 (p_inv _ _ _ _ _ _ P1)) as (m2 & b2 & T2 & E2 & P2 & D2).
      { intros x Hx. apply Hvs. right. exact Hx. }
      { lia. }
      exists m2, b2, T2. split; [exact E2|]. split; [exact (post_trans _ _ _ _ _ _ _ _ _ _ P1 P2)|].
      intros x [<-|Hx]; [|exact (D2 x Hx)].
      apply (done_mono m1 T1); [apply Hvs; left; reflexivity|exact (p_mono _ _ _ _ _ _ P2)|exact D1].
  Qed.

  (** Initially nothing is marked. *)
  Lemma hdr_unmarked x : hdr x -> mkb m0 x = false.
  Proof. intros H. destruct (hdr_word x H) as (w & Hw & H0 & H4). unfold mkb. rewrite Hw, odd_mod. lia. Qed.
  Lemma inv_init : Inv (fun _ => []) m0 (g_str g).
  Proof.
    constructor.
    - rewrite rchunks_empty. exact (h_str _ _ _ _ _ HK).
    - intros x. left. reflexivity.
    - intros o a [].
    - intros o. constructor.
    - intros o d _. exact I.
    - intros o p Ho _ Hp. apply hdr_unmarked. right. left. exact (props_reach o p Ho Hp).
  Qed.

  (** After marking from the roots everything reachable is marked. *)
  Definition complete (m : mem) (T : threads) : Prop :=
    (forall x, hdr x -> mkb m x = true) /\
    (forall a v, RS a -> m0 a = Some v -> is_str_o v -> In a (T (addr v))).
  Lemma mark_phase f : (work m0 + 2 <= f)%nat ->
    exists m b T, mark_all f ao ap asg m0 (g_str g) roots = OK (m, b) /\ Inv T m b /\ complete m T.
  Proof.
    intros Hf. destruct (mark_all_spec f roots _ _ _ inv_init) as (m & b & T & E & P & D).
    { intros v Hv. exact (r_root m0 roots v Hv). }
    { exact Hf. }
    exists m, b, T. split; [exact E|]. split; [exact (p_inv _ _ _ _ _ _ P)|].
    assert (All : forall pl, reach m0 roots pl ->
              match pl with Slot a => done m T a | Obj o => mkb m o = true | Prop_ p => scan_prop m T p | Sig s => mkb m s = true end).
    { intros pl H. induction H as [a Ha|a v Ha IH Hm Hk|a v Ha IH Hm Hk|o p Ho IH Hm Hp|p q Hp IH Hm Hq|p Hp IH|p Hp IH].
      - exact (D a Ha).
      - destruct IH as (v' & Hv' & D1 & _). replace v with v' in * by congruence. auto.
      - destruct IH as (v' & Hv' & _ & D1 & _). replace v with v' in * by congruence. auto.
      - destruct (p_scan _ _ _ _ _ _ P o Ho IH) as [H|H].
        + rewrite (hdr_unmarked o (or_introl Ho)) in H. discriminate H.
        + apply H. destruct (HP1 o Ho) as (f0 & Hf0 & F & _). assert (f0 = p) by congruence. subst f0.
          inversion F; subst; [congruence|left; reflexivity].
      - destruct (prop_owner p Hp) as (o & Ho & Hin). 
        assert (Hmo : mkb m o = true).
        { destruct (bcase (mkb m o)) as [X|X]; [exact X|]. destruct IH as (IH & _).
          rewrite (i_props _ _ _ (p_inv _ _ _ _ _ _ P) o p Ho X Hin) in IH. discriminate IH. }
        destruct (p_scan _ _ _ _ _ _ P o Ho Hmo) as [H|H].
        + rewrite (hdr_unmarked o (or_introl Ho)) in H. discriminate H.
        + apply H. destruct (HP1 o Ho) as (f0 & Hf0 & F & _).
          destruct (flist_links _ _ _ _ F Hin) as (nx & Hnx & [Hz|Hi]); [congruence|].
          replace q with nx by congruence. exact Hi.
      - apply IH.
      - apply IH. }
    split.
    - intros x [H|[H|H]]; [exact (All _ H)|apply (All _ H)|exact (All _ H)].
    - intros a v Ha Hv Hs. destruct (All _ Ha) as (v' & Hv' & _ & _ & D3). replace v with v' in * by congruence. auto.
  Qed.
End Mark.

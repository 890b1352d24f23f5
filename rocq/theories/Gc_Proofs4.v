(** Proofs about string compaction. *)
From Verif Require Import Base BaseFacts Varint_Model Varint_Spec Varint_Proofs Value_Model Value_Proofs
  Str_Model Str_Proofs2 Gc_Model Gc_Spec Gc_Proofs Gc_Proofs3.
Ltac Zify.zify_post_hook ::= Z.div_mod_to_equations.

(** Rewriting the slots threaded on a string *)
Lemma unthread_spec head s l : 0 <= head < 2 ^ 48 -> 0 <= s < 2 ^ 48 -> forall f m h, tchain m l s -> NoDup l ->
  (forall a, In a l -> a mod 8 = 0 /\ 0 < a < 2 ^ 48) ->
  match l with [] => h = s + 65530 * 2 ^ 48 | a :: _ => h = a \/ h = a + 65522 * 2 ^ 48 end ->
  (length l < f)%nat ->
  exists m', unthread f m h head = OK (m', s) /\ (forall a, In a l -> m' a = Some (65528 * 2 ^ 48 + head)) /\
    (forall x, ~ In x l -> m' x = m x).
Proof.
  intros Hh Hs. induction l as [|a l IH]; intros f m h Hc Hnd Hal Hhd Hf; (destruct f as [|f]; [cbn in Hf; lia|]); cbn [unthread].
  - unfold TAG_STRING_C. rewrite land_tag_eqb by (subst h; unfold is_u64; lia).
    replace (h / 2 ^ 48 =? 65530) with true by lia. exists m. split; [|split; [intros x []|auto]].
    rewrite untag_mod. do 2 f_equal. lia.
  - cbn [tchain] in Hc. destruct Hc as [Hm Hc]. destruct (Hal a (or_introl eq_refl)) as [Ha8 Har].
    unfold TAG_STRING_C. rewrite land_tag_eqb by (unfold is_u64; lia).
    replace (h / 2 ^ 48 =? 65530) with false by lia.
    replace (untag h) with a by (rewrite untag_mod; lia).
    rewrite (ld_ok _ _ _ Ha8 Hm). cbn [bind]. rewrite sto_ok by (congruence || exact Ha8). cbn [bind].
    inversion Hnd as [|? ? Hni Hnd']; subst.
    assert (Ev : val_from_offset head = 65528 * 2 ^ 48 + head).
    { unfold val_from_offset, TAG_STRING_O. rewrite lor_tag by exact Hh. lia. }
    rewrite Ev. set (m1 := upd m a _) in *.
    destruct (IH f m1 (match l with [] => s + 65530 * 2 ^ 48 | a' :: _ => a' + 65522 * 2 ^ 48 end)) as (m' & E & H1 & H2).
    + apply (tchain_frame m); [exact Hc|]. intros x Hx. apply upd_other. intros ->. contradiction.
    + exact Hnd'.
    + intros x Hx. apply Hal. right. exact Hx.
    + destruct l; [reflexivity|right; reflexivity].
    + cbn [length] in Hf. lia.
    + exists m'. split; [exact E|]. split.
      * intros x [<-|Hx]; [|exact (H1 x Hx)]. rewrite H2 by exact Hni. apply upd_same.
      * intros x Hx. rewrite H2 by (intros X; apply Hx; right; exact X). apply upd_other.
        intros ->. apply Hx. left. reflexivity.
Qed.

(** Where the strings are, and where they go *)
Definition at_ (p : Z) (ds : list (list Z)) (o : Z) (d : list Z) : Prop :=
  exists ds1 ds2, ds = ds1 ++ d :: ds2 /\ o = zlen (chunks ds1) + p.
Definition csz (d : list Z) : Z := 1 + zlen (entry d).
Definition nilb {A} (l : list A) : bool := match l with [] => true | _ => false end.
Fixpoint live (T : threads) (p : Z) (ds : list (list Z)) : list (list Z) :=
  match ds with
  | [] => []
  | d :: r => if nilb (T p) then live T (p + csz d) r else d :: live T (p + csz d) r
  end.
Fixpoint moved (T : threads) (p head : Z) (ds : list (list Z)) (o : Z) : Z :=
  match ds with
  | [] => 0
  | d :: r => if nilb (T p) then moved T (p + csz d) head r o
              else if o =? p then head else moved T (p + csz d) (head + csz d) r o
  end.
Lemma csz_pos d : 1 <= csz d.
Proof. unfold csz. pose proof (zlen_nonneg (entry d)). lia. Qed.
Lemma at_cons p d r o x : at_ p (d :: r) o x <-> (o = p /\ x = d) \/ at_ (p + csz d) r o x.
Proof.
  split.
  - intros (d1 & d2 & E & Eo). destruct d1 as [|y d1]; cbn [app] in E; injection E as -> E.
    + left. change (zlen (chunks [])) with 0 in Eo. split; [lia|reflexivity].
    + right. exists d1, d2. split; [exact E|]. rewrite zlen_chunks_cons in Eo. unfold csz. lia.
  - intros [[-> ->]|(d1 & d2 & E & Eo)].
    + exists [], r. split; [reflexivity|]. change (zlen (chunks [])) with 0. lia.
    + exists (d :: d1), d2. split; [rewrite E; reflexivity|]. rewrite zlen_chunks_cons. unfold csz in Eo. lia.
Qed.
Lemma at_nil p o x : ~ at_ p [] o x.
Proof. intros (d1 & d2 & E & _). destruct d1; discriminate E. Qed.
Lemma at_ge p ds o x : at_ p ds o x -> p <= o.
Proof. intros (d1 & d2 & _ & ->). pose proof (zlen_nonneg (chunks d1)). lia. Qed.
Lemma at_str ds o d : str_at ds o d <-> at_ 1 ds o d.
Proof. reflexivity. Qed.

Lemma moved_at T ds : forall p head o d, at_ p ds o d -> T o <> [] ->
  at_ head (live T p ds) (moved T p head ds o) d.
Proof.
  induction ds as [|x ds IH]; intros p head o d H HT; [destruct (at_nil _ _ _ H)|].
  apply at_cons in H. cbn [live moved]. pose proof (csz_pos x). destruct H as [[-> ->]|H].
  - destruct (T p); [contradiction|]. cbn [nilb]. rewrite Z.eqb_refl. apply at_cons. left. auto.
  - pose proof (at_ge _ _ _ _ H). destruct (nilb (T p)); [apply IH; assumption|].
    replace (o =? p) with false by lia. apply at_cons. right. apply IH; assumption.
Qed.
Lemma moved_from T ds : forall p head o' d, at_ head (live T p ds) o' d ->
  exists o, T o <> [] /\ at_ p ds o d /\ moved T p head ds o = o'.
Proof.
  induction ds as [|x ds IH]; intros p head o' d H; cbn [live moved] in *; [destruct (at_nil _ _ _ H)|].
  pose proof (csz_pos x). destruct (nilb (T p)) eqn:EN.
  - destruct (IH _ _ _ _ H) as (o & H1 & H2 & H3). exists o. split; [exact H1|]. split; [|exact H3]. apply at_cons. auto.
  - apply at_cons in H. destruct H as [[-> ->]|H].
    + exists p. split; [destruct (T p); [discriminate EN|discriminate]|]. split; [apply at_cons; auto|].
      rewrite Z.eqb_refl. reflexivity.
    + destruct (IH _ _ _ _ H) as (o & H1 & H2 & H3). exists o. split; [exact H1|]. split; [apply at_cons; auto|].
      pose proof (at_ge _ _ _ _ H2). replace (o =? p) with false by lia. exact H3.
Qed.
Lemma moved_ge T ds p head o d : at_ p ds o d -> T o <> [] -> head <= moved T p head ds o.
Proof. intros H HT. exact (at_ge _ _ _ _ (moved_at T ds p head o d H HT)). Qed.
Lemma moved_mono T ds : forall p head o1 d1 o2 d2, at_ p ds o1 d1 -> at_ p ds o2 d2 -> T o1 <> [] -> T o2 <> [] ->
  o1 < o2 -> moved T p head ds o1 < moved T p head ds o2.
Proof.
  induction ds as [|x ds IH]; intros p head o1 d1 o2 d2 H1 H2 T1 T2 Hlt; [destruct (at_nil _ _ _ H1)|].
  apply at_cons in H1, H2. cbn [moved]. pose proof (csz_pos x). destruct H1 as [[-> ->]|H1].
  - destruct H2 as [[-> _]|H2]; [lia|]. destruct (T p); [contradiction|]. cbn [nilb]. rewrite Z.eqb_refl.
    replace (o2 =? p) with false by lia. pose proof (moved_ge T ds (p + csz x) (head + csz x) o2 d2 H2 T2). lia.
  - pose proof (at_ge _ _ _ _ H1). destruct H2 as [[-> _]|H2]; [lia|]. pose proof (at_ge _ _ _ _ H2).
    destruct (nilb (T p)); [eapply IH; eassumption|].
    replace (o1 =? p) with false by lia. replace (o2 =? p) with false by lia. eapply IH; eassumption.
Qed.
Lemma live_incl T ds : forall p, incl (live T p ds) ds.
Proof.
  induction ds as [|x ds IH]; intros p; cbn [live]; [apply incl_refl|].
  destruct (nilb (T p)); [apply incl_tl, IH|apply incl_cons; [left; reflexivity|apply incl_tl, IH]].
Qed.
Lemma live_len T ds : forall p, zlen (chunks (live T p ds)) <= zlen (chunks ds).
Proof.
  induction ds as [|x ds IH]; intros p; cbn [live]; [lia|]. pose proof (IH (p + csz x)). pose proof (zlen_nonneg (entry x)).
  destruct (nilb (T p)); rewrite ?zlen_chunks_cons; lia.
Qed.

Lemma vlen5 n : 0 <= n < 2 ^ 31 -> 1 <= zlen (varint_bytes n) <= 5.
Proof. intros H. split; [apply varint_len_pos; lia|]. apply varint_len_bound; lia. Qed.
Lemma le_bytes86 s : 0 <= s < 2 ^ 48 -> le_bytes 8 s = le_bytes 6 s ++ [0; 0].
Proof.
  intros H. apply le_val_inj.
  - apply le_bytes_ok.
  - apply bytes_ok_app. split; [apply le_bytes_ok|]. repeat apply Forall_cons; try apply Forall_nil; unfold is_byte; lia.
  - rewrite app_length, !le_bytes_length. reflexivity.
  - rewrite le_val_app. rewrite !le_val_bytes_small by (change (256 ^ Z.of_nat 8) with (2 ^ 64); change (256 ^ Z.of_nat 6) with (2 ^ 48); lia).
    cbn [le_val]. lia.
Qed.
Lemma six_bytes d : dok d -> le_bytes 6 (six d) = firstn 6 (entry d).
Proof.
  intros H. destruct (entry_ok d H) as [Hb Hl]. unfold six.
  assert (Hf : bytes_ok (firstn 6 (entry d))).
  { unfold bytes_ok in *. rewrite <- (firstn_skipn 6) in Hb. apply Forall_app in Hb. apply Hb. }
  replace 6%nat with (length (firstn 6 (entry d))) at 1; [apply le_bytes_val; exact Hf|].
  rewrite firstn_length. unfold zlen in Hl. lia.
Qed.
Lemma decode_six d : dok d -> zlen d < 2 ^ 31 ->
  varint_decode_unsafe (le_bytes 8 (six d)) = OK (zlen d, zlen (varint_bytes (zlen d))).
Proof.
  intros H Hl. rewrite le_bytes86 by (apply six_range; exact H). rewrite six_bytes by exact H.
  pose proof (zlen_nonneg d) as Hn. pose proof (vlen5 (zlen d) ltac:(lia)) as V.
  unfold entry. rewrite firstn_app. rewrite firstn_all2 by (revert V; generalize (varint_bytes (zlen d)) as q; intros q V; unfold zlen in V; lia). rewrite <- app_assoc.
  apply decode_unsafe_encode. unfold is_u64. lia.
Qed.

Definition mark_of (T : threads) (p : Z) (ds : list (list Z)) : Z :=
  match ds with [] => 0 | _ => if nilb (T p) then 0 else 1 end.
Lemma rchunks_hd T p ds : exists tl, rchunks T p ds ++ [0] = mark_of T p ds :: tl.
Proof.
  destruct ds as [|d ds]; cbn [rchunks mark_of app]; [eexists; reflexivity|].
  unfold chunk. destruct (T p); cbn [nilb app]; eexists; reflexivity.
Qed.

Lemma compact_spec T (ds : list (list Z)) :
  (forall o, NoDup (T o)) -> (forall o a, In a (T o) -> a mod 8 = 0 /\ 0 < a < 2 ^ 48) ->
  (forall o o' a, In a (T o) -> In a (T o') -> o = o') ->
  forall f m P J p head,
  Forall dok ds ->
  zlen P = head - 1 -> zlen J = p - head -> 0 < head ->
  zlen P + zlen J + zlen (chunks ds) + 1 < 2 ^ 31 ->
  (J = [] \/ (exists J', J = 0 :: J') \/ mark_of T p ds = 1) ->
  (forall o d, at_ p ds o d -> tchain m (T o) (six d)) ->
  (forall o, (length (T o) + length ds + 1 <= f)%nat) ->
  exists m', compact_loop f m (P ++ J ++ rchunks T p ds ++ [0]) p head =
      OK (m', P ++ chunks (live T p ds) ++ [0]) /\
    (forall o d a, at_ p ds o d -> In a (T o) -> m' a = Some (65528 * 2 ^ 48 + moved T p head ds o)) /\
    (forall x, (forall o d, at_ p ds o d -> ~ In x (T o)) -> m' x = m x).
Proof.
  intros HN HA HX. induction ds as [|d ds IH]; intros f m P J p head Hds HP HJ Hh Hlen HJ0 Hc Hf.
  - pose proof (Hf 0) as Hf0. destruct f as [|f]; [lia|]. cbn [compact_loop rchunks live chunks flat_map app].
    assert (Lb : zlen (P ++ J ++ [0]) = p) by (rewrite !zlen_app; change (zlen [0]) with 1; lia).
    rewrite Lb, Z.ltb_irrefl. exists m. split; [|split; [|auto]].
    + do 2 f_equal. destruct HJ0 as [->|[(J' & ->)|H]]; [| |discriminate H].
      * cbn [app]. rewrite <- (firstn_all (P ++ [0])) at 2. f_equal. rewrite app_length. unfold zlen in *. cbn [length] in *. lia.
      * cbn [app]. change (P ++ 0 :: J' ++ [0]) with (P ++ [0] ++ (J' ++ [0])). rewrite app_assoc.
        rewrite firstn_app. replace (Z.to_nat head - length (P ++ [0%Z]))%nat with 0%nat.
        -- rewrite firstn_O, app_nil_r. rewrite <- (firstn_all (P ++ [0])) at 2. f_equal. rewrite app_length. unfold zlen in *. cbn [length]. lia.
        -- rewrite app_length. unfold zlen in *. cbn [length]. lia.
    + intros o d a H. destruct (at_nil _ _ _ H).
  - pose proof (Hf 0) as Hf0. destruct f as [|f]; [lia|].
    inversion Hds as [|? ? Hd Hds']; subst. destruct (entry_ok d Hd) as [Heb Hel].
    rewrite zlen_chunks_cons in Hlen. pose proof (zlen_nonneg (chunks ds)) as Hcn. pose proof (zlen_nonneg J) as HJn.
    pose proof (zlen_nonneg d) as Hdn. pose proof (zlen_nonneg P) as HPn.
    assert (Hel' : zlen (entry d) = zlen (varint_bytes (zlen d)) + zlen d) by apply entry_len.
    assert (Hdl : zlen d < 2 ^ 31) by (pose proof (varint_len_pos (zlen d) ltac:(lia)); lia).
    destruct (chunk_shape T p d Hd) as (k & c6 & Ec & Lc & Hk).
    set (B := rchunks T (p + csz d) ds ++ [0]).
    assert (Eb : P ++ J ++ rchunks T p (d :: ds) ++ [0] = (P ++ J) ++ [k] ++ c6 ++ skipn 6 (entry d) ++ B).
    { cbn [rchunks]. rewrite Ec. unfold B, csz. rewrite <- !app_assoc. cbn [app]. rewrite <- !app_assoc.
      replace (p + 1 + zlen (entry d)) with (p + (1 + zlen (entry d))) by lia. reflexivity. }
    assert (LPJ : zlen (P ++ J) = p - 1) by (rewrite zlen_app; lia).
    assert (Lc6 : zlen c6 = 6) by (unfold zlen; lia).
    assert (Lsk : zlen (skipn 6 (entry d)) = zlen (entry d) - 6) by (unfold zlen in *; rewrite skipn_length; lia).
    assert (LB : 1 <= zlen B) by (unfold B; rewrite zlen_app; change (zlen [0]) with 1; pose proof (zlen_nonneg (rchunks T (p + csz d) ds)); lia).
    assert (Lb : zlen (P ++ J ++ rchunks T p (d :: ds) ++ [0]) = p - 1 + 1 + zlen (entry d) + zlen B).
    { rewrite Eb, !zlen_app, Lsk, Lc6. change (zlen [k]) with 1. rewrite zlen_app in LPJ. lia. }
    assert (Hrest : forall o x, at_ (p + csz d) ds o x -> at_ p (d :: ds) o x) by (intros o x H; apply at_cons; auto).
    assert (Hhere : at_ p (d :: ds) p d) by (apply at_cons; auto).
    assert (Hp_ne : forall o x, at_ (p + csz d) ds o x -> o <> p) by (intros o x H; pose proof (at_ge _ _ _ _ H); pose proof (csz_pos d); lia).
    cbn [compact_loop]. rewrite Lb.
    replace (p <? p - 1 + 1 + zlen (entry d) + zlen B) with true by lia.
    assert (Hnth : nthz (P ++ J ++ rchunks T p (d :: ds) ++ [0]) (p - 1) = Some k) by (rewrite Eb, <- LPJ; apply nthz_mid).
    rewrite Hnth. cbn [live moved]. destruct (T p) as [|a0 l0] eqn:ET; cbn [nilb]; destruct Hk as [Hk1 Hk2]; subst k.
    + (* not referenced *)
      cbn [Z.eqb]. 
      assert (Esk : skipn (Z.to_nat p) (P ++ J ++ rchunks T p (d :: ds) ++ [0]) = entry d ++ B).
      { rewrite Eb. rewrite Hk2. rewrite app_assoc. rewrite (app_assoc (firstn 6 (entry d))), firstn_skipn.
        replace (Z.to_nat p) with (length ((P ++ J) ++ [0])).
        - rewrite skipn_app, skipn_all, Nat.sub_diag. reflexivity.
        - rewrite app_length. unfold zlen in LPJ. cbn [length]. lia. }
      rewrite Esk. unfold entry at 1. rewrite <- app_assoc. rewrite decode_unsafe_encode by (unfold is_u64; lia). cbn [bind].
      rewrite s32_small by lia.
      replace (p + (zlen d + zlen (varint_bytes (zlen d)) + 1)) with (p + csz d) by (unfold csz; lia).
      assert (Eb2 : P ++ J ++ rchunks T p (d :: ds) ++ [0] = P ++ (J ++ 0 :: entry d) ++ rchunks T (p + csz d) ds ++ [0]).
      { rewrite Eb, Hk2. fold B. rewrite <- !app_assoc. cbn [app]. rewrite (app_assoc (firstn 6 (entry d))), firstn_skipn. reflexivity. }
      rewrite Eb2.
      destruct (IH f m P (J ++ 0 :: entry d) (p + csz d) head Hds' HP) as (m' & E & H1 & H2).
      { rewrite zlen_app, zlen_cons. unfold csz. lia. }
      { exact Hh. }
      { rewrite zlen_app, zlen_cons. lia. }
      { right. left. destruct HJ0 as [->|[(J' & ->)|H]].
        - eexists. reflexivity.
        - eexists. reflexivity.
        - cbn [mark_of] in H. rewrite ET in H. discriminate H. }
      { intros o x Hx. apply Hc. apply Hrest. exact Hx. }
      { intros o. pose proof (Hf o) as Hfo. cbn [length] in Hfo. lia. }
      exists m'. split; [exact E|]. split.
      * intros o x a Hx Ha. apply at_cons in Hx. destruct Hx as [[-> ->]|Hx]; [rewrite ET in Ha; destruct Ha|].
        exact (H1 o x a Hx Ha).
      * intros x Hx. apply H2. intros o y Hy. exact (Hx o y (Hrest o y Hy)).
    + (* referenced *)
      cbn [Z.eqb Pos.eqb].
      replace (p + 6 <=? p - 1 + 1 + zlen (entry d) + zlen B) with true by lia.
      assert (Hsub : sub (P ++ J ++ rchunks T p (d :: ds) ++ [0]) p 6 = c6).
      { rewrite Eb. rewrite app_assoc. replace p with (zlen ((P ++ J) ++ [1])) at 1 by (rewrite zlen_app, LPJ; change (zlen [1]) with 1; lia).
        rewrite <- Lc6. apply sub_app_mid. }
      rewrite Hsub, Hk2. destruct (HA p a0) as [Ha8 Har]; [rewrite ET; left; reflexivity|].
      rewrite le_val_bytes_small by (change (256 ^ Z.of_nat 6) with (2 ^ 48); lia).
      destruct (unthread_spec head (six d) (T p) ltac:(lia) (six_range d Hd) (S f) m a0) as (m1 & E1 & U1 & U2).
      { apply Hc. exact Hhere. }
      { apply HN. }
      { intros a. apply HA. }
      { rewrite ET. left. reflexivity. }
      { pose proof (Hf p) as Hfp. cbn [length] in Hfp. lia. }
      rewrite E1. cbn [bind]. rewrite decode_six by assumption. cbn [bind]. rewrite s32_small by lia.
      replace (zlen d + zlen (varint_bytes (zlen d)) + 1) with (csz d) by (unfold csz; lia).
      replace (p + csz d <=? p - 1 + 1 + zlen (entry d) + zlen B) with true by (unfold csz; lia).
      rewrite six_bytes by exact Hd.
      destruct (rchunks_hd T (p + csz d) ds) as (tl & Etl). fold B in Etl. set (k' := mark_of T (p + csz d) ds) in *.
      assert (Eb1 : blit (P ++ J ++ rchunks T p (d :: ds) ++ [0]) p (firstn 6 (entry d)) = P ++ (J ++ [1] ++ entry d ++ [k']) ++ tl).
      { rewrite Eb. rewrite (app_assoc (P ++ J)). replace p with (zlen ((P ++ J) ++ [1])) at 1 by (rewrite zlen_app, LPJ; change (zlen [1]) with 1; lia).
        rewrite blit_app_mid by (rewrite Lc, firstn_length; unfold zlen in Hel; lia).
        rewrite (app_assoc (firstn 6 (entry d))), firstn_skipn, Etl. rewrite <- !app_assoc. cbn [app]. reflexivity. }
      rewrite Eb1.
      (* the bytes moved *)
      assert (Hsub2 : sub (P ++ (J ++ [1] ++ entry d ++ [k']) ++ tl) p (csz d) = entry d ++ [k']).
      { replace (P ++ (J ++ [1] ++ entry d ++ [k']) ++ tl) with (((P ++ J) ++ [1]) ++ (entry d ++ [k']) ++ tl) by (rewrite <- !app_assoc; reflexivity).
        replace p with (zlen ((P ++ J) ++ [1])) at 1 by (rewrite zlen_app, LPJ; change (zlen [1]) with 1; lia).
        replace (csz d) with (zlen (entry d ++ [k'])) by (rewrite zlen_app; unfold csz; change (zlen [k']) with 1; lia).
        apply sub_app_mid. }
      rewrite Hsub2.
      assert (Hsh : exists x0 A0 B0, J ++ [1] ++ entry d ++ [k'] = x0 :: A0 ++ B0 /\ length A0 = length (entry d ++ [k']) /\ length B0 = length J).
      { remember (J ++ [1] ++ entry d ++ [k']) as X eqn:EX.
        assert (LX : length X = S (length (entry d ++ [k']) + length J)%nat) by (rewrite EX, !app_length; cbn [length]; lia).
        destruct X as [|x0 X]; [discriminate LX|]. cbn [length] in LX. injection LX as LX.
        exists x0, (firstn (length (entry d ++ [k'])) X), (skipn (length (entry d ++ [k'])) X).
        rewrite firstn_skipn, firstn_length, skipn_length. repeat split; lia. }
      destruct Hsh as (x0 & A0 & B0 & EX & LA & LB0). rewrite EX.
      assert (Eb2 : blit (P ++ (x0 :: A0 ++ B0) ++ tl) head (entry d ++ [k']) = P ++ [x0] ++ (entry d ++ [k']) ++ B0 ++ tl).
      { replace (P ++ (x0 :: A0 ++ B0) ++ tl) with ((P ++ [x0]) ++ A0 ++ (B0 ++ tl)) by (rewrite <- !app_assoc; cbn [app]; rewrite <- app_assoc; reflexivity).
        replace head with (zlen (P ++ [x0])) by (rewrite zlen_app; change (zlen [x0]) with 1; lia).
        rewrite blit_app_mid by (symmetry; exact LA). rewrite <- !app_assoc. reflexivity. }
      rewrite Eb2. replace (head - 1) with (zlen P) by lia. rewrite blit_app_mid by reflexivity.
      (* the new gap *)
      assert (HJ' : exists J', k' :: B0 = J' ++ [k'] /\ length J' = length J /\ (J' = [] \/ exists J'', J' = k' :: J'')).
      { destruct B0 as [|b B0] using rev_ind.
        - exists []. split; [reflexivity|]. split; [cbn [length] in LB0 |- *; lia|auto].
        - clear IHB0. assert (b = k').
          { rewrite !app_assoc in EX. change (x0 :: (A0 ++ B0) ++ [b]) with ((x0 :: A0 ++ B0) ++ [b]) in EX.
            replace (x0 :: A0 ++ B0 ++ [b]) with ((x0 :: A0 ++ B0) ++ [b]) in EX by (cbn [app]; rewrite <- !app_assoc; reflexivity).
            apply app_inj_tail in EX. symmetry. apply EX. }
          subst b. exists (k' :: B0). split; [reflexivity|]. split; [rewrite app_length in LB0; cbn [length] in LB0 |- *; lia|].
          right. eexists. reflexivity. }
      destruct HJ' as (J' & EJ' & LJ' & HJ'0).
      assert (Eb3 : P ++ [0] ++ (entry d ++ [k']) ++ B0 ++ tl = (P ++ 0 :: entry d) ++ J' ++ rchunks T (p + csz d) ds ++ [0]).
      { fold B. rewrite Etl. rewrite <- !app_assoc. cbn [app].
        assert (Q : k' :: B0 ++ tl = J' ++ k' :: tl).
        { change (k' :: B0 ++ tl) with ((k' :: B0) ++ tl). rewrite EJ', <- app_assoc. reflexivity. }
        rewrite Q. reflexivity. }
      rewrite Eb3.
      destruct (IH f m1 (P ++ 0 :: entry d) J' (p + csz d) (head + csz d) Hds') as (m' & E & H1 & H2).
      { rewrite zlen_app, zlen_cons. unfold csz. lia. }
      { unfold zlen in *. lia. }
      { pose proof (csz_pos d). lia. }
      { rewrite zlen_app, zlen_cons. unfold zlen in *. lia. }
      { destruct HJ'0 as [->|(J'' & ->)]; [auto|]. unfold k', mark_of. destruct ds; [right; left; eexists; reflexivity|].
        destruct (nilb (T (p + csz d))); [right; left; eexists; reflexivity|auto]. }
      { intros o x Hx. apply (tchain_frame m); [apply Hc; apply Hrest; exact Hx|]. intros a Ha. apply U2.
        intros Ha'. apply (Hp_ne o x Hx). exact (HX o p a Ha Ha'). }
      { intros o. pose proof (Hf o) as Hfo. cbn [length] in Hfo. lia. }
      exists m'. split; [|split].
      * rewrite E. do 2 f_equal. unfold chunks. cbn [flat_map]. rewrite <- !app_assoc. reflexivity.
      * intros o x a Hx Ha. apply at_cons in Hx. destruct Hx as [[-> ->]|Hx].
        -- rewrite Z.eqb_refl. rewrite H2; [apply U1; exact Ha|]. intros o y Hy Ha'. apply (Hp_ne o y Hy). exact (HX o p a Ha' Ha).
        -- pose proof (Hp_ne o x Hx). replace (o =? p) with false by lia. exact (H1 o x a Hx Ha).
      * intros x Hx. rewrite H2; [apply U2; exact (Hx p d Hhere)|]. intros o y Hy. exact (Hx o y (Hrest o y Hy)).
Qed.

From Verif Require Import Base BaseFacts Mbuf_Model Mbuf_Spec.
Ltac Zify.zify_post_hook ::= Z.div_mod_to_equations.

Definition mb_inv (a : mbuf) : Prop :=
  0 <= mb_len a <= mb_size a /\ (mb_addr a = 0 -> mb_mem a = []).

Lemma regrow_length old n fill : 0 <= n -> zlen (regrow old n fill) = n.
Proof.
  intros. unfold regrow, zlen. rewrite firstn_length, !app_length, repeat_length. lia.
Qed.
Lemma regrow_prefix old n fill k : 0 <= k -> k <= n -> k <= zlen old ->
  firstn (Z.to_nat k) (regrow old n fill) = firstn (Z.to_nat k) old.
Proof.
  intros H0 H1 H2. unfold regrow. rewrite firstn_firstn.
  replace (Nat.min (Z.to_nat k) (Z.to_nat n)) with (Z.to_nat k) by lia.
  rewrite firstn_app. unfold zlen in H2.
  replace (Z.to_nat k - length old)%nat with 0%nat by lia. cbn [firstn]. apply app_nil_r.
Qed.

Lemma bytes_zlen a : mb_inv a -> zlen (mb_bytes a) = mb_len a.
Proof.
  intros [H _]. unfold mb_bytes, zlen, mb_size, zlen in *. rewrite firstn_length. lia.
Qed.

(** Decomposition of the memory of a buffer: contents then slack. *)
Lemma mem_decomp (mem : list Z) len : 0 <= len <= zlen mem ->
  mem = firstn (Z.to_nat len) mem ++ skipn (Z.to_nat len) mem.
Proof. intros. symmetry. apply firstn_skipn. Qed.

Lemma firstn_zlen_app {A} (a b : list A) : firstn (Z.to_nat (zlen a)) (a ++ b) = a.
Proof.
  unfold zlen. rewrite Nat2Z.id, firstn_app, firstn_all, Nat.sub_diag. cbn [firstn]. apply app_nil_r.
Qed.

(** The core of insertion: opening a gap and filling it. *)
Lemma gap_fill mem a b d slack :
  mem = a ++ b ++ slack -> zlen d <= zlen slack ->
  exists m1 s', mem_move mem (zlen a + zlen d) (zlen a) (zlen b) = OK m1 /\
  mem_put m1 (zlen a) d = OK (a ++ d ++ b ++ s') /\ zlen s' = zlen slack - zlen d.
Proof.
  intros -> Hd. pose proof (zlen_nonneg a). pose proof (zlen_nonneg b).
  pose proof (zlen_nonneg d). pose proof (zlen_nonneg slack).
  unfold mem_move. rewrite !zlen_app.
  replace ((0 <=? zlen a + zlen d) && (0 <=? zlen a) && (0 <=? zlen b) &&
    (zlen a + zlen d + zlen b <=? zlen a + (zlen b + zlen slack)) &&
    (zlen a + zlen b <=? zlen a + (zlen b + zlen slack))) with true by lia.
  rewrite sub_app_mid.
  set (m := a ++ b ++ slack).
  (* the moved memory *)
  assert (Hm : exists g s', blit m (zlen a + zlen d) b = a ++ g ++ b ++ s' /\
                zlen g = zlen d /\ zlen s' = zlen slack - zlen d).
  { unfold blit, m. exists (firstn (length d) (b ++ slack)).
    exists (skipn (Z.to_nat (zlen a + zlen d) + length b) (a ++ b ++ slack)).
    repeat split.
    - replace (Z.to_nat (zlen a + zlen d)) with (length a + length d)%nat by (unfold zlen; lia).
      rewrite firstn_app_2. rewrite <- app_assoc. reflexivity.
    - unfold zlen. rewrite firstn_length, app_length. unfold zlen in *. lia.
    - unfold zlen. rewrite skipn_length, !app_length. unfold zlen in *. lia. }
  destruct Hm as (g & s' & Hm & Hg & Hs). exists (a ++ g ++ b ++ s'), s'.
  split; [rewrite Hm; reflexivity|]. split; [|exact Hs].
  unfold mem_put. rewrite !zlen_app. pose proof (zlen_nonneg s').
  replace ((0 <=? zlen a) && (zlen a + zlen d <=? zlen a + (zlen g + (zlen b + zlen s')))) with true by lia.
  f_equal. apply blit_app_mid. unfold zlen in Hg. lia.
Qed.

Lemma put_end mem a d slack :
  mem = a ++ slack -> zlen d <= zlen slack ->
  exists s', mem_put mem (zlen a) d = OK (a ++ d ++ s') /\ zlen s' = zlen slack - zlen d.
Proof.
  intros -> Hd. destruct (gap_fill (a ++ slack) a [] d slack eq_refl Hd) as (m1 & s' & Hm & Hp & Hs).
  pose proof (zlen_nonneg a). pose proof (zlen_nonneg d).
  exists (skipn (length d) slack). split.
  - unfold mem_put. rewrite zlen_app.
    replace ((0 <=? zlen a) && (zlen a + zlen d <=? zlen a + zlen slack)) with true by lia.
    f_equal. rewrite <- (firstn_skipn (length d) slack) at 1. apply blit_app_mid.
    rewrite firstn_length. unfold zlen in Hd. lia.
  - unfold zlen in *. rewrite skipn_length. lia.
Qed.

Lemma grow_size_ge n : 0 <= n -> n <= grow_size n.
Proof. intros. unfold grow_size, headroom. destruct (_ >? _) eqn:E; lia. Qed.

(** Insertion: either refused with nothing changed, or exactly an insertion. *)
Lemma insert_cases x off d al1 al2 :
  mb_inv x -> 0 <= off <= mb_len x -> alloc_ok al1 -> alloc_ok al2 -> 0 <= mb_addr x ->
  (mbuf_insert x off d al1 al2 = OK (x, 0) /\
     (2 ^ 64 - 1 - mb_addr x < zlen d \/
      (mb_size x < mb_len x + zlen d /\ al1 (grow_size (mb_len x + zlen d)) = None))) \/
  (exists y, mbuf_insert x off d al1 al2 = OK (y, zlen d) /\ mb_inv y /\ 0 <= mb_addr y /\
     (mb_size y < mb_size x -> False) /\
     mb_bytes y = firstn (Z.to_nat off) (mb_bytes x) ++ d ++ skipn (Z.to_nat off) (mb_bytes x)).
Proof.
  intros Hinv Hoff Hal1 Hal2 Hax. pose proof (zlen_nonneg d) as Hd0.
  destruct Hinv as [Hlen Hnull].
  unfold mbuf_insert. replace ((mb_len x >? mb_size x) || (off >? mb_len x)) with false by lia.
  destruct (2 ^ 64 - 1 - mb_addr x <? zlen d) eqn:Eov; [left; split; [reflexivity|left; lia]|].
  (* contents split at off *)
  set (c := mb_bytes x). assert (Hc : zlen c = mb_len x) by (apply bytes_zlen; split; assumption).
  set (ca := firstn (Z.to_nat off) c). set (cb := skipn (Z.to_nat off) c).
  assert (Hca : zlen ca = off) by (unfold ca, zlen in *; rewrite firstn_length; lia).
  assert (Hcb : zlen cb = mb_len x - off) by (unfold cb, zlen in *; rewrite skipn_length; lia).
  assert (Hcc : c = ca ++ cb) by (symmetry; apply firstn_skipn).
  destruct (mb_len x + zlen d <=? mb_size x) eqn:Efit.
  - right. set (sl := skipn (Z.to_nat (mb_len x)) (mb_mem x)).
    assert (Hmem : mb_mem x = ca ++ cb ++ sl).
    { rewrite app_assoc, <- Hcc. apply mem_decomp. unfold mb_size in Hlen. lia. }
    assert (Hsl : zlen sl = mb_size x - mb_len x).
    { unfold sl, mb_size, zlen in *. rewrite skipn_length. lia. }
    destruct (gap_fill (mb_mem x) ca cb d sl Hmem ltac:(lia)) as (m1 & s' & H1 & H2 & H3).
    rewrite Hca, Hcb in H1. rewrite Hca in H2. rewrite H1. cbn [bind].
    rewrite H2. cbn [bind].
    eexists; split; [reflexivity|]. unfold mb_inv, mb_size, mb_bytes; cbn [mb_mem mb_len mb_addr].
    assert (Hl2 : zlen (ca ++ d ++ cb ++ s') = mb_size x).
    { rewrite !zlen_app. lia. }
    split; [split; [lia|]|].
    + intros H. specialize (Hnull H). unfold mb_size in *. rewrite Hnull in *.
      change (zlen (@nil Z)) with 0 in *. destruct (ca ++ d ++ cb ++ s'); [reflexivity|].
      unfold zlen in Hl2. cbn [length] in Hl2. lia.
    + split; [exact Hax|]. split; [unfold mb_size in *; lia|].
      replace (mb_len x + zlen d) with (zlen (ca ++ d ++ cb)) by (rewrite !zlen_app; lia).
      replace (ca ++ d ++ cb ++ s') with ((ca ++ d ++ cb) ++ s') by (rewrite <- !app_assoc; reflexivity).
      rewrite firstn_zlen_app.
      reflexivity.
  - set (mn := mb_len x + zlen d) in *. pose proof (grow_size_ge mn ltac:(lia)) as Hg.
    assert (Hgo : forall n p fill, mn <= n -> 0 < p ->
      exists y, (m1 <- (if off =? mb_len x then OK (regrow (mb_mem x) n fill)
             else mem_move (regrow (mb_mem x) n fill) (off + zlen d) off (mb_len x - off)) ;;
      m2 <- mem_put m1 off d ;;
      OK ({| mb_mem := m2; mb_len := mn; mb_addr := p |}, zlen d)) = OK (y, zlen d) /\
      mb_inv y /\ 0 <= mb_addr y /\ (mb_size y < mb_size x -> False) /\
      mb_bytes y = ca ++ d ++ cb).
    { intros n p fill Hn Hp.
      set (m0 := regrow (mb_mem x) n fill).
      assert (Hm0 : zlen m0 = n) by (apply regrow_length; lia).
      set (sl := skipn (Z.to_nat (mb_len x)) m0).
      assert (Hmem : m0 = ca ++ cb ++ sl).
      { rewrite app_assoc, <- Hcc. unfold c, mb_bytes.
        rewrite <- (regrow_prefix (mb_mem x) n fill (mb_len x)) by (unfold mb_size in *; lia).
        apply mem_decomp. fold m0. lia. }
      assert (Hsl : zlen sl = n - mb_len x).
      { unfold sl, zlen in *. rewrite skipn_length. lia. }
      assert (HX : exists m1 s', (if off =? mb_len x then OK m0
             else mem_move m0 (off + zlen d) off (mb_len x - off)) = OK m1 /\
             mem_put m1 off d = OK (ca ++ d ++ cb ++ s') /\ zlen s' = n - mn).
      { destruct (off =? mb_len x) eqn:Eo.
        - assert (cb = []) as Hcb0. { destruct cb; [reflexivity|]. unfold zlen in Hcb; cbn [length] in Hcb; lia. }
          rewrite Hcb0 in Hmem. cbn [app] in Hmem.
          destruct (put_end m0 ca d sl Hmem ltac:(lia)) as (s' & Hp' & Hs').
          exists m0, s'. split; [reflexivity|]. rewrite Hcb0. cbn [app]. rewrite Hca in Hp'.
          split; [exact Hp'|]. lia.
        - destruct (gap_fill m0 ca cb d sl Hmem ltac:(lia)) as (m1 & s' & H1 & H2 & H3).
          rewrite Hca, Hcb in *. exists m1, s'. repeat split; [exact H1|exact H2|lia]. }
      destruct HX as (m1 & s' & H1 & H2 & H3). rewrite H1. cbn [bind]. rewrite H2. cbn [bind].
      eexists; split; [reflexivity|]. unfold mb_inv, mb_size, mb_bytes; cbn [mb_mem mb_len mb_addr].
      assert (Hl2 : zlen (ca ++ d ++ cb ++ s') = n) by (rewrite !zlen_app; lia).
      split; [split; [lia|lia]|]. split; [lia|]. split; [unfold mb_size in *; lia|].
      replace mn with (zlen (ca ++ d ++ cb)) by (rewrite !zlen_app; lia).
      replace (ca ++ d ++ cb ++ s') with ((ca ++ d ++ cb) ++ s') by (rewrite <- !app_assoc; reflexivity).
      rewrite firstn_zlen_app.
      reflexivity. }
    destruct (al1 (grow_size mn)) as [[p fill]|] eqn:E1.
    + right. apply Hgo; [lia|]. apply (Hal1 _ _ _ E1).
    + destruct (grow_size mn =? mn) eqn:Eg; [left; split; [reflexivity|right; split; [lia|reflexivity]]|].
      destruct (al2 mn) as [[p fill]|] eqn:E2.
      * right. apply Hgo; [lia|]. apply (Hal2 _ _ _ E2).
      * left. split; [reflexivity|right; split; [lia|reflexivity]].
Qed.

Lemma resize_ok x n al : mb_inv x -> 0 <= n -> alloc_ok al -> 0 <= mb_addr x ->
  mb_inv (mbuf_resize x n al) /\ mb_bytes (mbuf_resize x n al) = mb_bytes x /\
  0 <= mb_addr (mbuf_resize x n al).
Proof.
  intros [Hl Hn0] Hn Hal Hax. unfold mbuf_resize.
  destruct ((mb_size x <? n) || ((n <? mb_size x) && (mb_len x <=? n))) eqn:E;
    [|repeat split; (lia || assumption || exact (Hn0))].
  destruct (al n) as [[p fill]|] eqn:Ea.
  - pose proof (regrow_length (mb_mem x) n fill Hn) as Hrl. pose proof (Hal _ _ _ Ea).
    unfold mb_inv, mb_size, mb_bytes; cbn [mb_mem mb_len mb_addr]. unfold mb_size in *.
    repeat split; try lia. apply regrow_prefix; lia.
  - destruct (n =? 0) eqn:En; cbn [negb]; [|repeat split; (lia || assumption)].
    unfold mb_inv, mb_size, mb_bytes; cbn [mb_mem mb_len mb_addr]. unfold mb_size in *.
    assert (mb_len x = 0) as E0 by lia. rewrite E0.
    change (zlen (@nil Z)) with 0. repeat split; lia.
Qed.

Lemma step_ok x o al1 al2 :
  mb_inv x -> 0 <= mb_addr x -> alloc_ok al1 -> alloc_ok al2 -> op_ok (mb_len x) o ->
  exists y v, mbuf_step x o al1 al2 = OK (y, v) /\ mb_inv y /\ 0 <= mb_addr y /\
              mspec (mb_bytes x) o v (mb_bytes y).
Proof.
  intros Hinv Hax Ha1 Ha2 Hop.
  pose proof (bytes_zlen x Hinv) as Hbz.
  assert (Hins : forall off d, 0 <= off <= mb_len x ->
    exists y v, mbuf_insert x off d al1 al2 = OK (y, v) /\ mb_inv y /\ 0 <= mb_addr y /\
      ((v = 0 /\ y = x) \/ (v = zlen d /\
        mb_bytes y = firstn (Z.to_nat off) (mb_bytes x) ++ d ++ skipn (Z.to_nat off) (mb_bytes x)))).
  { intros off d Hoff. destruct (insert_cases x off d al1 al2 Hinv Hoff Ha1 Ha2 Hax)
      as [[H _]|(y & Hy & Hy1 & Hy2 & _ & Hy3)].
    - exists x, 0. repeat split; try assumption; try apply Hinv. left; split; reflexivity.
    - exists y, (zlen d). repeat split; try assumption; try apply Hy1. right. split; [reflexivity|exact Hy3]. }
  destruct o as [off d|d|p d|n| |n| |]; cbn [mbuf_step op_ok] in *.
  - destruct (Hins off d Hop) as (y & v & H & Hi & Hy2 & Hc). exists y, v.
    split; [exact H|]. split; [exact Hi|]. split; [exact Hy2|].
    destruct Hc as [[-> ->]|[-> Hb]]; [apply ms_insert_fail|]. rewrite Hb.
    replace off with (zlen (firstn (Z.to_nat off) (mb_bytes x))) at 1.
    + apply ms_insert. symmetry. apply firstn_skipn.
    + unfold zlen in *. rewrite firstn_length. lia.
  - unfold mbuf_append. destruct (Hins (mb_len x) d ltac:(destruct Hinv; lia)) as (y & v & H & Hi & Hy2 & Hc).
    exists y, v. split; [exact H|]. split; [exact Hi|]. split; [exact Hy2|].
    destruct Hc as [[-> ->]|[-> Hb]]; [apply ms_append_fail|]. rewrite Hb.
    rewrite <- Hbz. unfold zlen. rewrite Nat2Z.id, firstn_all, skipn_all, app_nil_r. apply ms_append.
  - unfold mbuf_append_and_free. destruct (mb_len x =? 0) eqn:E.
    + eexists; eexists; split; [reflexivity|].
      unfold mb_inv, mb_size, mb_bytes; cbn [mb_mem mb_len mb_addr].
      pose proof (zlen_nonneg d). repeat split; try lia.
      assert (mb_len x = 0) as E0 by lia. rewrite E0. cbn [Z.to_nat firstn].
      unfold zlen. rewrite Nat2Z.id, firstn_all. apply (ms_appendfree [] p d).
    + destruct (Hins (mb_len x) d ltac:(destruct Hinv; lia)) as (y & v & H & Hi & Hy2 & Hc).
      exists y, v. split; [exact H|]. split; [exact Hi|]. split; [exact Hy2|].
      destruct Hc as [[-> ->]|[-> Hb]].
      * apply ms_appendfree_fail. intros Hn. rewrite Hn in Hbz. change (zlen []) with 0 in Hbz. lia.
      * rewrite Hb. rewrite <- Hbz. unfold zlen. rewrite Nat2Z.id, firstn_all, skipn_all, app_nil_r.
        apply ms_appendfree.
  - unfold mbuf_remove. destruct Hinv as [Hl Hnl].
    destruct ((0 <? n) && (n <=? mb_len x)) eqn:E.
    + set (c := mb_bytes x) in *. set (sl := skipn (Z.to_nat (mb_len x)) (mb_mem x)).
      assert (Hmem : mb_mem x = c ++ sl) by (apply mem_decomp; exact Hl).
      set (ca := firstn (Z.to_nat n) c). set (cb := skipn (Z.to_nat n) c).
      assert (Hcc : c = ca ++ cb) by (symmetry; apply firstn_skipn).
      assert (Hca : zlen ca = n) by (unfold ca, zlen in *; rewrite firstn_length; lia).
      assert (Hcb : zlen cb = mb_len x - n) by (unfold cb, zlen in *; rewrite skipn_length; lia).
      unfold mem_move. unfold mb_size in Hl.
      replace ((0 <=? 0) && (0 <=? n) && (0 <=? mb_len x - n) &&
        (0 + (mb_len x - n) <=? zlen (mb_mem x)) && (n + (mb_len x - n) <=? zlen (mb_mem x)))
        with true by lia.
      cbn [bind]. eexists; eexists; split; [reflexivity|].
      assert (Hsub : sub (mb_mem x) n (mb_len x - n) = cb).
      { rewrite Hmem, Hcc, <- app_assoc. pose proof (sub_app_mid ca cb sl) as Hs.
        rewrite Hca, Hcb in Hs. exact Hs. }
      rewrite Hsub.
      assert (Hbl : zlen (blit (mb_mem x) 0 cb) = zlen (mb_mem x)) by (apply blit_length; lia).
      unfold mb_inv, mb_size, mb_bytes; cbn [mb_mem mb_len mb_addr].
      split; [split; [lia|]|].
      * intros H. specialize (Hnl H). rewrite Hnl in *. change (zlen (@nil Z)) with 0 in *. lia.
      * split; [exact Hax|]. unfold blit. cbn [Z.to_nat firstn app].
        rewrite <- Hcb. rewrite firstn_zlen_app. fold c. 
        apply (ms_remove c n ca cb Hcc Hca).
    + exists x, 0. split; [reflexivity|]. split; [split; assumption|]. split; [exact Hax|].
      apply ms_remove_skip. lia.
  - eexists; eexists; split; [reflexivity|]. destruct Hinv as [Hl Hn].
    unfold mbuf_clear, mb_inv, mb_size, mb_bytes; cbn [mb_mem mb_len mb_addr]. unfold mb_size in Hl.
    repeat split; try lia; try assumption. cbn [Z.to_nat firstn]. apply ms_clear.
  - eexists; eexists; split; [reflexivity|].
    destruct (resize_ok x n al1 Hinv Hop Ha1 Hax) as (H1 & H2 & H3).
    split; [exact H1|]. split; [exact H3|]. rewrite H2. apply ms_resize.
  - eexists; eexists; split; [reflexivity|].
    destruct (resize_ok x (mb_len x) al1 Hinv ltac:(destruct Hinv; lia) Ha1 Hax) as (H1 & H2 & H3).
    split; [exact H1|]. split; [exact H3|]. unfold mbuf_trim. rewrite H2. apply ms_trim.
  - eexists; eexists; split; [reflexivity|]. unfold mbuf_free.
    destruct (mb_addr x =? 0) eqn:E.
    + split; [exact Hinv|]. split; [exact Hax|]. destruct Hinv as [Hl Hn].
      unfold mb_bytes. rewrite (Hn ltac:(lia)). rewrite firstn_nil. apply ms_free.
    + unfold mbuf_init. set (z := {| mb_mem := []; mb_len := 0; mb_addr := 0 |}).
      assert (Hz : mb_inv z) by (split; [cbn; lia|reflexivity]).
      destruct (resize_ok z 0 al1 Hz ltac:(lia) Ha1 ltac:(cbn; lia)) as (H1 & H2 & H3).
      split; [exact H1|]. split; [exact H3|]. rewrite H2. change (mb_bytes z) with (@nil Z).
      apply ms_free.
Qed.

Lemma insert_abort x off d al1 al2 : mb_len x < off -> mbuf_insert x off d al1 al2 = Abort.
Proof.
  intros H. unfold mbuf_insert. replace ((mb_len x >? mb_size x) || (off >? mb_len x)) with true by lia.
  reflexivity.
Qed.

Lemma run_ok ops : forall x,
  mb_inv x -> 0 <= mb_addr x -> ops_ok ops ->
  (exists y vs, mbuf_run x ops = OK (y, vs) /\ mb_inv y /\ 0 <= mb_addr y /\
     mspec_run (mb_bytes x) (map (fun t => fst (fst t)) ops) vs (mb_bytes y)) \/
  (mbuf_run x ops = Abort /\ exists pre off d al1 al2 post l vs,
     ops = pre ++ (MInsert off d, al1, al2) :: post /\
     mspec_run (mb_bytes x) (map (fun t => fst (fst t)) pre) vs l /\ zlen l < off).
Proof.
  induction ops as [|[[o al1] al2] ops IH]; intros x Hi Ha Hok.
  - left. exists x, []. repeat split; try apply Hi; try assumption. constructor.
  - inversion Hok as [|? ? (Ho & H1 & H2) Hr]; subst.
    assert (Hcase : op_ok (mb_len x) o \/ exists off d, o = MInsert off d /\ mb_len x < off).
    { destruct o as [off d|d|p d|n| |n| |]; cbn [op_ok op_sane fst snd] in *; try (left; exact Ho).
      destruct (Z.le_gt_cases off (mb_len x)); [left; lia|right; exists off, d; split; [reflexivity|lia]]. }
    destruct Hcase as [Hop|(off & d & -> & Hlt)].
    + destruct (step_ok x o al1 al2 Hi Ha H1 H2 Hop) as (y & v & Hs & Hiy & Hay & Hsp).
      cbn [mbuf_run]. rewrite Hs. cbn [bind].
      destruct (IH y Hiy Hay Hr) as [(z & vs & Hz & Hiz & Haz & Hm)|(Hz & pre & off & d & b1 & b2 & post & l & vs & He & Hm & Hl)].
      * left. exists z, (v :: vs). rewrite Hz. cbn [bind]. split; [reflexivity|].
        split; [exact Hiz|]. split; [exact Haz|]. cbn [map fst]. econstructor; eassumption.
      * right. rewrite Hz. cbn [bind]. split; [reflexivity|].
        exists ((o, al1, al2) :: pre), off, d, b1, b2, post, l, (v :: vs).
        split; [rewrite He; reflexivity|]. split; [|exact Hl]. cbn [map fst]. econstructor; eassumption.
    + right. cbn [mbuf_run mbuf_step]. rewrite insert_abort by exact Hlt. cbn [bind].
      split; [reflexivity|]. exists [], off, d, al1, al2, ops, (mb_bytes x), [].
      split; [reflexivity|]. split; [constructor|]. rewrite bytes_zlen by exact Hi. exact Hlt.
Qed.

Lemma init_inv n al : 0 <= n -> alloc_ok al ->
  mb_inv (mbuf_init n al) /\ 0 <= mb_addr (mbuf_init n al) /\ mb_bytes (mbuf_init n al) = [].
Proof.
  intros Hn Hal. unfold mbuf_init. set (z := {| mb_mem := []; mb_len := 0; mb_addr := 0 |}).
  assert (Hz : mb_inv z) by (split; [cbn; lia|reflexivity]).
  destruct (resize_ok z n al Hz Hn Hal ltac:(cbn; lia)) as (H1 & H2 & H3).
  split; [exact H1|]. split; [exact H3|]. rewrite H2. reflexivity.
Qed.

(** Insertion with a willing allocator always succeeds. *)
Lemma insert_succeeds x off d al1 al2 :
  mb_inv x -> 0 <= mb_addr x -> 0 <= off <= mb_len x -> alloc_ok al1 -> alloc_ok al2 ->
  mb_addr x + zlen d < 2 ^ 64 ->
  (al1 (grow_size (mb_len x + zlen d)) <> None \/ mb_len x + zlen d <= mb_size x) ->
  exists y, mbuf_insert x off d al1 al2 = OK (y, zlen d) /\
    mb_bytes y = firstn (Z.to_nat off) (mb_bytes x) ++ d ++ skipn (Z.to_nat off) (mb_bytes x).
Proof.
  intros Hi Ha Ho H1 H2 Hsm Hal.
  destruct (insert_cases x off d al1 al2 Hi Ho H1 H2 Ha) as [[_ [H|[H H']]]|(y & Hy & _ & _ & _ & Hb)].
  - lia.
  - destruct Hal; [contradiction|lia].
  - exists y. split; assumption.
Qed.

Lemma mbuf_history n al ops :
  0 <= n -> alloc_ok al -> ops_ok ops ->
  (exists y vs, mbuf_run (mbuf_init n al) ops = OK (y, vs) /\
     mb_len y = zlen (mb_bytes y) /\ mb_len y <= mb_size y /\
     mspec_run [] (map (fun t => fst (fst t)) ops) vs (mb_bytes y)) \/
  (mbuf_run (mbuf_init n al) ops = Abort /\ exists pre off d al1 al2 post l vs,
     ops = pre ++ (MInsert off d, al1, al2) :: post /\
     mspec_run [] (map (fun t => fst (fst t)) pre) vs l /\ zlen l < off).
Proof.
  intros Hn Hal Hops. destruct (init_inv n al Hn Hal) as (Hi & Ha & Hb).
  destruct (run_ok ops _ Hi Ha Hops) as [(y & vs & H1 & H2 & H3 & H4)|H].
  - left. exists y, vs. rewrite Hb in H4. rewrite bytes_zlen by exact H2.
    destruct H2. repeat split; try assumption; lia.
  - right. rewrite Hb in H. exact H.
Qed.

Lemma mbuf_append_succeeds x d al1 al2 :
  mb_inv x -> 0 <= mb_addr x -> alloc_ok al1 -> alloc_ok al2 ->
  mb_addr x + zlen d < 2 ^ 64 ->
  (al1 (grow_size (mb_len x + zlen d)) <> None \/ mb_len x + zlen d <= mb_size x) ->
  exists y, mbuf_append x d al1 al2 = OK (y, zlen d) /\ mb_bytes y = mb_bytes x ++ d.
Proof.
  intros Hi Ha H1 H2 Hs Hal. unfold mbuf_append.
  destruct (insert_succeeds x (mb_len x) d al1 al2 Hi Ha ltac:(destruct Hi; lia) H1 H2 Hs Hal) as (y & Hy & Hb).
  exists y. split; [exact Hy|]. rewrite Hb. rewrite <- (bytes_zlen x Hi).
  unfold zlen. rewrite Nat2Z.id, firstn_all, skipn_all, app_nil_r. reflexivity.
Qed.

(** After resizing up, further insertions of that many bytes need no allocation. *)
Lemma resize_reserves x n al :
  mb_inv x -> mb_size x < n -> al n <> None -> mb_size (mbuf_resize x n al) = n.
Proof.
  intros [Hl _] Hn Hal. unfold mbuf_resize.
  replace ((mb_size x <? n) || ((n <? mb_size x) && (mb_len x <=? n))) with true by lia.
  destruct (al n) as [[p f]|]; [|contradiction]. unfold mb_size; cbn [mb_mem].
  apply regrow_length. lia.
Qed.

From Coq Require Import Permutation.
From Verif Require Import Base BaseFacts Mbuf_Model Mbuf_Spec Mbuf_Proofs Own_Model Own_Spec.
Ltac Zify.zify_post_hook ::= Z.div_mod_to_equations.

(** The bytes of a list of pointers. *)
Definition wbytes (ps : list Z) : list Z := flat_map (le_bytes 8) ps.
Lemma wbytes_app a b : wbytes (a ++ b) = wbytes a ++ wbytes b.
Proof. apply flat_map_app. Qed.
Lemma zlen_le8 v : zlen (le_bytes 8 v) = 8.
Proof. unfold zlen. rewrite le_bytes_length. reflexivity. Qed.
Lemma wbytes_len ps : zlen (wbytes ps) = 8 * zlen ps.
Proof.
  induction ps as [|p ps IH]; [reflexivity|]. change (wbytes (p :: ps)) with (le_bytes 8 p ++ wbytes ps).
  rewrite zlen_app, zlen_cons, IH, zlen_le8. lia.
Qed.
Lemma wbytes_sub a p b : sub (wbytes (a ++ p :: b)) (8 * zlen a) 8 = le_bytes 8 p.
Proof.
  rewrite wbytes_app. change (wbytes (p :: b)) with (le_bytes 8 p ++ wbytes b).
  rewrite <- wbytes_len, <- (zlen_le8 p). apply sub_app_mid.
Qed.
Lemma le8_val v : is_u64 v -> le_val (le_bytes 8 v) = v.
Proof. intros H. apply le_val_bytes_small. unfold is_u64 in H. exact H. Qed.

(** Representation: the buffer holds exactly the pointers [ps]. *)
Definition addr_ok (b : mbuf) : Prop :=
  (mb_addr b = 0 /\ mb_len b = 0) \/ (8 <= mb_addr b /\ mb_addr b + mb_size b <= 2 ^ 64 - 4096).
Definition orep (b : mbuf) (ps : list Z) : Prop :=
  mb_inv b /\ addr_ok b /\ Forall is_u64 ps /\ mb_bytes b = wbytes ps.

Lemma orep_len b ps : orep b ps -> mb_len b = 8 * zlen ps.
Proof. intros (I & _ & _ & E). rewrite <- (bytes_zlen b I), E. apply wbytes_len. Qed.

Lemma nth_seq {A} (l : list A) (d : A) : map (fun i => nth i l d) (seq 0 (length l)) = l.
Proof.
  induction l as [|x l IH]; [reflexivity|]. cbn [length seq map nth]. f_equal.
  rewrite <- seq_shift, map_map. exact IH.
Qed.
Lemma orep_roots b ps : orep b ps -> roots_of b = ps.
Proof.
  intros H. pose proof (orep_len _ _ H) as L. destruct H as (I & _ & U & E). unfold roots_of.
  replace (Z.to_nat (mb_len b / 8)) with (length ps) by (unfold zlen in L; lia).
  rewrite <- (nth_seq ps 0) at 2. apply map_ext_in. intros i Hi. apply in_seq in Hi.
  destruct (nth_split ps 0 (proj2 Hi)) as (l1 & l2 & Hs & Hl).
  assert (U' : is_u64 (nth i ps 0)) by (rewrite Forall_forall in U; apply U, nth_In; lia).
  rewrite E. rewrite Hs at 1. rewrite <- Hl at 2. change (Z.of_nat (length l1)) with (zlen l1). rewrite wbytes_sub.
  apply le8_val. exact U'.
Qed.

Lemma bytes_mem b : mb_inv b -> mb_mem b = mb_bytes b ++ skipn (Z.to_nat (mb_len b)) (mb_mem b).
Proof. intros [H _]. apply mem_decomp. exact H. Qed.

Lemma sub_prefix' {A} (l s : list A) off n : 0 <= off -> 0 <= n -> off + n <= zlen l -> sub (l ++ s) off n = sub l off n.
Proof.
  intros H1 H2 H3. unfold sub, zlen in *. rewrite skipn_app, firstn_app.
  replace (Z.to_nat n - length (skipn (Z.to_nat off) l))%nat with 0%nat by (rewrite skipn_length; lia).
  cbn [firstn]. apply app_nil_r.
Qed.

Lemma word_at_ok b a p c : orep b (a ++ p :: c) -> word_at b (mb_addr b + 8 * zlen a) = OK p.
Proof.
  intros H. pose proof (orep_len _ _ H) as L. destruct H as ([I I'] & A & U & E). unfold word_at.
  rewrite zlen_app, zlen_cons in L. pose proof (zlen_nonneg a). pose proof (zlen_nonneg c).
  replace (mb_addr b + 8 * zlen a - mb_addr b) with (8 * zlen a) by lia.
  destruct A as [[_ A]|[A _]]; [lia|].
  replace (negb (mb_addr b =? 0) && (0 <=? 8 * zlen a) && (8 * zlen a + 8 <=? mb_size b)) with true by lia.
  f_equal. rewrite (bytes_mem b (conj I I')), E, sub_prefix', wbytes_sub; try lia.
  - apply le8_val. rewrite Forall_forall in U. apply U, in_elt.
  - rewrite wbytes_len, zlen_app, zlen_cons. lia.
Qed.

Lemma loop_spec b ps v : orep b ps -> mb_addr b <> 0 -> forall pre post fuel, ps = pre ++ post ->
  (length pre < fuel)%nat ->
  (disown_loop fuel b (u64 (mb_addr b + 8 * zlen pre - 8)) v = OK None /\ ~ In v pre) \/
  (exists x y, pre = x ++ v :: y /\ disown_loop fuel b (u64 (mb_addr b + 8 * zlen pre - 8)) v = OK (Some (mb_addr b + 8 * zlen x))).
Proof.
  intros H N. pose proof (orep_len _ _ H) as L. assert (A := H). destruct A as ([I _] & A & _).
  destruct A as [[A _]|[A A']]; [contradiction|].
  induction pre as [|p pre IH] using rev_ind; intros post fuel E F.
  - left. change (zlen (@nil Z)) with 0. unfold u64. rewrite Z.mod_small by lia.
    destruct fuel as [|f]; cbn [length] in F; [lia|]. cbn [disown_loop].
    replace (_ <? _) with true by lia. split; [reflexivity|intros []].
  - rewrite app_length in F. cbn [length] in F. destruct fuel as [|f]; [lia|].
    rewrite <- app_assoc in E. cbn [app] in E. rewrite zlen_app. change (zlen [p]) with 1.
    rewrite E, zlen_app, zlen_cons in L. pose proof (zlen_nonneg pre). pose proof (zlen_nonneg post).
    assert (V : u64 (mb_addr b + 8 * (zlen pre + 1) - 8) = mb_addr b + 8 * zlen pre).
    { unfold u64. rewrite Z.mod_small; [lia|]. unfold mb_size in *. lia. }
    rewrite V. cbn [disown_loop]. replace (_ <? _) with false by lia.
    rewrite (word_at_ok b pre p post) by (rewrite <- E; exact H). cbn [bind].
    destruct (p =? v) eqn:Ev.
    + right. exists pre, []. assert (p = v) by lia. subst p. split; reflexivity.
    + destruct (IH (p :: post) f E ltac:(lia)) as [[R1 R2]|(x & y & R1 & R2)].
      * left. split; [exact R1|]. intros Hin. apply in_app_or in Hin. destruct Hin as [Hin|[->|[]]]; [exact (R2 Hin)|lia].
      * right. exists x, (y ++ [p]). split; [rewrite R1, <- app_assoc; reflexivity|exact R2].
Qed.

Lemma ok_fst {A B} (a c : A) (b d : B) : OK (a, b) = OK (c, d) -> a = c.
Proof. intros E. apply (f_equal (fun r => match r with OK p => fst p | _ => a end)) in E. exact E. Qed.
Lemma mem_put_len m o d m' : mem_put m o d = OK m' -> zlen m' = zlen m.
Proof.
  unfold mem_put. destruct (_ && _) eqn:E; [|discriminate]. intros H.
  assert (blit m o d = m') by congruence. subst m'. apply blit_length; lia.
Qed.
Lemma mem_move_len m o s n m' : mem_move m o s n = OK m' -> zlen m' = zlen m.
Proof.
  unfold mem_move. destruct (_ && _) eqn:E; [|discriminate]. intros H.
  assert (blit m o (sub m s n) = m') by congruence. subst m'. apply blit_length; [lia|].
  unfold zlen in *. unfold sub. rewrite firstn_length. rewrite skipn_length. lia.
Qed.
Lemma insert_addr x off d al1 al2 y r : mbuf_insert x off d al1 al2 = OK (y, r) -> 0 <= mb_len x ->
  y = x \/ (mb_addr y = mb_addr x /\ mb_size y = mb_size x /\ mb_len x + zlen d <= mb_size x) \/
  exists al n f, (al = al1 \/ al = al2) /\ al n = Some (mb_addr y, f) /\ mb_size y = n.
Proof.
  intros H0 L0. revert H0. unfold mbuf_insert. destruct (_ || _); [discriminate|]. destruct (_ <? _).
  { intros E. apply ok_fst in E. auto. }
  pose proof (zlen_nonneg d) as Ld.
  destruct (_ <=? _) eqn:E0.
  - destruct (mem_move _ _ _ _) as [m1| | |] eqn:M1; cbn [bind]; try discriminate.
    destruct (mem_put _ _ _) as [m2| | |] eqn:M2; cbn [bind]; try discriminate.
    intros E. apply ok_fst in E. subst y. right. left. unfold mb_size. cbn [mb_addr mb_mem].
    rewrite (mem_put_len _ _ _ _ M2), (mem_move_len _ _ _ _ _ M1). unfold mb_size in E0. split; [reflexivity|]. split; [reflexivity|lia].
  - assert (G : forall n p f, 0 <= n ->
      (m1 <- (if off =? mb_len x then OK (regrow (mb_mem x) n f)
              else mem_move (regrow (mb_mem x) n f) (off + zlen d) off (mb_len x - off)) ;;
       m2 <- mem_put m1 off d ;;
       OK ({| mb_mem := m2; mb_len := mb_len x + zlen d; mb_addr := p |}, zlen d)) = OK (y, r) ->
      mb_addr y = p /\ mb_size y = n).
    { intros n p f Hn. destruct (if off =? mb_len x then _ else _) as [m1| | |] eqn:M1; cbn [bind]; try discriminate.
      destruct (mem_put _ _ _) as [m2| | |] eqn:M2; cbn [bind]; try discriminate. intros E.
      apply ok_fst in E. subst y. unfold mb_size. cbn [mb_addr mb_mem]. rewrite (mem_put_len _ _ _ _ M2). split; [reflexivity|].
      destruct (off =? mb_len x).
      - assert (regrow (mb_mem x) n f = m1) by congruence. subst m1. apply regrow_length. exact Hn.
      - rewrite (mem_move_len _ _ _ _ _ M1). apply regrow_length. exact Hn. }
    pose proof (grow_size_ge (mb_len x + zlen d) ltac:(lia)) as Hg.
    set (ns := grow_size _) in *. set (ms := mb_len x + zlen d) in *.
    destruct (al1 ns) as [[p f]|] eqn:A1.
    + intros E. destruct (G ns p f ltac:(lia) E) as [G1 G2]. right. right. exists al1, ns, f. rewrite G1. auto.
    + destruct (ns =? ms).
      { intros E. apply ok_fst in E. auto. }
      destruct (al2 ms) as [[p f]|] eqn:A2.
      * intros E. destruct (G ms p f ltac:(lia) E) as [G1 G2]. right. right. exists al2, ms, f. rewrite G1. auto.
      * intros E. apply ok_fst in E. auto.
Qed.

Lemma own_spec_ok b ps v al1 al2 : orep b ps -> is_u64 v -> alloc_sane al1 -> alloc_sane al2 ->
  exists b' x, mjs_own b v al1 al2 = OK (b', x) /\
  ((x = 8 /\ orep b' (ps ++ [v]) /\ mb_addr b' <> 0) \/
   (x = 0 /\ b' = b /\ exists n, al1 n = None)).
Proof.
  intros H Hv S1 S2. assert (H' := H). destruct H' as (I & A & U & E). assert (Hsz := proj1 I).
  assert (O1 : alloc_ok al1) by (intros n p f Hn; destruct (S1 _ _ _ Hn); lia).
  assert (O2 : alloc_ok al2) by (intros n p f Hn; destruct (S2 _ _ _ Hn); lia).
  assert (A0 : 0 <= mb_addr b) by (destruct A as [[A _]|[A _]]; lia).
  unfold mjs_own, mbuf_append.
  destruct (insert_cases b (mb_len b) (le_bytes 8 v) al1 al2 I ltac:(lia) O1 O2 A0) as [[R [C|[C C']]]|(y & R & Iy & _ & _ & B)].
  - rewrite zlen_le8 in C. destruct A as [[A _]|[A A']]; unfold mb_size in *; lia.
  - exists b, 0. split; [exact R|]. right. split; [reflexivity|]. split; [reflexivity|]. eexists. exact C'.
  - exists y, 8. rewrite zlen_le8 in R. split; [exact R|]. left. split; [reflexivity|].
    assert (By : mb_bytes y = wbytes (ps ++ [v])).
    { rewrite B. rewrite <- (bytes_zlen b I). rewrite wbytes_app, <- E. cbn [wbytes flat_map]. rewrite app_nil_r.
      unfold zlen. rewrite Nat2Z.id, firstn_all, skipn_all, app_nil_r. reflexivity. }
    assert (Ly : 8 <= mb_len y).
    { rewrite <- (bytes_zlen y Iy), By, wbytes_len, zlen_app. change (zlen [v]) with 1. pose proof (zlen_nonneg ps). lia. }
    assert (Ay : 8 <= mb_addr y /\ mb_addr y + mb_size y <= 2 ^ 64 - 4096).
    { destruct (insert_addr _ _ _ _ _ _ _ R (proj1 Hsz)) as [->|[(P1 & P2 & P3)|(al & n & f & Ha & Hal & Hs)]].
      - destruct A as [[A A']|A]; [lia|exact A].
      - rewrite zlen_le8 in P3. rewrite P1, P2. destruct A as [[A A']|A]; [|exact A].
        exfalso. destruct I as [_ I]. specialize (I A). unfold mb_size in P3. rewrite I in P3.
        change (zlen (@nil Z)) with 0 in P3. lia.
      - rewrite Hs. destruct Ha as [-> | ->]; [exact (S1 _ _ _ Hal)|exact (S2 _ _ _ Hal)]. }
    split; [|lia]. split; [exact Iy|]. split; [right; exact Ay|]. split; [|exact By].
    apply Forall_app. split; [exact U|]. constructor; [exact Hv|constructor].
Qed.

Lemma wbytes_put a p c v s : mem_put (wbytes (a ++ p :: c) ++ s) (8 * zlen a) (le_bytes 8 v) = OK (wbytes (a ++ v :: c) ++ s).
Proof.
  unfold mem_put. rewrite zlen_le8, zlen_app, wbytes_len, zlen_app, zlen_cons.
  pose proof (zlen_nonneg a). pose proof (zlen_nonneg c). pose proof (zlen_nonneg s).
  replace (_ && _) with true by lia. f_equal.
  rewrite !wbytes_app. change (wbytes (p :: c)) with (le_bytes 8 p ++ wbytes c).
  change (wbytes (v :: c)) with (le_bytes 8 v ++ wbytes c). rewrite <- !app_assoc.
  unfold blit. rewrite le_bytes_length.
  assert (La : Z.to_nat (8 * zlen a) = length (wbytes a)).
  { pose proof (wbytes_len a). unfold zlen in *. lia. }
  rewrite La. rewrite firstn_app, firstn_all, Nat.sub_diag. cbn [firstn]. rewrite app_nil_r. f_equal. f_equal.
  rewrite app_assoc, skipn_app. rewrite skipn_all2 by (rewrite app_length, le_bytes_length; lia).
  rewrite app_length, le_bytes_length. rewrite Nat.sub_diag. reflexivity.
Qed.

Lemma disown_spec_ok b ps v : orep b ps -> mb_addr b <> 0 ->
  exists b' x, mjs_disown b v = OK (b', x) /\ mb_addr b' = mb_addr b /\
  ((x = 1 /\ exists ps', Permutation ps (v :: ps') /\ orep b' ps') \/ (x = 0 /\ ~ In v ps /\ b' = b)).
Proof.
  intros H N. pose proof (orep_len _ _ H) as L. unfold mjs_disown.
  assert (H' := H). destruct H' as (I & A & U & E). destruct A as [[A _]|[A A']]; [contradiction|].
  destruct (loop_spec b ps v H N ps [] (S (Z.to_nat (8 * zlen ps))) (eq_sym (app_nil_r ps)) ltac:(unfold zlen in *; lia))
    as [[R Hn]|(x & y & Hps & R)]; rewrite L, R; cbn [bind].
  - exists b, 0. split; [reflexivity|]. split; [reflexivity|]. right. auto.
  - assert (Hne : ps <> []) by (rewrite Hps; destruct x; discriminate).
    destruct (exists_last Hne) as (q & l & Hl).
    assert (Hv : u64 (mb_addr b + 8 * zlen ps - 8) = mb_addr b + 8 * zlen q).
    { rewrite Hl, zlen_app. change (zlen [l]) with 1. unfold u64. rewrite Z.mod_small; [lia|].
      pose proof (zlen_nonneg q). rewrite Hl, zlen_app in L. change (zlen [l]) with 1 in L. destruct I as [I _]. lia. }
    rewrite Hv. rewrite (word_at_ok b q l []) by (rewrite <- Hl; exact H). cbn [bind].
    replace (mb_addr b + 8 * zlen x - mb_addr b) with (8 * zlen x) by lia.
    rewrite (bytes_mem b I), E.
    replace (wbytes ps) with (wbytes (x ++ v :: y)) by (rewrite <- Hps; reflexivity).
    rewrite wbytes_put. cbn [bind].
    eexists. exists 1. split; [reflexivity|]. cbn [mb_addr]. split; [reflexivity|]. left. split; [reflexivity|].
    (* the remaining pointers *)
    assert (Hq : exists ps', x ++ l :: y = ps' ++ [l] /\ Permutation ps (v :: ps')).
    { rewrite Hps in Hl |- *. destruct y as [|z y0 _] using rev_ind.
      - exists x. apply app_inj_tail in Hl. destruct Hl as [<- <-]. split; [reflexivity|].
        symmetry. apply Permutation_cons_append.
      - assert (Hl2 : (x ++ v :: y0) ++ [z] = q ++ [l]) by (rewrite <- app_assoc; exact Hl).
        apply app_inj_tail in Hl2. destruct Hl2 as [<- <-]. exists (x ++ z :: y0).
        split; [rewrite <- app_assoc; reflexivity|].
        transitivity (v :: x ++ y0 ++ [z]); [symmetry; apply Permutation_middle|]. constructor.
        apply Permutation_app_head. symmetry. apply Permutation_cons_append. }
    destruct Hq as (ps' & Hq & Hp). exists ps'. split; [exact Hp|].
    assert (Lp : zlen ps = zlen ps' + 1).
    { pose proof (Permutation_length Hp) as Hpl. cbn [length] in Hpl. unfold zlen. lia. }
    rewrite Hq. rewrite wbytes_app, <- app_assoc.
    set (rest := wbytes [l] ++ skipn _ _). 
    assert (Lr : zlen (wbytes ps' ++ rest) = mb_size b).
    { unfold rest. rewrite app_assoc, <- wbytes_app, zlen_app, wbytes_len, zlen_app. change (zlen [l]) with 1.
      unfold mb_size. rewrite (bytes_mem b I) at 2. rewrite zlen_app, E, wbytes_len. lia. }
    split; [split|].
    + unfold mb_size. cbn [mb_len mb_mem]. rewrite Lr. destruct I as [I _]. pose proof (zlen_nonneg ps'). lia.
    + cbn [mb_addr]. lia.
    + split; [right; unfold mb_size; cbn [mb_addr mb_mem]; rewrite Lr; lia|]. split.
      * assert (U2 := Permutation_Forall Hp U). inversion U2; assumption.
      * unfold mb_bytes. cbn [mb_len mb_mem]. replace (8 * zlen ps - 8) with (zlen (wbytes ps')) by (rewrite wbytes_len; lia).
        apply firstn_zlen_app.
Qed.

(** ** Histories *)
Definition bag_eq (B C : bag) : Prop := forall q, B q = C q.

Definition is_own (o : own_op) : bool := match o with Own _ _ _ => true | Disown _ => false end.

Lemma bag_snoc ps v : bag_eq (bag_of (ps ++ [v])) (badd v (bag_of ps)).
Proof.
  intros q. unfold bag_of, badd. rewrite count_occ_app. cbn [count_occ].
  destruct (Z.eq_dec v q); destruct (q =? v) eqn:Eq; lia.
Qed.
Lemma bag_perm ps v ps' : Permutation ps (v :: ps') -> bag_eq (bag_of ps') (bdel v (bag_of ps)).
Proof.
  intros P q. unfold bag_of, bdel. rewrite (proj1 (Permutation_count_occ Z.eq_dec _ _) P q). cbn [count_occ].
  destruct (Z.eq_dec v q); destruct (q =? v) eqn:Eq; lia.
Qed.

Lemma run_own ops : forall b ps B, orep b ps -> bag_eq (bag_of ps) B -> Forall own_op_ok ops ->
  (exists b' ps' xs B', own_run b ops = OK (b', xs) /\ orep b' ps' /\ bag_eq (bag_of ps') B' /\ own_specs B ops xs B') \/
  (own_run b ops = UB /\ mb_addr b = 0 /\ exists pre v post, ops = pre ++ Disown v :: post /\
     forallb is_own pre = true /\ own_specs B pre (repeat 0 (length pre)) B).
Proof.
  induction ops as [|o ops IH]; intros b ps B Hr HB Hok.
  - left. exists b, ps, [], B. split; [reflexivity|]. split; [exact Hr|]. split; [exact HB|constructor].
  - inversion Hok as [|? ? Ho Hok']; subst.
    assert (cont : forall b1 x ps1 B1, own_step b o = OK (b1, x) -> orep b1 ps1 -> bag_eq (bag_of ps1) B1 ->
      own_spec B o x B1 -> (mb_addr b1 = 0 -> is_own o = true /\ x = 0 /\ B1 = B /\ mb_addr b = 0) ->
      (exists b' ps' xs B', own_run b (o :: ops) = OK (b', xs) /\ orep b' ps' /\ bag_eq (bag_of ps') B' /\ own_specs B (o :: ops) xs B') \/
      (own_run b (o :: ops) = UB /\ mb_addr b = 0 /\ exists pre v post, o :: ops = pre ++ Disown v :: post /\
        forallb is_own pre = true /\ own_specs B pre (repeat 0 (length pre)) B)).
    { intros b1 x ps1 B1 S R1 E1 Sp Z1. cbn [own_run]. rewrite S. cbn [bind].
      destruct (IH b1 ps1 B1 R1 E1 Hok') as [(b' & ps' & xs & B' & Q1 & Q2 & Q3 & Q4)|(Q1 & Q2 & pre & v & post & Q3 & Q4 & Q5)].
      - left. rewrite Q1. cbn [bind]. exists b', ps', (x :: xs), B'. split; [reflexivity|]. split; [exact Q2|]. split; [exact Q3|].
        econstructor; eassumption.
      - right. rewrite Q1. cbn [bind]. split; [reflexivity|]. destruct (Z1 Q2) as (W1 & W2 & W3 & W4). split; [exact W4|].
        subst x B1. exists (o :: pre), v, post. split; [rewrite Q3; reflexivity|]. cbn [forallb]. rewrite W1, Q4. split; [reflexivity|].
        cbn [length repeat]. econstructor; eassumption. }
    destruct o as [v al1 al2|v].
    + destruct Ho as (Hv & S1 & S2).
      destruct (own_spec_ok b ps v al1 al2 Hr Hv S1 S2) as (b1 & x & S & [(-> & R1 & N1)|(-> & -> & F)]).
      * apply (cont b1 8 (ps ++ [v]) (badd v B) S R1); [|constructor|intros N; contradiction].
        intros q. rewrite (bag_snoc ps v q). unfold badd. rewrite (HB q). reflexivity.
      * apply (cont b 0 ps B S Hr HB); [constructor; exact F|]. auto.
    + destruct (Z.eq_dec (mb_addr b) 0) as [N|N].
      * right. assert (W : mjs_disown b v = UB).
        { unfold mjs_disown. destruct Hr as (_ & A & _). destruct A as [[_ A]|[A _]]; [|lia]. rewrite N, A.
          cbn [disown_loop]. rewrite N. unfold u64. replace ((0 + 0 - 8) mod 2 ^ 64) with (2 ^ 64 - 8) by reflexivity.
          change (2 ^ 64 - 8 <? 0) with false. cbv iota.
          unfold word_at. rewrite N. reflexivity. }
        cbn [own_run own_step]. rewrite W. split; [reflexivity|]. split; [exact N|]. exists [], v, ops. split; [reflexivity|].
        split; [reflexivity|]. constructor.
      * destruct (disown_spec_ok b ps v Hr N) as (b1 & x & S & Ad & [(-> & ps' & P & R1)|(-> & Hn & ->)]).
        -- apply (cont b1 1 ps' (bdel v B) S R1); [| |intros N1; congruence].
           ++ intros q. rewrite (bag_perm _ _ _ P q). unfold bdel. rewrite (HB q). reflexivity.
           ++ constructor. rewrite <- (HB v). unfold bag_of. rewrite (proj1 (Permutation_count_occ Z.eq_dec _ _) P v).
              rewrite count_occ_cons_eq by reflexivity. discriminate.
        -- apply (cont b 0 ps B S Hr HB); [|intros N1; contradiction].
           constructor. rewrite <- (HB v). unfold bag_of. apply count_occ_not_In. exact Hn.
Qed.

Definition owned0 : mbuf := {| mb_mem := []; mb_len := 0; mb_addr := 0 |}.
Lemma owned0_rep : orep owned0 [].
Proof. split; [split; [cbn; lia|reflexivity]|]. split; [left; split; reflexivity|]. split; [constructor|reflexivity]. Qed.

Lemma own_history ops : Forall own_op_ok ops ->
  (exists b xs B, own_run owned0 ops = OK (b, xs) /\ own_specs bempty ops xs B /\ bag_eq (bag_of (roots_of b)) B) \/
  (own_run owned0 ops = UB /\ exists pre v post, ops = pre ++ Disown v :: post /\
     forallb is_own pre = true /\ own_specs bempty pre (repeat 0 (length pre)) bempty).
Proof.
  intros H. destruct (run_own ops owned0 [] bempty owned0_rep (fun q => eq_refl) H)
    as [(b & ps & xs & B & R & O & E & S)|(R & _ & pre & v & post & E & F & S)].
  - left. exists b, xs, B. rewrite (orep_roots b ps O). auto.
  - right. split; [exact R|]. exists pre, v, post. auto.
Qed.

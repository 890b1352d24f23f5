From Verif Require Import Base BaseFacts Varint_Model Varint_Spec Varint_Proofs Bcode_Model Bcode_Proofs Disasm_Model Disasm_Spec.
From Coq Require Import ZifyBool.
Ltac Zify.zify_post_hook ::= idtac.

Lemma num_len n b : num_bytes n b -> 1 <= zlen b /\ 0 <= n < 2 ^ 64.
Proof.
  intros (a & t & -> & _ & _ & L & G & B). rewrite zlen_app. change (zlen [t]) with 1. pose proof (zlen_nonneg a).
  pose proof (groups_val_nonneg (a ++ [t])). lia.
Qed.
Lemma num_at_ok n b pre post i : num_bytes n b -> i = zlen pre -> num_at (pre ++ b ++ post) i = OK (n, zlen b).
Proof.
  intros H ->. pose proof (num_len n b H) as [_ N]. destruct H as (a & t & -> & A & T & L & G & B).
  unfold num_at. rewrite skipn_zlen. unfold varint_decode_unsafe. rewrite <- app_assoc. cbn [app].
  rewrite decode_term; [|exact A|exact T|exact L|apply Z.le_trans with 10; [lia|discriminate]].
  cbn [bind]. rewrite G, Z.mod_small by exact N. rewrite zlen_app. reflexivity.
Qed.
Lemma head_at {A} (pre post : list A) x b i : i = zlen pre -> nthz (pre ++ (x :: b) ++ post) i = Some x.
Proof. intros ->. apply nthz_mid. Qed.
(** One instruction *)
Lemma single_ins b pre post : ins b -> zlen pre + zlen b < 2 ^ 32 ->
  disasm_single (pre ++ b ++ post) (zlen pre) = OK (zlen b - 1) /\ exists op r, b = op :: r /\ (op =? OP_BCODE_HEADER) = false.
Proof.
  intros H. pose proof (zlen_nonneg pre) as Hp. destruct H as [op Hop|op n b Hop Hn|op b s Hop Hn|n b b' s Hn Hn'|n b n' b' Hn Hn'|t]; intros L.
  - unfold disasm_single. rewrite head_at by reflexivity. unfold plain in Hop.
    repeat (destruct Hop as [<-|Hop]; [split; [reflexivity|eexists; eexists; split; reflexivity]|]). destruct Hop.
  - unfold disasm_single. rewrite head_at by reflexivity.
    assert (E : num_at (pre ++ (op :: b) ++ post) (zlen pre + 1) = OK (n, zlen b)).
    { replace (pre ++ (op :: b) ++ post) with ((pre ++ [op]) ++ b ++ post) by (rewrite <- app_assoc; reflexivity).
      apply num_at_ok; [exact Hn|]. rewrite zlen_app. reflexivity. }
    rewrite E. cbn [bind]. rewrite zlen_cons. replace (1 + zlen b - 1) with (zlen b) by lia.
    repeat (destruct Hop as [<-|Hop]; [split; [reflexivity|eexists; eexists; split; reflexivity]|]). destruct Hop.
  - unfold disasm_single. rewrite head_at by reflexivity.
    assert (E : num_at (pre ++ (op :: b ++ s) ++ post) (zlen pre + 1) = OK (zlen s, zlen b)).
    { replace (pre ++ (op :: b ++ s) ++ post) with ((pre ++ [op]) ++ b ++ s ++ post) by (rewrite <- app_assoc; cbn [app]; rewrite <- app_assoc; reflexivity).
      apply num_at_ok; [exact Hn|]. rewrite zlen_app. reflexivity. }
    rewrite E. cbn [bind]. rewrite zlen_cons, zlen_app in *. pose proof (zlen_nonneg b). pose proof (zlen_nonneg s).
    rewrite u64_id by lia. replace (1 + (zlen b + zlen s) - 1) with (zlen b + zlen s) by lia.
    repeat (destruct Hop as [<-|Hop]; [split; [reflexivity|eexists; eexists; split; reflexivity]|]). destruct Hop.
  - unfold disasm_single. rewrite head_at by reflexivity.
    assert (E : num_at (pre ++ (OP_SET_ARG :: b ++ b' ++ s) ++ post) (zlen pre + 1) = OK (n, zlen b)).
    { replace (pre ++ (OP_SET_ARG :: b ++ b' ++ s) ++ post) with ((pre ++ [OP_SET_ARG]) ++ b ++ (b' ++ s) ++ post) by (rewrite <- app_assoc; cbn [app]; rewrite <- !app_assoc; reflexivity).
      apply num_at_ok; [exact Hn|]. rewrite zlen_app. reflexivity. }
    assert (E' : num_at (pre ++ (OP_SET_ARG :: b ++ b' ++ s) ++ post) (zlen pre + zlen b + 1) = OK (zlen s, zlen b')).
    { replace (pre ++ (OP_SET_ARG :: b ++ b' ++ s) ++ post) with ((pre ++ OP_SET_ARG :: b) ++ b' ++ s ++ post) by (rewrite <- app_assoc; cbn [app]; rewrite <- !app_assoc; reflexivity).
      apply num_at_ok; [exact Hn'|]. rewrite zlen_app, zlen_cons. lia. }
    rewrite E. cbn [bind]. rewrite E'. cbn [bind]. rewrite zlen_cons, !zlen_app in *. pose proof (zlen_nonneg b). pose proof (zlen_nonneg b'). pose proof (zlen_nonneg s).
    split; [|eexists; eexists; split; reflexivity]. change (OK (u64 (zlen b + zlen b' + zlen s)) = OK (1 + (zlen b + (zlen b' + zlen s)) - 1)). rewrite u64_id by lia. f_equal. lia.
  - unfold disasm_single. rewrite head_at by reflexivity.
    assert (E : num_at (pre ++ (OP_LOOP :: b ++ b') ++ post) (zlen pre + 1) = OK (n, zlen b)).
    { replace (pre ++ (OP_LOOP :: b ++ b') ++ post) with ((pre ++ [OP_LOOP]) ++ b ++ b' ++ post) by (rewrite <- app_assoc; cbn [app]; rewrite <- !app_assoc; reflexivity).
      apply num_at_ok; [exact Hn|]. rewrite zlen_app. reflexivity. }
    assert (E' : num_at (pre ++ (OP_LOOP :: b ++ b') ++ post) (zlen pre + zlen b + 1) = OK (n', zlen b')).
    { replace (pre ++ (OP_LOOP :: b ++ b') ++ post) with ((pre ++ OP_LOOP :: b) ++ b' ++ post) by (rewrite <- app_assoc; cbn [app]; rewrite <- !app_assoc; reflexivity).
      apply num_at_ok; [exact Hn'|]. rewrite zlen_app, zlen_cons. lia. }
    rewrite E. cbn [bind]. rewrite E'. cbn [bind]. rewrite zlen_cons, !zlen_app in *. split; [|eexists; eexists; split; reflexivity].
    change (OK (zlen b + zlen b') = OK (1 + (zlen b + zlen b') - 1)). f_equal. lia.
  - unfold disasm_single. rewrite head_at by reflexivity.
    assert (E : nthz (pre ++ [OP_EXPR; t] ++ post) (zlen pre + 1) = Some t).
    { replace (pre ++ [OP_EXPR; t] ++ post) with ((pre ++ [OP_EXPR]) ++ t :: post) by (rewrite <- app_assoc; reflexivity).
      replace (zlen pre + 1) with (zlen (pre ++ [OP_EXPR])) by (rewrite zlen_app; reflexivity). apply nthz_mid. }
    rewrite E. split; [reflexivity|]. eexists; eexists; split; reflexivity.
Qed.
Lemma ins_pos b : ins b -> 1 <= zlen b.
Proof. intros H. inversion H; subst; rewrite zlen_cons; match goal with |- context [1 + zlen ?l] => pose proof (zlen_nonneg l) end; lia. Qed.
(** All instructions, up to the table of lines *)
Lemma walk post ts len : forall is pre f, Forall ins is -> is <> [] -> zlen pre + zlen (concat is) + zlen post = len -> len < 2 ^ 32 -> 1 <= zlen pre -> 0 <= ts < 2 ^ 32 ->
  disasm_loop (length is + f) (pre ++ concat is ++ post) len (zlen pre) 0 (zlen pre + zlen (concat is) - 1) ts =
  (r <- disasm_loop f (pre ++ concat is ++ post) len ts 0 (zlen pre + zlen (concat is) - 1) ts ;; OK (ins_starts (zlen pre) is ++ r)).
Proof.
  induction is as [|b is IH]; intros pre f HF Hne HL Hl Hp Hts; [congruence|]. pose proof (Forall_inv HF) as Hb. pose proof (Forall_inv_tail HF) as HF'.
  pose proof (ins_pos b Hb) as Lb. pose proof (zlen_nonneg post) as Lp. pose proof (zlen_nonneg (concat is)) as Lc.
  cbn [concat length Nat.add ins_starts] in *. rewrite zlen_app in *. rewrite <- app_assoc.
  destruct (single_ins b pre (concat is ++ post) Hb ltac:(lia)) as (E & op & r & Eb & Eo).
  cbn [disasm_loop]. replace (zlen pre <? len) with true by lia. rewrite E. cbn [bind].
  assert (Eh : nthz (pre ++ b ++ concat is ++ post) (zlen pre) = Some op) by (rewrite Eb; apply nthz_mid).
  rewrite Eh, Eo. cbn [bind]. cbv zeta. rewrite (u64_id (zlen pre + (zlen b - 1))) by lia. rewrite (u64_id (0 + _)) by lia.
  replace (0 <? zlen pre + (zlen b + zlen (concat is)) - 1) with true by lia. cbn [andb].
  destruct is as [|b2 is].
  - cbn [concat length Nat.add app] in *. change (zlen (@nil Z)) with 0 in *.
    replace (zlen pre + (zlen b - 1) =? 0 + (zlen pre + (zlen b + 0) - 1)) with true by lia.
    replace (u64 (u64 (0 + ts - 1) + 1)) with ts; [cbn [ins_starts]; cbn [app]; reflexivity|].
    unfold u64. rewrite Z.add_mod_idemp_l by discriminate. replace (0 + ts - 1 + 1) with ts by lia. symmetry. apply Z.mod_small. lia.
  - assert (Lb2 : 1 <= zlen (concat (b2 :: is))).
    { cbn [concat]. rewrite zlen_app. pose proof (ins_pos b2 (Forall_inv HF')). pose proof (zlen_nonneg (concat is)). lia. }
    replace (zlen pre + (zlen b - 1) =? 0 + (zlen pre + (zlen b + zlen (concat (b2 :: is))) - 1)) with false by lia.
    rewrite u64_id by lia. replace (zlen pre + (zlen b - 1) + 1) with (zlen (pre ++ b)) by (rewrite zlen_app; lia).
    specialize (IH (pre ++ b) f HF' ltac:(discriminate) ltac:(rewrite zlen_app; lia) Hl ltac:(rewrite zlen_app; lia) Hts).
    replace (zlen (pre ++ b) + zlen (concat (b2 :: is)) - 1) with (zlen pre + (zlen b + zlen (concat (b2 :: is))) - 1) in IH by (rewrite zlen_app; lia).
    rewrite <- app_assoc in IH. rewrite IH. rewrite zlen_app. destruct (disasm_loop f _ len ts 0 _ ts) as [x| | |]; reflexivity.
Qed.
Lemma c_str_ok s r : ~ In 0 s -> c_str (s ++ 0 :: r) = OK s.
Proof.
  induction s as [|x s IH]; intros H; [reflexivity|]. cbn [app c_str]. destruct (x =? 0) eqn:E; [exfalso; apply H; left; lia|].
  rewrite IH by (intros X; apply H; right; exact X). reflexivity.
Qed.
Lemma num_at_end c i : zlen c <= i -> num_at c i = UB.
Proof.
  intros H. unfold num_at, varint_decode_unsafe. rewrite skipn_all2 by (unfold zlen in H; lia). reflexivity.
Qed.
(** The last byte *)
Lemma single_last c b : disasm_single (c ++ [b]) (zlen c) = if wants_operand b then UB else OK 0.
Proof.
  assert (L : zlen (c ++ [b]) = zlen c + 1) by (rewrite zlen_app; reflexivity). pose proof (zlen_nonneg c) as L0.
  unfold disasm_single. rewrite nthz_mid. rewrite num_at_end by lia.
  assert (E : nthz (c ++ [b]) (zlen c + 1) = None).
  { unfold nthz. replace (zlen c + 1 <? 0) with false by lia. apply nth_error_None. unfold zlen in *. lia. }
  rewrite E. assert (Rd : read_u32 (c ++ [b]) (zlen c + 1) = UB).
  { unfold read_u32. rewrite L. replace (zlen c + 1 + 4 <=? zlen c + 1) with false by lia. rewrite andb_false_r. reflexivity. }
  rewrite Rd. cbn [bind]. unfold wants_operand. cbn [existsb].
  repeat (match goal with |- context [b =? ?k] => destruct (b =? k) eqn:?; cbn [orb]; try reflexivity end).
Qed.
Lemma loop_mono c len i s m t : forall f f' r, (f <= f')%nat -> disasm_loop f c len i s m t = r -> r <> NoFuel -> disasm_loop f' c len i s m t = r.
Proof.
  intros f. revert i s m t. induction f as [|f IH]; intros i s m t f' r Hf H Hr; [cbn in H; congruence|]. destruct f' as [|f']; [lia|].
  cbn [disasm_loop] in *. destruct (i <? len); [|exact H]. destruct (disasm_single c i) as [d| | |]; cbn [bind] in *; try exact H.
  match type of H with bind ?x _ = _ => destruct x as [[[s1 m1] t1]| | |]; cbn [bind] in *; try exact H end. cbv zeta in *.
  match type of H with bind (disasm_loop f c len ?j s1 m1 t1) _ = _ => destruct (disasm_loop f c len j s1 m1 t1) as [x| | |] eqn:E end; cbn [bind] in H;
    (erewrite IH; [|apply le_S_n; exact Hf|exact E|congruence]); exact H.
Qed.
Definition shown (fname : list Z) (is : list (list Z)) (map : list Z) : list Z :=
  0 :: ins_starts (14 + zlen fname) is ++ [zlen (part_bytes fname is map) - 1].
Lemma disasm_part fname is map b : ~ In 0 fname -> Forall ins is -> is <> [] -> zlen (part_bytes fname is (map ++ [b])) <= 2 ^ 32 - 1 ->
  forall f, (length is + 3 <= f)%nat -> mjs_disasm f (part_bytes fname is (map ++ [b])) (zlen (part_bytes fname is (map ++ [b]))) =
    if wants_operand b then UB else OK (shown fname is (map ++ [b])).
Proof.
  intros Hz HF Hne HL f Hf.
  set (c := part_bytes fname is (map ++ [b])) in *. set (len := zlen c) in *.
  pose proof (zlen_nonneg fname) as L1. pose proof (zlen_nonneg (concat is)) as L2. pose proof (zlen_nonneg map) as L3.
  assert (Ln : len = 14 + zlen fname + zlen (concat is) + zlen map + 1).
  { unfold len, c, part_bytes. cbv zeta. rewrite zlen_cons, !zlen_app. change (zlen [0]) with 1. change (zlen [b]) with 1. unfold zlen. rewrite !le_bytes_length. lia. }
  set (before := 12 + zlen fname + 1). set (total := before + zlen (concat is) + zlen (map ++ [b])). set (mo := before + zlen (concat is)).
  assert (Et : total = len - 1) by (unfold total, before; rewrite zlen_app; change (zlen [b]) with 1; lia).
  set (hd := OP_BCODE_HEADER :: le_bytes 4 total ++ le_bytes 4 before ++ le_bytes 4 mo ++ fname ++ [0]).
  assert (Lh : zlen hd = 14 + zlen fname).
  { unfold hd. rewrite zlen_cons, !zlen_app. change (zlen [0]) with 1. unfold zlen. rewrite !le_bytes_length. lia. }
  assert (Ec : c = hd ++ concat is ++ map ++ [b]).
  { unfold c, part_bytes. cbv zeta. fold before. fold total. fold mo. unfold hd. cbn [app]. rewrite <- !app_assoc. reflexivity. }
  assert (R1 : read_u32 c 1 = OK total).
  { rewrite Ec. unfold hd. cbn [app]. rewrite <- !app_assoc. change (OP_BCODE_HEADER :: le_bytes 4 total ++ ?x) with ([OP_BCODE_HEADER] ++ le_bytes 4 total ++ x).
    change 1 with (zlen [OP_BCODE_HEADER]). apply read_u32_at. lia. }
  assert (R9 : read_u32 c 9 = OK mo).
  { rewrite Ec. unfold hd. cbn [app]. rewrite <- !app_assoc.
    replace (OP_BCODE_HEADER :: le_bytes 4 total ++ le_bytes 4 before ++ le_bytes 4 mo ++ fname ++ [0] ++ concat is ++ map ++ [b])
      with ((OP_BCODE_HEADER :: le_bytes 4 total ++ le_bytes 4 before) ++ le_bytes 4 mo ++ (fname ++ [0] ++ concat is ++ map ++ [b])) by (cbn [app]; rewrite <- !app_assoc; reflexivity).
    replace 9 with (zlen (OP_BCODE_HEADER :: le_bytes 4 total ++ le_bytes 4 before)) by (rewrite zlen_cons, zlen_app; unfold zlen; rewrite !le_bytes_length; reflexivity).
    apply read_u32_at. unfold mo, before. lia. }
  assert (Rs : c_str (skipn (Z.to_nat (0 + 13)) c) = OK fname).
  { rewrite Ec. unfold hd.
    replace ((OP_BCODE_HEADER :: le_bytes 4 total ++ le_bytes 4 before ++ le_bytes 4 mo ++ fname ++ [0]) ++ concat is ++ map ++ [b])
      with ((OP_BCODE_HEADER :: le_bytes 4 total ++ le_bytes 4 before ++ le_bytes 4 mo) ++ fname ++ 0 :: concat is ++ map ++ [b]) by (cbn [app]; rewrite <- !app_assoc; reflexivity).
    replace (0 + 13) with (zlen (OP_BCODE_HEADER :: le_bytes 4 total ++ le_bytes 4 before ++ le_bytes 4 mo)) by (rewrite zlen_cons, !zlen_app; unfold zlen; rewrite !le_bytes_length; reflexivity).
    rewrite skipn_zlen. apply c_str_ok. exact Hz. }
  assert (N0 : nthz c 0 = Some OP_BCODE_HEADER) by (rewrite Ec; reflexivity).
  assert (S0 : disasm_single c 0 = OK (13 + zlen fname)).
  { unfold disasm_single. rewrite N0. change (0 + 1) with 1. change (0 + 9) with 9. rewrite R1, R9, Rs. cbn [bind]. change (OK (12 + zlen fname + 1) = OK (13 + zlen fname)). f_equal. lia. }
  assert (G : mjs_disasm (1 + (length is + 2)) c len = if wants_operand b then UB else OK (shown fname is (map ++ [b]))).
  { unfold mjs_disasm. cbn [Nat.add]. cbn [disasm_loop]. replace (0 <? len) with true by lia. rewrite S0. cbn [bind]. rewrite N0.
    change (OP_BCODE_HEADER =? OP_BCODE_HEADER) with true. cbv iota. change (0 + 1) with 1. change (0 + 9) with 9. rewrite R1, R9. cbn [bind]. cbv zeta.
    assert (Lc : 1 <= zlen (concat is)).
    { destruct is as [|b1 is]; [congruence|]. cbn [concat]. rewrite zlen_app. pose proof (ins_pos b1 (Forall_inv HF)). pose proof (zlen_nonneg (concat is)). lia. }
    rewrite (u64_id (0 + (13 + zlen fname))) by lia. rewrite (u64_id (0 + mo)) by (unfold mo, before; lia).
    replace (0 + (13 + zlen fname) =? 0 + mo) with false by (unfold mo, before; lia). rewrite andb_false_r.
    rewrite u64_id by lia. replace (0 + (13 + zlen fname) + 1) with (zlen hd) by lia.
    replace mo with (zlen hd + zlen (concat is) - 1) by (unfold mo, before; lia).
    rewrite Ec at 1. rewrite (walk (map ++ [b]) total len is hd 2 HF Hne); [|rewrite zlen_app; change (zlen [b]) with 1; lia|lia|lia|lia].
    rewrite <- Ec. cbn [disasm_loop]. replace (total <? len) with true by lia.
    replace c with ((hd ++ concat is ++ map) ++ [b]) at 1 by (rewrite Ec, <- !app_assoc; reflexivity).
    replace total with (zlen (hd ++ concat is ++ map)) at 1 by (rewrite !zlen_app; lia).
    rewrite single_last. destruct (wants_operand b) eqn:W; [reflexivity|]. cbn [bind].
    assert (Nl : nthz c total = Some b).
    { replace c with ((hd ++ concat is ++ map) ++ [b]) by (rewrite Ec, <- !app_assoc; reflexivity).
      replace total with (zlen (hd ++ concat is ++ map)) by (rewrite !zlen_app; lia). apply nthz_mid. }
    rewrite Nl. assert (Nh : (b =? OP_BCODE_HEADER) = false).
    { unfold wants_operand in W. cbn [existsb] in W. rewrite !orb_false_iff in W. tauto. }
    rewrite Nh. cbn [bind]. rewrite (u64_id (total + 0)) by lia. rewrite (u64_id (0 + (zlen hd + zlen (concat is) - 1))) by lia. 
    replace (total + 0 =? 0 + (zlen hd + zlen (concat is) - 1)) with false by lia. rewrite andb_false_r.
    rewrite u64_id by lia. replace (total + 0 + 1 <? len) with false by lia. cbn [bind]. unfold shown. fold c. fold len. rewrite Et, Lh. reflexivity. }
  unfold mjs_disasm in *. eapply loop_mono; [|exact G|destruct (wants_operand b); discriminate]. lia.
Qed.

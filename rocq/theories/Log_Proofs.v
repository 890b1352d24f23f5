(** The prefix of log messages. *)
From Verif Require Import Base BaseFacts Str_Spec SUtil_Model SUtil_Spec SUtil_Proofs2 Log_Model Log_Spec.
From Coq Require Import ZifyBool.
Ltac Zify.zify_post_hook ::= idtac.

Lemma name_back_base r : base_name (rev r) (name_back r).
Proof.
  induction r as [|c r (F & dir & E & D)]; cbn [name_back rev].
  - split; [constructor|]. exists []. split; [reflexivity|left; reflexivity].
  - destruct ((c =? 47) || (c =? 92)) eqn:S.
    + split; [constructor|]. exists (rev r ++ [c]). split; [rewrite app_nil_r; reflexivity|]. right. exists (rev r), c. split; [reflexivity|unfold separator; lia].
    + split; [apply Forall_app; split; [exact F|constructor; [unfold separator; lia|constructor]]|].
      exists dir. split; [rewrite E, app_assoc; reflexivity|exact D].
Qed.
Lemma base_unique file a b : base_name file a -> base_name file b -> a = b.
Proof.
  intros (Fa & da & Ea & Da) (Fb & db & Eb & Db). rewrite Ea in Eb.
  assert (K : forall x y (n m : list Z), x ++ n = y ++ m -> Forall (fun c => ~ separator c) n -> (y = [] \/ exists d c, y = d ++ [c] /\ separator c) -> (length n <= length m)%nat).
  { intros x y n m E F [->|(d & c & -> & S)].
    - cbn [app] in E. rewrite <- E, app_length. lia.
    - destruct (Nat.le_gt_cases (length n) (length m)) as [G|G]; [exact G|exfalso].
      assert (N : exists k, n = k ++ c :: m).
      { apply (f_equal (skipn (length x))) in E. rewrite skipn_app, skipn_all, Nat.sub_diag in E. cbn [app skipn] in E.
        assert (Lx : (length x <= length d)%nat).
        { apply (f_equal (@length Z)) in E. rewrite skipn_length, !app_length in E. cbn [length] in E. lia. }
        exists (skipn (length x) d). rewrite E, <- app_assoc, skipn_app. replace (length x - length d)%nat with 0%nat by lia. reflexivity. }
      destruct N as (k & ->). apply Forall_app in F. destruct F as [_ F]. inversion F as [|? ? F1 F2]; subst. contradiction. }
  pose proof (K _ _ _ _ Eb Fa Db) as L1. pose proof (K _ _ _ _ (eq_sym Eb) Fb Da) as L2.
  assert (Ll : length a = length b) by lia.
  apply (f_equal (@rev Z)) in Eb. rewrite !rev_app_distr in Eb. apply (f_equal (firstn (length a))) in Eb.
  rewrite !firstn_app, !rev_length, Ll, !Nat.sub_diag in Eb. cbn [firstn] in Eb. rewrite !app_nil_r in Eb.
  rewrite <- Ll in Eb at 1. rewrite <- (rev_length a), firstn_all, <- (rev_length b), firstn_all in Eb. apply (f_equal (@rev Z)) in Eb. rewrite !rev_involutive in Eb. exact Eb.
Qed.

(** ** Digits *)
Lemma store_at a x b v : store (a ++ x :: b) (zlen a) v = OK (a ++ v :: b).
Proof.
  unfold store. rewrite zlen_app, zlen_cons. pose proof (zlen_nonneg a). pose proof (zlen_nonneg b).
  replace ((0 <=? zlen a) && (zlen a <? zlen a + (1 + zlen b))) with true by lia.
  unfold zlen. rewrite Nat2Z.id. rewrite firstn_app, firstn_all, Nat.sub_diag. cbn [firstn]. rewrite app_nil_r.
  rewrite skipn_app, skipn_all2 by lia. replace (length a + 1 - length a)%nat with 1%nat by lia. reflexivity.
Qed.
Lemma digits_val_snoc ds c : digits_val (ds ++ [c]) = 10 * digits_val ds + (c - 48).
Proof. unfold digits_val. rewrite fold_left_app. cbn [fold_left]. lia. Qed.
(** [k + 1] digits *)
Definition size_is (k : nat) (n : Z) : Prop := (k = O \/ 10 ^ Z.of_nat k <= n) /\ 0 <= n < 10 ^ (Z.of_nat k + 1).
Lemma put_digits_ok k : forall n a x b f, size_is k n -> length x = S k -> (k < f)%nat ->
  exists ds, decimal n ds /\ length ds = S k /\ put_digits f (a ++ x ++ b) (zlen a + zlen x) n = OK (a ++ ds ++ b, zlen a).
Proof.
  induction k as [|k IH]; intros n a x b f (Lo & Hi) Lx Lf; (destruct f as [|f]; [lia|]).
  - destruct x as [|v [|]]; try discriminate Lx. change (10 ^ (Z.of_nat 0 + 1)) with 10 in Hi. exists [48 + n]. cbn [put_digits].
    change (zlen [v]) with 1. replace (zlen a + 1 - 1) with (zlen a) by lia. change ([v] ++ b) with (v :: b). rewrite store_at. cbn [bind].
    rewrite Z.rem_small, Z.quot_small by lia. change (0 <? 0) with false. cbv iota. rewrite (Z.mod_small (48 + n)) by lia.
    split; [|split; reflexivity]. split; [discriminate|]. split; [constructor; [lia|constructor]|]. split; [unfold digits_val; cbn [fold_left]; lia|].
    destruct (Z.eq_dec n 0) as [->|]; [left; reflexivity|right; cbn [hd]; lia].
  - destruct Lo as [Lo|Lo]; [discriminate Lo|]. assert (X : x <> []) by (intros ->; discriminate Lx). destruct (exists_last X) as (x' & v & ->).
    rewrite app_length in Lx. cbn [length] in Lx. rewrite Nat2Z.inj_succ in Lo, Hi.
    replace (Z.succ (Z.of_nat k)) with (Z.of_nat k + 1) in Lo, Hi by lia.
    rewrite Z.pow_add_r in Lo by lia. rewrite (Z.pow_add_r 10 (Z.of_nat k + 1) 1) in Hi by lia. change (10 ^ 1) with 10 in *.
    pose proof (Z.pow_pos_nonneg 10 (Z.of_nat k) ltac:(lia) ltac:(lia)) as Pp.
    assert (Q : Z.quot n 10 = n / 10) by (apply Z.quot_div_nonneg; lia). assert (Rm : Z.rem n 10 = n mod 10) by (apply Z.rem_mod_nonneg; lia).
    pose proof (Z.div_mod n 10 ltac:(lia)) as DM. pose proof (Z.mod_pos_bound n 10 ltac:(lia)) as MB.
    assert (Sz : size_is k (n / 10)).
    { split; [right|split; [apply Z.div_pos; lia|apply Z.div_lt_upper_bound; lia]]. apply Z.div_le_lower_bound; lia. }
    destruct (IH (n / 10) a x' ((48 + n mod 10) :: b) f Sz ltac:(lia) ltac:(lia)) as (ds & (D1 & D2 & D3 & D4) & Ld & E).
    exists (ds ++ [48 + n mod 10]). split; [|split].
    + split; [destruct ds; discriminate|]. split; [apply Forall_app; split; [exact D2|constructor; [lia|constructor]]|].
      split; [rewrite digits_val_snoc, D3; lia|]. right. destruct ds as [|c ds]; [congruence|]. cbn [app hd]. destruct D4 as [D4|D4]; [|exact D4].
      injection D4 as -> ->. exfalso. change (digits_val [48]) with 0 in D3. lia.
    + rewrite app_length. cbn [length]. lia.
    + cbn [put_digits]. rewrite zlen_app. change (zlen [v]) with 1. replace (zlen a + (zlen x' + 1) - 1) with (zlen (a ++ x')) by (rewrite zlen_app; lia).
      rewrite <- !app_assoc. cbn [app]. rewrite (app_assoc a x'), store_at. cbn [bind]. rewrite Q, Rm, (Z.mod_small (48 + n mod 10)) by lia.
      replace (0 <? n / 10) with true by lia. rewrite zlen_app, <- app_assoc. exact E.
Qed.
Lemma decimal_unique n : forall ds ds', length ds = length ds' -> decimal n ds -> decimal n ds' -> ds = ds'.
Proof.
  assert (G : forall k ds ds', length ds = k -> length ds' = k -> Forall (fun c => 48 <= c <= 57) ds -> Forall (fun c => 48 <= c <= 57) ds' -> digits_val ds = digits_val ds' -> ds = ds').
  { induction k as [|k IH]; intros ds ds' L L' F F' E; [destruct ds, ds'; try discriminate; reflexivity|].
    assert (X : ds <> []) by (intros ->; discriminate). assert (X' : ds' <> []) by (intros ->; discriminate).
    destruct (exists_last X) as (e & c & ->). destruct (exists_last X') as (e' & c' & ->). rewrite app_length in L, L'. cbn [length] in L, L'.
    apply Forall_app in F. apply Forall_app in F'. destruct F as [F Fc], F' as [F' Fc']. inversion Fc; inversion Fc'; subst. rewrite !digits_val_snoc in E.
    assert (c = c') by lia. subst c'. f_equal. apply IH; try assumption; lia. }
  intros ds ds' L (_ & F & E & _) (_ & F' & E' & _). apply (G (length ds)); try assumption; [reflexivity|symmetry; exact L|congruence].
Qed.

(** ** The prefix *)
Lemma prefix_written junk file ln : zlen junk = 24 -> 0 <= ln < 100000 ->
  exists name ds, base_name file name /\ decimal ln ds /\ (length ds <= 5)%nat /\ prefix_of junk file ln = OK (padded (place name ds), zlen (place name ds)).
Proof.
  intros Lj Hn. set (name := name_back (rev file)). exists name.
  assert (Bn : base_name file name) by (unfold name; rewrite <- (rev_involutive file) at 1; apply name_back_base).
  unfold prefix_of. fold name. cbv zeta. unfold CS_LOG_PREFIX_LEN.
  set (ll := if ln <? 10000 then if ln <? 1000 then if ln <? 100 then if ln <? 10 then 1 else 2 else 3 else 4 else 5).
  assert (K : exists k, ll = Z.of_nat (S k) /\ (k < 5)%nat /\ size_is k ln).
  { unfold ll, size_is. destruct (ln <? 10000) eqn:E4; [destruct (ln <? 1000) eqn:E3; [destruct (ln <? 100) eqn:E2; [destruct (ln <? 10) eqn:E1|]|]|].
    - exists 0%nat. cbn. lia.
    - exists 1%nat. cbn. lia.
    - exists 2%nat. cbn. lia.
    - exists 3%nat. cbn. lia.
    - exists 4%nat. cbn. lia. }
  destruct K as (k & Ek & Hk & Sz). rewrite Ek. clearbody ll. clear ll Ek.
  set (nm := firstn (22 - S k) name).
  set (fl := if 24 - Z.of_nat (S k) - 2 <? zlen name then 24 - Z.of_nat (S k) - 2 else zlen name).
  assert (Ef : fl = zlen nm).
  { unfold fl, nm, zlen. rewrite firstn_length. destruct (24 - Z.of_nat (S k) - 2 <? Z.of_nat (length name)) eqn:E; lia. }
  assert (Fn : firstn (Z.to_nat fl) name = nm).
  { unfold fl, nm, zlen. destruct (24 - Z.of_nat (S k) - 2 <? Z.of_nat (length name)) eqn:E; [f_equal; lia|]. rewrite !firstn_all2 by lia. reflexivity. }
  assert (Ln : zlen nm <= 22 - Z.of_nat (S k)) by (unfold nm, zlen; rewrite firstn_length; lia). pose proof (zlen_nonneg nm) as Pn.
  rewrite Fn, Ef. clear fl Ef Fn.
  assert (B : exists c x, length x = S k /\ firstn (Z.to_nat (zlen nm + 1 + Z.of_nat (S k))) (nm ++ skipn (Z.to_nat (zlen nm)) junk) = nm ++ c :: x).
  { rewrite firstn_app, firstn_all2 by (unfold zlen; lia). set (r := firstn _ (skipn _ junk)).
    assert (Lr : length r = S (S k)) by (unfold r; rewrite firstn_length, skipn_length; unfold zlen in *; lia).
    destruct r as [|c x]; [discriminate Lr|]. exists c, x. cbn [length] in Lr. split; [lia|reflexivity]. }
  destruct B as (c & x & Lx & ->). set (sp := repeat 32 _).
  destruct (put_digits_ok k ln (nm ++ [c]) x sp 11 Sz Lx ltac:(lia)) as (ds & Dd & Ld & E). exists ds. split; [exact Bn|]. split; [exact Dd|]. split; [lia|].
  replace (zlen nm + 1 + Z.of_nat (S k)) with (zlen (nm ++ [c]) + zlen x) by (rewrite zlen_app; change (zlen [c]) with 1; unfold zlen; lia).
  replace ((nm ++ c :: x) ++ sp) with ((nm ++ [c]) ++ x ++ sp) by (rewrite <- !app_assoc; reflexivity). rewrite E. cbn [bind].
  rewrite zlen_app. change (zlen [c]) with 1. replace (zlen nm + 1 - 1) with (zlen nm) by lia. rewrite <- !app_assoc. cbn [app]. rewrite store_at. cbn [bind].
  assert (Lp : zlen (place name ds) = zlen nm + 1 + zlen x).
  { unfold place. rewrite Ld. fold nm. rewrite zlen_app, zlen_cons. unfold zlen. lia. }
  rewrite Lp. do 2 f_equal. unfold padded. replace (24 - length (place name ds))%nat with (Z.to_nat (24 - (zlen nm + 1 + Z.of_nat (S k)))) by (unfold zlen in *; lia).
  fold sp. unfold place. rewrite Ld. fold nm. rewrite <- app_assoc. reflexivity.
Qed.

(** ** Levels *)
Lemma starts_with_ok s p : bytes_ok s -> bytes_ok p -> (mg_str_starts_with s p = true <-> exists rest, s = p ++ rest).
Proof.
  intros Bs Bp. unfold mg_str_starts_with. destruct (zlen s <? zlen p) eqn:L.
  - split; [discriminate|]. intros (rest & ->). rewrite zlen_app in L. pose proof (zlen_nonneg rest). lia.
  - assert (Bf : bytes_ok (firstn (length p) s)) by (unfold bytes_ok in *; rewrite <- (firstn_skipn (length p) s) in Bs; apply Forall_app in Bs; exact (proj1 Bs)). pose proof (mg_strcmp_eq _ _ Bf Bp) as M. rewrite Z.eqb_eq, M. split.
    + intros E. exists (skipn (length p) s). rewrite <- E at 1. symmetry. apply firstn_skipn.
    + intros (rest & ->). rewrite firstn_app, firstn_all, Nat.sub_diag. apply app_nil_r.
Qed.
Definition ascii_entry (e : list Z * option (list Z)) : Prop := bytes_ok (fst e) /\ match snd e with Some (d :: _) => 0 <= d < 128 | _ => True end.
Lemma place_level_ok ps dflt : bytes_ok ps -> forall f fl, Forall ascii_entry (comma_all f fl) -> level_for ps dflt (comma_all f fl) (place_level f fl ps dflt).
Proof.
  intros Bp. induction f as [|f IH]; intros fl F; cbn [comma_all place_level] in *; [constructor|].
  destruct (comma_next fl) as [[[rest k] v]|]; [|constructor]. inversion F as [|? ? [F1 F1'] F2]; subst. cbn [fst snd] in *.
  destruct v as [[|d v]|].
  - apply lf_no_value; [right; reflexivity|apply IH, F2].
  - destruct (mg_str_starts_with ps k) eqn:S.
    + apply (starts_with_ok _ _ Bp F1) in S. destruct S as (r & E). unfold schar. replace (d <? 128) with true by lia. exact (lf_hit ps dflt k d v _ r E).
    + apply lf_miss; [|apply IH, F2]. intros r E. assert (T : mg_str_starts_with ps k = true) by (apply starts_with_ok; [exact Bp|exact F1|exists r; exact E]). congruence.
  - apply lf_no_value; [left; reflexivity|apply IH, F2].
Qed.
Lemma level_for_unique ps dflt l n m : level_for ps dflt l n -> level_for ps dflt l m -> n = m.
Proof.
  intros H. revert m. induction H as [|k d v l rest E|k d v l n N H IH|k v l n V H IH]; intros m G.
  - inversion G; reflexivity.
  - inversion G as [| | ? ? ? ? ? N|? ? ? ? [V|V]]; subst; try discriminate; [reflexivity|]. exfalso. exact (N rest eq_refl).
  - inversion G as [|? ? ? ? rest E| |? ? ? ? [V|V]]; subst; try discriminate; [exfalso; exact (N rest eq_refl)|]. apply IH. assumption.
  - inversion G; subst; try (destruct V; discriminate). apply IH. assumption.
Qed.
Lemma entries_length l : Forall entry_ok l -> (length l <= length (entries_src l))%nat.
Proof.
  induction 1 as [|e l He Hl IH]; [cbn; lia|]. pose proof (entry_src_nonempty e He) as N. destruct l as [|e2 l].
  - change (entries_src [e]) with (entry_src e). destruct (entry_src e); [congruence|cbn [length]; lia].
  - change (entries_src (e :: e2 :: l)) with (entry_src e ++ 44 :: entries_src (e2 :: l)). rewrite app_length. cbn [length] in *. lia.
Qed.

(** The parser terminates, stays inside the text and reports a position in it. *)
From Verif Require Import Base BaseFacts Value_Model Str_Model Str_Spec SUtil_Model SUtil_Spec SUtil_Proofs Conv_Model Json_Model Json_Spec Json_Proofs.
Ltac Zify.zify_post_hook ::= Z.div_mod_to_equations.

Definition suf (l l' : list Z) : Prop := exists pre, l = pre ++ l'.
Lemma suf_refl l : suf l l. Proof. exists []. reflexivity. Qed.
Lemma suf_trans a b c : suf a b -> suf b c -> suf a c.
Proof. intros [p ->] [q ->]. exists (p ++ q). apply app_assoc. Qed.
Lemma suf_cons c l : suf (c :: l) l. Proof. exists [c]. reflexivity. Qed.
Lemma suf_len l l' : suf l l' -> (length l' <= length l)%nat.
Proof. intros [p ->]. rewrite app_length. lia. Qed.
Lemma suf_tl l : suf l (tl l). Proof. destruct l; [apply suf_refl|apply suf_cons]. Qed.
Lemma suf_skipn n l : suf l (skipn n l). Proof. exists (firstn n l). symmetry. apply firstn_skipn. Qed.
Definition nonul (l : list Z) : Prop := Forall (fun c => c <> 0) l.
Lemma suf_nonul l l' : suf l l' -> nonul l -> nonul l'.
Proof. intros [p ->] H. apply Forall_app in H. tauto. Qed.
Lemma last_app_ne {A} (p l : list A) d : l <> [] -> last (p ++ l) d = last l d.
Proof.
  intros H. induction p as [|a p IH]; [reflexivity|]. cbn [app]. destruct (p ++ l) as [|x r] eqn:E.
  - destruct p; [cbn in E; congruence|discriminate].
  - cbn [last]. cbn [last] in IH. exact IH.
Qed.
Lemma suf_last l l' : suf l l' -> last l' 0 = 92 -> last l 0 = 92.
Proof.
  intros [p ->] H. destruct l' as [|a r]; [cbn in H; lia|]. rewrite last_app_ne by discriminate. assumption.
Qed.
Lemma skip_ws_suf l : suf l (skip_ws l).
Proof. induction l as [|c r IH]; cbn [skip_ws]; [apply suf_refl|]. destruct (j_space c); [eapply suf_trans; [apply suf_cons|exact IH]|apply suf_refl]. Qed.
Lemma skip_run_suf p l : suf l (skip_run p l).
Proof. induction l as [|c r IH]; cbn [skip_run]; [apply suf_refl|]. destruct (p c); [eapply suf_trans; [apply suf_cons|exact IH]|apply suf_refl]. Qed.

Lemma call_back_cur f e : z_cur (call_back f e) = z_cur f.
Proof. unfold call_back. destruct (_ || _); reflexivity. Qed.
Lemma call_back_path f e : z_path (call_back f e) = z_path f.
Proof. unfold call_back. destruct (_ || _); reflexivity. Qed.

(** Results of scanners. *)
Definition badrc (rc : Z) : Prop := rc = -1 \/ rc = -2.
Lemma end_or_bad_bad ch : badrc (end_or_bad ch).
Proof. unfold end_or_bad, badrc, J_INCOMPLETE, J_INVALID. destruct (ch =? -1); lia. Qed.

Lemma escape_len_range g s len : s = [] /\ g = None /\ escape_len g s len = UB \/
  exists n, escape_len g s len = OK n /\ (badrc n \/ (n = 1 \/ n = 5) /\ 2 <= len /\ (n = 5 -> 6 <= len)).
Proof.
  unfold escape_len, badrc, J_INCOMPLETE, J_INVALID.
  destruct s as [|c s]; [destruct g as [c|]; [|left; auto]|]; right; cbn [bind]; eexists; (split; [reflexivity|]).
  all: destruct (c =? 117); [destruct (len <? 6) eqn:E; [lia|]|destruct (_ || _); [destruct (len <? 2) eqn:E; lia|lia]].
  - lia.
  - destruct s as [|a [|b [|x [|y s]]]]; try lia. destruct (_ && _); lia.
Qed.

Definition sfine (g : option Z) (l : list Z) (r : R sres) : Prop :=
  match r with
  | OK (SErr e) => badrc e
  | OK (SDone tok rest) => exists pre, l = pre ++ 34 :: rest
  | UB => g = None /\ last l 0 = 92
  | _ => False
  end.
Lemma skipn_length_lt {A} k (l : list A) : (0 < k)%nat -> l <> [] -> (length (skipn k l) < length l)%nat.
Proof. intros H N. rewrite skipn_length. destruct l; [congruence|cbn [length]; lia]. Qed.
Lemma str_scan_fine g : forall fuel acc l, (length l <= fuel)%nat -> sfine g l (str_scan fuel g acc l).
Proof.
  induction fuel as [|fuel IH]; intros acc l Hl.
  - destruct l; [cbn; right; reflexivity|cbn in Hl; lia].
  - destruct l as [|ch r]; [cbn; right; reflexivity|]. cbn [str_scan]. cbv zeta.
    assert (U : 1 <= utf8_len ch) by (unfold utf8_len; repeat match goal with |- context [if ?b then _ else _] => destruct b end; lia).
    destruct (ch <? 32); [left; reflexivity|]. destruct (zlen (ch :: r) <? utf8_len ch) eqn:E; [right; reflexivity|].
    assert (REC : forall k acc', (0 < k)%nat -> sfine g (ch :: r) (str_scan fuel g acc' (skipn k (ch :: r)))).
    { intros k acc' Hk. assert (S : suf (ch :: r) (skipn k (ch :: r))) by apply suf_skipn.
      assert (L : (length (skipn k (ch :: r)) < length (ch :: r))%nat) by (apply skipn_length_lt; [assumption|discriminate]).
      specialize (IH acc' (skipn k (ch :: r)) ltac:(lia)).
      destruct (str_scan fuel g acc' (skipn k (ch :: r))) as [[e|tok rest]| | |]; cbn [sfine] in *; auto.
      - destruct IH as [pre E1]. destruct S as [p E2]. exists (p ++ pre). rewrite <- app_assoc, <- E1. exact E2.
      - split; [tauto|]. eapply suf_last; [exact S|tauto]. }
    destruct (ch =? 92) eqn:E92.
    + destruct (escape_len_range g r (zlen (ch :: r))) as [(-> & -> & ->)|(n & -> & Hn)].
      * cbn [bind sfine]. split; [reflexivity|]. cbn [last]. lia.
      * cbn [bind]. destruct (n <=? 0) eqn:E0; [cbn [sfine]; unfold badrc in *; lia|]. apply REC. lia.
    + destruct (ch =? 34) eqn:E34; [cbn [sfine]; exists []; cbn [app]; f_equal; lia|]. apply REC. lia.
Qed.

(** Results of parsing functions. *)
Definition okrc (strict : bool) (f f' : fz) : Prop :=
  suf (z_cur f) (z_cur f') /\ (strict = true -> (length (z_cur f') < length (z_cur f))%nat) /\
  (nonul (z_path f) -> nonul (z_path f')).
Definition clean (f : fz) : Prop := nonul (z_cur f) /\ nonul (z_path f).
Definition fine (strict : bool) (g : option Z) (f : fz) (r : R (fz * Z)) : Prop :=
  match r with
  | OK (f', rc) => badrc rc \/ rc = 0 /\ (clean f -> okrc strict f f') /\ suf (z_cur f) (z_cur f') /\
                   (strict = true -> (length (z_cur f') < length (z_cur f))%nat)
  | UB => clean f -> g = None /\ last (z_cur f) 0 = 92
  | _ => False
  end.
Definition pfine (strict : bool) (f : fz) (r : fz * Z) : Prop :=
  badrc (snd r) \/ snd r = 0 /\ suf (z_cur f) (z_cur (fst r)) /\ z_path (fst r) = z_path f /\
                   (strict = true -> (length (z_cur (fst r)) < length (z_cur f))%nat).
Lemma pfine_fine s g f r : pfine s f r -> fine s g f (OK r).
Proof.
  unfold pfine, fine. destruct r as [f' rc]. cbn [fst snd]. intros [B|(Z0 & S & P & L)]; [left; assumption|right].
  split; [assumption|]. split; [|auto]. intros _. repeat split; auto. rewrite P. auto.
Qed.
Lemma j_cur_eq f : j_cur f = (at_cur f (skip_ws (z_cur f)), cur_ch (skip_ws (z_cur f))). Proof. reflexivity. Qed.
Lemma test_and_skip_fine f c : 0 <= c -> pfine true f (test_and_skip f c).
Proof.
  intros Hc. unfold test_and_skip. rewrite j_cur_eq. pose proof (skip_ws_suf (z_cur f)) as S. pose proof (suf_len _ _ S) as L.
  destruct (cur_ch (skip_ws (z_cur f)) =? c) eqn:E.
  - right. cbn [fst snd z_cur at_cur]. split; [reflexivity|].
    destruct (skip_ws (z_cur f)) as [|a r]; [cbn [cur_ch] in E; lia|]. cbn [tl length] in *.
    split; [eapply suf_trans; [exact S|apply suf_cons]|]. split; [reflexivity|intros _; lia].
  - left. cbn [snd]. apply end_or_bad_bad.
Qed.
Lemma pfine_trans s1 s2 f1 f2 r : suf (z_cur f1) (z_cur f2) -> z_path f2 = z_path f1 ->
  (s1 = true -> (length (z_cur f2) < length (z_cur f1))%nat) -> pfine s2 f2 r -> pfine (s1 || s2) f1 r.
Proof.
  intros S P L [B|(Z0 & S2 & P2 & L2)]; [left; assumption|right]. split; [assumption|].
  split; [eapply suf_trans; eassumption|]. split; [congruence|].
  pose proof (suf_len _ _ S). pose proof (suf_len _ _ S2). destruct s1, s2; cbn [orb]; intros; try congruence.
  - specialize (L eq_refl). lia.
  - specialize (L eq_refl). lia.
  - specialize (L2 eq_refl). lia.
Qed.
Lemma parse_string_fine g f : fine true g f (parse_string g f).
Proof.
  unfold parse_string. pose proof (test_and_skip_fine f 34 ltac:(lia)) as T. destruct (test_and_skip f 34) as [f1 rc].
  destruct T as [B|(Z0 & S & P & L)]; cbn [fst snd] in *.
  - replace (rc <? 0) with true by (unfold badrc in B; lia). left. assumption.
  - subst rc. cbn [Z.ltb Z.compare]. pose proof (str_scan_fine g (length (z_cur f1)) [] (z_cur f1) (le_n _)) as F.
    destruct (str_scan (length (z_cur f1)) g [] (z_cur f1)) as [[e|tok rest]| | |]; cbn [bind sfine fine] in *.
    + left. assumption.
    + right. split; [reflexivity|]. destruct F as [pre F].
      assert (S2 : suf (z_cur f1) rest) by (exists (pre ++ [34]); rewrite F, <- app_assoc; reflexivity).
      cbn [at_cur z_cur]. pose proof (suf_len _ _ S). pose proof (suf_len _ _ S2). specialize (L eq_refl).
      assert (suf (z_cur f) rest) by (eapply suf_trans; eassumption).
      split; [|split; [assumption|intros _; lia]]. intros _. split; [assumption|]. split; [cbn [at_cur z_cur]; intros _; lia|].
      cbn [at_cur z_path]. rewrite call_back_path, P. auto.
    + intros _. split; [tauto|]. eapply suf_last; [exact S|tauto].
    + destruct F.
    + destruct F.
Qed.
Lemma ident_scan_split l : l = fst (ident_scan l) ++ snd (ident_scan l).
Proof.
  induction l as [|c r IH]; cbn [ident_scan]; [reflexivity|].
  destruct (_ || _); [|reflexivity]. destruct (ident_scan r) as [a b]. cbn [fst snd app] in *. f_equal. assumption.
Qed.
Lemma parse_identifier_fine f : pfine true f (parse_identifier f).
Proof.
  unfold parse_identifier. rewrite j_cur_eq. destruct (negb (j_alpha (cur_ch (skip_ws (z_cur f))))) eqn:E; [left; left; reflexivity|].
  cbn [z_cur at_cur]. pose proof (ident_scan_split (skip_ws (z_cur f))) as D.
  destruct (ident_scan (skip_ws (z_cur f))) as [a b] eqn:I. cbn [fst snd] in D.
  right. cbn [fst snd]. split; [reflexivity|]. rewrite call_back_cur, call_back_path. cbn [at_cur z_cur z_path].
  pose proof (skip_ws_suf (z_cur f)) as S. pose proof (suf_len _ _ S) as L.
  assert (S2 : suf (skip_ws (z_cur f)) b) by (exists a; assumption).
  split; [eapply suf_trans; eassumption|]. split; [reflexivity|]. intros _.
  destruct (skip_ws (z_cur f)) as [|c r]; [cbn [cur_ch] in E; discriminate|]. cbn [cur_ch] in E. cbn [ident_scan] in I.
  replace (j_alpha c) with true in I by (destruct (j_alpha c); [reflexivity|discriminate]). rewrite orb_true_r in I. cbn [orb] in I.
  destruct (ident_scan r) as [a' b']. injection I as <- <-. apply (f_equal (@length Z)) in D. rewrite app_length in D. cbn [length] in *. lia.
Qed.
Definition nfine (strict : bool) (l : list Z) (r : nres) : Prop :=
  match r with NErr e => badrc e | NDone rest => suf l rest /\ (strict = true -> (length rest < length l)%nat) end.
Lemma need_run_fine p l : nfine true l (need_run p l).
Proof.
  destruct l as [|c r]; [right; reflexivity|]. cbn [need_run]. destruct (p c) eqn:E; [|left; reflexivity]. cbn [nfine].
  split; [apply skip_run_suf|]. intros _. cbn [skip_run]. rewrite E. pose proof (suf_len _ _ (skip_run_suf p r)). cbn [length]. lia.
Qed.
Lemma nfine_weak s l r : nfine s l r -> nfine false l r.
Proof. destruct r; [auto|]. cbn [nfine]. intros [S _]. split; [assumption|discriminate]. Qed.
Lemma nfine_pre s l l' r : suf l l' -> nfine s l' r -> nfine s l r.
Proof.
  intros S. destruct r; [auto|]. cbn [nfine]. intros [S2 L]. split; [eapply suf_trans; eassumption|].
  intros H. specialize (L H). pose proof (suf_len _ _ S). lia.
Qed.
Lemma nbind_fine s l r k : nfine s l r -> (forall l', suf l l' -> nfine false l' (k l')) -> nfine s l (nbind r k).
Proof.
  destruct r as [e|l']; [intros; assumption|]. cbn [nfine nbind]. intros [S L] H. specialize (H l' S).
  destruct (k l') as [e|rest]; [assumption|]. cbn [nfine] in *. destruct H as [S2 _]. split; [eapply suf_trans; eassumption|].
  intros Hs. specialize (L Hs). pose proof (suf_len _ _ S2). lia.
Qed.
Lemma num_frac_fine l : nfine false l (num_frac l).
Proof.
  destruct l as [|c r]; cbn [num_frac]; [split; [apply suf_refl|discriminate]|]. destruct (c =? 46).
  - eapply nfine_pre; [apply suf_cons|]. eapply nfine_weak. apply need_run_fine.
  - split; [apply suf_refl|discriminate].
Qed.
Lemma num_exp_fine l : nfine false l (num_exp l).
Proof.
  destruct l as [|c r]; cbn [num_exp]; [split; [apply suf_refl|discriminate]|]. destruct (_ || _); [|split; [apply suf_refl|discriminate]].
  destruct r as [|x r]; [right; reflexivity|]. eapply nfine_weak. destruct (_ || _).
  - eapply nfine_pre; [|apply need_run_fine]. exists [c; x]. reflexivity.
  - eapply nfine_pre; [|apply need_run_fine]. apply suf_cons.
Qed.
Lemma num_dec_fine l : nfine true l (nbind (need_run j_digit l) (fun l => nbind (num_frac l) num_exp)).
Proof.
  apply nbind_fine; [apply need_run_fine|]. intros l' _. apply nbind_fine; [apply num_frac_fine|]. intros; apply num_exp_fine.
Qed.
Lemma num_scan_fine l : nfine true l (num_scan l).
Proof.
  unfold num_scan. set (l1 := match l with c :: r => if c =? 45 then r else l | [] => l end).
  assert (S : suf l l1) by (unfold l1; destruct l as [|c r]; [apply suf_refl|destruct (c =? 45); [apply suf_cons|apply suf_refl]]).
  eapply nfine_pre; [exact S|]. clearbody l1. destruct l1 as [|z [|x r]]; try apply num_dec_fine.
  destruct (_ && _); [|apply num_dec_fine]. eapply nfine_pre; [|apply need_run_fine]. exists [z; x]. reflexivity.
Qed.
Lemma parse_number_fine f : pfine true f (parse_number f).
Proof.
  unfold parse_number. rewrite j_cur_eq. cbn [at_cur z_cur]. pose proof (num_scan_fine (skip_ws (z_cur f))) as N.
  pose proof (skip_ws_suf (z_cur f)) as S. pose proof (suf_len _ _ S) as L.
  destruct (num_scan (skip_ws (z_cur f))) as [e|rest]; [left; exact N|]. destruct N as [S2 L2]. specialize (L2 eq_refl).
  right. cbn [fst snd]. rewrite call_back_cur, call_back_path. cbn [at_cur z_cur z_path].
  split; [reflexivity|]. split; [eapply suf_trans; eassumption|]. split; [reflexivity|intros _; lia].
Qed.
Lemma expect_scan_fine s : forall l, nfine (negb (match s with [] => true | _ => false end)) l (expect_scan l s).
Proof.
  induction s as [|c s IH]; intros l.
  - destruct l; cbn [expect_scan negb]; split; try apply suf_refl; discriminate.
  - destruct l as [|d l]; [right; reflexivity|]. cbn [expect_scan negb]. destruct (d =? c); [|left; reflexivity]. specialize (IH l).
    destruct (expect_scan l s) as [e|rest]; [assumption|]. destruct IH as [S _]. cbn [nfine].
    split; [eapply suf_trans; [apply suf_cons|exact S]|]. intros _. pose proof (suf_len _ _ S). cbn [length]. lia.
Qed.
Lemma j_expect_fine f c s e : pfine true f (j_expect f (c :: s) e).
Proof.
  unfold j_expect. pose proof (expect_scan_fine (c :: s) (z_cur f)) as N. destruct (expect_scan (z_cur f) (c :: s)) as [rc|rest].
  - left. exact N.
  - destruct N as [S L]. right. cbn [fst snd]. rewrite call_back_cur, call_back_path. cbn [at_cur z_cur z_path]. auto.
Qed.
Lemma fine_trans s1 s2 g f1 f2 r : suf (z_cur f1) (z_cur f2) -> (s1 = true -> (length (z_cur f2) < length (z_cur f1))%nat) ->
  (clean f1 -> nonul (z_path f2)) -> fine s2 g f2 r -> fine (s1 || s2) g f1 r.
Proof.
  intros S L1 P. destruct r as [[f' rc]| | |]; cbn [fine]; auto.
  - intros [B|(Z0 & C & S2 & L2)]; [left; assumption|right]. split; [assumption|].
    assert (S3 : suf (z_cur f1) (z_cur f')) by (eapply suf_trans; eassumption).
    assert (L3 : s1 || s2 = true -> (length (z_cur f') < length (z_cur f1))%nat).
    { pose proof (suf_len _ _ S). pose proof (suf_len _ _ S2). intros H1. apply orb_true_iff in H1.
      destruct H1 as [H1|H1]; [specialize (L1 H1)|specialize (L2 H1)]; lia. }
    split; [|auto]. intros C1. split; [assumption|]. split; [assumption|]. intros _.
    apply C; [split; [eapply suf_nonul; [exact S|apply C1]|auto]|auto].
  - intros H C1. destruct H as [H1 H2]; [split; [eapply suf_nonul; [exact S|apply C1]|auto]|]. split; [assumption|].
    eapply suf_last; [exact S|exact H2].
Qed.
Lemma fine_ws s g f r : fine s g (at_cur f (skip_ws (z_cur f))) r -> fine s g f r.
Proof.
  intros H. apply (fine_trans false s g f (at_cur f (skip_ws (z_cur f)))); [apply skip_ws_suf|discriminate| |exact H].
  intros C. apply C.
Qed.
Lemma fine_bind s s' g f m k : fine s g f m ->
  (forall f', suf (z_cur f) (z_cur f') -> (s = true -> (length (z_cur f') < length (z_cur f))%nat) ->
     (clean f -> nonul (z_path f')) -> fine s' g f' (k f')) ->
  fine (s || s') g f ('(f', rc) <- m ;; if rc <? 0 then OK (f', rc) else k f').
Proof.
  intros Hm Hk. destruct m as [[f' rc]| | |]; cbn [bind fine] in *; auto.
  destruct Hm as [B|(-> & C & S & L)].
  - replace (rc <? 0) with true by (unfold badrc in B; lia). left. assumption.
  - cbn [Z.ltb Z.compare]. assert (P : clean f -> nonul (z_path f')) by (intros C1; apply C; [assumption|apply C1]).
    eapply fine_trans; [exact S|exact L|exact P|]. apply Hk; assumption.
Qed.
Lemma fine_let s s' g f m k : pfine s f m ->
  (forall f', suf (z_cur f) (z_cur f') -> (s = true -> (length (z_cur f') < length (z_cur f))%nat) ->
     z_path f' = z_path f -> fine s' g f' (k f')) ->
  fine (s || s') g f (let '(f', rc) := m in if rc <? 0 then OK (f', rc) else k f').
Proof.
  intros Hm Hk. destruct m as [f' rc]. destruct Hm as [B|(Z0 & S & P & L)]; cbn [fst snd] in *.
  - replace (rc <? 0) with true by (unfold badrc in B; lia). left. assumption.
  - subst rc. cbn [Z.ltb Z.compare]. eapply fine_trans; [exact S|exact L| |apply Hk; assumption]. rewrite P. intros C. apply C.
Qed.
Lemma parse_key_fine g f : fine true g f (parse_key g f).
Proof.
  unfold parse_key. rewrite j_cur_eq. apply fine_ws.
  destruct (j_alpha _); [apply pfine_fine; apply parse_identifier_fine|].
  destruct (_ =? 34); [apply parse_string_fine|]. left. apply end_or_bad_bad.
Qed.

(** Names. *)
Lemma firstn_nonul n l : nonul l -> nonul (firstn n l).
Proof. intros H. rewrite <- (firstn_skipn n l) in H. apply Forall_app in H. tauto. Qed.
Lemma sub_nonul l a n : nonul l -> nonul (sub l a n).
Proof. intros H. unfold sub. apply firstn_nonul. eapply suf_nonul; [apply suf_skipn|exact H]. Qed.
Lemma key_name_nonul tok rest : nonul tok -> nonul (key_name tok rest).
Proof.
  intros H. unfold key_name. destruct tok as [|c r]; [constructor|]. destruct (c =? 34); apply sub_nonul; assumption.
Qed.
Lemma append_path_nonul f s : nonul (z_path f) -> nonul s -> nonul (z_path (append_path f s)).
Proof.
  intros H1 H2. unfold append_path, with_path. cbn [z_path]. apply Forall_app. split; [assumption|]. apply firstn_nonul. assumption.
Qed.
Lemma dec_text_ok i : 0 <= i < 2 ^ 63 -> exists d, dec_text i = OK d /\ numeral 10 i d /\ (length d <= 64)%nat.
Proof.
  intros H. unfold dec_text. destruct (itoa_digits_spec 10 ltac:(lia) 64%nat i) as (ds & -> & N & L); [|lia|].
  - split; [lia|]. eapply Z.lt_le_trans; [apply H|]. vm_compute. discriminate.
  - cbn [bind]. exists (rev ds). rewrite rev_length. auto.
Qed.
Lemma until_nul_id l : nonul l -> until_nul l = l.
Proof. induction 1 as [|c l Hc _ IH]; cbn [until_nul]; [reflexivity|]. replace (c =? 0) with false by lia. rewrite IH. reflexivity. Qed.

Lemma fine_weak s g f r : fine s g f r -> fine false g f r.
Proof.
  destruct r as [[f' rc]| | |]; cbn [fine]; auto. intros [B|(Z0 & C & S & L)]; [left; assumption|right].
  split; [assumption|]. split; [|split; [assumption|discriminate]]. intros C1. destruct (C C1) as (A1 & A2 & A3).
  split; [assumption|]. split; [discriminate|assumption].
Qed.
Lemma elem_buf_ok i : 0 <= i < 2 ^ 63 -> exists b, elem_buf i = OK b /\ nonul b /\ (length b <= 66)%nat.
Proof.
  intros H. destruct (dec_text_ok i H) as (d & E & (_ & N & _) & L). unfold elem_buf. rewrite E. cbn [bind]. eexists. split; [reflexivity|].
  split.
  - constructor; [lia|]. apply Forall_app. split; [|repeat constructor; lia].
    eapply Forall_impl; [|exact N]. intros c [[X|X] _]; lia.
  - cbn [length]. rewrite app_length. cbn [length]. lia.
Qed.
Lemma elem_name_fine f b : nonul (z_path f) -> nonul b -> (length b <= 66)%nat -> exists nm, elem_name (z_path (append_path f b)) b = OK nm.
Proof.
  intros P N L. unfold elem_name. rewrite until_nul_id by (apply append_path_nonul; assumption).
  unfold append_path, with_path. cbn [z_path]. unfold zlen. rewrite app_length, firstn_length.
  destruct (_ <? 0) eqn:E; [|eauto]. exfalso. unfold zlen in E. lia.
Qed.
Lemma skip_comma_suf f : suf (z_cur f) (z_cur (skip_comma f)) /\ z_path (skip_comma f) = z_path f.
Proof.
  unfold skip_comma. rewrite j_cur_eq. pose proof (skip_ws_suf (z_cur f)). destruct (_ =? 44); cbn [at_cur z_cur z_path].
  - split; [|reflexivity]. eapply suf_trans; [eassumption|apply suf_tl].
  - auto.
Qed.
Lemma truncate_cur f n : z_cur (truncate_path f n) = z_cur f. Proof. reflexivity. Qed.
Lemma truncate_nonul f n : nonul (z_path f) -> nonul (z_path (truncate_path f n)).
Proof. intros H. unfold truncate_path, with_path. cbn [z_path]. apply firstn_nonul. assumption. Qed.

Lemma parse_fine g : forall n,
  (forall f, (2 * length (z_cur f) + 1 <= n)%nat -> zlen (z_cur f) < 2 ^ 31 -> fine true g f (parse_value n g f)) /\
  (forall i f, (2 * length (z_cur f) + 2 <= n)%nat -> 0 <= i -> i + zlen (z_cur f) < 2 ^ 31 -> fine false g f (arr_loop n g i f)) /\
  (forall f, (2 * length (z_cur f) + 2 <= n)%nat -> zlen (z_cur f) < 2 ^ 31 -> fine false g f (obj_loop n g f)).
Proof.
  induction n as [|n (IHv & IHa & IHo)]; [split; [|split]; intros; lia|]. split; [|split].
  - intros f Hn Hz. cbn [parse_value]. rewrite j_cur_eq. apply fine_ws.
    set (f0 := at_cur f (skip_ws (z_cur f))). set (ch := cur_ch (skip_ws (z_cur f))).
    assert (L0 : (length (z_cur f0) <= length (z_cur f))%nat) by (apply suf_len; apply skip_ws_suf). clearbody f0 ch.
    assert (CLOSE : forall b plen e f1, 0 <= b -> fine true g f1
       (let '(f, rc) := test_and_skip f1 b in if rc <? 0 then OK (f, rc) else OK (call_back (truncate_path f plen) e, 0))).
    { intros b plen e f1 Hb. apply (fine_let true false g f1 (test_and_skip f1 b) (fun f => OK (call_back (truncate_path f plen) e, 0))).
      - apply test_and_skip_fine. assumption.
      - intros f' S L P. right. split; [reflexivity|]. unfold okrc. rewrite call_back_cur, call_back_path, truncate_cur.
        split; [|split; [apply suf_refl|discriminate]]. intros _. split; [apply suf_refl|]. split; [discriminate|apply truncate_nonul]. }
    destruct (ch =? 34); [apply parse_string_fine|].
    destruct (ch =? 123).
    { apply (fine_trans false true g f0 (call_back f0 EvObj)); [rewrite call_back_cur; apply suf_refl|discriminate|rewrite call_back_path; intros C; apply C|].
      apply (fine_let true true g (call_back f0 EvObj) (test_and_skip (call_back f0 EvObj) 123)
        (fun f => let plen := length (z_path f) in
        '(f, rc) <- obj_loop n g (append_path f [46]) ;;
        if rc <? 0 then OK (f, rc)
        else
          let '(f, rc) := test_and_skip f 125 in
          if rc <? 0 then OK (f, rc)
          else OK (call_back (truncate_path f plen) (fun _ => EvObjEnd), 0))); [apply test_and_skip_fine; lia|].
      intros f1 S L P. rewrite call_back_cur in L. specialize (L eq_refl). cbv zeta.
      apply (fine_trans false true g f1 (append_path f1 [46])); [apply suf_refl|discriminate| |].
      { intros C. apply append_path_nonul; [apply C|repeat constructor; lia]. }
      apply (fine_bind false true g (append_path f1 [46]) (obj_loop n g (append_path f1 [46]))
        (fun f => let '(f, rc) := test_and_skip f 125 in
          if rc <? 0 then OK (f, rc)
          else OK (call_back (truncate_path f (length (z_path f1))) (fun _ => EvObjEnd), 0))).
      - apply IHo; unfold zlen in *; cbn [append_path with_path z_cur]; lia.
      - intros f2 S2 L2 P2. apply CLOSE. lia. }
    destruct (ch =? 91).
    { apply (fine_trans false true g f0 (call_back f0 EvArr)); [rewrite call_back_cur; apply suf_refl|discriminate|rewrite call_back_path; intros C; apply C|].
      apply (fine_let true true g (call_back f0 EvArr) (test_and_skip (call_back f0 EvArr) 91)
        (fun f => let plen := length (z_path f) in
        '(f, rc) <- arr_loop n g 0 f ;;
        if rc <? 0 then OK (f, rc)
        else
          let '(f, rc) := test_and_skip f 93 in
          if rc <? 0 then OK (f, rc)
          else OK (call_back (truncate_path f plen) (fun _ => EvArrEnd), 0))); [apply test_and_skip_fine; lia|].
      intros f1 S L P. rewrite call_back_cur in L. specialize (L eq_refl). cbv zeta.
      apply (fine_bind false true g f1 (arr_loop n g 0 f1)
        (fun f => let '(f, rc) := test_and_skip f 93 in
          if rc <? 0 then OK (f, rc)
          else OK (call_back (truncate_path f (length (z_path f1))) (fun _ => EvArrEnd), 0))).
      - apply IHa; unfold zlen in *; lia.
      - intros f2 S2 L2 P2. apply CLOSE. lia. }
    destruct (ch =? 110); [apply pfine_fine; apply j_expect_fine|].
    destruct (ch =? 116); [apply pfine_fine; apply j_expect_fine|].
    destruct (ch =? 102); [apply pfine_fine; apply j_expect_fine|].
    destruct (_ || _); [apply pfine_fine; apply parse_number_fine|]. left. apply end_or_bad_bad.
  - intros i f Hn Hi Hz. cbn [arr_loop]. rewrite j_cur_eq. apply fine_ws.
    set (f0 := at_cur f (skip_ws (z_cur f))). set (ch := cur_ch (skip_ws (z_cur f))).
    assert (L0 : (length (z_cur f0) <= length (z_cur f))%nat) by (apply suf_len; apply skip_ws_suf). clearbody f0 ch.
    destruct (ch =? 93).
    { right. split; [reflexivity|]. unfold okrc. split; [|split; [apply suf_refl|discriminate]].
      intros _. split; [apply suf_refl|]. split; [discriminate|auto]. }
    destruct (elem_buf_ok i) as (b & -> & Nb & Lb); [unfold zlen in *; lia|]. cbn [bind]. cbv zeta.
    destruct (elem_name (z_path (append_path f0 b)) b) as [nm| | |] eqn:EN; cbn [bind].
    + apply (fine_trans false false g f0 (with_name (append_path f0 b) nm)); [apply suf_refl|discriminate| |].
      { intros C. apply (append_path_nonul f0 b); [apply C|assumption]. }
      eapply fine_weak.
      apply (fine_bind true false g (with_name (append_path f0 b) nm) (parse_value n g (with_name (append_path f0 b) nm))
        (fun f => arr_loop n g (i + 1) (skip_comma (truncate_path f (length (z_path f0)))))).
      * apply IHv; cbn [with_name append_path with_path z_cur]; unfold zlen in *; lia.
      * intros f' S L P. specialize (L eq_refl). cbn [with_name append_path with_path z_cur] in L.
        destruct (skip_comma_suf (truncate_path f' (length (z_path f0)))) as [SC PC]. rewrite truncate_cur in SC.
        pose proof (suf_len _ _ SC) as LC.
        eapply (fine_trans false false); [exact SC|discriminate|rewrite PC; intros C; apply truncate_nonul; apply C|].
        apply IHa; unfold zlen in *; lia.
    + intros C. destruct (elem_name_fine f0 b) as [nm E]; [apply C|assumption|assumption|]. congruence.
    + unfold elem_name in EN. destruct (_ <? 0); discriminate.
    + unfold elem_name in EN. destruct (_ <? 0); discriminate.
  - intros f Hn Hz. cbn [obj_loop]. rewrite j_cur_eq. apply fine_ws.
    set (f0 := at_cur f (skip_ws (z_cur f))). set (ch := cur_ch (skip_ws (z_cur f))).
    assert (L0 : (length (z_cur f0) <= length (z_cur f))%nat) by (apply suf_len; apply skip_ws_suf). clearbody f0 ch.
    destruct (ch =? 125).
    { right. split; [reflexivity|]. unfold okrc. split; [|split; [apply suf_refl|discriminate]].
      intros _. split; [apply suf_refl|]. split; [discriminate|auto]. }
    cbv zeta.
    apply fine_weak with (s := true).
    assert (K : forall f1, suf (z_cur f0) (z_cur f1) -> (length (z_cur f1) < length (z_cur f0))%nat ->
      (clean f0 -> nonul (z_path f1)) -> clean f0 -> nonul (key_name (z_cur f0) (z_cur f1))).
    { intros f1 _ _ _ C. apply key_name_nonul. apply C. }
    (* the key name is NUL-free only when the text is: keep that fact in the state *)
    destruct (parse_key g f0) as [[f1 rc]| | |] eqn:EK; pose proof (parse_key_fine g f0) as FK; rewrite EK in FK; cbn [bind].
    2: { exact FK. } 2: { destruct FK. } 2: { destruct FK. }
    cbn [fine] in FK. destruct FK as [B|(-> & C & S & L)].
    { replace (rc <? 0) with true by (unfold badrc in B; lia). left. assumption. }
    specialize (L eq_refl). cbn [Z.ltb Z.compare].
    set (nm := key_name (z_cur f0) (z_cur f1)).
    apply (fine_trans true false g f0 (append_path (with_name f1 nm) nm)); [exact S|intros _; exact L| |].
    { intros C1. apply append_path_nonul; [apply C; [assumption|apply C1]|apply key_name_nonul; apply C1]. }
    set (f2 := append_path (with_name f1 nm) nm).
    assert (L2 : length (z_cur f2) = length (z_cur f1)) by reflexivity. clearbody f2.
    apply fine_weak with (s := true).
    apply (fine_let true false g f2 (test_and_skip f2 58) (fun f =>
          '(f, rc) <- parse_value n g f ;;
          if rc <? 0 then OK (f, rc)
          else obj_loop n g (skip_comma (truncate_path f (length (z_path f1)))))); [apply test_and_skip_fine; lia|].
    intros f3 S3 L3 P3. specialize (L3 eq_refl). apply fine_weak with (s := true).
    apply (fine_bind true false g f3 (parse_value n g f3) (fun f => obj_loop n g (skip_comma (truncate_path f (length (z_path f1)))))).
    + apply IHv; unfold zlen in *; lia.
    + intros f' S' L' P'. specialize (L' eq_refl).
      destruct (skip_comma_suf (truncate_path f' (length (z_path f1)))) as [SC PC]. rewrite truncate_cur in SC.
      pose proof (suf_len _ _ SC) as LC.
      eapply (fine_trans false false); [exact SC|discriminate|rewrite PC; intros C1; apply truncate_nonul; apply C1|].
      apply IHo; unfold zlen in *; lia.
Qed.

(** The byte after the text matters only when it is read. *)
Lemma escape_len_guard g s len n : escape_len None s len = OK n -> escape_len g s len = OK n.
Proof. destruct s; [discriminate|exact (fun H => H)]. Qed.
Lemma str_scan_guard g : forall fuel acc l r, str_scan fuel None acc l = OK r -> str_scan fuel g acc l = OK r.
Proof.
  induction fuel as [|fuel IH]; intros acc l r; [destruct l; cbn [str_scan]; auto|].
  destruct l as [|ch l]; [cbn [str_scan]; auto|]. cbn [str_scan]. cbv zeta.
  destruct (ch <? 32); [auto|]. destruct (_ <? _); [auto|]. destruct (ch =? 92).
  - destruct (escape_len None l (zlen (ch :: l))) as [n| | |] eqn:E; try discriminate. rewrite (escape_len_guard g _ _ _ E). cbn [bind].
    destruct (n <=? 0); [auto|apply IH].
  - destruct (ch =? 34); [auto|apply IH].
Qed.
Lemma parse_string_guard g f r : parse_string None f = OK r -> parse_string g f = OK r.
Proof.
  unfold parse_string. destruct (test_and_skip f 34) as [f1 rc]. destruct (rc <? 0); [auto|].
  destruct (str_scan (length (z_cur f1)) None [] (z_cur f1)) as [s| | |] eqn:E; try discriminate.
  rewrite (str_scan_guard g _ _ _ _ E). auto.
Qed.
Lemma parse_key_guard g f r : parse_key None f = OK r -> parse_key g f = OK r.
Proof.
  unfold parse_key. destruct (j_cur f) as [f1 ch]. destruct (j_alpha ch); [auto|]. destruct (ch =? 34); [apply parse_string_guard|auto].
Qed.
Lemma parse_guard g : forall n,
  (forall f r, parse_value n None f = OK r -> parse_value n g f = OK r) /\
  (forall i f r, arr_loop n None i f = OK r -> arr_loop n g i f = OK r) /\
  (forall f r, obj_loop n None f = OK r -> obj_loop n g f = OK r).
Proof.
  induction n as [|n (IHv & IHa & IHo)]; [split; [|split]; discriminate|]. split; [|split].
  - intros f r. cbn [parse_value]. destruct (j_cur f) as [f0 ch].
    destruct (ch =? 34); [apply parse_string_guard|]. destruct (ch =? 123).
    { cbv zeta. destruct (test_and_skip (call_back f0 EvObj) 123) as [f1 rc]. destruct (rc <? 0); [auto|].
      destruct (obj_loop n None (append_path f1 [46])) as [x| | |] eqn:E; try discriminate. rewrite (IHo _ _ E). auto. }
    destruct (ch =? 91).
    { cbv zeta. destruct (test_and_skip (call_back f0 EvArr) 91) as [f1 rc]. destruct (rc <? 0); [auto|].
      destruct (arr_loop n None 0 f1) as [x| | |] eqn:E; try discriminate. rewrite (IHa _ _ _ E). auto. }
    auto.
  - intros i f r. cbn [arr_loop]. destruct (j_cur f) as [f0 ch]. destruct (ch =? 93); [auto|].
    destruct (elem_buf i) as [b| | |]; try discriminate. cbn [bind]. cbv zeta.
    destruct (elem_name (z_path (append_path f0 b)) b) as [nm| | |]; try discriminate. cbn [bind].
    destruct (parse_value n None (with_name (append_path f0 b) nm)) as [[f1 rc]| | |] eqn:E; try discriminate.
    rewrite (IHv _ _ E). cbn [bind]. destruct (rc <? 0); [auto|apply IHa].
  - intros f r. cbn [obj_loop]. destruct (j_cur f) as [f0 ch]. destruct (ch =? 125); [auto|]. cbv zeta.
    destruct (parse_key None f0) as [[f1 rc]| | |] eqn:E; try discriminate. rewrite (parse_key_guard g _ _ E). cbn [bind].
    destruct (rc <? 0); [auto|].
    destruct (test_and_skip (append_path (with_name f1 (key_name (z_cur f0) (z_cur f1))) (key_name (z_cur f0) (z_cur f1))) 58) as [f2 rc2].
    destruct (rc2 <? 0); [auto|].
    destruct (parse_value n None f2) as [[f3 rc3]| | |] eqn:E3; try discriminate. rewrite (IHv _ _ E3). cbn [bind].
    destruct (rc3 <? 0); [auto|apply IHo].
Qed.

(** json_walk. *)
Lemma walk_total g txt : nonul txt -> zlen txt < 2 ^ 31 -> (g = None -> last txt 0 <> 92) ->
  exists evs rc, json_walk g txt = OK (evs, rc) /\ (rc = -1 \/ rc = -2 \/ 0 < rc <= zlen txt).
Proof.
  intros N Z0 G. unfold json_walk. destruct txt as [|c t] eqn:ET; [exists [], (-2); split; [reflexivity|auto]|].
  rewrite <- ET in *. destruct (parse_fine g (walk_fuel txt)) as (V & _ & _).
  specialize (V (fz_init txt)). cbn [fz_init z_cur] in V. specialize (V ltac:(unfold walk_fuel; lia) Z0).
  destruct (parse_value (walk_fuel txt) g (fz_init txt)) as [[f rc]| | |]; cbn [fine bind] in *.
  - destruct V as [B|(-> & _ & S & L)].
    + exists (z_ev f), rc. unfold badrc in B. replace (rc <? 0) with true by lia. split; [reflexivity|lia].
    + cbn [Z.ltb Z.compare]. exists (z_ev f), (zlen txt - zlen (z_cur f)). split; [reflexivity|]. specialize (L eq_refl).
      cbn [fz_init z_cur] in L. unfold zlen. lia.
  - exfalso. destruct V as [A B]; [split; [exact N|constructor]|]. apply (G A). exact B.
  - destruct V.
  - destruct V.
Qed.
Lemma walk_guard g txt r : json_walk None txt = OK r -> json_walk g txt = OK r.
Proof.
  unfold json_walk. destruct txt as [|c t] eqn:ET; [auto|]. rewrite <- ET. destruct (parse_guard g (walk_fuel txt)) as (V & _ & _).
  destruct (parse_value (walk_fuel txt) None (fz_init txt)) as [x| | |] eqn:E; try discriminate. rewrite (V _ _ E). auto.
Qed.

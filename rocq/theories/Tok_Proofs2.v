From Verif Require Import Base BaseFacts Str_Model TokNum_Model Num_Model Txt_Model Tok_Model Tok_Spec Tok_Proofs.

(** Identifiers *)
Lemma ident_char_spec c : is_ident c || is_digit c = true <-> ident_char c.
Proof. unfold is_ident, is_digit, is_alpha, ident_char, letter. lia. Qed.
Lemma ident_len_le p : (ident_len p <= length p)%nat.
Proof. induction p as [|c p IH]; cbn [ident_len length]; [lia|]. destruct (is_ident c || is_digit c); lia. Qed.
Lemma ident_len_spec p : whole_ident p (firstn (ident_len p) p).
Proof.
  induction p as [|c p (r & E & F & N)]; cbn [ident_len firstn].
  - exists []. split; [reflexivity|]. split; [constructor|discriminate].
  - destruct (is_ident c || is_digit c) eqn:Q.
    + cbn [firstn]. exists r. split; [cbn; congruence|]. split; [constructor; [apply ident_char_spec; exact Q|exact F]|exact N].
    + cbn [firstn]. exists (c :: p). split; [reflexivity|]. split; [constructor|].
      intros c' r' H I. assert (c' = c) by congruence. subst c'. apply ident_char_spec in I. congruence.
Qed.
Lemma whole_ident_unique p w w' : whole_ident p w -> whole_ident p w' -> w = w'.
Proof.
  revert p w'. induction w as [|c w IH]; intros p w' (r & E & F & N) (r' & E' & F' & N').
  - destruct w' as [|c' w']; [reflexivity|]. exfalso. cbn in E. subst p. apply (N c' (w' ++ r')); [exact E'|].
    inversion F'; assumption.
  - destruct w' as [|c' w'].
    + exfalso. cbn in E'. subst p. apply (N' c (w ++ r)); [symmetry; exact E'|]. inversion F; assumption.
    + subst p. cbn [app] in E'. injection E' as E1 E2. subst c'. f_equal.
      apply (IH (w ++ r)).
      * exists r. split; [reflexivity|]. split; [inversion F; assumption|exact N].
      * exists r'. split; [exact E2|]. split; [inversion F'; assumption|exact N'].
Qed.

Definition keyword_tok (w : list Z) : Z :=
  match find (fun k => bytes_eqb (fst k) w) keywords with Some (_, n) => n | None => TOK_IDENT end.
Lemma keyword_tok_in w n : In (w, n) keywords -> keyword_tok w = n.
Proof.
  intros H. unfold keywords in H. cbn [map In] in H.
  repeat (destruct H as [H|H]; [match type of H with (bs ?s, ?k) = _ => assert (w = bs s) by congruence; assert (n = k) by congruence; subst w n; vm_compute; reflexivity end|]).
  destruct H.
Qed.
Lemma keyword_tok_notin w : (forall n, ~ In (w, n) keywords) -> keyword_tok w = TOK_IDENT.
Proof.
  intros H. unfold keyword_tok. destruct (find _ keywords) as [[x n]|] eqn:E; [|reflexivity].
  apply find_some in E as [E1 E2]. cbn [fst] in E2. apply bytes_eqb_eq in E2. subst x. destruct (H n E1).
Qed.
Lemma word_index_find ws : forall w i t, 0 <= i ->
  map snd t = map (fun k => TOK_IDENT + 1 + i + Z.of_nat k) (seq 0 (length ws)) -> map fst t = ws ->
  TOK_IDENT + word_index ws w i = match find (fun k => bytes_eqb (fst k) w) t with Some (_, n) => n | None => TOK_IDENT end.
Proof.
  induction ws as [|x ws IH]; intros w i t Hi Hs Hf.
  - destruct t; [|discriminate Hf]. cbn. lia.
  - destruct t as [|[x' n] t]; [discriminate Hf|]. cbn [map fst snd length seq] in Hs, Hf.
    assert (x' = x) by congruence. subst x'. cbn [word_index find fst].
    destruct (bytes_eqb x w) eqn:E.
    + assert (n = TOK_IDENT + 1 + i + Z.of_nat 0) by congruence. lia.
    + apply IH; [lia| |congruence].
      assert (Hs' : map snd t = map (fun k => TOK_IDENT + 1 + i + Z.of_nat k) (seq 1 (length ws))) by congruence.
      rewrite Hs'. rewrite <- seq_shift, map_map. apply map_ext. intros. lia.
Qed.
Lemma reserved_spec w : TOK_IDENT + is_reserved_word_token w = keyword_tok w.
Proof.
  unfold is_reserved_word_token, keyword_tok. destruct w as [|c w].
  - vm_compute. reflexivity.
  - destruct (is_alpha c) eqn:E.
    + apply word_index_find; [lia| |]; vm_compute; reflexivity.
    + destruct (find _ keywords) as [[x n]|] eqn:F; [|lia]. exfalso. apply find_some in F as [F1 F2]. cbn [fst] in F2.
      apply bytes_eqb_eq in F2. subst x.
      assert (A : forallb (fun k => match fst k with b :: _ => is_alpha b | [] => false end) keywords = true) by (vm_compute; reflexivity).
      rewrite forallb_forall in A. specialize (A _ F1). cbn [fst] in A. congruence.
Qed.

(** Strings and numbers stay inside the source. *)
Lemma str_len_le q p : (str_len q p <= length p)%nat.
Proof.
  assert (H : forall n p, (length p <= n)%nat -> (str_len q p <= length p)%nat); [|apply (H (length p)); lia].
  intros n. clear p. induction n as [|n IH]; intros p Hp; (destruct p as [|c p]; [cbn; lia|]); [cbn in Hp; lia|].
  cbn [str_len length] in *. destruct (c =? q); [lia|]. destruct p as [|e p]; [cbn; lia|].
  destruct ((c =? 92) && ((e =? q) || in_set "bfnrtv\" e)).
  - cbn [length] in *. specialize (IH p ltac:(lia)). lia.
  - specialize (IH (e :: p) ltac:(lia)). lia.
Qed.

Lemma dec_run_le p : forall acc k, (k <= snd (dec_run p acc k) <= k + length p)%nat.
Proof.
  induction p as [|c p IH]; intros acc k; cbn [dec_run length]; [cbn; lia|]. destruct (is_digit c); [|cbn; lia].
  specialize (IH (acc * 10 + (c - 48)) (S k)). lia.
Qed.
Lemma hex_run_le p : forall acc k, (k <= snd (hex_run p acc k) <= k + length p)%nat.
Proof.
  induction p as [|c p IH]; intros acc k; cbn [hex_run length]; [cbn; lia|]. destruct (hex_digit c); [|cbn; lia].
  specialize (IH (acc * 16 + z) (S k)). lia.
Qed.
Lemma exp_part_le a b p : (snd (exp_part a b p) <= length p)%nat.
Proof.
  unfold exp_part. destruct p as [|c r]; [cbn; lia|]. destruct ((c =? a) || (c =? b)); [|cbn; lia].
  destruct r as [|s r'].
  - cbn. lia.
  - destruct (s =? 45); [|destruct (s =? 43)].
    + pose proof (dec_run_le r' 0 0%nat). destruct (dec_run r' 0 0%nat) as [n [|d]]; cbn [snd length] in *; lia.
    + pose proof (dec_run_le r' 0 0%nat). destruct (dec_run r' 0 0%nat) as [n [|d]]; cbn [snd length] in *; lia.
    + pose proof (dec_run_le (s :: r') 0 0%nat). destruct (dec_run (s :: r') 0 0%nat) as [n [|d]]; cbn [snd length] in *; lia.
Qed.
Lemma strtod_dec_le c p : is_digit c = true -> (1 <= snd (strtod_dec (c :: p)) <= length (c :: p))%nat.
Proof.
  intros D. unfold strtod_dec.
  assert (K : (1 <= snd (dec_run (c :: p) 0 0%nat) <= length (c :: p))%nat).
  { cbn [dec_run]. rewrite D. pose proof (dec_run_le p (0 * 10 + (c - 48)) 1%nat). cbn [length]. lia. }
  destruct (dec_run (c :: p) 0 0%nat) as [m k]. cbn [snd] in K.
  set (q := c :: p) in *.
  assert (S1 : forall x r, skipn k q = x :: r -> (k + 1 + length r = length q)%nat).
  { intros x r E. pose proof (skipn_length k q) as L. rewrite E in L. cbn [length] in L. lia. }
  destruct (skipn k q) as [|x r] eqn:E.
  - pose proof (exp_part_le 101 69 (skipn k q)) as L. rewrite skipn_length in L.
    destruct (exp_part 101 69 (skipn k q)) as [e k2]. cbn [snd] in *. lia.
  - specialize (S1 x r eq_refl). destruct (x =? 46).
    + pose proof (dec_run_le r m 0%nat) as L. destruct (dec_run r m 0%nat) as [m1 d]. cbn [snd] in L.
      pose proof (exp_part_le 101 69 (skipn (k + 1 + d) q)) as L2. rewrite skipn_length in L2.
      destruct (exp_part 101 69 (skipn (k + 1 + d) q)) as [e k2]. cbn [snd] in *. lia.
    + pose proof (exp_part_le 101 69 (skipn k q)) as L. rewrite skipn_length in L.
      destruct (exp_part 101 69 (skipn k q)) as [e k2]. cbn [snd] in *. lia.
Qed.
Lemma strtod_hex_le z x p : (1 <= snd (strtod_hex (z :: x :: p)) <= length (z :: x :: p))%nat.
Proof.
  unfold strtod_hex. cbn [skipn].
  pose proof (hex_run_le p 0 0%nat) as K. destruct (hex_run p 0 0%nat) as [m k]. cbn [snd] in K.
  assert (S1 : forall x r, skipn k p = x :: r -> (k + 1 + length r = length p)%nat).
  { intros y r E. pose proof (skipn_length k p) as L. rewrite E in L. cbn [length] in L. lia. }
  destruct (skipn k p) as [|y r] eqn:E.
  - pose proof (exp_part_le 112 80 (skipn k p)) as L. rewrite skipn_length in L.
    destruct (exp_part 112 80 (skipn k p)) as [e k2]. cbn [snd length] in *. lia.
  - specialize (S1 y r eq_refl). destruct (y =? 46).
    + pose proof (hex_run_le r m 0%nat) as L. destruct (hex_run r m 0%nat) as [m1 d]. cbn [snd] in L.
      pose proof (exp_part_le 112 80 (skipn (k + 1 + d) p)) as L2. rewrite skipn_length in L2.
      destruct (exp_part 112 80 (skipn (k + 1 + d) p)) as [e k2]. cbn [snd length] in *. lia.
    + pose proof (exp_part_le 112 80 (skipn k p)) as L. rewrite skipn_length in L.
      destruct (exp_part 112 80 (skipn k p)) as [e k2]. cbn [snd length] in *. lia.
Qed.
Lemma strtod_le c p : is_digit c = true -> (1 <= snd (strtod (c :: p)) <= length (c :: p))%nat.
Proof.
  intros D. unfold strtod. destruct p as [|x [|d r]]; try (apply strtod_dec_le; exact D).
  destruct (_ && _ && _); [apply strtod_hex_le|apply strtod_dec_le; exact D].
Qed.
Lemma ul16_le neg p k : (snd (ul16_digits neg p k) <= k + length p)%nat.
Proof.
  assert (G : forall r j, (j + length r <= k + length p)%nat ->
    (snd (let '(n, d) := hex_run r 0 0%nat in match d with O => (0%Z, 0%nat) | S _ => (ul_value neg n, (j + d)%nat) end) <= k + length p)%nat).
  { intros r j H. pose proof (hex_run_le r 0 0%nat). destruct (hex_run r 0 0%nat) as [n [|d]]; cbn [snd] in *; lia. }
  unfold ul16_digits. destruct p as [|z [|x [|c r]]]; try (apply G; cbn [length] in *; lia).
  destruct (_ && _ && _); apply G; cbn [length] in *; lia.
Qed.
Lemma strtoul16_le p : forall k, (snd (strtoul16_at p k) <= k + length p)%nat.
Proof.
  induction p as [|c p IH]; intros k; cbn [strtoul16_at]; [cbn; lia|].
  destruct (is_space c); [specialize (IH (S k)); cbn [length]; lia|].
  destruct (c =? 45); [pose proof (ul16_le true p (S k)); cbn [length]; lia|].
  destruct (c =? 43); [pose proof (ul16_le false p (S k)); cbn [length]; lia|]. apply ul16_le.
Qed.
Lemma getnum_ok c p : is_digit c = true -> exists n, getnum (c :: p) = OK n /\ (1 <= n <= length (c :: p))%nat.
Proof.
  intros D. unfold getnum. rewrite pk_0. cbn [bind]. destruct (c =? 48) eqn:E.
  - rewrite pk_S, pk_0. cbn [bind]. destruct p as [|x p].
    + cbn [Z.eqb]. eexists; split; [reflexivity|]. apply strtod_le. exact D.
    + destruct (x =? 120).
      * eexists; split; [reflexivity|]. cbn [skipn length]. pose proof (strtoul16_le p 0%nat). unfold strtoul16. lia.
      * eexists; split; [reflexivity|]. apply strtod_le. exact D.
  - cbn [bind]. eexists; split; [reflexivity|]. apply strtod_le. exact D.
Qed.

(** Operators *)
Fixpoint strip (o p : list Z) : option (list Z) :=
  match o, p with
  | [], _ => Some p
  | a :: o, b :: p => if a =? b then strip o p else None
  | _, [] => None
  end.
Lemma strip_app o : forall r, strip o (o ++ r) = Some r.
Proof. induction o; intros; cbn [strip app]; [reflexivity|]. rewrite Z.eqb_refl. apply IHo. Qed.
(** The characters that extend an operator to a longer one. *)
Definition exts (o : list Z) : list Z :=
  flat_map (fun q => match strip o (fst q) with Some (x :: _) => [x] | _ => [] end) operators.
Lemma longest_intro o n rest : In (o, n) operators ->
  (forall b r, rest = b :: r -> ~ In b (exts o)) -> longest_operator (o ++ rest) o n.
Proof.
  intros I N. split; [exact I|]. split; [exists rest; reflexivity|].
  intros o' n' I' [r E]. destruct (le_lt_dec (length o') (length o)) as [L|L]; [exact L|exfalso].
  assert (X : o' = o ++ skipn (length o) o').
  { rewrite <- (firstn_skipn (length o) o') at 1. f_equal.
    assert (Q : firstn (length o) (o ++ rest) = firstn (length o) (o' ++ r)) by congruence.
    rewrite !firstn_app in Q. replace (length o - length o')%nat with 0%nat in Q by lia.
    rewrite Nat.sub_diag, !firstn_O, !app_nil_r, firstn_all in Q. congruence. }
  destruct (skipn (length o) o') as [|x y] eqn:Y.
  - rewrite app_nil_r in X. subst o'. lia.
  - rewrite X, <- app_assoc in E. apply app_inv_head in E. apply (N x (y ++ r)); [exact E|].
    unfold exts. apply in_flat_map. exists (o', n'). split; [exact I'|]. cbn [fst]. rewrite X, strip_app. left. reflexivity.
Qed.

Definition op_good (p : list Z) : Prop :=
  exists t o rest, operator p = OK (t, (length o - 1)%nat) /\ p = o ++ rest /\ o <> [] /\ longest_operator p o (ptranslate t).
Ltac in_ops := vm_compute; repeat first [left; reflexivity|right].
Lemma first_skip m l : m = OK (TOK_EOF, 0%nat) -> first_tok (m :: l) = first_tok l.
Proof. intros ->. reflexivity. Qed.
Lemma first_hit m l t k : m = OK (t, k) -> t =? TOK_EOF = false -> first_tok (m :: l) = OK (t, k).
Proof. intros -> H. cbn [first_tok bind]. rewrite H. reflexivity. Qed.
Lemma operator_via p t k : first_tok
    [longtok3 p 60 60 61; longtok3 p 62 62 61; longtok4 p 62 62 62 61; longtok3 p 62 62 62;
     longtok3 p 61 61 61; longtok3 p 33 61 61; longtok p "&" "&="; longtok p "|" "|=";
     longtok p "<" "<="; longtok p ">" ">="; longtok p "-" "-="; longtok p "+" "+=";
     longtok p "^~+-%/*<>=!|&" "="] = OK (t, k) -> t =? TOK_EOF = false -> operator p = OK (t, k).
Proof. intros E H. unfold operator. rewrite E. cbn [bind]. rewrite H. reflexivity. Qed.
Lemma lt_no c0 p f s : in_set f c0 || (c0 =? 0) = false -> longtok (c0 :: p) f s = OK (TOK_EOF, 0%nat).
Proof. intros H. unfold longtok. rewrite pk_0. cbn [bind]. rewrite H. reflexivity. Qed.
Lemma lt_one c0 b p f s : in_set f c0 = true -> in_set s b = false -> longtok (c0 :: b :: p) f s = OK (c0, 0%nat).
Proof. intros H1 H2. unfold longtok. rewrite pk_S, !pk_0. cbn [bind]. rewrite H1, H2, andb_false_r. reflexivity. Qed.
Lemma l3_1 c0 p a b c : c0 =? a = false -> longtok3 (c0 :: p) a b c = OK (TOK_EOF, 0%nat).
Proof. intros H. unfold longtok3. rewrite pk_0. cbn [bind]. rewrite H. reflexivity. Qed.
Lemma l3_2 c0 c1 p a b c : c1 =? b = false -> longtok3 (c0 :: c1 :: p) a b c = OK (TOK_EOF, 0%nat).
Proof. intros H. unfold longtok3. rewrite !pk_S, !pk_0. cbn [bind]. rewrite H. destruct (c0 =? a); reflexivity. Qed.
Lemma l3_3 c0 c1 c2 p a b c : c2 =? c = false -> longtok3 (c0 :: c1 :: c2 :: p) a b c = OK (TOK_EOF, 0%nat).
Proof. intros H. unfold longtok3. rewrite !pk_S, !pk_0. cbn [bind]. rewrite H. destruct (c0 =? a), (c1 =? b); reflexivity. Qed.
Lemma l4_1 c0 p a b c d : c0 =? a = false -> longtok4 (c0 :: p) a b c d = OK (TOK_EOF, 0%nat).
Proof. intros H. unfold longtok4. rewrite pk_0. cbn [bind]. rewrite H. reflexivity. Qed.
Lemma l4_2 c0 c1 p a b c d : c1 =? b = false -> longtok4 (c0 :: c1 :: p) a b c d = OK (TOK_EOF, 0%nat).
Proof. intros H. unfold longtok4. rewrite !pk_S, !pk_0. cbn [bind]. rewrite H. destruct (c0 =? a); reflexivity. Qed.
Lemma l4_3 c0 c1 c2 p a b c d : c2 =? c = false -> longtok4 (c0 :: c1 :: c2 :: p) a b c d = OK (TOK_EOF, 0%nat).
Proof. intros H. unfold longtok4. rewrite !pk_S, !pk_0. cbn [bind]. rewrite H. destruct (c0 =? a), (c1 =? b); reflexivity. Qed.
Lemma l4_4 c0 c1 c2 c3 p a b c d : c3 =? d = false -> longtok4 (c0 :: c1 :: c2 :: c3 :: p) a b c d = OK (TOK_EOF, 0%nat).
Proof. intros H. unfold longtok4. rewrite !pk_S, !pk_0. cbn [bind]. rewrite H. destruct (c0 =? a), (c1 =? b), (c2 =? c); reflexivity. Qed.
Ltac known := solve [assumption | reflexivity].
Ltac not_set := unfold in_set; match goal with |- existsb _ ?l = _ => let x := eval vm_compute in l in change l with x end;
  cbn [existsb]; repeat match goal with H : Z.eqb _ _ = false |- _ => rewrite ?H; clear H end; reflexivity.
Ltac ev := first
  [ apply lt_no; solve [reflexivity] | apply lt_one; [solve [reflexivity]|solve [not_set]]
  | apply l3_1; known | apply l3_2; known | apply l3_3; known | apply l4_1; known | apply l4_2; known | apply l4_3; known | apply l4_4; known
  | match goal with |- longtok3 _ _ _ _ = _ => idtac | |- longtok4 _ _ _ _ _ = _ => idtac | |- longtok _ _ _ = _ => idtac end;
    solve [vm_compute; reflexivity] ].
Ltac op_run o rest := eexists _, o, rest; split;
  [eapply operator_via; [repeat first [rewrite first_skip by ev | eapply first_hit; [solve [ev]|vm_compute; reflexivity]]|vm_compute; reflexivity]
  |split; [reflexivity|split; [discriminate|]]];
  apply (longest_intro o _ rest); [in_ops|].
Ltac not_in := let b := fresh in let r := fresh in let E := fresh in let I := fresh in
  intros b r E I;
  first [discriminate E | injection E as E _; subst b; vm_compute in I; repeat (destruct I as [I|I]; [lia|]); exact I
  | vm_compute in I; exact I].
Ltac is_char b k := let H := fresh "N" in destruct (b =? k) eqn:H; [apply Z.eqb_eq in H; subst b|].
Ltac op_next b p T := destruct p as [|b p];
  [|apply c_text_cons in T as [? T]; assert (b =? 0 = false) by lia].
Lemma op_good_94 p : c_text p -> op_good (94 :: p).
Proof. intros T. op_next b0 p T; [op_run [94] (@nil Z); not_in|]. is_char b0 61; [op_run [94; 61] p; not_in|]. op_run [94] (b0 :: p); not_in. Qed.
Lemma op_good_37 p : c_text p -> op_good (37 :: p).
Proof. intros T. op_next b0 p T; [op_run [37] (@nil Z); not_in|]. is_char b0 61; [op_run [37; 61] p; not_in|]. op_run [37] (b0 :: p); not_in. Qed.
Lemma op_good_47 p : c_text p -> op_good (47 :: p).
Proof. intros T. op_next b0 p T; [op_run [47] (@nil Z); not_in|]. is_char b0 61; [op_run [47; 61] p; not_in|]. op_run [47] (b0 :: p); not_in. Qed.
Lemma op_good_42 p : c_text p -> op_good (42 :: p).
Proof. intros T. op_next b0 p T; [op_run [42] (@nil Z); not_in|]. is_char b0 61; [op_run [42; 61] p; not_in|]. op_run [42] (b0 :: p); not_in. Qed.
Lemma op_good_126 p : c_text p -> (forall r, p <> 61 :: r) -> op_good (126 :: p).
Proof. intros T. intros N. op_next b p T; [op_run [126] (@nil Z); not_in|]. is_char b 61; [destruct (N p eq_refl)|]. op_run [126] (b :: p); not_in. Qed.
Lemma op_good_38 p : c_text p -> op_good (38 :: p).
Proof. intros T. op_next b0 p T; [op_run [38] (@nil Z); not_in|]. is_char b0 38; [op_run [38; 38] p; not_in|]. is_char b0 61; [op_run [38; 61] p; not_in|]. op_run [38] (b0 :: p); not_in. Qed.
Lemma op_good_124 p : c_text p -> op_good (124 :: p).
Proof. intros T. op_next b0 p T; [op_run [124] (@nil Z); not_in|]. is_char b0 124; [op_run [124; 124] p; not_in|]. is_char b0 61; [op_run [124; 61] p; not_in|]. op_run [124] (b0 :: p); not_in. Qed.
Lemma op_good_45 p : c_text p -> op_good (45 :: p).
Proof. intros T. op_next b0 p T; [op_run [45] (@nil Z); not_in|]. is_char b0 45; [op_run [45; 45] p; not_in|]. is_char b0 61; [op_run [45; 61] p; not_in|]. op_run [45] (b0 :: p); not_in. Qed.
Lemma op_good_43 p : c_text p -> op_good (43 :: p).
Proof. intros T. op_next b0 p T; [op_run [43] (@nil Z); not_in|]. is_char b0 43; [op_run [43; 43] p; not_in|]. is_char b0 61; [op_run [43; 61] p; not_in|]. op_run [43] (b0 :: p); not_in. Qed.
Lemma op_good_61 p : c_text p -> op_good (61 :: p).
Proof. intros T. op_next b0 p T; [op_run [61] (@nil Z); not_in|]. is_char b0 61; [op_next b1 p T; [op_run [61; 61] (@nil Z); not_in|is_char b1 61; [op_run [61; 61; 61] p; not_in|op_run [61; 61] (b1 :: p); not_in]]|]. op_run [61] (b0 :: p); not_in. Qed.
Lemma op_good_33 p : c_text p -> op_good (33 :: p).
Proof. intros T. op_next b0 p T; [op_run [33] (@nil Z); not_in|]. is_char b0 61; [op_next b1 p T; [op_run [33; 61] (@nil Z); not_in|is_char b1 61; [op_run [33; 61; 61] p; not_in|op_run [33; 61] (b1 :: p); not_in]]|]. op_run [33] (b0 :: p); not_in. Qed.
Lemma op_good_60 p : c_text p -> op_good (60 :: p).
Proof. intros T. op_next b0 p T; [op_run [60] (@nil Z); not_in|]. is_char b0 61; [op_run [60; 61] p; not_in|]. is_char b0 60; [op_next b1 p T; [op_run [60; 60] (@nil Z); not_in|is_char b1 61; [op_run [60; 60; 61] p; not_in|op_run [60; 60] (b1 :: p); not_in]]|]. op_run [60] (b0 :: p); not_in. Qed.
Lemma op_good_62 p : c_text p -> op_good (62 :: p).
Proof. intros T. op_next b0 p T; [op_run [62] (@nil Z); not_in|]. is_char b0 61; [op_run [62; 61] p; not_in|]. is_char b0 62; [op_next b1 p T; [op_run [62; 62] (@nil Z); not_in|is_char b1 61; [op_run [62; 62; 61] p; not_in|is_char b1 62; [op_next b2 p T; [op_run [62; 62; 62] (@nil Z); not_in|is_char b2 61; [op_run [62; 62; 62; 61] p; not_in|op_run [62; 62; 62] (b2 :: p); not_in]]|op_run [62; 62] (b1 :: p); not_in]]]|]. op_run [62] (b0 :: p); not_in. Qed.

Definition op_char (c : Z) : bool := in_set "^~+-%/*<>=!|&" c.
Lemma op_good_all c p : c_text p -> op_char c = true -> ~ starts [126; 61] (c :: p) -> op_good (c :: p).
Proof.
  intros T H N. unfold op_char, in_set in H. apply existsb_exists in H as (x & H & E). apply Z.eqb_eq in E. subst x.
  cbn in H.
  destruct H as [<-|H]; [apply op_good_94; exact T|].
  destruct H as [<-|H]; [apply op_good_126; [exact T|intros r ->; apply N; exists r; reflexivity]|].
  destruct H as [<-|H]; [apply op_good_43; exact T|].
  destruct H as [<-|H]; [apply op_good_45; exact T|].
  destruct H as [<-|H]; [apply op_good_37; exact T|].
  destruct H as [<-|H]; [apply op_good_47; exact T|].
  destruct H as [<-|H]; [apply op_good_42; exact T|].
  destruct H as [<-|H]; [apply op_good_60; exact T|].
  destruct H as [<-|H]; [apply op_good_62; exact T|].
  destruct H as [<-|H]; [apply op_good_61; exact T|].
  destruct H as [<-|H]; [apply op_good_33; exact T|].
  destruct H as [<-|H]; [apply op_good_124; exact T|].
  destruct H as [<-|H]; [apply op_good_38; exact T|].
  destruct H.
Qed.
Lemma not_op_char c : op_char c = false -> forall k, In k (bs "^~+-%/*<>=!|&") -> c <> k.
Proof.
  intros H k I ->. unfold op_char, in_set in H.
  assert (existsb (Z.eqb k) (bs "^~+-%/*<>=!|&") = true); [|congruence].
  apply existsb_exists. exists k. split; [exact I|apply Z.eqb_refl].
Qed.
Lemma operator_other c p : c <> 0 -> op_char c = false -> operator (c :: p) = OK (TOK_INVALID, 0%nat).
Proof.
  intros Z H. pose proof (not_op_char c H) as N.
  assert (forall k, In k (bs "^~+-%/*<>=!|&") -> (c =? k) = false) as N'.
  { intros k I. apply Z.eqb_neq. apply N. exact I. }
  unfold operator, longtok3, longtok4, longtok. rewrite !pk_0. cbn [bind].
  rewrite !(N' 60), !(N' 62), !(N' 61), !(N' 33) by (cbn; tauto). cbn [negb bind].
  assert (Z0 : (c =? 0) = false) by lia. 
  unfold first_tok. cbn [bind]. change (TOK_EOF =? TOK_EOF) with true. cbn iota.
  assert (S1 : forall s, (forall k, In k (bs s) -> In k (bs "^~+-%/*<>=!|&")) -> in_set s c = false).
  { intros s Hs. unfold in_set. destruct (existsb _ _) eqn:E; [|reflexivity]. apply existsb_exists in E as (x & E1 & E2).
    specialize (N' x (Hs x E1)). congruence. }
  rewrite !S1 by (intros k K; cbn in K |- *; tauto). rewrite Z0. cbn [orb negb bind].
  change (TOK_EOF =? TOK_EOF) with true. cbn iota. reflexivity.
Qed.
Lemma tilda_assign p : operator (126 :: 61 :: p) = OK (DT 126 61, 1%nat).
Proof. vm_compute. reflexivity. Qed.

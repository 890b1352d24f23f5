From Verif Require Import Base BaseFacts Str_Model TokNum_Model Num_Model Txt_Model Tok_Model Tok_Spec Tok_Proofs Tok_Proofs2.

Lemma escapable_spec q e : (e =? q) || in_set "bfnrtv\" e = true <-> escapable q e.
Proof.
  unfold escapable, in_set. rewrite orb_true_iff, existsb_exists, Z.eqb_eq. split.
  - intros [H|(x & H & E)]; [left; exact H|right]. apply Z.eqb_eq in E. subst x. exact H.
  - intros [H|H]; [left; exact H|right]. exists e. split; [exact H|apply Z.eqb_refl].
Qed.
Lemma str_len_spec q (Q : q = 34 \/ q = 39) : forall n p, (length p <= n)%nat ->
  str_body q (firstn (str_len q p) p) (skipn (str_len q p) p).
Proof.
  induction n as [|n IH]; intros p L; (destruct p as [|c p]; [apply sb_nil; discriminate|]); [cbn in L; lia|].
  cbn [length] in L. cbn [str_len]. destruct (c =? q) eqn:E.
  - cbn [firstn skipn]. apply sb_nil. intros x r H. assert (x = c) by congruence. lia.
  - destruct p as [|e p].
    + cbn [firstn skipn]. apply sb_char; [lia|cbn; discriminate|apply sb_nil; discriminate].
    + destruct ((c =? 92) && ((e =? q) || in_set "bfnrtv\" e)) eqn:X.
      * apply andb_true_iff in X as [X1 X2]. apply Z.eqb_eq in X1. subst c. cbn [firstn skipn].
        apply sb_esc; [lia|apply escapable_spec; exact X2|]. apply IH. cbn in L. lia.
      * cbn [firstn skipn]. apply sb_char; [lia| |apply (IH (e :: p)); lia].
        intros -> e' r H K. rewrite firstn_skipn in H. assert (e' = e) by congruence. subst e'.
        apply escapable_spec in K. rewrite K in X. cbn in X. discriminate X.
Qed.
Lemma str_body_close q l x rest : str_body q l (x :: rest) -> x = q.
Proof.
  remember (x :: rest) as z eqn:Z. intros H. induction H; subst; auto. eapply H. reflexivity.
Qed.
Lemma ptr_keyword w : ptranslate (keyword_tok w) = keyword_tok w.
Proof.
  unfold keyword_tok. destruct (find _ keywords) as [[x n]|] eqn:F; [|reflexivity].
  apply find_some in F as [F _].
  assert (A : forallb (fun k => ptranslate (snd k) =? snd k) keywords = true) by (vm_compute; reflexivity).
  rewrite forallb_forall in A. specialize (A _ F). cbn [snd] in A. lia.
Qed.
Lemma keyword_cases w : In (w, keyword_tok w) keywords \/ (forall m, ~ In (w, m) keywords) /\ keyword_tok w = TOK_IDENT.
Proof.
  unfold keyword_tok. destruct (find _ keywords) as [[x n]|] eqn:F.
  - left. apply find_some in F as [F E]. cbn [fst] in E. apply bytes_eqb_eq in E. subst x. exact F.
  - right. split; [|reflexivity]. intros m I. pose proof (find_none _ _ F _ I) as N. cbn [fst] in N.
    rewrite bytes_eqb_refl in N. discriminate N.
Qed.
Lemma punct_spec c rest : in_set ",.:;{}[]()?" c = true -> longest_operator (c :: rest) [c] (ptranslate c).
Proof.
  intros H. unfold in_set in H. apply existsb_exists in H as (x & H & E). apply Z.eqb_eq in E. subst x.
  apply (longest_intro [c] _ rest).
  - cbn in H. repeat (destruct H as [<-|H]; [vm_compute; repeat first [left; reflexivity|right]|]). destruct H.
  - intros b r _. assert (exts [c] = []) as ->; [|intros []].
    cbn in H. repeat (destruct H as [<-|H]; [vm_compute; reflexivity|]). destruct H.
Qed.
Lemma op_heads : forallb (fun q => match fst q with c :: _ => op_char c || in_set ",.:;{}[]()?" c | [] => false end) operators = true.
Proof. vm_compute. reflexivity. Qed.
Lemma no_op c p o n : op_char c = false -> in_set ",.:;{}[]()?" c = false -> In (o, n) operators -> ~ starts o (c :: p).
Proof.
  intros H1 H2 I [r E]. pose proof op_heads as A. rewrite forallb_forall in A. specialize (A _ I). cbn [fst] in A.
  destruct o as [|x o]; [discriminate A|]. assert (x = c) by (cbn in E; congruence). subst x. rewrite H1, H2 in A. discriminate A.
Qed.

Lemma split_at (p : list Z) n : (n <= length p)%nat -> p = firstn n p ++ skipn n p /\ length (firstn n p) = n.
Proof. intros H. split; [symmetry; apply firstn_skipn|apply firstn_length_le; exact H]. Qed.

(** The step after blanks have been skipped. *)
Definition scan (p : list Z) : R (Z * Z * list Z * nat) :=
  c0 <- pk p 0 ;;
  (if c0 =? 0 then OK (TOK_EOF, 1, p, 0%nat)
     else if is_digit c0 then
       n <- getnum p ;;
       match n with O => UB | S n' => OK (TOK_NUM, Z.of_nat n, p, n') end
     else if (c0 =? 39) || (c0 =? 34) then
       let k := str_len c0 (skipn 1 p) in
       OK (TOK_STR, Z.of_nat k, skipn 1 p, S k)
     else if is_ident c0 then
       let k := ident_len p in
       match k with
       | O => UB
       | S k' => OK (TOK_IDENT + is_reserved_word_token (firstn k p), Z.of_nat k, p, k')
       end
     else if in_set ",.:;{}[]()?" c0 then OK (c0, 1, p, 0%nat)
     else '(t, k) <- operator p ;; OK (t, 1 + Z.of_nat k, p, k)).
Definition finish (line prev : Z) (p : list Z) (x : Z * Z * list Z * nat) : R tstate :=
  let '(tok, len, ptr, adv) := x in
  let p1 := skipn adv p in
  c <- pk p1 0 ;;
  OK {| t_pos := if negb (c =? 0) then skipn 1 p1 else p1; t_line := line;
        t_tok := ptranslate tok; t_len := len; t_ptr := ptr; t_prev := prev |}.
Lemma pnext_eq s : pnext s =
  ('(line, p) <- skip_loop (S (length (t_pos s))) (t_line s) (t_pos s) ;;
   x <- scan p ;; finish line (t_tok s) p x).
Proof.
  unfold pnext. destruct (skip_loop _ _ _) as [[line p]| | |]; cbn [bind]; try reflexivity.
  unfold scan. destruct (pk p 0); cbn [bind]; try reflexivity.
Qed.

Lemma finish_ok line prev p tok len ptr lex rest adv : c_text p -> p = lex ++ rest -> length lex = S adv ->
  finish line prev p (tok, len, ptr, adv) =
  OK {| t_pos := rest; t_line := line; t_tok := ptranslate tok; t_len := len; t_ptr := ptr; t_prev := prev |}.
Proof.
  intros T -> L. unfold finish.
  assert (exists c, skipn adv (lex ++ rest) = c :: rest) as [c E].
  { rewrite skipn_app, L. replace (adv - length lex)%nat with 0%nat by lia.
    pose proof (skipn_length adv lex) as K. destruct (skipn adv lex) as [|c [|d l]]; cbn [length] in K; try lia.
    exists c. replace (adv - S adv)%nat with 0%nat by lia. reflexivity. }
  rewrite E, pk_0. cbn [bind].
  assert (c <> 0).
  { assert (I : In c (lex ++ rest)). { rewrite <- (firstn_skipn adv (lex ++ rest)), E. apply in_or_app. right. left. reflexivity. }
    unfold c_text in T. rewrite Forall_forall in T. specialize (T _ I). lia. }
  assert (c =? 0 = false) as -> by lia. reflexivity.
Qed.

(** What [pnext] makes of a text that is not blank at its start. *)
Lemma scan_spec line prev p : c_text p -> p <> [] ->
  exists lex rest s' body, (x <- scan p ;; finish line prev p x) = OK s' /\ p = lex ++ rest /\ lex <> [] /\
    t_pos s' = rest /\ t_line s' = line /\ t_prev s' = prev /\ token lex rest (t_tok s') body /\
    t_len s' = zlen body /\ (exists q1 q2, lex = q1 ++ body ++ q2 /\ t_ptr s' = body ++ q2 ++ rest).
Proof.
  intros T Hn. destruct p as [|c p]; [congruence|]. clear Hn.
  pose proof T as T'. apply c_text_cons in T' as [Tc Tp].
  unfold scan. rewrite pk_0. cbn [bind]. assert (c =? 0 = false) as -> by lia.
  destruct (is_digit c) eqn:D.
  { destruct (getnum_ok c p D) as (n & -> & L). cbn [bind]. destruct n as [|n']; [lia|]. cbn [bind].
    destruct (split_at (c :: p) (S n') ltac:(lia)) as [E L'].
    eexists (firstn (S n') (c :: p)), (skipn (S n') (c :: p)), _, (firstn (S n') (c :: p)).
    split; [apply finish_ok with (lex := firstn (S n') (c :: p)); [exact T|exact E|exact L']|].
    split; [exact E|]. split; [discriminate|]. cbn [t_pos t_line t_prev t_tok t_len t_ptr]. do 3 (split; [reflexivity|]).
    split; [change (ptranslate TOK_NUM) with TOK_NUM; cbn [firstn]; eapply tk_num; [reflexivity|unfold is_digit in D; lia]|].
    split; [unfold zlen; rewrite L'; reflexivity|]. exists [], []. rewrite !app_nil_r. split; [reflexivity|exact E]. }
  destruct ((c =? 39) || (c =? 34)) eqn:Q.
  { assert (Q' : c = 34 \/ c = 39) by lia. cbn [skipn bind].
    pose proof (str_len_le c p) as L. pose proof (str_len_spec c Q' (length p) p (le_n _)) as SB.
    set (k := str_len c p) in *. destruct (skipn k p) as [|q rest] eqn:E.
    - assert (K : firstn k p = p). { rewrite <- (firstn_skipn k p) at 2. rewrite E, app_nil_r. reflexivity. }
      rewrite K in SB. assert (KL : k = length p). { rewrite <- K at 1. rewrite firstn_length_le by lia. reflexivity. }
      eexists (c :: p), [], _, p. split.
      { unfold finish. rewrite KL. cbn [skipn]. rewrite skipn_all. rewrite pk_0. cbn [bind]. reflexivity. }
      cbn [t_pos t_line t_prev t_tok t_len t_ptr]. rewrite app_nil_r. split; [reflexivity|]. split; [discriminate|].
      cbn [Z.eqb negb]. do 3 (split; [reflexivity|]).
      split; [change (ptranslate TOK_STR) with TOK_STR; eapply tk_str_open; [exact Q'|reflexivity|reflexivity|exact SB]|].
      split; [unfold zlen; reflexivity|]. exists [c], []. rewrite !app_nil_r. split; reflexivity.
    - pose proof (str_body_close _ _ _ _ SB) as ->.
      assert (EE : c :: p = (c :: firstn k p ++ [c]) ++ rest).
      { rewrite <- (firstn_skipn k p) at 1. rewrite E. cbn [app]. rewrite <- app_assoc. reflexivity. }
      eexists (c :: firstn k p ++ [c]), rest, _, (firstn k p). split.
      { apply finish_ok with (lex := c :: firstn k p ++ [c]); [exact T|exact EE|].
        cbn [length]. rewrite app_length, firstn_length_le by lia. cbn. lia. }
      split; [exact EE|]. split; [discriminate|]. cbn [t_pos t_line t_prev t_tok t_len t_ptr]. do 3 (split; [reflexivity|]).
      split; [change (ptranslate TOK_STR) with TOK_STR; eapply tk_str; [exact Q'|reflexivity|exact SB]|].
      split; [unfold zlen; rewrite firstn_length_le by lia; reflexivity|].
      exists [c], [c]. split; [reflexivity|]. cbn [app]. rewrite <- E. symmetry. apply firstn_skipn. }
  destruct (is_ident c) eqn:I.
  { pose proof (ident_len_le (c :: p)) as L. pose proof (ident_len_spec (c :: p)) as W.
    assert (exists k', ident_len (c :: p) = S k') as [k' K].
    { cbn [ident_len]. rewrite I. cbn [orb]. eexists. reflexivity. }
    rewrite K in *. cbn [bind].
    destruct (split_at (c :: p) (S k') L) as [E L'].
    eexists (firstn (S k') (c :: p)), (skipn (S k') (c :: p)), _, (firstn (S k') (c :: p)).
    split; [apply finish_ok with (lex := firstn (S k') (c :: p)); [exact T|exact E|exact L']|].
    split; [exact E|]. split; [discriminate|]. cbn [t_pos t_line t_prev t_tok t_len t_ptr]. do 3 (split; [reflexivity|]).
    split.
    { rewrite reserved_spec, ptr_keyword. eapply tk_word; [reflexivity| | |apply keyword_cases].
      - unfold is_ident, is_alpha in I. unfold letter. lia.
      - rewrite firstn_skipn. exact W. }
    split; [unfold zlen; rewrite L'; reflexivity|]. exists [], []. rewrite !app_nil_r. split; [reflexivity|exact E]. }
  destruct (in_set ",.:;{}[]()?" c) eqn:P.
  { cbn [bind]. eexists [c], p, _, [c]. split; [apply finish_ok with (lex := [c]); [exact T|reflexivity|reflexivity]|].
    split; [reflexivity|]. split; [discriminate|]. cbn [t_pos t_line t_prev t_tok t_len t_ptr]. do 3 (split; [reflexivity|]).
    split; [apply tk_op; apply punct_spec; exact P|]. split; [reflexivity|]. exists [], []. split; reflexivity. }
  destruct (op_char c) eqn:O.
  { destruct (list_eq_dec Z.eq_dec (firstn 2 (c :: p)) [126; 61]) as [Y|Y].
    - assert (exists r, c :: p = [126; 61] ++ r) as [r E].
      { exists (skipn 2 (c :: p)). rewrite <- Y. symmetry. apply firstn_skipn. }
      cbn [app] in E. rewrite E in *. assert (c = 126) by congruence. subst c.
      rewrite tilda_assign. cbn [bind]. eexists [126; 61], r, _, [126; 61].
      split; [apply finish_ok with (lex := [126; 61]); [exact T|reflexivity|reflexivity]|].
      split; [reflexivity|]. split; [discriminate|]. cbn [t_pos t_line t_prev t_tok t_len t_ptr]. do 3 (split; [reflexivity|]).
      split; [apply tk_tilda; reflexivity|]. split; [reflexivity|]. exists [], []. split; reflexivity.
    - destruct (op_good_all c p Tp O) as (t & o & rest & E & Ep & No & Lo).
      { intros [r E]. apply Y. rewrite E. reflexivity. }
      rewrite E. cbn [bind]. eexists o, rest, _, o.
      assert (Lo' : length o = S (length o - 1)) by (destruct o; [congruence|cbn; lia]).
      split; [apply finish_ok with (lex := o); [exact T|exact Ep|exact Lo']|].
      split; [exact Ep|]. split; [exact No|]. cbn [t_pos t_line t_prev t_tok t_len t_ptr]. do 3 (split; [reflexivity|]).
      split; [apply tk_op; rewrite <- Ep; exact Lo|]. split; [unfold zlen; lia|]. exists [], []. rewrite !app_nil_r. split; [reflexivity|exact Ep]. }
  rewrite operator_other by (try assumption; lia). cbn [bind]. eexists [c], p, _, [c].
  split; [apply finish_ok with (lex := [c]); [exact T|reflexivity|reflexivity]|].
  split; [reflexivity|]. split; [discriminate|]. cbn [t_pos t_line t_prev t_tok t_len t_ptr]. do 3 (split; [reflexivity|]).
  split.
  { change (ptranslate TOK_INVALID) with TOK_INVALID. eapply tk_bad; [reflexivity| | | | |].
    - unfold is_ident, is_alpha in I. unfold letter. lia.
    - unfold is_digit in D. lia.
    - lia.
    - lia.
    - intros o n. apply no_op; assumption. }
  split; [reflexivity|]. exists [], []. split; reflexivity.
Qed.

(** One step of the tokenizer on any state. *)
Lemma pnext_spec s : c_text (t_pos s) ->
  exists s' g lex body, pnext s = OK s' /\ t_pos s = g ++ lex ++ t_pos s' /\ gap g (lex ++ t_pos s') /\
    t_line s' = t_line s + newlines g /\ t_prev s' = t_tok s /\
    (lex = [] /\ t_pos s' = [] /\ t_tok s' = TOK_EOF \/
     lex <> [] /\ token lex (t_pos s') (t_tok s') body /\ t_len s' = zlen body /\ (exists q1 q2, lex = q1 ++ body ++ q2 /\ t_ptr s' = body ++ q2 ++ t_pos s')).
Proof.
  intros T. rewrite pnext_eq.
  destruct (skip_loop_spec (S (length (t_pos s))) (t_line s) (t_pos s) T ltac:(lia)) as (l' & p' & g & -> & E & G & EL).
  cbn [bind]. assert (T' : c_text p') by (rewrite E in T; apply c_text_app in T; apply T).
  destruct p' as [|c p'].
  - eexists _, g, [], []. split; [unfold scan; rewrite pk_0; cbn [bind Z.eqb]; unfold finish; cbn [skipn]; rewrite pk_0; cbn [bind Z.eqb negb]; reflexivity|].
    cbn [t_pos t_line t_prev t_tok t_len t_ptr app]. do 2 (split; [assumption|]). split; [exact EL|]. split; [reflexivity|]. left. split; [reflexivity|]. split; reflexivity.
  - destruct (scan_spec l' (t_tok s) (c :: p') T' ltac:(discriminate)) as (lex & rest & s' & body & ES & Ep & Nl & P1 & P2 & P3 & P4 & P5 & (q1 & q2 & P6 & P7)).
    exists s', g, lex, body. split; [exact ES|]. rewrite P1, <- Ep. do 2 (split; [assumption|]). split; [congruence|]. split; [exact P3|].
    right. split; [exact Nl|]. split; [exact P4|]. split; [exact P5|exists q1, q2; split; assumption].
Qed.
Lemma token_not_eof lex rest n body : token lex rest n body -> n <> TOK_EOF.
Proof.
  intros H. destruct H as [c w n H1 H2 H3 H4| | | |n H| |]; try discriminate.
  - destruct H4 as [H4|[_ ->]]; [|discriminate].
    assert (A : forallb (fun k => negb (snd k =? TOK_EOF)) keywords = true) by (vm_compute; reflexivity).
    rewrite forallb_forall in A. specialize (A _ H4). cbn [snd] in A. intros ->. discriminate A.
  - destruct H as [H _].
    assert (A : forallb (fun k => negb (snd k =? TOK_EOF)) operators = true) by (vm_compute; reflexivity).
    rewrite forallb_forall in A. specialize (A _ H). cbn [snd] in A. intros ->. discriminate A.
Qed.

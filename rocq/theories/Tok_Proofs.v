From Verif Require Import Base BaseFacts Str_Model TokNum_Model Num_Model Txt_Model Tok_Model Tok_Spec.

Lemma pk_0 p : pk p 0 = OK (match p with c :: _ => c | [] => 0 end).
Proof. destruct p; reflexivity. Qed.
Lemma pk_S c p i : pk (c :: p) (S i) = pk p i.
Proof. reflexivity. Qed.
Lemma pk_nul p i : (i <= length p)%nat -> exists c, pk p i = OK c.
Proof.
  intros H. unfold pk. destruct (nth_error p i) eqn:E; [eauto|]. apply nth_error_None in E.
  replace (i =? length p)%nat with true; [eauto|]. symmetry. apply Nat.eqb_eq. lia.
Qed.

Lemma c_text_cons c p : c_text (c :: p) <-> 0 < c < 256 /\ c_text p.
Proof. unfold c_text. split; [intros H; inversion H; auto|intros []; constructor; auto]. Qed.
Lemma c_text_app a b : c_text (a ++ b) <-> c_text a /\ c_text b.
Proof. apply Forall_app. Qed.

Lemma t_space_spec c : t_space c = true <-> blank_char c.
Proof. unfold t_space, blank_char. cbn [In]. lia. Qed.

(** Spaces *)
Lemma skip_space_spec p : forall line l' p', skip_space line p = (l', p') ->
  exists g, p = g ++ p' /\ Forall blank_char g /\ l' = line + newlines g /\
    (forall c r, p' = c :: r -> ~ blank_char c).
Proof.
  induction p as [|c p IH]; cbn [skip_space]; intros line l' p' H.
  - assert (l' = line /\ p' = []) as [-> ->] by (split; congruence). exists []. split; [reflexivity|]. split; [constructor|].
    split; [unfold newlines; cbn; lia|discriminate].
  - destruct (t_space c) eqn:E.
    + destruct (IH _ _ _ H) as (g & -> & G1 & G2 & G3). exists (c :: g). split; [reflexivity|].
      split; [constructor; [apply t_space_spec; exact E|exact G1]|]. split; [|exact G3].
      unfold newlines in *. cbn [filter]. rewrite (Z.eqb_sym 10 c). destruct (c =? 10); rewrite ?zlen_cons; lia.
    + assert (l' = line /\ p' = c :: p) as [-> ->] by (split; congruence). exists []. split; [reflexivity|]. split; [constructor|].
      split; [unfold newlines; cbn; lia|]. intros c0 r H0 B. assert (c0 = c) by congruence. subst c0.
      apply t_space_spec in B. congruence.
Qed.
Lemma gap_spaces g h rest : Forall blank_char g -> gap h rest -> gap (g ++ h) rest.
Proof. induction 1; intros; cbn [app]; [assumption|]. constructor; auto. Qed.

Lemma skip_line_spec p : exists body, p = body ++ skip_line p /\ no_newline body /\
  (skip_line p = [] \/ starts [10] (skip_line p)).
Proof.
  induction p as [|c p (body & E & N & S)]; cbn [skip_line].
  - exists []. split; [reflexivity|]. split; [intros []|left; reflexivity].
  - destruct (c =? 10) eqn:Q.
    + exists []. split; [reflexivity|]. split; [intros []|]. right. exists p. cbn. f_equal. lia.
    + exists (c :: body). split; [cbn; congruence|]. split; [|exact S].
      intros [H|H]; [lia|exact (N H)].
Qed.

Lemma newlines_app a b : newlines (a ++ b) = newlines a + newlines b.
Proof. unfold newlines. rewrite filter_app, zlen_app. reflexivity. Qed.
Lemma newlines_cons c b : newlines (c :: b) = (if c =? 10 then 1 else 0) + newlines b.
Proof. unfold newlines. cbn [filter]. rewrite Z.eqb_sym. destruct (c =? 10); rewrite ?zlen_cons; lia. Qed.
Lemma no_newline_count b : no_newline b -> newlines b = 0.
Proof.
  induction b as [|c b IH]; intros H; [reflexivity|]. rewrite newlines_cons, IH.
  - destruct (c =? 10) eqn:E; [exfalso; apply H; left; lia|reflexivity].
  - intros K. apply H. right. exact K.
Qed.

Lemma no_close_cons c b : no_close b -> (c = 42 -> forall r, b <> 47 :: r) -> no_close (c :: b).
Proof.
  intros H N a d E. destruct a as [|x a]; cbn [app] in E.
  - injection E as E1 E2. exact (N E1 _ E2).
  - injection E as E1 E2. exact (H a d E2).
Qed.
Lemma skip_block_spec n : forall p line l' p', (length p <= n)%nat -> skip_block line p = (l', p') ->
  (exists body, p = body ++ [42; 47] ++ p' /\ no_close (body ++ [42]) /\ l' = line + newlines body) \/
  (p' = [] /\ no_close p /\ l' = line + newlines p).
Proof.
  induction n as [|n IH]; intros p line l' p' Hn H.
  - destruct p; [|cbn in Hn; lia]. cbn in H. right. split; [congruence|]. split; [|unfold newlines; cbn; assert (line = l') by congruence; lia].
    intros [|x a] b E; discriminate E.
  - destruct p as [|c p].
    { cbn in H. right. split; [congruence|]. split; [|unfold newlines; cbn; assert (line = l') by congruence; lia].
      intros [|x a] b E; discriminate E. }
    cbn [skip_block] in H. destruct p as [|d p''].
    + cbn [skip_block] in H. right. split; [congruence|]. split.
      * intros [|x [|y a]] b E; discriminate E.
      * rewrite newlines_cons. unfold newlines at 1. cbn. assert (l' = if c =? 10 then line + 1 else line) by congruence. destruct (c =? 10); lia.
    + destruct ((c =? 42) && (d =? 47)) eqn:E.
      * left. assert (p'' = p') by congruence. subst p''. exists []. assert (c = 42 /\ d = 47) as [-> ->] by lia.
        split; [reflexivity|]. split; [intros [|x [|y a]] b K; discriminate K|]. unfold newlines. cbn. 
        cbn in H. assert (line = l') by congruence. lia.
      * destruct (IH (d :: p'') _ _ _ ltac:(cbn [length] in *; lia) H) as [(body & E1 & E2 & E3)|(E1 & E2 & E3)].
        -- left. exists (c :: body). split; [cbn; rewrite E1; reflexivity|]. split.
           ++ cbn [app]. apply no_close_cons; [exact E2|]. intros Hc r K. destruct body as [|x body]; cbn [app] in K, E1.
              ** discriminate K.
              ** injection K as K1 K2. injection E1 as E1 _. lia.
           ++ rewrite newlines_cons, E3. destruct (c =? 10); lia.
        -- right. split; [exact E1|]. split.
           ++ apply no_close_cons; [exact E2|]. intros Hc r K. injection K as K1 K2. lia.
           ++ rewrite newlines_cons, E3. destruct (c =? 10); lia.
Qed.

(** One round of skipping: either nothing is left to skip, or something was. *)
Lemma skip_round_spec line p : c_text p -> exists l' p', skip_round line p = OK (l', p') /\
  (exists g, p = g ++ p' /\ l' = line + newlines g /\
     (forall h rest, p' = h ++ rest -> gap h rest -> gap (g ++ h) rest)) /\
  (length p' = length p -> gap [] p).
Proof.
  intros T. unfold skip_round. destruct (skip_space line p) as [l1 p1] eqn:E1.
  destruct (skip_space_spec _ _ _ _ E1) as (g & Ep & G1 & G2 & G3).
  rewrite pk_0. cbn [bind]. assert (T1 : c_text p1) by (rewrite Ep in T; apply c_text_app in T; apply T).
  assert (L : forall q q' : list Z, length (q ++ q') = length q' -> q = []).
  { intros q q' H. rewrite app_length in H. destruct q; [reflexivity|cbn in H; lia]. }
  destruct p1 as [|c p1].
  { cbn [bind Z.eqb andb pk nth_error length Nat.eqb]. exists l1, []. split; [reflexivity|]. split.
    - exists g. split; [exact Ep|]. split; [exact G2|]. intros. apply gap_spaces; assumption.
    - intros H. destruct p; [|discriminate H]. constructor; [discriminate|intros [r K]; discriminate K|intros [r K]; discriminate K]. }
  destruct (c =? 47) eqn:Ec.
  2:{ cbn [bind andb]. rewrite pk_0. cbn [bind]. rewrite Ec. cbn [bind andb]. exists l1, (c :: p1). split; [reflexivity|]. split.
      - exists g. split; [exact Ep|]. split; [exact G2|]. intros. apply gap_spaces; assumption.
      - intros H. rewrite Ep in H. symmetry in H. apply L in H. subst g. cbn [app] in Ep. rewrite Ep.
        constructor; [exact G3|intros [r K]; injection K as K _; lia|intros [r K]; injection K as K _; lia]. }
  assert (c = 47) by lia. subst c. rewrite pk_S, pk_0. cbn [bind].
  destruct p1 as [|d p1].
  { cbn [Z.eqb andb]. rewrite pk_0. cbn [bind Z.eqb Pos.eqb pk nth_error length Nat.eqb andb].
    exists l1, [47]. split; [reflexivity|]. split.
    - exists g. split; [exact Ep|]. split; [exact G2|]. intros. apply gap_spaces; assumption.
    - intros H. rewrite Ep in H. symmetry in H. apply L in H. subst g. cbn [app] in Ep. rewrite Ep.
      constructor; [exact G3|intros [r K]; discriminate K|intros [r K]; discriminate K]. }
  cbn [andb]. destruct (d =? 47) eqn:Ed.
  - (* line comment *)
    assert (d = 47) by lia. subst d.
    change (skip_line (47 :: 47 :: p1)) with (skip_line p1).
    destruct (skip_line_spec p1) as (body & B1 & B2 & B3).
    assert (F : exists p2, skip_line p1 = p2 /\ (p2 = [] \/ exists r, p2 = 10 :: r)).
    { exists (skip_line p1). split; [reflexivity|]. destruct B3 as [B3|[r B3]]; [left; exact B3|right; exists r; exact B3]. }
    destruct F as (p2 & F1 & F2). rewrite F1. rewrite pk_0. cbn [bind].
    replace (match p2 with [] => 0 | c :: _ => c end =? 47) with false by (destruct F2 as [->|[r ->]]; reflexivity).
    cbn [bind andb]. exists l1, p2. split; [reflexivity|]. split.
    + exists (g ++ [47; 47] ++ body). split; [rewrite Ep, B1, F1, <- !app_assoc; reflexivity|]. split.
      * rewrite newlines_app, G2. cbn [app]. rewrite !newlines_cons, (no_newline_count body B2). cbn. lia.
      * intros h rest Hh Gh. rewrite <- app_assoc. apply gap_spaces; [exact G1|]. rewrite <- app_assoc. apply gap_line.
        -- exact B2.
        -- rewrite <- Hh. destruct F2 as [->|[r ->]]; [left; reflexivity|right; exists r; reflexivity].
        -- exact Gh.
    + intros H. rewrite Ep in H. exfalso. rewrite app_length in H. cbn [length] in H.
      assert (length p1 = (length body + length p2)%nat) by (rewrite B1 at 1; rewrite F1, app_length; lia). lia.
  - rewrite pk_0. cbn [bind]. change (47 =? 47) with true. rewrite pk_S, pk_0. cbn [bind andb].
    destruct (d =? 42) eqn:E42.
    + assert (d = 42) by lia. subst d. cbn [skipn]. destruct (skip_block l1 p1) as [l2 p2] eqn:Eb.
      exists l2, p2. split; [reflexivity|].
      destruct (skip_block_spec (length p1) p1 l1 l2 p2 ltac:(lia) Eb) as [(body & B1 & B2 & B3)|(B1 & B2 & B3)].
      * split.
        -- exists (g ++ [47; 42] ++ body ++ [42; 47]). split; [rewrite Ep, B1, <- !app_assoc; reflexivity|]. split.
           ++ rewrite !newlines_app, B3, G2. change (newlines [47; 42]) with 0. change (newlines [42; 47]) with 0. lia.
           ++ intros h rest Hh Gh. rewrite <- !app_assoc. apply gap_spaces; [exact G1|]. apply gap_block; assumption.
        -- intros H. exfalso. rewrite Ep, B1, !app_length in H. cbn [length] in H. rewrite !app_length in H. cbn [length] in H. lia.
      * subst p2. split.
        -- exists (g ++ [47; 42] ++ p1). split; [rewrite app_nil_r, Ep; reflexivity|]. split.
           ++ rewrite !newlines_app, B3, G2. change (newlines [47; 42]) with 0. lia.
           ++ intros h rest Hh Gh. symmetry in Hh. apply app_eq_nil in Hh as [-> ->]. rewrite app_nil_r.
              apply gap_spaces; [exact G1|]. apply gap_open. exact B2.
        -- intros H. exfalso. rewrite Ep, app_length in H. cbn [length] in H. lia.
    + exists l1, (47 :: d :: p1). split; [reflexivity|]. split.
      * exists g. split; [exact Ep|]. split; [exact G2|]. intros. apply gap_spaces; assumption.
      * intros H. rewrite Ep in H. symmetry in H. apply L in H. subst g. cbn [app] in Ep. rewrite Ep.
        constructor; [exact G3|intros [r K]; injection K as K _; lia|intros [r K]; injection K as K _; lia].
Qed.

Lemma skip_loop_spec fuel : forall line p, c_text p -> (length p < fuel)%nat ->
  exists l' p' g, skip_loop fuel line p = OK (l', p') /\ p = g ++ p' /\ gap g p' /\ l' = line + newlines g.
Proof.
  induction fuel as [|fuel IH]; intros line p T Hf; [lia|]. cbn [skip_loop].
  destruct (skip_round_spec line p T) as (l1 & p1 & E & (g & Ep & El & Hg) & Hs). rewrite E. cbn [bind].
  destruct (length p1 <? length p)%nat eqn:L.
  - apply Nat.ltb_lt in L. assert (T1 : c_text p1) by (rewrite Ep in T; apply c_text_app in T; apply T).
    destruct (IH l1 p1 T1 ltac:(lia)) as (l' & p' & h & E2 & Ep1 & G & El2).
    exists l', p', (g ++ h). split; [exact E2|]. split; [rewrite Ep, Ep1, app_assoc; reflexivity|].
    split; [apply Hg; assumption|]. rewrite El2, El, newlines_app. lia.
  - apply Nat.ltb_ge in L. assert (length p1 = length p) by (rewrite Ep in L |- *; rewrite app_length in *; lia).
    specialize (Hs H). assert (g = []) by (rewrite Ep, app_length in H; destruct g; [reflexivity|cbn in H; lia]). subst g.
    cbn [app] in Ep. subst p1. exists l1, p, []. split; [reflexivity|]. split; [reflexivity|]. split; [exact Hs|exact El].
Qed.

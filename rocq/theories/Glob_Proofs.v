(** Matching patterns. *)
From Verif Require Import Base BaseFacts SUtil_Model SUtil_Spec SUtil_Proofs2 Glob_Model Glob_Spec.
From Coq Require Import ZifyBool.
Ltac Zify.zify_post_hook ::= idtac.

Lemma lower_same c d : (lowercase c =? lowercase d) = true <-> same_letter c d.
Proof. unfold lowercase, same_letter. destruct ((65 <=? c) && (c <=? 90)) eqn:A, ((65 <=? d) && (d <=? 90)) eqn:B; lia. Qed.
Lemma segment_ok s : 0 <= segment s <= zlen s /\ ~ In 47 (firstn (Z.to_nat (segment s)) s).
Proof.
  induction s as [|c s (B & N)]; cbn [segment]; [split; [cbn; lia|intros []]|]. destruct (c =? 47) eqn:E; rewrite zlen_cons; pose proof (zlen_nonneg s).
  - split; [lia|intros []].
  - split; [lia|]. replace (Z.to_nat (1 + segment s)) with (S (Z.to_nat (segment s))) by lia. cbn [firstn]. intros [H1|H1]; [lia|exact (N H1)].
Qed.
Lemma firstn_zlen {A} (n : Z) (l : list A) : 0 <= n <= zlen l -> zlen (firstn (Z.to_nat n) l) = n.
Proof. intros H. unfold zlen in *. rewrite firstn_length. lia. Qed.

(** What a matcher may answer *)
Definition sound_on (rec : list Z -> list Z -> R Z) (p : list Z) : Prop :=
  forall s n, rec p s = OK n -> n = 0 \/ exists t r, s = t ++ r /\ n = zlen t /\ glob p t r.
Lemma tries_sound rec p s j : sound_on rec p -> forall len n, (len <= length s)%nat -> tries rec p s len j = OK n ->
  n = 0 \/ exists u t r, s = u ++ t ++ r /\ (length u <= len)%nat /\ n = j + zlen u + zlen t /\ glob p t r.
Proof.
  intros Sd. induction len as [|len IH]; intros n L; cbn [tries]; destruct (rec p (skipn _ s)) as [res| | |] eqn:E; cbn [bind]; try discriminate.
  - destruct (res =? 0) eqn:Z0; intros H; injection H as <-; [left; reflexivity|]. destruct (Sd _ _ E) as [->|(t & r & E1 & E2 & G)]; [discriminate Z0|].
    right. exists [], t, r. cbn [skipn] in E1. split; [exact E1|]. split; [cbn [length]; lia|]. split; [change (zlen (@nil Z)) with 0; change (Z.of_nat 0) with 0; lia|exact G].
  - destruct (res =? 0) eqn:Z0; intros H.
    + destruct (IH n ltac:(lia) H) as [->|(u & t & r & E1 & E2 & E3)]; [left; reflexivity|]. right. exists u, t, r. split; [exact E1|]. split; [lia|exact E3].
    + injection H as <-. destruct (Sd _ _ E) as [->|(t & r & E1 & E2 & G)]; [discriminate Z0|].
      right. exists (firstn (S len) s), t, r. split; [rewrite <- E1; symmetry; apply firstn_skipn|]. split; [rewrite firstn_length; lia|].
      split; [unfold zlen at 1; rewrite firstn_length; lia|exact G].
Qed.
Lemma in_firstn_le {A} (x : A) a b l : (a <= b)%nat -> In x (firstn a l) -> In x (firstn b l).
Proof. intros H I. replace (firstn a l) with (firstn a (firstn b l)) in I by (rewrite firstn_firstn, Nat.min_l by lia; reflexivity).
  rewrite <- (firstn_skipn a (firstn b l)). apply in_or_app. left. exact I. Qed.
Lemma app_firstn {A} (u v : list A) : u = firstn (length u) (u ++ v).
Proof. rewrite firstn_app, firstn_all, Nat.sub_diag. cbn [firstn]. symmetry. apply app_nil_r. Qed.
Lemma loop_sound rec p0 : (forall p, dollar_ok p -> (length p < length p0)%nat -> (forall c, In c p -> In c p0) -> sound_on rec p) ->
  forall p s j n, (length p <= length p0)%nat -> (forall c, In c p -> In c p0) -> dollar_ok p -> glob_loop rec p s j = OK n ->
  n = 0 \/ exists t r, s = t ++ r /\ n = j + zlen t /\ glob p t r.
Proof.
  intros Hr. induction p as [|c p IH]; intros s j n Lp Sub D; cbn [glob_loop].
  - intros H. injection H as <-. right. exists [], s. split; [reflexivity|]. split; [change (zlen (@nil Z)) with 0; lia|constructor].
  - cbn [dollar_ok] in D. destruct D as (D1 & D2 & D3). cbn [length] in Lp. assert (Sub' : forall x, In x p -> In x p0) by (intros x Hx; apply Sub; right; exact Hx).
    destruct s as [|d s].
    + destruct (c =? 36) eqn:E; intros H; injection H as <-; [|left; reflexivity]. apply Z.eqb_eq in E. rewrite (D1 E), E. right. exists [], [].
      split; [reflexivity|]. split; [change (zlen (@nil Z)) with 0; lia|constructor].
    + destruct (c =? 63) eqn:E63.
      { intros H. destruct (IH _ _ _ ltac:(lia) Sub' D3 H) as [->|(t & r & E1 & E2 & G)]; [left; reflexivity|]. right. apply Z.eqb_eq in E63. subst c.
        exists (d :: t), r. split; [rewrite E1; reflexivity|]. split; [rewrite zlen_cons; lia|constructor; exact G]. }
      destruct (c =? 42) eqn:E42.
      { apply Z.eqb_eq in E42. subst c. specialize (D2 eq_refl). set (s0 := d :: s) in *. destruct (segment_ok s0) as (Sb & Sn). pose proof (zlen_nonneg s0) as Ps.
        assert (One : forall p2, p = p2 -> dollar_ok p2 ->
          forall n, (match p2 with [] => OK (j + segment s0) | e :: r => if (e =? 36) && (match r with [] => true | _ => false end) then OK (j + segment s0) else tries rec p2 s0 (Z.to_nat (segment s0)) j end) = OK n ->
          n = 0 \/ exists t r, s0 = t ++ r /\ n = j + zlen t /\ glob (42 :: p) t r).
        { intros p2 -> Dp m. destruct p2 as [|e r].
          - intros H. injection H as <-. right. exists (firstn (Z.to_nat (segment s0)) s0), (skipn (Z.to_nat (segment s0)) s0). split; [symmetry; apply firstn_skipn|].
            split; [rewrite firstn_zlen by exact Sb; reflexivity|]. rewrite <- (app_nil_r (firstn _ s0)). apply gl_star; [exact Sn|constructor].
          - cbn [hd] in D2. replace (e =? 36) with false by lia. cbn [andb]. intros H.
            destruct (tries_sound rec (e :: r) s0 j (Hr _ Dp ltac:(lia) Sub') (Z.to_nat (segment s0)) m ltac:(unfold zlen in Sb; lia) H) as [->|(u & t & q & E1 & E2 & E3 & G)]; [left; reflexivity|].
            right. exists (u ++ t), q. split; [rewrite <- app_assoc; exact E1|]. split; [rewrite zlen_app; lia|]. apply gl_star; [|exact G].
            intros I. apply Sn. apply (in_firstn_le 47 (length u)); [exact E2|]. rewrite E1, <- app_firstn. exact I. }
        destruct p as [|e p''].
        - intros H. exact (One [] eq_refl D3 n H).
        - destruct (e =? 42) eqn:E2; [|intros H; exact (One (e :: p'') eq_refl D3 n H)]. apply Z.eqb_eq in E2. subst e. clear One. cbn [dollar_ok] in D3. destruct D3 as (_ & D4 & D5). specialize (D4 eq_refl).
          destruct p'' as [|e r].
          + intros H. injection H as <-. right. exists s0, []. split; [symmetry; apply app_nil_r|]. split; [reflexivity|]. rewrite <- (app_nil_r s0). apply gl_stars. constructor.
          + cbn [hd] in D4. replace (e =? 36) with false by lia. cbn [andb]. intros H. cbn [length] in Lp.
            destruct (tries_sound rec (e :: r) s0 j (Hr _ D5 ltac:(cbn [length]; lia) ltac:(intros x Hx; apply Sub'; right; exact Hx)) (Z.to_nat (zlen s0)) n ltac:(unfold zlen; lia) H) as [->|(u & t & q & E1 & E2 & E3 & G)]; [left; reflexivity|].
            right. exists (u ++ t), q. split; [rewrite <- app_assoc; exact E1|]. split; [rewrite zlen_app; lia|]. apply gl_stars. exact G. }
      destruct (lowercase c =? lowercase d) eqn:El; [|intros H; injection H as <-; left; reflexivity].
      intros H. destruct (IH _ _ _ ltac:(lia) Sub' D3 H) as [->|(t & r & E1 & E2 & G)]; [left; reflexivity|]. right.
      exists (d :: t), r. split; [rewrite E1; reflexivity|]. split; [rewrite zlen_cons; lia|]. apply gl_byte; [lia|lia|apply lower_same; exact El|exact G].
Qed.

(** ** The whole matcher *)
Lemma or_at_some p k : or_at p = Some k -> exists a c b, p = a ++ c :: b /\ zlen a = k /\ sep c.
Proof.
  unfold or_at. pose proof (mg_strchr_spec p 124) as P. destruct (mg_strchr p 124) as [k1|].
  - intros H. injection H as <-. destruct P as (a & b & E & L & _). exists a, 124, b. split; [exact E|]. split; [exact L|left; reflexivity].
  - pose proof (mg_strchr_spec p 44) as Q. destruct (mg_strchr p 44) as [k2|]; [|discriminate]. intros H. injection H as <-.
    destruct Q as (a & b & E & L & _). exists a, 44, b. split; [exact E|]. split; [exact L|right; reflexivity].
Qed.
Lemma or_at_none p : or_at p = None <-> Forall (fun c => ~ sep c) p.
Proof.
  rewrite Forall_forall. unfold or_at. split.
  - pose proof (mg_strchr_spec p 124) as P. destruct (mg_strchr p 124); [discriminate|]. pose proof (mg_strchr_spec p 44) as Q. destruct (mg_strchr p 44); [discriminate|].
    intros _ c I [->| ->]; [exact (P I)|exact (Q I)].
  - intros H. rewrite (mg_strchr_none p 124) by (intros I; exact (H _ I (or_introl eq_refl))).
    apply mg_strchr_none. intros I. exact (H _ I (or_intror eq_refl)).
Qed.
Lemma alt_self p : Forall (fun c => ~ sep c) p -> alternative p p.
Proof. intros H. split; [exact H|]. exists [], []. split; [symmetry; apply app_nil_r|]. split; left; reflexivity. Qed.
Lemma alt_left a c b x : sep c -> alternative a x -> alternative (a ++ c :: b) x.
Proof.
  intros Sc (F & u & v & E & Hu & Hv). split; [exact F|]. exists u, (v ++ c :: b). split; [rewrite E, <- !app_assoc; reflexivity|]. split; [exact Hu|]. right.
  destruct Hv as [->|(d & v' & -> & Sd)]; [exists c, b; split; [reflexivity|exact Sc]|exists d, (v' ++ c :: b); split; [reflexivity|exact Sd]].
Qed.
Lemma alt_right a c b x : sep c -> alternative b x -> alternative (a ++ c :: b) x.
Proof.
  intros Sc (F & u & v & E & Hu & Hv). split; [exact F|]. exists (a ++ c :: u), v. split; [rewrite E, <- !app_assoc; reflexivity|]. split; [|exact Hv]. right.
  destruct Hu as [->|(u' & d & -> & Sd)]; [exists a, c; split; [reflexivity|exact Sc]|exists (a ++ c :: u'), d; split; [rewrite <- app_assoc; reflexivity|exact Sd]].
Qed.
Lemma alt_only p a : Forall (fun c => ~ sep c) p -> alternative p a -> a = p.
Proof.
  rewrite Forall_forall. intros F (_ & x & y & E & Hx & Hy).
  destruct Hx as [->|(x' & c & -> & Sc)]; [|exfalso; apply (F c); [rewrite E; apply in_or_app; left; apply in_or_app; right; left; reflexivity|exact Sc]].
  destruct Hy as [->|(c & y' & -> & Sc)]; [|exfalso; apply (F c); [rewrite E; apply in_or_app; right; apply in_or_app; right; left; reflexivity|exact Sc]].
  rewrite E, app_nil_r. reflexivity.
Qed.
Lemma match_sound_all f : forall p s n, (forall a, alternative p a -> dollar_ok a) -> mg_match_prefix_n f p s = OK n ->
  n = 0 \/ exists a t r, alternative p a /\ s = t ++ r /\ n = zlen t /\ glob a t r.
Proof.
  induction f as [|f IH]; intros p s n D; cbn [mg_match_prefix_n]; [discriminate|]. destruct (or_at p) as [k|] eqn:E.
  - destruct (or_at_some p k E) as (a & c & b & -> & <- & Sc). destruct (sub_app_c a c b) as (-> & ->).
    destruct (mg_match_prefix_n f a s) as [res| | |] eqn:E1; cbn [bind]; try discriminate. destruct (0 <? res) eqn:P; intros H.
    + injection H as <-. destruct (IH _ _ _ (fun x Hx => D x (alt_left a c b x Sc Hx)) E1) as [->|(x & t & r & A & B)]; [discriminate P|].
      right. exists x, t, r. split; [exact (alt_left a c b x Sc A)|exact B].
    + destruct (IH _ _ _ (fun x Hx => D x (alt_right a c b x Sc Hx)) H) as [->|(x & t & r & A & B)]; [left; reflexivity|].
      right. exists x, t, r. split; [exact (alt_right a c b x Sc A)|exact B].
  - apply or_at_none in E. intros H. destruct (loop_sound (mg_match_prefix_n f) p) with (p := p) (s := s) (j := 0) (n := n) as [->|(t & r & E1 & E2 & G)];
      [|lia|intros c I; exact I|exact (D p (alt_self p E))|exact H|left; reflexivity|].
    + intros q Dq _ Sq s1 m Hm. assert (Fq : Forall (fun c => ~ sep c) q) by (rewrite Forall_forall in E |- *; intros c I; exact (E c (Sq c I))).
      destruct (IH q s1 m) as [->|(x & t & r & A & E1 & E2 & G)]; [intros x Hx; rewrite (alt_only q x Fq Hx); exact Dq|exact Hm|left; reflexivity|].
      right. exists t, r. rewrite (alt_only q x Fq A) in G. split; [exact E1|]. split; [exact E2|exact G].
    + right. exists p, t, r. split; [exact (alt_self p E)|]. split; [exact E1|]. split; [lia|exact G].
Qed.

(** ** It always answers, and within the text *)
Lemma tries_total rec p s j : 0 <= j -> (forall s, exists n, rec p s = OK n /\ 0 <= n <= zlen s) -> forall len, (len <= length s)%nat ->
  exists n, tries rec p s len j = OK n /\ 0 <= n <= j + zlen s.
Proof.
  intros Hj Hr. assert (K : forall len, (len <= length s)%nat -> exists n, rec p (skipn len s) = OK n /\ 0 <= n /\ n + Z.of_nat len <= zlen s).
  { intros len L. destruct (Hr (skipn len s)) as (n & E & B). exists n. split; [exact E|]. unfold zlen in *. rewrite skipn_length in B. lia. }
  pose proof (zlen_nonneg s). induction len as [|len IH]; intros L; cbn [tries]; destruct (K _ L) as (n & -> & B1 & B2); cbn [bind]; destruct (n =? 0).
  - exists 0. split; [reflexivity|lia].
  - eexists. split; [reflexivity|lia].
  - apply IH. lia.
  - eexists. split; [reflexivity|lia].
Qed.
Lemma loop_total rec m : (forall p s, (length p < m)%nat -> exists n, rec p s = OK n /\ 0 <= n <= zlen s) ->
  forall p s j, (length p <= m)%nat -> 0 <= j -> exists n, glob_loop rec p s j = OK n /\ 0 <= n <= j + zlen s.
Proof.
  intros Hr. induction p as [|c p IH]; intros s j L Hj; cbn [glob_loop]; pose proof (zlen_nonneg s) as Ps.
  - exists j. split; [reflexivity|lia].
  - cbn [length] in L. destruct s as [|d s]; [destruct (c =? 36); eexists; (split; [reflexivity|]); change (zlen (@nil Z)) with 0; lia|].
    assert (Nx : exists n, glob_loop rec p s (j + 1) = OK n /\ 0 <= n <= j + zlen (d :: s)).
    { destruct (IH s (j + 1) ltac:(lia) ltac:(lia)) as (n & E & B). exists n. split; [exact E|]. rewrite zlen_cons. lia. }
    destruct (c =? 63); [exact Nx|]. destruct (c =? 42).
    + set (s0 := d :: s) in *. destruct (segment_ok s0) as (Sb & _).
      assert (T : forall p2 len, (length p2 < m)%nat -> 0 <= len <= zlen s0 ->
        exists n, (match p2 with [] => OK (j + len) | e :: r => if (e =? 36) && (match r with [] => true | _ => false end) then OK (j + len) else tries rec p2 s0 (Z.to_nat len) j end) = OK n /\ 0 <= n <= j + zlen s0).
      { intros p2 len L2 Bl. assert (Y : exists n, OK (j + len) = OK n /\ 0 <= n <= j + zlen s0) by (eexists; split; [reflexivity|lia]).
        destruct p2 as [|e r]; [exact Y|]. destruct ((e =? 36) && _); [exact Y|]. apply tries_total; [exact Hj|intros x; apply Hr; exact L2|unfold zlen in Bl; lia]. }
      destruct p as [|e p'']; [apply (T [] (segment s0)); [cbn [length]; lia|exact Sb]|].
      destruct (e =? 42); [apply (T p'' (zlen s0)); [cbn [length] in L; lia|lia]|apply (T (e :: p'') (segment s0)); [lia|exact Sb]].
    + destruct (lowercase c =? lowercase d); [exact Nx|]. exists 0. split; [reflexivity|lia].
Qed.
Lemma match_total_all f : forall p s, (length p < f)%nat -> exists n, mg_match_prefix_n f p s = OK n /\ 0 <= n <= zlen s.
Proof.
  induction f as [|f IH]; intros p s L; [lia|]. cbn [mg_match_prefix_n]. destruct (or_at p) as [k|] eqn:E.
  - destruct (or_at_some p k E) as (a & c & b & -> & <- & Sc). destruct (sub_app_c a c b) as (-> & ->). rewrite app_length in L. cbn [length] in L.
    destruct (IH a s ltac:(lia)) as (n & -> & B). cbn [bind]. destruct (0 <? n); [exists n; split; [reflexivity|exact B]|]. apply IH. lia.
  - destruct (loop_total (mg_match_prefix_n f) f IH p s 0 ltac:(lia) ltac:(lia)) as (n & E1 & B). exists n. split; [exact E1|lia].
Qed.

(** ** What is found *)
Lemma alt_split x c y a : sep c -> alternative (x ++ c :: y) a -> alternative x a \/ alternative y a.
Proof.
  intros Sc A.
  destruct A as (F & u & v & E1 & Hu & Hv). rewrite Forall_forall in F.
      destruct (app_eq_app _ _ _ _ E1) as (l & [(-> & E2)|(-> & E2)]).
      - (* u ends inside x *)
        destruct (app_eq_app _ _ _ _ E2) as (l2 & [(E3 & E4)|(E3 & E4)]).
        + destruct l2 as [|e l2].
          * left. split; [rewrite Forall_forall; exact F|]. exists u, []. rewrite app_nil_r in *. split; [congruence|]. split; [exact Hu|left; reflexivity].
          * injection E4 as <- _. exfalso. apply (F c); [rewrite E3; apply in_or_app; right; left; reflexivity|exact Sc].
        + left. split; [rewrite Forall_forall; exact F|]. exists u, l2. split; [congruence|]. split; [exact Hu|].
          destruct l2 as [|e l2]; [left; reflexivity|]. right. destruct Hv as [->|(e' & v' & -> & Se)]; [discriminate E4|]. injection E4 as <- _. exists e', l2. split; [reflexivity|exact Se].
      - destruct l as [|e l].
        + rewrite app_nil_r in *. destruct a as [|e a].
          * left. split; [constructor|]. exists x, []. split; [rewrite app_nil_r; reflexivity|]. split; [exact Hu|left; reflexivity].
          * injection E2 as <- _. exfalso. apply (F c); [left; reflexivity|exact Sc].
        + injection E2 as <- ->. right. split; [rewrite Forall_forall; exact F|]. exists l, v. split; [reflexivity|]. split; [|exact Hv].
          destruct l as [|e l] using rev_ind; [left; reflexivity|]. right. clear IHl. destruct Hu as [Hu|(u' & d & Hu & Sd)]; [destruct x; discriminate Hu|].
          exists l, e. split; [reflexivity|]. change (c :: l ++ [e]) with ((c :: l) ++ [e]) in Hu. rewrite app_assoc in Hu. apply app_inj_tail in Hu. destruct Hu as (_ & ->). exact Sd.
Qed.

Lemma segment_app u v : ~ In 47 u -> segment (u ++ v) = zlen u + segment v.
Proof.
  induction u as [|c u IH]; intros N; [change (zlen (@nil Z)) with 0; cbn [app]; lia|]. cbn [app segment]. rewrite zlen_cons.
  replace (c =? 47) with false by (symmetry; apply Z.eqb_neq; intros ->; apply N; left; reflexivity). rewrite IH by (intros I; apply N; right; exact I). lia.
Qed.
Lemma tries_found rec p s j : 0 <= j -> (forall s, exists n, rec p s = OK n /\ 0 <= n <= zlen s) -> forall len k m, (k <= len)%nat -> rec p (skipn k s) = OK m -> 0 < m ->
  exists n, tries rec p s len j = OK n /\ 0 < n.
Proof.
  intros Hj Hr. induction len as [|len IH]; intros k m L E P; cbn [tries].
  - replace k with O in E by lia. rewrite E. cbn [bind]. replace (m =? 0) with false by lia. eexists. split; [reflexivity|lia].
  - destruct (Hr (skipn (S len) s)) as (x & Ex & Bx). rewrite Ex. cbn [bind]. destruct (x =? 0) eqn:Z0; [|eexists; split; [reflexivity|lia]].
    apply (IH k m); [|exact E|exact P]. destruct (Nat.eq_dec k (S len)) as [->|]; [|lia]. rewrite Ex in E. injection E as ->. lia.
Qed.
Lemma skipn_pre {A} (u v : list A) : skipn (length u) (u ++ v) = v.
Proof. rewrite skipn_app, skipn_all, Nat.sub_diag. reflexivity. Qed.
Lemma star_found rec p2 u t r j len : 0 <= j -> 0 < j + zlen (u ++ t) -> zlen u <= len -> (t = [36] -> zlen u < len) ->
  (forall s, exists n, rec p2 s = OK n /\ 0 <= n <= zlen s) ->
  (t <> [] -> exists n, rec p2 (t ++ r) = OK n /\ 0 < n) -> t <> [] \/ p2 = [] -> glob_found p2 t r ->
  exists n, (match p2 with [] => OK (j + len) | e :: q => if (e =? 36) && (match q with [] => true | _ => false end) then OK (j + len) else tries rec p2 (u ++ t ++ r) (Z.to_nat len) j end) = OK n /\ 0 < n.
Proof.
  intros Hj Hp Hl H36 Ht Hc Hne G. pose proof (zlen_nonneg u) as Pu. rewrite zlen_app in Hp. destruct p2 as [|e q].
  - inversion G; subst. change (zlen (@nil Z)) with 0 in Hp. eexists. split; [reflexivity|lia].
  - destruct Hne as [Nt|Nt]; [|discriminate Nt]. destruct ((e =? 36) && _) eqn:E.
    + destruct q; [|rewrite andb_false_r in E; discriminate E]. rewrite andb_true_r in E. apply Z.eqb_eq in E. subst e. inversion G; subst; [contradiction|].
      match goal with H : glob_found [] _ _ |- _ => inversion H; subst end. match goal with H : same_letter 36 ?d |- _ => assert (d = 36) by (unfold same_letter in H; lia); subst d end.
      specialize (H36 eq_refl). eexists. split; [reflexivity|lia].
    + destruct (Hc Nt) as (m & Em & Pm). apply (tries_found rec (e :: q) _ j Hj Ht _ (length u) m); [unfold zlen in Hl; lia|rewrite skipn_pre; exact Em|exact Pm].
Qed.
Lemma loop_found rec m : (forall p s, (length p < m)%nat -> exists n, rec p s = OK n /\ 0 <= n <= zlen s) ->
  forall p t r, glob_found p t r -> (forall q t r, (length q < length p)%nat -> (forall c, In c q -> In c p) -> glob_found q t r -> t <> [] -> exists n, rec q (t ++ r) = OK n /\ 0 < n) ->
  forall j, (length p <= m)%nat -> 0 <= j -> 0 < j + zlen t -> exists n, glob_loop rec p (t ++ r) j = OK n /\ 0 < n.
Proof.
  intros Hr. induction 1 as [r| |p c t r G IH|p u t r N Hd C G IH|p u t r C G IH|p c d t r N1 N2 Sl G IH]; intros Hc j L Hj P.
  - change (zlen (@nil Z)) with 0 in P. cbn [glob_loop app]. eexists. split; [reflexivity|lia].
  - change (zlen (@nil Z)) with 0 in P. cbn. eexists. split; [reflexivity|lia].
  - cbn [glob_loop app]. change (63 =? 63) with true. cbn iota. cbn [length] in L. pose proof (zlen_nonneg t). apply IH; [|lia|lia|lia].
    intros q t' r' Lq Sq. apply Hc; [cbn [length]; lia|intros x Hx; right; exact (Sq x Hx)].
  - cbn [length] in L. assert (K : t <> [] -> exists n, rec p (t ++ r) = OK n /\ 0 < n) by (intros Nt; apply Hc; [cbn [length]; lia|intros x Hx; right; exact Hx|exact G|exact Nt]).
    assert (Sg : segment (u ++ t ++ r) = zlen u + segment (t ++ r)) by (apply segment_app; exact N). destruct (segment_ok (t ++ r)) as (Sb & _).
    assert (Q := star_found rec p u t r j (segment (u ++ t ++ r)) Hj P ltac:(lia)
      ltac:(intros ->; rewrite Sg; cbn [app segment]; change (36 =? 47) with false; cbn iota; destruct (segment_ok r); lia)
      ltac:(intros x; apply Hr; lia) K ltac:(destruct C as [C|(C & _)]; [left|right]; exact C) G).
    rewrite <- app_assoc. assert (Ns : u ++ t ++ r <> []).
    { destruct C as [C|(-> & C)]; [destruct u; [destruct t; [contradiction|discriminate]|discriminate]|]. inversion G; subst. exact C. }
    destruct (u ++ t ++ r) as [|d s] eqn:Es; [contradiction|]. cbn [glob_loop]. change (42 =? 63) with false. change (42 =? 42) with true. cbn iota.
    destruct p as [|e q]; [exact Q|]. cbn [hd] in Hd. replace (e =? 42) with false by lia. exact Q.
  - cbn [length] in L. assert (K : t <> [] -> exists n, rec p (t ++ r) = OK n /\ 0 < n) by (intros Nt; apply Hc; [cbn [length]; lia|intros x Hx; right; right; exact Hx|exact G|exact Nt]).
    pose proof (zlen_nonneg t) as Pt. pose proof (zlen_nonneg r) as Pr.
    assert (Q := star_found rec p u t r j (zlen (u ++ t ++ r)) Hj P ltac:(rewrite !zlen_app; lia)
      ltac:(intros ->; rewrite !zlen_app; change (zlen [36]) with 1; lia)
      ltac:(intros x; apply Hr; lia) K ltac:(destruct C as [C|(C & _)]; [left|right]; exact C) G).
    rewrite <- app_assoc. assert (Ns : u ++ t ++ r <> []).
    { destruct C as [C|(-> & C)]; [destruct u; [destruct t; [contradiction|discriminate]|discriminate]|]. inversion G; subst. exact C. }
    destruct (u ++ t ++ r) as [|d s] eqn:Es; [contradiction|]. cbn [glob_loop]. change (42 =? 63) with false. change (42 =? 42) with true. cbn iota. exact Q.
  - cbn [glob_loop app]. replace (c =? 63) with false by lia. replace (c =? 42) with false by lia. apply lower_same in Sl. rewrite Sl.
    cbn [length] in L. pose proof (zlen_nonneg t). apply IH; [|lia|lia|lia].
    intros q t' r' Lq Sq. apply Hc; [cbn [length]; lia|intros x Hx; right; exact (Sq x Hx)].
Qed.
Lemma match_found_one f : forall p t r, (length p < f)%nat -> Forall (fun c => ~ sep c) p -> glob_found p t r -> t <> [] ->
  exists n, mg_match_prefix_n f p (t ++ r) = OK n /\ 0 < n.
Proof.
  induction f as [|f IH]; intros p t r L F G Nt; [lia|]. cbn [mg_match_prefix_n]. rewrite (proj2 (or_at_none p) F).
  apply (loop_found _ f (match_total_all f) p t r G).
  - intros q t' r' Lq Sq Gq Nq. apply IH; [lia| |exact Gq|exact Nq]. rewrite Forall_forall in F |- *. intros c I. exact (F c (Sq c I)).
  - lia.
  - lia.
  - destruct t as [|e t]; [contradiction|]. rewrite zlen_cons. pose proof (zlen_nonneg t). lia.
Qed.
Lemma match_found_all f : forall p a t r, (length p < f)%nat -> alternative p a -> glob_found a t r -> t <> [] ->
  exists n, mg_match_prefix_n f p (t ++ r) = OK n /\ 0 < n.
Proof.
  induction f as [|f IH]; intros p a t r L A G Nt; [lia|]. destruct (or_at p) as [k|] eqn:E.
  - cbn [mg_match_prefix_n]. rewrite E. destruct (or_at_some p k E) as (x & c & y & -> & <- & Sc). destruct (sub_app_c x c y) as (-> & ->). rewrite app_length in L. cbn [length] in L.
    destruct (match_total_all f x (t ++ r) ltac:(lia)) as (n & En & Bn). rewrite En. cbn [bind]. destruct (0 <? n) eqn:P; [exists n; split; [reflexivity|lia]|].
    destruct (alt_split x c y a Sc A) as [A1|A2]; [|exact (IH y a t r ltac:(lia) A2 G Nt)].
    destruct (IH x a t r ltac:(lia) A1 G Nt) as (n' & En' & Bn'). rewrite En in En'. injection En' as ->. lia.
  - apply or_at_none in E. rewrite (alt_only p a E A) in G. exact (match_found_one (S f) p t r L E G Nt).
Qed.
Lemma no_star_found p t r : glob p t r -> ~ In 42 p -> glob_found p t r.
Proof.
  induction 1 as [r| |p c t r G IH|p u t r N G IH|p u t r G IH|p c d t r N1 N2 Sl G IH]; intros NS; try (exfalso; apply NS; left; reflexivity); constructor; try assumption;
    apply IH; intros I; apply NS; right; exact I.
Qed.

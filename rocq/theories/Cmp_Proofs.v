(** The comparisons order the texts. *)
From Verif Require Import Base BaseFacts SUtil_Model SUtil_Spec Glob_Model Cmp_Model Cmp_Spec.
From Coq Require Import ZifyBool.
Ltac Zify.zify_post_hook ::= idtac.

Lemma lex_irrefl a : ~ lex_lt a a.
Proof. induction a as [|x a IH]; intros H; inversion H; subst; [lia|exact (IH ltac:(assumption))]. Qed.
Lemma lex_asym a b : lex_lt a b -> ~ lex_lt b a.
Proof. induction 1 as [y b|x y a b L|x a b H IH]; intros K; inversion K; subst; try lia. exact (IH ltac:(assumption)). Qed.
Definition tri (a b : list Z) (n : Z) : Prop := (n = 0 -> a = b) /\ (n < 0 -> lex_lt a b) /\ (0 < n -> lex_lt b a).
Lemma tri_compares key a b n : tri (map key a) (map key b) n -> compares key a b n.
Proof.
  intros (T0 & T1 & T2). pose proof (lex_irrefl (map key a)) as I. pose proof (lex_asym (map key a) (map key b)) as S1.
  unfold compares. destruct (Z.lt_trichotomy n 0) as [L|[L|L]].
  - specialize (T1 L). split; [split; [lia|intros E; rewrite <- E in T1; contradiction]|]. split; [split; [intros _; exact T1|intros _; exact L]|split; [lia|intros K; exfalso; exact (S1 T1 K)]].
  - specialize (T0 L). rewrite <- T0. split; [split; [reflexivity|intros _; exact L]|]. split; (split; [lia|intros K; contradiction]).
  - specialize (T2 L). split; [split; [lia|intros E; rewrite <- E in T2; contradiction]|]. split; [split; [lia|intros K; exfalso; exact (S1 K T2)]|split; [intros _; exact T2|intros _; exact L]].
Qed.
Lemma tri_cons x a b n : tri a b n -> tri (x :: a) (x :: b) n.
Proof. intros (T0 & T1 & T2). split; [intros E; rewrite (T0 E); reflexivity|]. split; intros L; apply ll_tail; auto. Qed.
Lemma tri_head x y a b n : n <> 0 -> (n < 0 -> x < y) -> (0 < n -> y < x) -> tri (x :: a) (y :: b) n.
Proof. intros N L G. split; [lia|]. split; intros K; apply ll_head; auto. Qed.
Lemma tri_short (key : Z -> Z) b : tri [] (map key b) (- zlen b).
Proof. destruct b as [|y b]; [change (zlen (@nil Z)) with 0; split; [reflexivity|split; lia]|]. rewrite zlen_cons. pose proof (zlen_nonneg b). split; [lia|]. split; [intros _; apply ll_nil|lia]. Qed.
Lemma tri_long (key : Z -> Z) a : tri (map key a) [] (zlen a).
Proof. destruct a as [|y b]; [change (zlen (@nil Z)) with 0; split; [reflexivity|split; lia]|]. rewrite zlen_cons. pose proof (zlen_nonneg b). split; [lia|]. split; [lia|intros _; apply ll_nil]. Qed.
Lemma lower_key c : lowercase c = case_key c.
Proof. unfold lowercase, case_key. destruct ((65 <=? c) && (c <=? 90)) eqn:A, ((64 <? c) && (c <? 91)) eqn:B; lia. Qed.
Lemma schar_key c : schar c = signed_key c.
Proof. unfold schar, signed_key. destruct (c <? 128) eqn:A, (127 <? c) eqn:B; lia. Qed.

(** ** A counted text and a C string *)
Definition walks (cmp : nat -> list Z -> list Z -> R Z) (key : Z -> Z) : Prop := forall r t s, Forall (fun c => c <> 0) t ->
  exists n, cmp (Nat.min (length s) (length t)) s (t ++ 0 :: r) = OK n /\
    (n <> 0 -> tri (map key s) (map key t) n) /\ (n = 0 -> tri (map key s) (map key t) (zlen s - zlen t)).
Lemma walks_nil cmp key r t s : (forall a b, cmp O a b = OK 0) -> s = [] \/ t = [] ->
  exists n, cmp (Nat.min (length s) (length t)) s (t ++ 0 :: r) = OK n /\
    (n <> 0 -> tri (map key s) (map key t) n) /\ (n = 0 -> tri (map key s) (map key t) (zlen s - zlen t)).
Proof.
  intros C0 H. exists 0. split; [|split; [contradiction|intros _]].
  - destruct H as [->| ->]; cbn [length]; rewrite ?Nat.min_0_l, ?Nat.min_0_r; apply C0.
  - destruct H as [->| ->]; change (zlen (@nil Z)) with 0; [rewrite Z.sub_0_l; apply tri_short|rewrite Z.sub_0_r; apply tri_long].
Qed.
Lemma strncmp_walks : walks c_strncmp unsigned_key.
Proof.
  intros r. induction t as [|d t IH]; intros s F; [apply walks_nil; [reflexivity|right; reflexivity]|]. destruct s as [|c s]; [apply walks_nil; [reflexivity|left; reflexivity]|].
  inversion F as [|? ? Nd Ft]; subst. cbn [length Nat.min app c_strncmp]. rewrite !zlen_cons. cbn [map].
  destruct (c <? d) eqn:A; [exists (-1); split; [reflexivity|]; split; [intros _; apply tri_head; unfold unsigned_key; lia|lia]|].
  destruct (d <? c) eqn:B; [exists 1; split; [reflexivity|]; split; [intros _; apply tri_head; unfold unsigned_key; lia|lia]|].
  assert (c = d) by lia. subst d. replace (c =? 0) with false by lia. destruct (IH s Ft) as (n & E & T1 & T2). exists n. split; [exact E|].
  replace (1 + zlen s - (1 + zlen t)) with (zlen s - zlen t) by lia. split; intros K; apply tri_cons; auto.
Qed.
Lemma ncasecmp_walks : walks mg_ncasecmp case_key.
Proof.
  intros r. induction t as [|d t IH]; intros s F; [apply walks_nil; [reflexivity|right; reflexivity]|]. destruct s as [|c s]; [apply walks_nil; [reflexivity|left; reflexivity]|].
  inversion F as [|? ? Nd Ft]; subst. cbn [length Nat.min app mg_ncasecmp]. cbv zeta. rewrite !lower_key, !zlen_cons. cbn [map].
  destruct (case_key c - case_key d =? 0) eqn:A; cbn [andb].
  - assert (Ec : case_key c = case_key d) by lia.
    assert (c <> 0) by (intros ->; unfold case_key in Ec; cbn in Ec; destruct ((64 <? d) && (d <? 91)) eqn:B; lia).
    replace (c =? 0) with false by lia. cbn [negb]. rewrite Ec. destruct (IH s Ft) as (n & E & T1 & T2). exists n. split; [exact E|].
    replace (1 + zlen s - (1 + zlen t)) with (zlen s - zlen t) by lia. split; intros K; apply tri_cons; auto.
  - eexists. split; [reflexivity|]. split; [intros _; apply tri_head; lia|lia].
Qed.
Lemma strlen_ok t r : Forall (fun c => c <> 0) t -> c_strlen (t ++ 0 :: r) = OK (zlen t).
Proof.
  induction 1 as [|c t N F IH]; [reflexivity|]. cbn [app c_strlen]. replace (c =? 0) with false by lia. rewrite IH. cbn [bind]. rewrite zlen_cons. reflexivity.
Qed.
Lemma int_small z : - 2 ^ 31 <= z < 2 ^ 31 -> int_of z = z.
Proof. intros H. unfold int_of. rewrite Z.mod_small; lia. Qed.
Lemma vcmp_walks cmp key s s2 t : walks cmp key -> c_text s2 t -> zlen s < 2 ^ 31 -> zlen t < 2 ^ 31 ->
  exists n, vcmp_with cmp s s2 = OK n /\ compares key s t n.
Proof.
  intros W (F & r & ->) L1 L2. unfold vcmp_with. rewrite (strlen_ok t r F). cbn [bind]. cbv zeta.
  replace (Z.to_nat (if zlen s <? zlen t then zlen s else zlen t)) with (Nat.min (length s) (length t)) by (unfold zlen; destruct (Z.of_nat (length s) <? Z.of_nat (length t)) eqn:A; lia).
  destruct (W r t s F) as (n & -> & T1 & T2). cbn [bind]. pose proof (zlen_nonneg s). pose proof (zlen_nonneg t). rewrite int_small by lia.
  destruct (n =? 0) eqn:A; eexists; (split; [reflexivity|]); apply tri_compares; [apply T2|apply T1]; lia.
Qed.
(** ** Two C strings *)
Lemma ncasecmp_cstr len : forall t1 t2 r1 r2, Forall (fun c => 0 < c) t1 -> Forall (fun c => 0 < c) t2 ->
  exists n, mg_ncasecmp len (t1 ++ 0 :: r1) (t2 ++ 0 :: r2) = OK n /\ tri (map case_key (firstn len t1)) (map case_key (firstn len t2)) n.
Proof.
  assert (P : forall c, 0 < c -> 0 < case_key c) by (intros c Hc; unfold case_key; destruct ((64 <? c) && (c <? 91)); lia).
  assert (Z0 : case_key 0 = 0) by reflexivity.
  induction len as [|len IH]; intros t1 t2 r1 r2 F1 F2; [exists 0; split; [reflexivity|split; [reflexivity|split; lia]]|].
  destruct F1 as [|c t1 Hc F1], F2 as [|d t2 Hd F2]; cbn [app mg_ncasecmp firstn map]; cbv zeta; rewrite !lower_key.
  - rewrite Z0. exists 0. split; [reflexivity|split; [reflexivity|split; lia]].
  - specialize (P d Hd). rewrite Z0. replace (0 - case_key d =? 0) with false by lia. cbn [andb]. eexists. split; [reflexivity|]. split; [lia|]. split; [intros _; apply ll_nil|lia].
  - specialize (P c Hc). rewrite Z0. replace (case_key c - 0 =? 0) with false by lia. cbn [andb]. eexists. split; [reflexivity|]. split; [lia|]. split; [lia|intros _; apply ll_nil].
  - replace (c =? 0) with false by lia. cbn [negb]. rewrite andb_true_r. destruct (case_key c - case_key d =? 0) eqn:A.
    + destruct (IH t1 t2 r1 r2 F1 F2) as (n & E & T). exists n. split; [exact E|]. replace (case_key d) with (case_key c) by lia. apply tri_cons. exact T.
    + eexists. split; [reflexivity|]. apply tri_head; lia.
Qed.
(** ** Two counted texts *)
Lemma strcmp_tri a : forall b, tri (map signed_key a) (map signed_key b) (mg_strcmp a b).
Proof.
  induction a as [|c a IH]; intros [|d b]; cbn [mg_strcmp map].
  - split; [reflexivity|split; lia].
  - split; [lia|]. split; [intros _; apply ll_nil|lia].
  - split; [lia|]. split; [lia|intros _; apply ll_nil].
  - rewrite !schar_key. destruct (signed_key c <? signed_key d) eqn:A; [apply tri_head; lia|]. destruct (signed_key c >? signed_key d) eqn:B; [apply tri_head; lia|].
    replace (signed_key d) with (signed_key c) by lia. apply tri_cons. apply IH.
Qed.
Lemma tolower_ascii c : 0 <= c < 128 -> tolower c = OK (case_key c).
Proof. intros H. unfold tolower, schar. replace (c <? 128) with true by lia. cbv zeta. replace (0 <=? c) with true by lia. rewrite lower_key. reflexivity. Qed.
Lemma strcasecmp_tri a : ascii a -> forall b, ascii b -> exists n, mg_strcasecmp a b = OK n /\ tri (map case_key a) (map case_key b) n.
Proof.
  induction 1 as [|c a Hc Fa IH]; intros [|d b] Fb; cbn [mg_strcasecmp map].
  - exists 0. split; [reflexivity|split; [reflexivity|split; lia]].
  - exists (-1). split; [reflexivity|]. split; [lia|]. split; [intros _; apply ll_nil|lia].
  - exists 1. split; [reflexivity|]. split; [lia|]. split; [lia|intros _; apply ll_nil].
  - inversion Fb as [|? ? Hd Fb']; subst. rewrite (tolower_ascii c Hc), (tolower_ascii d Hd). cbn [bind].
    destruct (case_key c <? case_key d) eqn:A; [eexists; split; [reflexivity|apply tri_head; lia]|].
    destruct (case_key c >? case_key d) eqn:B; [eexists; split; [reflexivity|apply tri_head; lia]|].
    destruct (IH b Fb') as (n & E & T). exists n. split; [exact E|]. replace (case_key d) with (case_key c) by lia. apply tri_cons. exact T.
Qed.
(** ** Stripping *)
Lemma isspace_ascii c : 0 <= c < 128 -> exists b, isspace c = OK b /\ (b = true <-> blank c).
Proof.
  intros H. unfold isspace, schar. replace (c <? 128) with true by lia. cbv zeta. replace (-1 <=? c) with true by lia. eexists. split; [reflexivity|].
  unfold blank. cbn [In]. lia.
Qed.
Lemma strip_front_ok s : ascii s -> exists a t, strip_front s = OK t /\ s = a ++ t /\ Forall blank a /\ (forall c r, t = c :: r -> ~ blank c).
Proof.
  induction 1 as [|c s Hc F IH]; cbn [strip_front]; [exists [], []; split; [reflexivity|]; split; [reflexivity|]; split; [constructor|discriminate]|].
  destruct (isspace_ascii c Hc) as (b & -> & B). cbn [bind]. destruct b.
  - destruct IH as (a & t & E & -> & Fa & N). exists (c :: a), t. split; [exact E|]. split; [reflexivity|]. split; [constructor; [apply B; reflexivity|exact Fa]|exact N].
  - exists [], (c :: s). split; [reflexivity|]. split; [reflexivity|]. split; [constructor|]. intros x r K. injection K as <- <-. intros Bl. apply B in Bl. discriminate Bl.
Qed.
Lemma strip_ok s : ascii s -> exists t, mg_strstrip s = OK t /\ stripped s t.
Proof.
  intros A. destruct (strip_front_ok s A) as (a & t & E & -> & Fa & N). unfold mg_strstrip. rewrite E. cbn [bind].
  assert (At : ascii (rev t)) by (apply Forall_app in A; apply Forall_rev; exact (proj2 A)).
  destruct (strip_front_ok (rev t) At) as (b & u & E2 & Er & Fb & N2). rewrite E2. cbn [bind]. exists (rev u). split; [reflexivity|].
  assert (Et : t = rev u ++ rev b) by (rewrite <- rev_app_distr, <- Er, rev_involutive; reflexivity).
  exists a, (rev b). split; [rewrite Et; reflexivity|]. split; [exact Fa|]. split; [apply Forall_rev; exact Fb|]. split; [|split].
  - intros K. rewrite K in Et. cbn [app] in Et. destruct (rev b) as [|c q] eqn:Eb; [reflexivity|]. exfalso. apply (N c q Et).
    assert (Fr : Forall blank (rev b)) by (apply Forall_rev; exact Fb). rewrite Eb in Fr. inversion Fr; assumption.
  - intros c r K. rewrite K in Et. exact (N c _ Et).
  - intros r c K. apply (N2 c (rev r)). rewrite <- (rev_involutive u), K, rev_app_distr. reflexivity.
Qed.
Lemma strip_unique s t1 t2 : stripped s t1 -> stripped s t2 -> t1 = t2.
Proof.
  assert (Hd : forall a1 a2 u1 u2 : list Z, a1 ++ u1 = a2 ++ u2 -> Forall blank a1 -> Forall blank a2 -> (forall c r, u1 = c :: r -> ~ blank c) -> (forall c r, u2 = c :: r -> ~ blank c) -> u1 = u2).
  { induction a1 as [|x a1 IH]; intros [|y a2] u1 u2 E F1 F2 N1 N2; cbn [app] in E; [exact E| | |].
    - exfalso. inversion F2; subst. exact (N1 _ _ eq_refl ltac:(assumption)).
    - exfalso. inversion F1; subst. exact (N2 _ _ eq_refl ltac:(assumption)).
    - injection E as -> E. inversion F1; subst. inversion F2; subst. apply (IH a2); assumption. }
  intros (a1 & b1 & E1 & A1 & B1 & Z1 & H1 & L1) (a2 & b2 & E2 & A2 & B2 & Z2 & H2 & L2).
  assert (E : t1 ++ b1 = t2 ++ b2).
  { apply (Hd a1 a2); [congruence|exact A1|exact A2| |].
    - intros c r K. destruct t1 as [|x t1]; [rewrite (Z1 eq_refl) in K; discriminate K|]. injection K as -> _. exact (H1 c t1 eq_refl).
    - intros c r K. destruct t2 as [|x t2]; [rewrite (Z2 eq_refl) in K; discriminate K|]. injection K as -> _. exact (H2 c t2 eq_refl). }
  apply (f_equal (@rev Z)) in E. rewrite !rev_app_distr in E. apply Hd in E.
  - rewrite <- (rev_involutive t1), E. apply rev_involutive.
  - apply Forall_rev. exact B1.
  - apply Forall_rev. exact B2.
  - intros c r K. apply (L1 (rev r) c). rewrite <- (rev_involutive t1), K. reflexivity.
  - intros c r K. apply (L2 (rev r) c). rewrite <- (rev_involutive t2), K. reflexivity.
Qed.

(** C104: the command line of the mjs program. *)
From Verif Require Import Base BaseFacts TokNum_Model Txt_Model Main_Model Main_Spec.
From Coq Require Import ZifyBool.
Ltac Zify.zify_post_hook ::= idtac.

Lemma text_is_ok a b : text_is a b = true <-> a = b.
Proof. unfold text_is. destruct (list_eq_dec Z.eq_dec a b) as [E|E]; split; intros H; try assumption; try reflexivity; [discriminate H|contradiction]. Qed.
Lemma text_is_not a b : text_is a b = false <-> a <> b.
Proof. unfold text_is. destruct (list_eq_dec Z.eq_dec a b) as [E|E]; split; intros H; try assumption; try reflexivity; [discriminate H|contradiction]. Qed.
Lemma flag_ok a : (hd 0 a =? 45) = true <-> is_flag a.
Proof. rewrite Z.eqb_eq. split; [destruct a as [|c t]; cbn [hd]; [lia|intros ->; exists t; reflexivity]|intros (t & ->); reflexivity]. Qed.
Lemma files_ok E : forall r st v, exists st' n v', performs E st v (map File r) st' n v' /\ ends E Done st' n v' (main_files E r st 0 v).
Proof.
  induction r as [|a r IH]; intros st v; cbn [main_files map]; change (0 =? 0) with true; cbn iota.
  - exists st, 0, v. split; [constructor|]. split; [contradiction|reflexivity].
  - destruct (exec_file E st a) as [[st1 n1] v1] eqn:X. destruct (Z.eq_dec n1 0) as [->|N].
    + destruct (IH st1 v1) as (st' & n & v' & P & Q). exists st', n, v'. split; [eapply pf_file; eassumption|exact Q].
    + exists st1, n1, v1. split; [apply pf_file_fails; assumption|]. split; [intros _|contradiction].
      destruct r; cbn [main_files]; replace (n1 =? 0) with false by lia; reflexivity.
Qed.
Lemma failed E r st n v : n <> 0 -> main_opts E r st n v = (Failed st, 0).
Proof.
  intros N. destruct r as [|a r]; cbn [main_opts main_files]; replace (n =? 0) with false by lia; [reflexivity|]. rewrite andb_false_r. reflexivity.
Qed.
Lemma opts_ok E argv l e : command_line argv l e -> forall st v, exists st' n v', performs E st v l st' n v' /\ ends E e st' n v' (main_opts E argv st 0 v).
Proof.
  induction 1 as [a x c r l e T C IH|r l e C IH|a r H|a r F N1 N2|r N]; intros st v.
  - destruct T as [(-> & ->)|[(-> & ->)|(-> & ->)]].
    + change (main_opts E (bs "-l" :: x :: r) st 0 v) with (main_opts E r (set_level E st x) 0 v).
      destruct (IH (set_level E st x) v) as (st' & n & v' & P & Q). exists st', n, v'. split; [constructor; exact P|exact Q].
    + change (main_opts E (bs "-e" :: x :: r) st 0 v) with (let '(st, err, res) := exec E st x in main_opts E r st err res).
      destruct (exec E st x) as [[st1 n1] v1] eqn:X. destruct (Z.eq_dec n1 0) as [->|N].
      * destruct (IH st1 v1) as (st' & n & v' & P & Q). exists st', n, v'. split; [eapply pf_exec; eassumption|exact Q].
      * exists st1, n1, v1. split; [apply pf_exec_fails; assumption|]. split; [intros _; apply failed; exact N|contradiction].
    + change (main_opts E (bs "-f" :: x :: r) st 0 v) with (let '(st, err, res) := exec_file E st x in main_opts E r st err res).
      destruct (exec_file E st x) as [[st1 n1] v1] eqn:X. destruct (Z.eq_dec n1 0) as [->|N].
      * destruct (IH st1 v1) as (st' & n & v' & P & Q). exists st', n, v'. split; [eapply pf_file; eassumption|exact Q].
      * exists st1, n1, v1. split; [apply pf_file_fails; assumption|]. split; [intros _; apply failed; exact N|contradiction].
  - assert (X : main_opts E (bs "-j" :: r) st 0 v = main_opts E r (set_jsc E st) 0 v) by (destruct r; reflexivity). rewrite X.
    destruct (IH (set_jsc E st) v) as (st' & n & v' & P & Q). exists st', n, v'. split; [constructor; exact P|exact Q].
  - exists st, 0, v. split; [constructor|]. split; [contradiction|intros _]. destruct H as [->| ->]; destruct r; reflexivity.
  - exists st, 0, v. split; [constructor|]. split; [contradiction|intros _]. apply flag_ok in F. cbn [main_opts]. rewrite F. change (0 =? 0) with true. cbn [andb]. cbv zeta.
    assert (D : forall b l, ~ In a l -> In b l -> text_is a b = false) by (intros b l NI I; apply text_is_not; intros ->; exact (NI I)).
    rewrite (D (bs "-j") _ N1) by (left; reflexivity). rewrite (D (bs "-h") _ N1) by (right; left; reflexivity). rewrite (D (bs "--help") _ N1) by (right; right; left; reflexivity).
    cbn [orb]. destruct r as [|x r]; [reflexivity|]. destruct N2 as [N2|N2]; [discriminate N2|].
    rewrite (D (bs "-l") _ N2) by (left; reflexivity). rewrite (D (bs "-e") _ N2) by (right; left; reflexivity). rewrite (D (bs "-f") _ N2) by (right; right; left; reflexivity). reflexivity.
  - destruct (files_ok E r st v) as (st' & n & v' & P & Q). exists st', n, v'. split; [exact P|].
    replace (main_opts E r st 0 v) with (main_files E r st 0 v); [exact Q|]. destruct r as [|a r]; [reflexivity|]. cbn [main_opts].
    destruct (hd 0 a =? 45) eqn:F; [exfalso; apply flag_ok in F; exact (N a r eq_refl F)|]. reflexivity.
Qed.
Lemma line_exists : forall m argv, (length argv <= m)%nat -> exists l e, command_line argv l e.
Proof.
  induction m as [|m IH]; intros argv L.
  - destruct argv; [|cbn in L; lia]. exists [], Done. apply (cl_files []). discriminate.
  - destruct argv as [|a r]; [exists [], Done; apply (cl_files []); discriminate|]. cbn [length] in L.
    destruct (hd 0 a =? 45) eqn:F; [apply flag_ok in F|exists (map File (a :: r)), Done; apply cl_files; intros x r' K; injection K as <- <-; intros K; apply flag_ok in K; congruence].
    destruct (list_eq_dec Z.eq_dec a (bs "-j")) as [->|Nj]; [destruct (IH r ltac:(lia)) as (l & e & C); exists (Jsc :: l), e; constructor; exact C|].
    destruct (list_eq_dec Z.eq_dec a (bs "-h")) as [->|Nh]; [exists [], Help; apply cl_help; left; reflexivity|].
    destruct (list_eq_dec Z.eq_dec a (bs "--help")) as [->|Nhh]; [exists [], Help; apply cl_help; right; reflexivity|].
    assert (NI : ~ In a [bs "-j"; bs "-h"; bs "--help"]) by (intros [K|[K|[K|[]]]]; symmetry in K; contradiction).
    destruct r as [|x r]; [exists [], (Bad a); apply cl_bad; [exact F|exact NI|left; reflexivity]|]. cbn [length] in L. destruct (IH r ltac:(lia)) as (l & e & C).
    destruct (list_eq_dec Z.eq_dec a (bs "-l")) as [->|Nl]; [exists (Level x :: l), e; apply cl_text; [left; split; reflexivity|exact C]|].
    destruct (list_eq_dec Z.eq_dec a (bs "-e")) as [->|Ne]; [exists (Exec x :: l), e; apply cl_text; [right; left; split; reflexivity|exact C]|].
    destruct (list_eq_dec Z.eq_dec a (bs "-f")) as [->|Nf]; [exists (File x :: l), e; apply cl_text; [right; right; split; reflexivity|exact C]|].
    exists [], (Bad a). apply cl_bad; [exact F|exact NI|right]. intros [K|[K|[K|[]]]]; symmetry in K; contradiction.
Qed.
(** C104. Every command line can be read as flags and files; main performs them in order up to the first program that fails and then shows
    the value of the last program, the error, the usage, or the unknown flag. *)
Theorem main_performs E st argv : exists l e st' n v, command_line argv l e /\ performs E st (undef E) l st' n v /\ ends E e st' n v (main E st argv).
Proof.
  destruct (line_exists (length argv) argv (le_n _)) as (l & e & C). destruct (opts_ok E argv l e C st (undef E)) as (st' & n & v & P & Q).
  exists l, e, st', n, v. split; [exact C|]. split; [exact P|exact Q].
Qed.
Print Assumptions main_performs.
Lemma performs_unique E st v l st1 n1 v1 : performs E st v l st1 n1 v1 -> forall st2 n2 v2, performs E st v l st2 n2 v2 -> (st1, n1, v1) = (st2, n2, v2).
Proof.
  induction 1 as [st v|st v x l st' n v' P IH|st v l st' n v' P IH|st v x l sa va st' n v' X P IH|st v x l sa n va X N|st v x l sa va st' n v' X P IH|st v x l sa n va X N];
    intros st2 n2 v2 Q; inversion Q; subst; try reflexivity; try (apply IH; assumption); try congruence;
    match goal with H : _ = (?s, 0, ?w), K : _ = (?s', 0, ?w') |- _ => apply IH; rewrite K in H; inversion H; subst; assumption end.
Qed.
(** C104. Whatever reading is chosen, this is what main does. *)
Theorem main_reading E st argv l e st' n v : command_line argv l e -> performs E st (undef E) l st' n v -> ends E e st' n v (main E st argv).
Proof.
  intros C P. destruct (opts_ok E argv l e C st (undef E)) as (s2 & n2 & v2 & P2 & Q). pose proof (performs_unique _ _ _ _ _ _ _ P _ _ _ P2) as U. injection U as -> -> ->. exact Q.
Qed.
Print Assumptions main_reading.
Lemma text_flag a x c : takes_text a x c -> is_flag a /\ In a [bs "-l"; bs "-e"; bs "-f"] /\ a <> bs "-j" /\ a <> bs "-h" /\ a <> bs "--help".
Proof. intros [(-> & _)|[(-> & _)|(-> & _)]]; (split; [eexists; reflexivity|]); (split; [cbn [In]; tauto|]); repeat split; discriminate. Qed.
Lemma text_unique a x c d : takes_text a x c -> takes_text a x d -> c = d.
Proof. intros [(-> & ->)|[(-> & ->)|(-> & ->)]] [(E & ->)|[(E & ->)|(E & ->)]]; (reflexivity || discriminate E). Qed.
Lemma jsc_flag : is_flag (bs "-j"). Proof. eexists. reflexivity. Qed.
Lemma help_flag a : a = bs "-h" \/ a = bs "--help" -> is_flag a /\ a <> bs "-j". Proof. intros [->| ->]; (split; [eexists; reflexivity|discriminate]). Qed.
(** A command line has one reading. *)
Theorem reading_unique argv l1 e1 : command_line argv l1 e1 -> forall l2 e2, command_line argv l2 e2 -> l1 = l2 /\ e1 = e2.
Proof.
  induction 1 as [a x c r l e T C IH|r l e C IH|a r H|a r F N B|r F]; intros l2 e2 D.
  - destruct (text_flag a x c T) as (Fa & Ia & J & H1 & H2). inversion D as [a' x' c' r' l' e' T' C'|r' l' e' C'|a' r' H'|a' r' F' N' B'|r' F']; subst.
    + rewrite (text_unique a x c c' T T'). destruct (IH _ _ C') as (-> & ->). split; reflexivity.
    + contradiction J; reflexivity.
    + destruct H'; contradiction.
    + destruct B' as [B'|B']; [discriminate B'|contradiction].
    + contradiction (F' _ _ eq_refl).
  - inversion D as [a' x' c' r' l' e' T' C'|r' l' e' C'|a' r' H'|a' r' F' N' B'|r' F']; subst.
    + destruct (text_flag _ _ _ T') as (_ & _ & J & _). contradiction J; reflexivity.
    + destruct (IH _ _ C') as (-> & ->). split; reflexivity.
    + destruct (help_flag _ H') as (_ & J). contradiction J; reflexivity.
    + contradiction N'. left. reflexivity.
    + contradiction (F' _ _ eq_refl). exact jsc_flag.
  - destruct (help_flag a H) as (Fa & J). inversion D as [a' x' c' r' l' e' T' C'|r' l' e' C'|a' r' H'|a' r' F' N' B'|r' F']; subst.
    + destruct (text_flag _ _ _ T') as (_ & _ & _ & H1 & H2). destruct H; contradiction.
    + contradiction J; reflexivity.
    + split; reflexivity.
    + contradiction N'. right. destruct H as [->| ->]; [left|right; left]; reflexivity.
    + contradiction (F' _ _ eq_refl).
  - inversion D as [a' x' c' r' l' e' T' C'|r' l' e' C'|a' r' H'|a' r' F' N' B'|r' F']; subst.
    + destruct (text_flag _ _ _ T') as (_ & Ia & _). destruct B as [B|B]; [discriminate B|contradiction].
    + contradiction N. left. reflexivity.
    + contradiction N. right. destruct H' as [->| ->]; [left|right; left]; reflexivity.
    + split; reflexivity.
    + contradiction (F' _ _ eq_refl).
  - inversion D as [a' x' c' r' l' e' T' C'|r' l' e' C'|a' r' H'|a' r' F' N' B'|r' F']; subst.
    + contradiction (F _ _ eq_refl). apply (text_flag _ _ _ T').
    + contradiction (F _ _ eq_refl). exact jsc_flag.
    + contradiction (F _ _ eq_refl). apply (help_flag _ H').
    + contradiction (F _ _ eq_refl).
    + split; reflexivity.
Qed.
Print Assumptions reading_unique.
Example ex_one_reading l e : command_line [bs "-e"; bs "1"; bs "a.js"] l e -> l = [Exec (bs "1"); File (bs "a.js")] /\ e = Done.
Proof.
  intros C. apply (reading_unique _ _ _ C). apply cl_text; [right; left; split; reflexivity|]. apply (cl_files [bs "a.js"]). intros a r K. injection K as <- <-. intros (t & K). discriminate K.
Qed.

(** An engine that logs what it is given and fails on texts that begin with ! *)
Definition mx : engine := {| St := list (list Z); Val := Z; undef := 0; set_level := fun s x => (108 :: x) :: s; set_jsc := fun s => [106] :: s;
  exec := fun s x => ((101 :: x) :: s, if hd 0 x =? 33 then 1 else 0, zlen x); exec_file := fun s x => ((102 :: x) :: s, if hd 0 x =? 33 then 1 else 0, 100 + zlen x) |}.
Definition mx_line : list (list Z) := [bs "-l"; bs "3"; bs "-e"; bs "1+2"; bs "-j"; bs "a.js"; bs "-e"].
Example mx_meets : command_line mx_line [Level (bs "3"); Exec (bs "1+2"); Jsc; File (bs "a.js"); File (bs "-e")] Done.
Proof.
  apply cl_text; [left; split; reflexivity|]. apply cl_text; [right; left; split; reflexivity|]. apply cl_jsc. apply (cl_files [bs "a.js"; bs "-e"]).
  intros a r K. injection K as <- <-. intros (t & K). discriminate K.
Qed.
Example mx_performs : performs mx [] 0 [Level (bs "3"); Exec (bs "1+2"); Jsc; File (bs "a.js"); File (bs "-e")] [bs "f-e"; bs "fa.js"; bs "j"; bs "e1+2"; bs "l3"] 0 102.
Proof. apply pf_level. eapply pf_exec; [reflexivity|]. apply pf_jsc. eapply pf_file; [reflexivity|]. eapply pf_file; [reflexivity|]. constructor. Qed.
Example mx_runs : main mx [] mx_line = (Shown (E := mx) [bs "f-e"; bs "fa.js"; bs "j"; bs "e1+2"; bs "l3"] 102, 0) /\
  main mx [] [bs "-e"; bs "!"; bs "-h"] = (Failed (E := mx) [bs "e!"], 0) /\ main mx [] [bs "-j"; bs "-l"] = (Unknown (bs "-l"), 1) /\ main mx [] [bs "x"; bs "-h"] = (Shown (E := mx) [bs "f-h"; bs "fx"] 102, 0).
Proof. vm_compute. repeat split. Qed.
Example mx_holds : main mx [] mx_line = (Shown (E := mx) [bs "f-e"; bs "fa.js"; bs "j"; bs "e1+2"; bs "l3"] 102, 0).
Proof. exact (proj2 (main_reading mx [] mx_line _ _ _ _ _ mx_meets mx_performs) eq_refl). Qed.
(** The exit status tells whether the programs succeeded: false. *)
Theorem status_tells_failure_refuted : exists E st argv l st' n v, command_line argv l Done /\ performs E st (undef E) l st' n v /\ n <> 0 /\ snd (main E st argv) = 0.
Proof.
  exists mx, [], [bs "!.js"], [File (bs "!.js")], [bs "f!.js"], 1, 104. split; [apply (cl_files [bs "!.js"]); intros a r K; injection K as <- <-; intros (t & K); discriminate K|].
  split; [apply pf_file_fails; [reflexivity|discriminate]|]. split; [discriminate|reflexivity].
Qed.
Print Assumptions status_tells_failure_refuted.

(** C101: matching a text against a glob pattern. *)
From Verif Require Import Base BaseFacts SUtil_Model SUtil_Spec SUtil_Proofs2 TokNum_Model Txt_Model Glob_Model Glob_Spec Glob_Proofs.
From Coq Require Import ZifyBool.
Ltac Zify.zify_post_hook ::= idtac.

(** C101. The matcher always answers, and with at most the length of the text. *)
Theorem match_answers p s : exists n, mg_match_prefix_n (S (length p)) p s = OK n /\ 0 <= n <= zlen s.
Proof. apply match_total_all. lia. Qed.
Print Assumptions match_answers.
(** C101. If it answers a positive number, some alternative of the pattern matches that many bytes of the text. *)
Theorem match_sound p s n : (forall a, alternative p a -> dollar_ok a) -> mg_match_prefix_n (S (length p)) p s = OK n -> 0 < n ->
  exists a t r, alternative p a /\ s = t ++ r /\ zlen t = n /\ glob a t r.
Proof.
  intros D H P. destruct (match_sound_all _ p s n D H) as [->|(a & t & r & A & E & L & G)]; [lia|].
  exists a, t, r. split; [exact A|]. split; [exact E|]. split; [symmetry; exact L|exact G].
Qed.
Print Assumptions match_sound.
(** C101. If some alternative matches some bytes of the text, and every star is followed by a rest that matches some bytes
    or is the last byte with text left, the matcher answers a positive number. *)
Theorem match_complete p a t r : alternative p a -> glob_found a t r -> t <> [] ->
  exists n, mg_match_prefix_n (S (length p)) p (t ++ r) = OK n /\ 0 < n.
Proof. intros A G T. apply (match_found_all _ p a t r); [lia|exact A|exact G|exact T]. Qed.
Print Assumptions match_complete.
(** C101. Without stars it answers a positive number exactly if some alternative matches some bytes. *)
Theorem match_exact p s : ~ In 42 p -> (forall a, alternative p a -> dollar_ok a) ->
  exists n, mg_match_prefix_n (S (length p)) p s = OK n /\
    (0 < n <-> exists a t r, alternative p a /\ s = t ++ r /\ t <> [] /\ glob a t r).
Proof.
  intros N D. destruct (match_answers p s) as (n & E & B). exists n. split; [exact E|]. split.
  - intros P. destruct (match_sound p s n D E P) as (a & t & r & A & E1 & L & G). exists a, t, r. split; [exact A|]. split; [exact E1|]. split; [|exact G].
    intros ->. change (zlen (@nil Z)) with 0 in L. lia.
  - intros (a & t & r & A & -> & T & G). destruct (match_complete p a t r A) with (2 := T) as (n' & E' & P').
    + apply no_star_found; [exact G|]. destruct A as (_ & x & y & -> & _). intros I. apply N. apply in_or_app. right. apply in_or_app. left. exact I.
    + rewrite E in E'. injection E' as ->. exact P'.
Qed.
Print Assumptions match_exact.

Definition glob_run (p s : list Z) := mg_match_prefix_n (S (length p)) p s.
(** The examples of the header, and others *)
Example gx_doc : glob_run (bs "a*f") (bs "abcdefgh") = OK 6 /\ glob_run (bs "a*f") (bs "abcdexgh") = OK 0 /\
  glob_run (bs "a*f|de*,xy") (bs "defgh") = OK 5 /\ glob_run (bs "?*") (bs "abc") = OK 3 /\ glob_run (bs "?*") [] = OK 0 /\
  glob_run (bs "**.JS$") (bs "lib/api/Gpio.js") = OK 15 /\ glob_run (bs "*.js$") (bs "lib/x.js") = OK 0.
Proof. vm_compute. repeat split. Qed.
Definition gx_p : list Z := bs "**/g?io.JS$".
Lemma gx_none : Forall (fun c => ~ sep c) gx_p.
Proof. unfold gx_p, sep. vm_compute. repeat constructor; intros [H|H]; discriminate H. Qed.
Example gx_meets : (forall a, alternative gx_p a -> dollar_ok a) /\ glob_run gx_p (bs "lib/api/Gpio.js") = OK 15.
Proof.
  split; [|vm_compute; reflexivity]. intros a A. rewrite (alt_only gx_p a gx_none A). unfold gx_p. vm_compute. repeat split; intros H; try discriminate H; intros K; discriminate K.
Qed.
Example gx_holds : exists a t r, alternative gx_p a /\ bs "lib/api/Gpio.js" = t ++ r /\ zlen t = 15 /\ glob a t r.
Proof. destruct gx_meets as (D & E). exact (match_sound _ _ _ D E ltac:(lia)). Qed.
(** The second alternative of a pattern with three *)
Example gx_second : ~ In 42 (bs "get,p?t|del") /\ alternative (bs "get,p?t|del") (bs "p?t") /\ glob (bs "p?t") (bs "PUT") (bs " /x") /\
  glob_run (bs "get,p?t|del") (bs "PUT /x") = OK 3.
Proof.
  split; [vm_compute; intuition discriminate|]. split; [|split; [|vm_compute; reflexivity]].
  - split; [vm_compute; repeat constructor; intros [H|H]; discriminate H|]. exists (bs "get,"), (bs "|del"). split; [reflexivity|].
    split; right; [exists (bs "get"), 44|exists 124, (bs "del")]; (split; [reflexivity|]); [right|left]; reflexivity.
  - change (glob [112; 63; 116] [80; 85; 84] (bs " /x")). apply gl_byte; [lia|lia|unfold same_letter; lia|]. apply gl_any.
    apply gl_byte; [lia|lia|unfold same_letter; lia|]. constructor.
Qed.

Example gx_second_found : exists n, mg_match_prefix_n 12 (bs "get,p?t|del") (bs "PUT" ++ bs " /x") = OK n /\ 0 < n.
Proof. destruct gx_second as (N & A & G & _). apply (match_complete _ _ _ _ A); [apply no_star_found; [exact G|vm_compute; intuition discriminate]|discriminate]. Qed.
(** A star that must give bytes back: the first f after the last one does not help. *)
Example gx_star : glob_found (bs "a*fg") (bs "abfefg") (bs "f/fg") /\ glob_run (bs "a*fg") (bs "abfefgf/fg") = OK 6.
Proof.
  split; [|vm_compute; reflexivity]. change (glob_found [97; 42; 102; 103] (97 :: [98; 102; 101] ++ [102; 103]) (bs "f/fg")).
  apply gf_byte; [lia|lia|left; reflexivity|]. apply gf_star; [cbn; intuition discriminate|cbn; lia|left; discriminate|].
  apply gf_byte; [lia|lia|left; reflexivity|]. apply gf_byte; [lia|lia|left; reflexivity|]. constructor.
Qed.
Example gx_exact_meets : ~ In 42 (bs "get") /\ (forall a, alternative (bs "get") a -> dollar_ok a) /\ glob_run (bs "get") (bs "GETS") = OK 3 /\ glob_run (bs "get") (bs "GE") = OK 0.
Proof.
  split; [vm_compute; intuition discriminate|]. split; [|vm_compute; split; reflexivity].
  intros a A. rewrite (alt_only (bs "get") a) by (try exact A; unfold sep; vm_compute; repeat constructor; intros [H|H]; discriminate H). vm_compute. repeat split; intros H; discriminate H.
Qed.

(** ** Where the code departs from its documentation *)
(** A star matches zero bytes: false at the end of the text. *)
Theorem star_matches_nothing_refuted : exists p t, glob_doc p t /\ glob p t [] /\ t <> [] /\ (forall a, alternative p a -> dollar_ok a) /\
  mg_match_prefix_n (S (length p)) p t = OK 0.
Proof.
  exists [97; 42], [97]. split; [|split; [|split; [discriminate|split; [|vm_compute; reflexivity]]]].
  - apply gd_byte; [lia|lia|left; reflexivity|]. apply (gd_star [] [] []); [intros []|constructor].
  - apply gl_byte; [lia|lia|left; reflexivity|]. apply (gl_star [] [] [] []); [intros []|constructor].
  - intros a A. rewrite (alt_only [97; 42] a) by (try exact A; unfold sep; repeat constructor; lia). cbn. repeat split; intros; try discriminate; lia.
Qed.
Print Assumptions star_matches_nothing_refuted.
(** A question mark does not match a slash: false. *)
Theorem any_is_no_slash_refuted : exists p s n, mg_match_prefix_n (S (length p)) p s = OK n /\ 0 < n /\
  forall a t r, alternative p a -> s = t ++ r -> zlen t = n -> ~ glob_doc a t.
Proof.
  exists [97; 63; 98], [97; 47; 98], 3. split; [vm_compute; reflexivity|]. split; [lia|]. intros a t r A E L G.
  rewrite (alt_only [97; 63; 98] a) in G by (try exact A; unfold sep; repeat constructor; lia).
  destruct t as [|x1 [|x2 [|x3 t]]]; rewrite ?zlen_cons in L; try (cbn in L; lia). injection E as <- <- <- _.
  inversion G; subst. match goal with H : glob_doc (63 :: _) _ |- _ => inversion H; subst end; congruence.
Qed.
Print Assumptions any_is_no_slash_refuted.
(** A dollar at the end of the pattern stands for the end of the text: false after a star. *)
Theorem dollar_is_the_end_refuted : exists p s n, mg_match_prefix_n (S (length p)) p s = OK n /\ 0 < n /\
  forall a t r, alternative p a -> s = t ++ r -> ~ glob a t r.
Proof.
  exists [42; 36], [97; 47; 98], 1. split; [vm_compute; reflexivity|]. split; [lia|]. intros a t r A E G.
  rewrite (alt_only [42; 36] a) in G by (try exact A; unfold sep; repeat constructor; lia).
  inversion G; subst; [|congruence]. match goal with H : glob [36] _ _ |- _ => inversion H; subst end.
  - rewrite !app_nil_r in E. subst u. match goal with H : ~ In 47 _ |- _ => apply H end. right. left. reflexivity.
  - match goal with H : same_letter 36 ?d |- _ => assert (d = 36) by (unfold same_letter in H; lia); subst d end.
    assert (I : In 36 [97; 47; 98]) by (rewrite E; apply in_or_app; left; apply in_or_app; right; left; reflexivity). cbn in I. intuition discriminate.
Qed.
Print Assumptions dollar_is_the_end_refuted.

(** C107: the stack trace in memory. *)
From Verif Require Import Base BaseFacts Str_Model TokNum_Model Txt_Model Avp_Model Avp_Spec Props_Avp ErrMem_Model ErrMem_Spec Props_ErrMem TrMem_Model TrMem_Spec.
From Coq Require Import ZifyBool.
Ltac Zify.zify_post_hook ::= idtac.

(** A formatting gives a whole text or nothing. *)
Lemma format_cases h t : heap_ok h -> zlen t < 2 ^ 31 - 1 ->
  (malloc h (zlen t + 1) = true /\ exists b, format h t = OK (Some b, 1) /\ holds b t) \/ (malloc h (zlen t + 1) = false /\ format h t = OK (None, 0)).
Proof.
  intros Hh L. destruct (malloc h (zlen t + 1)) eqn:M; [left; split; [reflexivity|apply format_some; assumption]|right; split; [reflexivity|apply format_null; assumption]].
Qed.
Lemma clean_concat ts : Forall clean ts -> Forall (fun c => c <> 0) (concat ts).
Proof. induction 1 as [|t ts H _ IH]; cbn [concat]; [constructor|]. apply Forall_app. split; [exact H|exact IH]. Qed.
Lemma concat_last {A} (k : list (list A)) t : concat (k ++ [t]) = concat k ++ t.
Proof. rewrite concat_app. cbn [concat]. rewrite app_nil_r. reflexivity. Qed.
(** One line, whatever malloc answers *)
Lemma line_kept h h2 s k t : heap_ok h -> heap_ok h2 -> Forall clean k -> clean t -> zlen (concat k) + zlen t < 2 ^ 31 - 1 -> shows s k ->
  append_line h h2 s t = UB /\ malloc h (zlen t + 1) = false \/
  exists s', append_line h h2 s t = OK s' /\ (shows s' (k ++ [t]) \/ shows s' [] /\ (malloc h (zlen t + 1) = false \/ malloc h2 (zlen (concat k) + zlen t + 1) = false)).
Proof.
  intros Hh Hh2 Ck Ct L Sh. pose proof (zlen_nonneg t) as Pt. pose proof (zlen_nonneg (concat k)) as Pk. unfold append_line, shows in *. destruct (t_trace s) as [old|].
  - destruct Sh as (_ & Ho & ->). destruct (format_cases h t Hh ltac:(lia)) as [(_ & n & -> & Hn)|(M & ->)]; cbn [bind]; [|left; split; [reflexivity|exact M]]. right.
    rewrite (read_ok old (concat k) (clean_concat k Ck) Ho). cbn [bind]. rewrite (read_ok n t Ct Hn). cbn [bind].
    destruct (format_cases h2 (concat k ++ t) Hh2 ltac:(rewrite zlen_app; lia)) as [(_ & b & -> & Hb)|(M & ->)]; cbn [bind]; eexists; (split; [reflexivity|]); cbn [t_trace t_live freed].
    + left. split; [intros E; destruct k; discriminate E|]. rewrite concat_last. split; [exact Hb|lia].
    + right. split; [split; [reflexivity|lia]|]. right. rewrite zlen_app in M. exact M.
  - destruct Sh as (-> & ->). right. destruct (format_cases h t Hh ltac:(lia)) as [(_ & b & -> & Hb)|(M & ->)]; cbn [bind]; eexists; (split; [reflexivity|]); cbn [t_trace t_live app].
    + left. split; [discriminate|]. cbn [concat]. rewrite app_nil_r. split; [exact Hb|reflexivity].
    + right. split; [split; reflexivity|]. left. exact M.
Qed.
Lemma lines_suffix ls : forall hs s k, (forall i, heap_ok (hs i)) -> Forall clean k -> Forall clean (texts ls) -> zlen (concat k) + zlen (concat (texts ls)) < 2 ^ 31 - 1 -> shows s k ->
  append_lines hs s ls = UB \/ exists s' d k', append_lines hs s ls = OK s' /\ k ++ texts ls = d ++ k' /\ shows s' k'.
Proof.
  induction ls as [|[t|] ls IH]; intros hs s k Hh Ck Cl L Sh; cbn [append_lines texts] in *.
  - right. exists s, [], k. rewrite app_nil_r. split; [reflexivity|]. split; [reflexivity|exact Sh].
  - inversion Cl as [|? ? Ct Cls]; subst. cbn [concat] in L. rewrite zlen_app in L. pose proof (zlen_nonneg (concat (texts ls))) as Pl. pose proof (zlen_nonneg (concat k)) as Pk. pose proof (zlen_nonneg t) as Pt.
    destruct (line_kept (hs O) (hs 1%nat) s k t (Hh O) (Hh 1%nat) Ck Ct ltac:(lia) Sh) as [(-> & _)|(s1 & -> & [S1|(S1 & _)])]; cbn [bind]; [left; reflexivity| |].
    + destruct (IH (fun i => hs (S (S i))) s1 (k ++ [t])) as [E|(s' & d & k' & E & D & S')];
        [intros i; apply Hh|apply Forall_app; split; [exact Ck|constructor; [exact Ct|constructor]]|exact Cls|rewrite concat_last, zlen_app; lia|exact S1|left; exact E|].
      right. exists s', d, k'. split; [exact E|]. split; [rewrite <- D, <- app_assoc; reflexivity|exact S'].
    + destruct (IH (fun i => hs (S (S i))) s1 []) as [E|(s' & d & k' & E & D & S')];
        [intros i; apply Hh|constructor|exact Cls|cbn [concat]; change (zlen (@nil Z)) with 0; lia|exact S1|left; exact E|].
      right. exists s', (k ++ t :: d), k'. split; [exact E|]. cbn [app] in D. rewrite D, <- app_assoc. split; [reflexivity|exact S'].
  - apply IH; assumption.
Qed.
(** C107. Whatever malloc answers, if the trace is made at all, it is the last lines, in order and none left out between them; its block is the only one. *)
Theorem trace_is_the_last_lines hs ls : (forall i, heap_ok (hs i)) -> Forall clean (texts ls) -> zlen (concat (texts ls)) < 2 ^ 31 - 1 ->
  append_lines hs trmem0 ls = UB \/ exists s lost kept, append_lines hs trmem0 ls = OK s /\ texts ls = lost ++ kept /\ shows s kept.
Proof. intros Hh C L. exact (lines_suffix ls hs trmem0 [] Hh ltac:(constructor) C L (conj eq_refl eq_refl)). Qed.
Print Assumptions trace_is_the_last_lines.
Lemma lines_whole ls : forall hs s k, (forall i, heap_ok (hs i)) -> (forall i, enough (hs i)) -> Forall clean k -> Forall clean (texts ls) -> zlen (concat k) + zlen (concat (texts ls)) < 2 ^ 31 - 1 -> shows s k ->
  exists s', append_lines hs s ls = OK s' /\ shows s' (k ++ texts ls).
Proof.
  induction ls as [|[t|] ls IH]; intros hs s k Hh He Ck Cl L Sh; cbn [append_lines texts] in *.
  - exists s. rewrite app_nil_r. split; [reflexivity|exact Sh].
  - inversion Cl as [|? ? Ct Cls]; subst. cbn [concat] in L. rewrite zlen_app in L. pose proof (zlen_nonneg (concat (texts ls))) as Pl. pose proof (zlen_nonneg (concat k)) as Pk. pose proof (zlen_nonneg t) as Pt.
    pose proof (He O (zlen t + 1) ltac:(lia)) as M1. pose proof (He 1%nat (zlen (concat k) + zlen t + 1) ltac:(lia)) as M2.
    destruct (line_kept (hs O) (hs 1%nat) s k t (Hh O) (Hh 1%nat) Ck Ct ltac:(lia) Sh) as [(_ & M)|(s1 & -> & [S1|(_ & [M|M])])]; [congruence| |congruence|congruence]. cbn [bind].
    destruct (IH (fun i => hs (S (S i))) s1 (k ++ [t])) as (s' & E & S');
      [intros i; apply Hh|intros i; apply He|apply Forall_app; split; [exact Ck|constructor; [exact Ct|constructor]]|exact Cls|rewrite concat_last, zlen_app; lia|exact S1|].
    exists s'. split; [exact E|]. rewrite <- app_assoc in S'. exact S'.
  - apply IH; assumption.
Qed.
(** With enough memory no line is lost. *)
Theorem trace_whole hs ls : (forall i, heap_ok (hs i)) -> (forall i, enough (hs i)) -> Forall clean (texts ls) -> zlen (concat (texts ls)) < 2 ^ 31 - 1 ->
  exists s, append_lines hs trmem0 ls = OK s /\ shows s (texts ls).
Proof. intros Hh He C L. exact (lines_whole ls hs trmem0 [] Hh He ltac:(constructor) C L (conj eq_refl eq_refl)). Qed.
Print Assumptions trace_whole.
(** Emptying a trace gives its block back. *)
Theorem emptied_trace_is_freed s k : shows s k -> shows (empty_trace s) [].
Proof. unfold shows, empty_trace. cbn [t_trace t_live]. destruct (t_trace s); cbn [freed]; [intros (_ & _ & ->)|intros (_ & ->)]; split; reflexivity. Qed.
Print Assumptions emptied_trace_is_freed.

Definition ex_ls : list (option (list Z)) := [Some (bs "  at a.js:3" ++ [10]); Some (bs "  at b.js:17" ++ [10]); None; Some (bs "  at c.js:1" ++ [10])].
Example ex_ls_meets : Forall clean (texts ex_ls) /\ zlen (concat (texts ex_ls)) < 2 ^ 31 - 1.
Proof. split; [repeat apply Forall_cons; try apply Forall_nil; unfold clean; vm_compute; repeat constructor; discriminate|reflexivity]. Qed.
Example ex_whole : exists s, append_lines (fun _ => ex_h) trmem0 ex_ls = OK s /\ shows s (texts ex_ls).
Proof. destruct ex_ls_meets as (C & L). destruct ex_meets as (H & E & _). exact (trace_whole (fun _ => ex_h) ex_ls (fun _ => H) (fun _ => E) C L). Qed.
(** malloc fails once, for the second block of the second line. *)
Definition ex_once : nat -> heap := fun i => if Nat.eqb i 3 then ex_none else ex_h.
Example ex_last : append_lines ex_once trmem0 ex_ls = OK {| t_trace := Some (bs "  at c.js:1" ++ [10; 0]); t_live := 1 |}.
Proof. vm_compute. reflexivity. Qed.
Lemma ex_once_ok i : heap_ok (ex_once i).
Proof. unfold ex_once. destruct (Nat.eqb i 3); apply ex_heap. Qed.
(** A trace begins at the place of the error: false. *)
Theorem trace_begins_at_error_refuted : exists hs ls s b, (forall i, heap_ok (hs i)) /\ Forall clean (texts ls) /\ zlen (concat (texts ls)) < 2 ^ 31 - 1 /\
  append_lines hs trmem0 ls = OK s /\ t_trace s = Some b /\ ~ exists first r, hd_error (texts ls) = Some first /\ b = first ++ r.
Proof.
  exists ex_once, ex_ls, {| t_trace := Some (bs "  at c.js:1" ++ [10; 0]); t_live := 1 |}, (bs "  at c.js:1" ++ [10; 0]). split; [exact ex_once_ok|]. split; [apply ex_ls_meets|]. split; [apply ex_ls_meets|].
  split; [exact ex_last|]. split; [reflexivity|]. intros (first & r & E & B). assert (first = bs "  at a.js:3" ++ [10]) by (vm_compute in E |- *; congruence). subst first. vm_compute in B. congruence.
Qed.
Print Assumptions trace_begins_at_error_refuted.
(** Lack of memory only loses lines: false. Without room for a line the null pointer is formatted, for every trace begun. *)
Theorem no_memory_formats_null_line h h2 s t : heap_ok h -> t_trace s <> None -> malloc h (zlen t + 1) = false -> append_line h h2 s t = UB.
Proof. intros Hh N M. unfold append_line. rewrite (format_null h t Hh M). cbn [bind]. destruct (t_trace s); [reflexivity|contradiction]. Qed.
Print Assumptions no_memory_formats_null_line.
Theorem no_memory_only_loses_lines_refuted : exists hs ls, (forall i, heap_ok (hs i)) /\ Forall clean (texts ls) /\ zlen (concat (texts ls)) < 2 ^ 31 - 1 /\ append_lines hs trmem0 ls = UB.
Proof.
  exists (fun i => if Nat.eqb i 2 then ex_none else ex_h), ex_ls. split; [intros i; destruct (Nat.eqb i 2); apply ex_heap|]. split; [apply ex_ls_meets|]. split; [apply ex_ls_meets|]. vm_compute. reflexivity.
Qed.
Print Assumptions no_memory_only_loses_lines_refuted.

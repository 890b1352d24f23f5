(** C100: the prefix of log messages. *)
From Verif Require Import Base BaseFacts Str_Spec SUtil_Model SUtil_Spec SUtil_Proofs2 TokNum_Model Txt_Model Log_Model Log_Spec Log_Proofs.
From Coq Require Import ZifyBool.
Ltac Zify.zify_post_hook ::= idtac.

Lemma place_bytes file name ds n : bytes_ok file -> base_name file name -> decimal n ds -> bytes_ok (place name ds).
Proof.
  intros B (_ & dir & -> & _) (_ & D & _ & _). unfold bytes_ok, place in *. apply Forall_app in B. destruct B as [_ B]. apply Forall_app. split.
  - rewrite <- (firstn_skipn (22 - length ds) name) in B. apply Forall_app in B. exact (proj1 B).
  - constructor; [unfold is_byte; lia|]. eapply Forall_impl; [|exact D]. cbv beta. unfold is_byte. lia.
Qed.
(** C100. For lines below 100000 the prefix is the name of the file after its last slash, shortened if need be, a colon,
    the line, and blanks up to 24 bytes. It is written if the message's level is not above the global level; with a list of
    levels per place, not above the value of the first entry that begins the place. *)
Theorem log_prefix junk level0 level file ln name : zlen junk = 24 -> bytes_ok file -> 0 <= ln < 100000 -> base_name file name ->
  exists ds, decimal ln ds /\ zlen (padded (place name ds)) = 24 /\
    cs_log_print_prefix junk level0 None level file ln = OK (if level0 <? level then None else Some (padded (place name ds))) /\
    forall l, Forall entry_ok l -> Forall ascii_entry l ->
      exists n, level_for (place name ds) level0 l n /\ (forall n', level_for (place name ds) level0 l n' -> n' = n) /\
        cs_log_print_prefix junk level0 (Some (entries_src l)) level file ln = OK (if n <? level then None else Some (padded (place name ds))).
Proof.
  intros Lj Bf Hn Bn. destruct (prefix_written junk file ln Lj Hn) as (name' & ds & Bn' & D & Ld & E). rewrite (base_unique file name' name Bn' Bn) in E. clear name' Bn'.
  exists ds. split; [exact D|]. split; [|split].
  - unfold padded, place. rewrite !zlen_app. unfold zlen. rewrite repeat_length, app_length, firstn_length. cbn [length]. lia.
  - unfold cs_log_print_prefix. rewrite E. cbn [bind]. destruct (level0 <? level); reflexivity.
  - intros l El Al. set (f := S (length (entries_src l))). pose proof (entries_length l El) as Le.
    assert (C : comma_all f (entries_src l) = l) by (apply comma_all_spec; [exact El|unfold f; lia]).
    pose proof (place_level_ok (place name ds) level0 (place_bytes _ _ _ _ Bf Bn D) f (entries_src l) ltac:(rewrite C; exact Al)) as P. rewrite C in P.
    exists (place_level f (entries_src l) (place name ds) level0). split; [exact P|]. split; [intros n' P'; exact (level_for_unique _ _ _ _ _ P' P)|].
    unfold cs_log_print_prefix. rewrite E. cbn [bind]. fold f.
    replace (firstn (Z.to_nat (zlen (place name ds))) (padded (place name ds))) with (place name ds); [reflexivity|].
    unfold padded, zlen. rewrite Nat2Z.id, firstn_app, firstn_all, Nat.sub_diag. symmetry. apply app_nil_r.
Qed.
Print Assumptions log_prefix.

Definition lx_junk : list Z := repeat 170 24.
Definition lx_levels : list (list Z * option (list Z)) := [(bs "mjs_exec", Some (bs "1")); (bs "mjs_g", Some (bs "4")); (bs "mjs", Some (bs "0"))].
Example lx_meets : zlen lx_junk = 24 /\ bytes_ok (bs "src/mjs_gc.c") /\ base_name (bs "src/mjs_gc.c") (bs "mjs_gc.c") /\ Forall entry_ok lx_levels /\ Forall ascii_entry lx_levels.
Proof.
  split; [reflexivity|]. split; [vm_compute; repeat constructor; congruence|]. split.
  - split; [vm_compute; repeat constructor; intros [H|H]; discriminate H|]. exists (bs "src/"). split; [reflexivity|]. right. exists (bs "src"), 47. split; [reflexivity|left; reflexivity].
  - split; repeat apply Forall_cons; try apply Forall_nil; unfold entry_ok, ascii_entry; vm_compute; repeat split; try (intuition discriminate); repeat constructor; congruence.
Qed.
(** Level 3 is above the global level 2, but the second entry allows up to 4 in this file. *)
Example lx_written : cs_log_print_prefix lx_junk 2 (Some (bs "mjs_exec=1,mjs_g=4,mjs=0")) 3 (bs "src/mjs_gc.c") 217 = OK (Some (bs "mjs_gc.c:217            ")) /\
  cs_log_print_prefix lx_junk 2 None 3 (bs "src/mjs_gc.c") 217 = OK None /\ entries_src lx_levels = bs "mjs_exec=1,mjs_g=4,mjs=0".
Proof. vm_compute. repeat split. Qed.
Example lx_holds : exists ds, decimal 217 ds /\ exists n, level_for (place (bs "mjs_gc.c") ds) 2 lx_levels n /\
  cs_log_print_prefix lx_junk 2 (Some (entries_src lx_levels)) 3 (bs "src/mjs_gc.c") 217 = OK (if n <? 3 then None else Some (padded (place (bs "mjs_gc.c") ds))).
Proof.
  destruct lx_meets as (H1 & H2 & H3 & H4 & H5). destruct (log_prefix lx_junk 2 3 _ 217 _ H1 H2 ltac:(lia) H3) as (ds & D & _ & _ & G).
  destruct (G _ H4 H5) as (n & L & _ & E). exists ds. split; [exact D|]. exists n. split; [exact L|exact E].
Qed.
(** The prefix stays inside its array for every line: false. A line number (set with a #line directive) of more than five
    digits and a short name write before the array. *)
Theorem log_prefix_any_line_refuted : exists junk level0 level file ln, zlen junk = 24 /\ bytes_ok file /\ 0 <= ln < 2 ^ 31 /\ level <= level0 /\
  cs_log_print_prefix junk level0 None level file ln = UB.
Proof.
  exists lx_junk, 4, 1, (bs "a.c"), 1000000000. split; [reflexivity|]. split; [vm_compute; repeat constructor; congruence|]. split; [lia|]. split; [lia|]. vm_compute. reflexivity.
Qed.
Print Assumptions log_prefix_any_line_refuted.

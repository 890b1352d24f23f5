(** C111: reading a JSON file. *)
From Verif Require Import Base BaseFacts TokNum_Model Txt_Model File_Model File_Spec Props_File Fread_Model.
From Coq Require Import ZifyBool.
Ltac Zify.zify_post_hook ::= idtac.

(** C111. For all answers of the C library but the largest position: the file is closed in every case; the answer is all bytes told and a
    NUL exactly if the file is readable and not empty, and otherwise nothing stays allocated. Without a positive position nothing is
    allocated at all. *)
Theorem fread_all_or_nothing e : e_tell e < 2 ^ 63 - 1 -> exists res tr, json_fread e = OK (res, tr) /\ files_open tr = 0 /\
  (readable e /\ 0 < e_tell e <-> res <> None) /\ (forall n, In (Malloced n) tr -> 0 < e_tell e /\ n = e_tell e + 1) /\
  match res with
  | Some data => data = firstn (Z.to_nat (e_tell e)) (e_bytes e) ++ [0] /\ zlen data = e_tell e + 1 /\ In (Malloced (e_tell e + 1)) tr /\ blocks_live tr = 1
  | None => blocks_live tr = 0
  end.
Proof.
  intros T. unfold json_fread, readable.
  destruct (e_open e) eqn:Eo; cbn [negb]; [|exists None, []; repeat (split; [reflexivity|]); split; [|split; [intros n K; repeat (destruct K as [K|K]; [discriminate K|]); contradiction|reflexivity]]; split; [intros ((K & _) & _); discriminate K|contradiction]].
  destruct (e_seek e) eqn:Es; cbn [negb]; [|exists None, [Opened; Closed]; repeat (split; [reflexivity|]); split; [|split; [intros n K; repeat (destruct K as [K|K]; [discriminate K|]); contradiction|reflexivity]]; split; [intros ((_ & K & _) & _); discriminate K|contradiction]].
  cbv zeta. destruct (0 <? e_tell e) eqn:P; cbn [negb]; [|exists None, [Opened; Closed]; repeat (split; [reflexivity|]); split; [|split; [intros n K; repeat (destruct K as [K|K]; [discriminate K|]); contradiction|reflexivity]]; split; [intros (_ & K); lia|contradiction]].
  replace (2 ^ 63 - 1 <=? e_tell e) with false by lia.
  destruct (e_malloc e (e_tell e + 1)) eqn:Em; cbn [negb]; [|exists None, [Opened; Closed]; repeat (split; [reflexivity|]); split; [|split; [intros n K; repeat (destruct K as [K|K]; [discriminate K|]); contradiction|reflexivity]]; split; [intros ((_ & _ & K & _) & _); discriminate K|contradiction]].
  unfold c_fread. set (got := if e_rewind e then _ else _). pose proof (zlen_nonneg (e_bytes e)) as Pb.
  assert (G : zlen got = if e_rewind e then Z.min (e_tell e) (zlen (e_bytes e)) else 0) by (unfold got; destruct (e_rewind e); [apply firstn_all_le; lia|reflexivity]).
  assert (Gl : zlen got <= e_tell e) by (rewrite G; destruct (e_rewind e); lia).
  cbv zeta. replace (zlen got <=? e_tell e + 1) with true by lia. cbn [bind]. destruct (zlen got =? e_tell e) eqn:E; cbn [negb].
  - assert (Rd : e_rewind e = true /\ e_tell e <= zlen (e_bytes e)) by (destruct (e_rewind e); [split; [reflexivity|lia]|lia]).
    eexists _, _. split; [reflexivity|]. split; [reflexivity|]. split; [split; [discriminate|intros _; split; [repeat (split; [reflexivity|]); right; exact Rd|lia]]|].
    split; [intros n [K|[K|[K|K]]]; try discriminate K; [injection K as <-; lia|contradiction]|].
    split; [|split; [rewrite zlen_app; change (zlen [0]) with 1; lia|split; [right; left; reflexivity|reflexivity]]].
    f_equal. unfold got. destruct Rd as (-> & L). f_equal. f_equal. lia.
  - eexists None, _. split; [reflexivity|]. split; [reflexivity|]. split; [|split; [intros n [K|[K|[K|[K|K]]]]; try discriminate K; [injection K as <-; lia|contradiction]|reflexivity]]. split; [|contradiction]. intros ((_ & _ & _ & [K|(K1 & K2)]) & _); [lia|]. rewrite K1 in G. lia.
Qed.
Print Assumptions fread_all_or_nothing.

Example jx_meets : e_tell (fx 6 (bs "[1,2] ")) < 2 ^ 63 - 1 /\ readable (fx 6 (bs "[1,2] ")) /\ 0 < e_tell (fx 6 (bs "[1,2] ")).
Proof. split; [cbn; lia|]. split; [repeat (split; [reflexivity|]); right; split; [reflexivity|vm_compute; discriminate]|cbn; lia]. Qed.
Example jx_runs : json_fread (fx 6 (bs "[1,2] ")) = OK (Some (bs "[1,2] " ++ [0]), [Opened; Malloced 7; Closed]) /\
  json_fread (fx 9 (bs "[1,2] ")) = OK (None, [Opened; Malloced 10; Freed; Closed]) /\ json_fread (fx (-1) (bs "[1]")) = OK (None, [Opened; Closed]).
Proof. vm_compute. repeat split. Qed.
(** NULL tells that the file cannot be read: false for empty files. *)
Theorem fread_null_is_failure_refuted : exists e tr, readable e /\ json_fread e = OK (None, tr).
Proof. exists (fx 0 []), [Opened; Closed]. split; [repeat (split; [reflexivity|]); left; reflexivity|reflexivity]. Qed.
Print Assumptions fread_null_is_failure_refuted.
(** Every answer of ftell is handled: false for the largest, which some file systems give for directories. *)
Theorem fread_any_position_refuted : exists e, e_tell e = 2 ^ 63 - 1 /\ json_fread e = UB.
Proof. exists (fx (2 ^ 63 - 1) []). split; reflexivity. Qed.
Print Assumptions fread_any_position_refuted.

(** C103: reading a file. *)
From Verif Require Import Base BaseFacts TokNum_Model Txt_Model File_Model File_Spec.
From Coq Require Import ZifyBool.
Ltac Zify.zify_post_hook ::= idtac.

Lemma firstn_all_le (n : Z) (l : list Z) : 0 <= n -> zlen (firstn (Z.to_nat (Z.min n (zlen l))) l) = Z.min n (zlen l).
Proof. intros H. unfold zlen. rewrite firstn_length. lia. Qed.
(** C103. The answer is all or nothing. With a block, the file was readable, the block holds the first *size bytes and a NUL, and the file
    is closed. Without, no block stays allocated, and the file is closed unless it shrank. *)
Theorem read_all_or_nothing e : tells e -> exists res tr, cs_read_file e = OK (res, tr) /\
  (readable e <-> res <> None) /\
  match res with
  | Some (data, size) => size = e_tell e /\ data = firstn (Z.to_nat size) (e_bytes e) ++ [0] /\ zlen data = size + 1 /\
      In (Malloced (size + 1)) tr /\ files_open tr = 0 /\ blocks_live tr = 1
  | None => blocks_live tr = 0 /\ (files_open tr = 0 <-> ~ shrunk e)
  end.
Proof.
  intros T. unfold tells in T. unfold cs_read_file, readable, shrunk.
  assert (M : e_tell e mod 2 ^ 64 = e_tell e) by (apply Z.mod_small; lia). rewrite M.
  assert (M2 : (e_tell e + 1) mod 2 ^ 64 = e_tell e + 1) by (apply Z.mod_small; lia). cbv zeta. rewrite M2. clear M M2.
  destruct (e_open e) eqn:Eo; cbn [negb]; [|exists None, []; split; [reflexivity|]; split; [split; [intros (K & _); discriminate K|contradiction]|]; split; [reflexivity|]; split; [intros _ (K & _); discriminate K|reflexivity]].
  destruct (e_seek e) eqn:Es; cbn [negb]; [|exists None, [Opened; Closed]; split; [reflexivity|]; split; [split; [intros (_ & K & _); discriminate K|contradiction]|]; split; [reflexivity|]; split; [intros _ (_ & K & _); discriminate K|reflexivity]].
  destruct (e_malloc e (e_tell e + 1)) eqn:Em; cbn [negb]; [|exists None, [Opened; Closed]; split; [reflexivity|]; split; [split; [intros (_ & _ & K & _); discriminate K|contradiction]|]; split; [reflexivity|]; split; [intros _ (_ & _ & K & _); discriminate K|reflexivity]].
  unfold c_fread. set (got := if e_rewind e then _ else _). pose proof (zlen_nonneg (e_bytes e)) as Pb.
  assert (G : zlen got = if e_rewind e then Z.min (e_tell e) (zlen (e_bytes e)) else 0) by (unfold got; destruct (e_rewind e); [apply firstn_all_le; lia|reflexivity]).
  assert (Gl : zlen got <= e_tell e) by (rewrite G; destruct (e_rewind e); lia).
  cbv zeta. replace (zlen got <=? e_tell e + 1) with true by lia. cbn [bind]. destruct (zlen got =? e_tell e) eqn:E; cbn [negb].
  - replace (e_tell e <? e_tell e + 1) with true by lia. eexists _, _. split; [reflexivity|].
    assert (Rd : e_tell e = 0 \/ (e_rewind e = true /\ e_tell e <= zlen (e_bytes e))) by (destruct (e_rewind e); [right; split; [reflexivity|lia]|left; lia]).
    split; [split; [discriminate|intros _; repeat (split; [reflexivity|]); exact Rd]|]. split; [reflexivity|]. split; [|split; [|split; [right; left; reflexivity|split; reflexivity]]].
    + f_equal. unfold got. destruct (e_rewind e); [f_equal; f_equal; lia|]. destruct Rd as [-> |(K & _)]; [reflexivity|discriminate K].
    + rewrite zlen_app. change (zlen [0]) with 1. lia.
  - assert (Nr : ~ (e_tell e = 0 \/ (e_rewind e = true /\ e_tell e <= zlen (e_bytes e)))).
    { intros [K|(K1 & K2)]; [pose proof (zlen_nonneg got); lia|]. rewrite K1 in G. lia. }
    eexists None, _. split; [reflexivity|]. split; [split; [intros (_ & _ & _ & K); contradiction|contradiction]|]. split; [reflexivity|].
    split; [discriminate|]. intros K. exfalso. apply K. repeat (split; [reflexivity|]). intros (_ & _ & _ & K'). contradiction.
Qed.
Print Assumptions read_all_or_nothing.

(** A file that grew between ftell and fread: the first bytes are given. *)
Definition fx (n : Z) (t : list Z) : env := {| e_open := true; e_seek := true; e_tell := n; e_malloc := fun k => k <? 1000; e_rewind := true; e_bytes := t |}.
Example fx_meets : tells (fx 6 (bs "let x=1;")) /\ readable (fx 6 (bs "let x=1;")) /\ shrunk (fx 9 (bs "let x=1;")).
Proof.
  split; [unfold tells; cbn; lia|]. split; [repeat (split; [reflexivity|]); right; split; [reflexivity|vm_compute; discriminate]|].
  repeat (split; [reflexivity|]). intros (_ & _ & _ & [K|(_ & K)]); [discriminate K|]. vm_compute in K. apply K. reflexivity.
Qed.
Example fx_runs : cs_read_file (fx 6 (bs "let x=1;")) = OK (Some (bs "let x=" ++ [0], 6), [Opened; Malloced 7; Closed]) /\
  cs_read_file (fx 9 (bs "let x=1;")) = OK (None, [Opened; Malloced 10; Freed]) /\ cs_read_file (fx 0 []) = OK (Some ([0], 0), [Opened; Malloced 1; Closed]) /\
  (* a directory under Linux *)
  cs_read_file (fx (2 ^ 63 - 1) []) = OK (None, [Opened; Closed]).
Proof. vm_compute. repeat split. Qed.
Example fx_holds : exists res tr, cs_read_file (fx 6 (bs "let x=1;")) = OK (res, tr) /\ res <> None /\ files_open tr = 0.
Proof.
  destruct fx_meets as (T & Rd & _). destruct (read_all_or_nothing _ T) as (res & tr & E & Iff & P). exists res, tr. split; [exact E|]. split; [apply Iff; exact Rd|].
  destruct res as [(data & size)|]; [apply P|]. exfalso. apply Iff in Rd. contradiction.
Qed.
(** The file is closed in every case: false, a short read leaves it open. *)
Theorem file_is_closed_refuted : exists e tr, tells e /\ cs_read_file e = OK (None, tr) /\ 0 < files_open tr.
Proof. exists (fx 9 (bs "let x=1;")), [Opened; Malloced 10; Freed]. split; [unfold tells; cbn; lia|]. split; reflexivity. Qed.
Print Assumptions file_is_closed_refuted.
(** A failing ftell is noticed: false, a block of no bytes is allocated and the file is read into it. *)
Theorem tell_failure_noticed_refuted : exists e, e_tell e = -1 /\ cs_read_file e = UB.
Proof. exists (fx (-1) (bs "let x=1;")). split; reflexivity. Qed.
Print Assumptions tell_failure_noticed_refuted.

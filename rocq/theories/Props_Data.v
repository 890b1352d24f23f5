(** C28: raw memory accessors. *)
From Verif Require Import Base BaseFacts Value_Model Float_Proofs Data_Model Data_Spec Data_Proofs.
Ltac Zify.zify_post_hook ::= Z.div_mod_to_equations.

(** Reading: the number the addressed bytes write in the chosen order, modulo 2^32, and
    its two's complement reading. Any size for the unsigned accessor. *)
Theorem mem_get_uint_reads : forall m ptr bs be, bytes_at m ptr bs -> bytes_ok bs ->
  exists d, mem_get_uint m ptr (zlen bs) be = OK d /\ d_trunc d = Some (unsigned_val be bs mod 2 ^ 32) /\
    (zlen bs <= 4 -> d_trunc d = Some (unsigned_val be bs)).
Proof.
  intros m ptr bs be H B. eexists. split; [apply get_uint_spec; assumption|].
  pose proof (Z.mod_pos_bound (unsigned_val be bs) (2 ^ 32) ltac:(lia)) as Hb.
  destruct (d_of_Z_exact (unsigned_val be bs mod 2 ^ 32) ltac:(lia)) as (_ & _ & T). split; [exact T|].
  intros L. rewrite T. f_equal. apply Z.mod_small. pose proof (unsigned_bound be bs B) as U. split; [apply U|].
  apply Z.lt_le_trans with (256 ^ zlen bs); [apply U|]. change (2 ^ 32) with (256 ^ 4).
  apply Z.pow_le_mono_r; lia.
Qed.
Print Assumptions mem_get_uint_reads.
Theorem mem_get_int_reads : forall m ptr bs be, bytes_at m ptr bs -> bytes_ok bs -> 1 <= zlen bs <= 4 ->
  exists d, mem_get_int m ptr (zlen bs) be = OK d /\
    d_trunc d = Some (signed_val (zlen bs) (unsigned_val be bs)).
Proof.
  intros m ptr bs be H B L. eexists. split; [apply get_int_spec; assumption|].
  apply d_of_Z_exact. pose proof (unsigned_bound be bs B) as U. unfold signed_val.
  assert (256 ^ zlen bs <= 256 ^ 4) by (apply Z.pow_le_mono_r; lia).
  assert (2 ^ (8 * zlen bs) <= 2 ^ 32) by (apply Z.pow_le_mono_r; lia).
  assert (0 < 2 ^ (8 * zlen bs - 1)) by (apply Z.pow_pos_nonneg; lia).
  destruct (_ <? _) eqn:E; lia.
Qed.
Print Assumptions mem_get_int_reads.

(** Writing: exactly the addressed bytes change, and they then write the value truncated to
    the size. *)
Theorem mem_set_writes : forall m ptr val old be, bytes_at m ptr old ->
  exists m' new, mem_set_uint m ptr val (zlen old) be = OK m' /\ mem_set_int m ptr val (zlen old) be = OK m' /\
    length new = length old /\ bytes_ok new /\ bytes_at m' ptr new /\ same_outside m m' ptr (zlen old) /\
    unsigned_val be new = (val mod 2 ^ 32) mod 2 ^ (8 * zlen old).
Proof.
  intros m ptr val old be H. destruct (set_uint_spec m ptr val old be H) as (m' & R & V & F).
  exists m', (laid be (length old) (u32 val)). unfold mem_set_int. split; [exact R|]. split; [exact R|].
  split; [apply laid_len|]. split; [apply laid_ok|]. split; [exact V|]. split; [exact F|].
  rewrite laid_val by (unfold u32; lia). unfold u32, zlen. rewrite Z.pow_mul_r by lia. reflexivity.
Qed.
Print Assumptions mem_set_writes.

(** Round trips. *)
Theorem mem_uint_round_trip : forall m ptr val old be, bytes_at m ptr old -> zlen old <= 4 ->
  exists m' d, mem_set_uint m ptr val (zlen old) be = OK m' /\ mem_get_uint m' ptr (zlen old) be = OK d /\
    d_trunc d = Some (val mod 2 ^ (8 * zlen old)).
Proof.
  intros m ptr val old be H L. destruct (mem_set_writes m ptr val old be H) as (m' & new & R & _ & Ln & B & V & _ & U).
  assert (Lz : zlen new = zlen old) by (unfold zlen; rewrite Ln; reflexivity).
  destruct (mem_get_uint_reads m' ptr new be V B) as (d & G & _ & T). exists m', d. split; [exact R|].
  rewrite Lz in G, T. split; [exact G|]. rewrite (T L), U. f_equal. pose proof (zlen_nonneg old).
  replace (2 ^ 32) with (2 ^ (32 - 8 * zlen old) * 2 ^ (8 * zlen old)) by (rewrite <- Z.pow_add_r by lia; f_equal; lia).
  symmetry. apply Znumtheory.Zmod_div_mod; [apply Z.pow_pos_nonneg; lia| |apply Z.divide_factor_r].
  apply Z.mul_pos_pos; apply Z.pow_pos_nonneg; lia.
Qed.
Print Assumptions mem_uint_round_trip.

Theorem mem_int_round_trip : forall m ptr val old be, bytes_at m ptr old -> 1 <= zlen old <= 4 ->
  - 2 ^ (8 * zlen old - 1) <= val < 2 ^ (8 * zlen old - 1) ->
  exists m' d, mem_set_int m ptr val (zlen old) be = OK m' /\ mem_get_int m' ptr (zlen old) be = OK d /\
    d_trunc d = Some val.
Proof.
  intros m ptr val old be H L Hv. destruct (mem_set_writes m ptr val old be H) as (m' & new & _ & R & Ln & B & V & _ & U).
  assert (Lz : zlen new = zlen old) by (unfold zlen; rewrite Ln; reflexivity).
  destruct (mem_get_int_reads m' ptr new be V B ltac:(lia)) as (d & G & T). exists m', d. split; [exact R|].
  rewrite Lz in G, T. split; [exact G|]. rewrite T, U. f_equal. unfold signed_val.
  assert (zlen old = 1 \/ zlen old = 2 \/ zlen old = 3 \/ zlen old = 4) as [E|[E|[E|E]]] by lia; rewrite E in Hv |- *;
    cbn [Z.mul Z.sub Z.add Z.opp Z.pos_sub Pos.mul Pos.add Pos.succ Z.pred_double Pos.pred_double] in Hv |- *.
  - change (2 ^ 7) with 128 in *. change (2 ^ 8) with 256. destruct (_ <? _) eqn:E1; lia.
  - change (2 ^ 15) with 32768 in *. change (2 ^ 16) with 65536. destruct (_ <? _) eqn:E1; lia.
  - change (2 ^ 23) with 8388608 in *. change (2 ^ 24) with 16777216. destruct (_ <? _) eqn:E1; lia.
  - change (2 ^ 31) with 2147483648 in *. change (2 ^ 32) with 4294967296. destruct (_ <? _) eqn:E1; lia.
Qed.
Print Assumptions mem_int_round_trip.

(** Big-endian access is little-endian access of the reversed bytes. *)
Theorem endianness_is_reversal : forall m1 m2 p1 p2 bs, bytes_at m1 p1 bs -> bytes_at m2 p2 (rev bs) -> bytes_ok bs ->
  1 <= zlen bs <= 4 ->
  mem_get_uint m1 p1 (zlen bs) true = mem_get_uint m2 p2 (zlen bs) false /\
  mem_get_int m1 p1 (zlen bs) true = mem_get_int m2 p2 (zlen bs) false.
Proof.
  intros m1 m2 p1 p2 bs H1 H2 B L. assert (Lz : zlen (rev bs) = zlen bs) by (unfold zlen; rewrite rev_length; reflexivity).
  assert (B2 : bytes_ok (rev bs)) by (apply Forall_rev; exact B).
  rewrite get_uint_spec, get_int_spec by assumption. rewrite <- Lz.
  rewrite get_uint_spec, get_int_spec by (try assumption; lia). split; reflexivity.
Qed.
Print Assumptions endianness_is_reversal.

(** A signed access of five or more bytes silently returns the last four it meets. *)
Theorem mem_get_int_wide : forall m ptr bs be, bytes_at m ptr bs -> bytes_ok bs -> 4 <= zlen bs ->
  mem_get_int m ptr (zlen bs) be = OK (d_of_Z (signed_val 4 (unsigned_val be bs mod 2 ^ 32))).
Proof. exact get_int_wide. Qed.
Print Assumptions mem_get_int_wide.

(** Doubles: every 64-bit pattern is stored and read back exactly. *)
Theorem mem_dbl_round_trip : forall m ptr d old, is_u64 d -> length old = 8%nat -> bytes_at m ptr old ->
  exists m', mem_set_dbl m ptr d = OK m' /\ mem_get_dbl m' ptr = OK d /\ same_outside m m' ptr 8.
Proof.
  intros m ptr d old Hd L H. destruct (wr_n_spec (le_bytes 8 d) m ptr old) as (m' & R & V & F);
    [rewrite le_bytes_length; exact L|exact H|].
  exists m'. split; [exact R|]. unfold mem_get_dbl.
  pose proof (rd_n_spec _ m' ptr V) as Q. rewrite le_bytes_length in Q. rewrite Q. cbn [bind].
  rewrite le_val_bytes_small by exact Hd. split; [reflexivity|]. exact F.
Qed.
Print Assumptions mem_dbl_round_trip.

Definition data_ex : rawmem := fun a => if (1000 <=? a) && (a <? 1010) then Some 17 else None.
Example data_ex_mapped : bytes_at data_ex 1002 (repeat 17 4).
Proof. intros i Hi. rewrite repeat_length in Hi. destruct i as [|[|[|[|i]]]]; try reflexivity; lia. Qed.
Example data_ex_run :
  match mem_set_int data_ex 1002 (-2) 4 true with
  | OK m => map m [1001; 1002; 1003; 1004; 1005; 1006] = [Some 17; Some 255; Some 255; Some 255; Some 254; Some 17] /\
            mem_get_int m 1002 4 true = OK (d_of_Z (-2)) /\ mem_get_uint m 1002 4 false = OK (d_of_Z 4278190079) /\
            mem_get_int m 1004 2 false = OK (d_of_Z (-257))
  | _ => False end.
Proof. vm_compute. repeat split. Qed.

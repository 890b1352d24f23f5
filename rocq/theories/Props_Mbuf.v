(** C03: growable buffers behave as byte lists. *)
From Verif Require Import Base BaseFacts Mbuf_Model Mbuf_Spec Mbuf_Proofs.

(** Every history of buffer calls, whatever the allocator answers, either yields
    contents and results allowed by the list specification (never undefined
    behaviour), or stops at the assertion on an insertion offset beyond the end. *)
Theorem mbuf_refines_list : forall n al ops,
  0 <= n -> alloc_ok al -> ops_ok ops ->
  (exists y vs, mbuf_run (mbuf_init n al) ops = OK (y, vs) /\
     mb_len y = zlen (mb_bytes y) /\ mb_len y <= mb_size y /\
     mspec_run [] (map (fun t => fst (fst t)) ops) vs (mb_bytes y)) \/
  (mbuf_run (mbuf_init n al) ops = Abort /\ exists pre off d al1 al2 post l vs,
     ops = pre ++ (MInsert off d, al1, al2) :: post /\
     mspec_run [] (map (fun t => fst (fst t)) pre) vs l /\ zlen l < off).
Proof. exact mbuf_history. Qed.
Print Assumptions mbuf_refines_list.

(** With memory available an insertion is never refused and splices the bytes in. *)
Theorem mbuf_insert_succeeds : forall x off d al1 al2,
  mb_inv x -> 0 <= mb_addr x -> 0 <= off <= mb_len x -> alloc_ok al1 -> alloc_ok al2 ->
  mb_addr x + zlen d < 2 ^ 64 ->
  (al1 (grow_size (mb_len x + zlen d)) <> None \/ mb_len x + zlen d <= mb_size x) ->
  exists y, mbuf_insert x off d al1 al2 = OK (y, zlen d) /\
    mb_bytes y = firstn (Z.to_nat off) (mb_bytes x) ++ d ++ skipn (Z.to_nat off) (mb_bytes x).
Proof. exact insert_succeeds. Qed.
Print Assumptions mbuf_insert_succeeds.

Theorem mbuf_resize_reserves : forall x n al,
  mb_inv x -> mb_size x < n -> al n <> None -> mb_size (mbuf_resize x n al) = n.
Proof. exact resize_reserves. Qed.
Print Assumptions mbuf_resize_reserves.

Definition al_yes : allocator := fun n => Some (4096, [7; 7; 7]).
Definition al_no : allocator := fun n => None.
Definition ex_ops : list (mbuf_op * allocator * allocator) :=
  [ (MAppend [1; 2; 3], al_yes, al_no); (MInsert 1 [9; 9], al_no, al_yes);
    (MInsert 0 (repeat 5 20), al_no, al_no); (MRemove 2, al_no, al_no); (MTrim, al_yes, al_no) ].

Example ex_ops_ok : ops_ok ex_ops /\ alloc_ok al_yes.
Proof.
  assert (Hy : alloc_ok al_yes) by (intros n p f H; injection H as <- <-; lia).
  assert (Hn : alloc_ok al_no) by (intros n p f H; discriminate H).
  split; [|exact Hy]. repeat constructor; cbn; try assumption; lia.
Qed.
Example ex_run : match mbuf_run (mbuf_init 0 al_yes) ex_ops with
                 | OK (y, vs) => mb_bytes y = [9; 2; 3] /\ vs = [3; 2; 0; 0; 0]
                 | _ => False end.
Proof. vm_compute. split; reflexivity. Qed.
Example ex_run_abort : mbuf_run (mbuf_init 0 al_yes) [(MInsert 1 [1], al_yes, al_yes)] = Abort.
Proof. vm_compute. reflexivity. Qed.

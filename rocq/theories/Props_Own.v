(** C27: mjs_own and mjs_disown maintain a multiset of root variables. *)
From Verif Require Import Base BaseFacts Mbuf_Model Own_Model Own_Spec Own_Proofs.

(** Every history of calls on a fresh instance, whatever the allocator answers, returns
    what the multiset specification allows, and the roots a collection scans are exactly
    that multiset; or it is undefined because of an mjs_disown before any registration
    succeeded. *)
Theorem own_disown_are_a_multiset : forall ops, Forall own_op_ok ops ->
  (exists b xs B, own_run owned0 ops = OK (b, xs) /\ own_specs bempty ops xs B /\
     (forall q, bag_of (roots_of b) q = B q)) \/
  (own_run owned0 ops = UB /\ exists pre v post, ops = pre ++ Disown v :: post /\
     forallb is_own pre = true /\ own_specs bempty pre (repeat 0 (length pre)) bempty).
Proof. exact own_history. Qed.
Print Assumptions own_disown_are_a_multiset.

(** With memory available nothing is refused and the first call being mjs_own excludes the
    undefined case. *)
Theorem own_then_any_history : forall v al1 al2 ops, Forall own_op_ok (Own v al1 al2 :: ops) ->
  (forall o a1 a2, In (Own o a1 a2) (Own v al1 al2 :: ops) -> forall n, a1 n <> None) ->
  exists b xs B, own_run owned0 (Own v al1 al2 :: ops) = OK (b, xs) /\ ~ In 0 (map snd (filter (fun p => is_own (fst p)) (combine (Own v al1 al2 :: ops) xs))) /\
    own_specs bempty (Own v al1 al2 :: ops) xs B /\ (forall q, bag_of (roots_of b) q = B q).
Proof.
  intros v al1 al2 ops H Hal.
  assert (G : forall B l xs B', own_specs B l xs B' -> (forall o a1 a2, In (Own o a1 a2) l -> forall n, a1 n <> None) ->
    ~ In 0 (map snd (filter (fun p => is_own (fst p)) (combine l xs)))).
  { induction 1 as [|B o x B1 os xs B2 S _ IH]; intros Hn; [intros []|]. cbn [combine filter map fst].
    assert (Hn' : forall o a1 a2, In (Own o a1 a2) os -> forall n, a1 n <> None) by (intros o' a1 a2 Hi; apply (Hn o' a1 a2); right; exact Hi).
    destruct S as [p a1 a2|p a1 a2 [n Hf]|p Hp|p Hp]; cbn [is_own map snd].
    - intros [W|W]; [discriminate W|exact (IH Hn' W)].
    - exfalso. exact (Hn p a1 a2 (or_introl eq_refl) n Hf).
    - exact (IH Hn').
    - exact (IH Hn'). }
  destruct (own_history _ H) as [(b & xs & B & R & S & E)|(_ & pre & w & post & E & F & S)].
  - exists b, xs, B. split; [exact R|]. split; [exact (G _ _ _ _ S Hal)|]. split; assumption.
  - exfalso. destruct pre as [|o pre]; [discriminate E|]. cbn [app] in E.
    assert (o = Own v al1 al2) by congruence. subst o. cbn [length repeat] in S. inversion S as [|? ? ? ? ? ? ? S1 S2]; subst.
    inversion S1 as [|? ? ? [n Hf]| |]; subst. exact (Hal v al1 al2 (or_introl eq_refl) n Hf).
Qed.
Print Assumptions own_then_any_history.

(** mjs_disown on an instance that never registered anything reads below the null pointer. *)
Theorem disown_is_always_safe_refuted : exists v, is_u64 v /\ mjs_disown owned0 v = UB.
Proof. exists 4096. split; [unfold is_u64; lia|]. vm_compute. reflexivity. Qed.
Print Assumptions disown_is_always_safe_refuted.

(** Registering the same variable twice keeps it rooted until the second mjs_disown. *)
Definition al_at : allocator := fun n => if n <=? 65536 then Some (4096, []) else None.
Definition own_ex : list own_op :=
  [Own 10 al_at al_at; Own 20 al_at al_at; Own 10 al_at al_at; Disown 10; Disown 30; Disown 20; Disown 10; Disown 10].
Example own_ex_ok : Forall own_op_ok own_ex.
Proof.
  assert (S : alloc_sane al_at).
  { intros n p f H. unfold al_at in H. destruct (n <=? 65536) eqn:E; [|discriminate H].
    assert (p = 4096) by congruence. subst p. split; [lia|]. pose proof (Z.leb_le n 65536). lia. }
  unfold own_ex. repeat (apply Forall_cons; [try (split; [unfold is_u64; lia|split; exact S]); cbn; unfold is_u64; lia|]). constructor.
Qed.
Example own_ex_run : match own_run owned0 own_ex with
  | OK (b, xs) => xs = [8; 8; 8; 1; 0; 1; 1; 0] /\ roots_of b = []
  | _ => False end.
Proof. vm_compute. split; reflexivity. Qed.
Example own_ex_run' : match own_run owned0 (firstn 4 own_ex) with
  | OK (b, xs) => roots_of b = [10; 20]
  | _ => False end.
Proof. vm_compute. reflexivity. Qed.

(** Theorems about what collections and mjs_destroy release: C96, C97. *)
From Verif Require Import Base BaseFacts Value_Model Value_Spec Str_Model Gc_Model Gc_Spec Gc_Proofs Gc_Proofs2 Gc_Proofs3 Destroy_Model Destroy_Spec Destroy_Proofs.
Ltac Zify.zify_post_hook ::= Z.div_mod_to_equations.

(** * C96: a collection frees the callback blocks of exactly the signatures that nothing refers to, each once *)
Theorem signatures_released_once : forall g ds flo flp fls, heap_ok g ds flo flp fls -> dtors g ->
  exists F, forall f, (F <= f)%nat -> exists g' ws, mjs_gc f g = OK g' /\ g_log g' = g_log g ++ ws /\
    blocks_of (g_mem g) (fun c => in_use g fls c /\ ~ reachable g (Sig c)) ws.
Proof.
  intros g ds flo flp fls HK D. destruct (collection_log g ds flo flp fls HK D) as (F & H). exists F. intros f Hf.
  destruct (H f Hf) as (g' & ws & ds' & mv & flo' & flp' & fls' & E & L & B & _). exists g', ws. auto.
Qed.

(** * C97: after any number of collections mjs_destroy frees all that is left, without freeing anything twice *)
Theorem destroy_releases_everything : forall g g' ds flo flp fls, heap_ok g ds flo flp fls -> dtors g -> collections g g' ->
  exists F, forall f, (F <= f)%nat -> exists m' ws, mjs_destroy f g' = OK (m', g_log g ++ ws) /\
    blocks_of (g_mem g) (in_use g fls) ws /\ (forall x, in_any g x -> m' x = None).
Proof.
  intros g g' ds flo flp fls HK D C. destruct (lifetime g g' C ds flo flp fls HK D) as (F & H). exists F. intros f Hf.
  destruct (H f Hf) as (m' & ws & H1 & H2 & H3 & _). exists m', ws. auto.
Qed.
(** mjs_destroy itself changes nothing but the arenas. *)
Theorem destroy_only_arenas : forall g ds flo flp fls, heap_ok g ds flo flp fls -> dtors g ->
  exists F, forall f, (F <= f)%nat -> exists m' l, mjs_destroy f g = OK (m', l) /\ (forall x, ~ in_any g x -> m' x = g_mem g x).
Proof.
  intros g ds flo flp fls HK D. exists (S (length flo + length flp + length fls)). intros f Hf.
  destruct (destroy_ok g ds flo flp fls f HK D ltac:(lia)) as (m' & ws & H1 & _ & _ & H4). exists m', (g_log g ++ ws). auto.
Qed.
(** No block is freed twice, if every signature has its own. *)
Theorem no_double_free : forall g g' ds flo flp fls, heap_ok g ds flo flp fls -> dtors g -> own_blocks g fls -> collections g g' ->
  exists F, forall f, (F <= f)%nat -> exists m' ws, mjs_destroy f g' = OK (m', g_log g ++ ws) /\ NoDup ws /\
    forall w, In w ws <-> w <> 0 /\ exists c, in_use g fls c /\ g_mem g c = Some w.
Proof.
  intros g g' ds flo flp fls HK D Own C. destruct (lifetime g g' C ds flo flp fls HK D) as (F & H). exists F. intros f Hf.
  destruct (H f Hf) as (m' & ws & H1 & (cs & N & I & A) & _). exists m', ws. split; [exact H1|].
  assert (P : forall w, In w ws -> exists c, In c cs /\ g_mem g c = Some w).
  { clear -A. induction A as [|c w cs ws Q A IH]; intros x [].
    - subst x. exists c. split; [left; reflexivity|exact Q].
    - destruct (IH x H) as (d & X & Y). exists d. split; [right; exact X|exact Y]. }
  assert (S : forall c, In c cs -> exists w, In w ws /\ g_mem g c = Some w).
  { clear -A. induction A as [|c w cs ws Q A IH]; intros x [].
    - subst x. exists w. split; [left; reflexivity|exact Q].
    - destruct (IH x H) as (d & X & Y). exists d. split; [right; exact X|exact Y]. }
  split.
  - assert (I' : forall c, In c cs -> in_use g fls c /\ g_mem g c <> Some 0) by (intros c; apply I). clear -Own N A I'.
    induction A as [|c w cs ws Q A IH]; [constructor|]. inversion N as [|? ? N1 N2]; subst. constructor.
    + intros Hw. assert (X : exists d, In d cs /\ g_mem g d = Some w).
      { clear -A Hw. induction A as [|d v cs ws Q A IH]; [destruct Hw|]. destruct Hw as [<-|Hw]; [exists d; split; [left; reflexivity|exact Q]|].
        destruct (IH Hw) as (e & X & Y). exists e. split; [right; exact X|exact Y]. }
      destruct X as (d & Hd & Hm). destruct (I' c (or_introl eq_refl)) as (U1 & Z1). destruct (I' d (or_intror Hd)) as (U2 & _).
      apply N1. rewrite (Own c d w U1 U2 Q Hm); [exact Hd|]. intros ->. exact (Z1 Q).
    + apply IH; [exact N2|intros d Hd; apply I'; right; exact Hd].
  - intros w. split.
    + intros Hw. destruct (P w Hw) as (c & Hc & Hm). apply I in Hc. destruct Hc as (U & Z). split; [intros ->; exact (Z Hm)|]. exists c. auto.
    + intros (Hw & c & U & Hm). destruct (S c) as (v & Hv & Hv').
      * apply I. split; [exact U|]. rewrite Hm. intros [= X]. exact (Hw X).
      * rewrite Hm in Hv'. injection Hv' as ->. exact Hv.
Qed.

(** * Example: four cells for signatures. The first is the value of a variable and has a block, the
    second has a block and nothing refers to it, the third has no block, the fourth is free. *)
Definition dx_sig (a : Z) : Z := a + 65534 * 2 ^ 48.
Definition dx_words : list (Z * Z) :=
  [(10000, 20000); (10032, 20064); (12000, V_UNDEFINED); (12008, dx_sig 10000); (12016, V_UNDEFINED)].
Fixpoint dx_get (l : list (Z * Z)) (x : Z) : Z := match l with [] => 0 | (a, w) :: r => if x =? a then w else dx_get r x end.
Definition dx_in (x : Z) : bool :=
  ((8000 <=? x) && (x <? 8016)) || ((9000 <=? x) && (x <? 9024)) || ((10000 <=? x) && (x <? 10128)) || ((12000 <=? x) && (x <? 12024)).
Definition dx_mem : mem := fun x => if dx_in x then Some (dx_get dx_words x) else None.
Definition dx_arena (base n cs free : Z) (d : bool) : arena := {| a_blocks := [(base, n)]; a_free := free; a_cs := cs; a_inc := 10; a_dtor := d |}.
Definition dx_g : gstate :=
  {| g_mem := dx_mem; g_str := str_heap []; g_obj := dx_arena 8000 2 8 0 false; g_prop := dx_arena 9000 1 24 0 false;
     g_sig := dx_arena 10000 4 32 10096 true; g_vals := 12000; g_owned := []; g_scopes := (0, 0); g_stack := (0, 0);
     g_call := (0, 0); g_cbs := []; g_args := (0, 0); g_log := [] |}.
Definition dx_places : list place := [Slot 12000; Slot 12008; Slot 12016; Sig 10000].
Ltac each H := repeat (destruct H as [H|H]; [try discriminate H; try (injection H as <-)|]); try destruct H.
Lemma dx_kinds : kind_of (dx_sig 10000) = KFfi /\ kind_of V_UNDEFINED = KUndefined.
Proof. vm_compute. split; reflexivity. Qed.
Lemma dx_slot a v : In (Slot a) dx_places -> dx_mem a = Some v -> v = dx_sig 10000 \/ v = V_UNDEFINED.
Proof. intros Ha Hv. unfold dx_places in Ha. cbn [In] in Ha. each Ha; vm_compute in Hv; injection Hv as <-; vm_compute; auto. Qed.
Lemma dx_reach pl : reach dx_mem (gc_slots dx_g) pl -> In pl dx_places.
Proof.
  destruct dx_kinds as (K1 & K2).
  induction 1 as [a Ha|a v Ha IH Hm Hk|a v Ha IH Hm Hk|o p Ho IH Hm Hp|p q Hp IH Hm Hq|p Hp IH|p Hp IH].
  - vm_compute in Ha. unfold dx_places. cbn [In]. each Ha; auto 10.
  - destruct (dx_slot a v IH Hm) as [->| ->]; unfold objlike in Hk; rewrite ?K1, ?K2 in Hk; destruct Hk as [Hk|Hk]; discriminate Hk.
  - destruct (dx_slot a v IH Hm) as [->| ->]; rewrite ?K1, ?K2 in Hk; try discriminate Hk. change (addr (dx_sig 10000)) with 10000. unfold dx_places. cbn [In]. auto 10.
  - unfold dx_places in IH. cbn [In] in IH. each IH.
  - unfold dx_places in IH. cbn [In] in IH. each IH.
  - unfold dx_places in IH. cbn [In] in IH. each IH.
  - unfold dx_places in IH. cbn [In] in IH. each IH.
Qed.
Lemma dx_in_arena base n cs free d x : in_arena (dx_arena base n cs free d) x <-> base <= x < base + cs * n.
Proof. split; [intros (bl & [<-|[]] & H); exact H|]. intros H. exists (base, n). split; [left; reflexivity|exact H]. Qed.
Lemma dx_arena_ok base n cs free fl d : 8 <= cs -> cs mod 8 = 0 -> 0 < n -> 0 < base -> base mod 8 = 0 -> base + cs * n <= 2 ^ 48 ->
  (forall x, base <= x < base + cs * n -> dx_in x = true) ->
  flist dx_mem free fl -> incl fl (block_cells cs (base, n)) -> arena_ok dx_mem (dx_arena base n cs free d) fl.
Proof.
  intros H1 H2 H3 H4 H5 H6 H7 F Hi. constructor; cbn [a_cs a_inc a_blocks a_free dx_arena]; auto.
  - lia.
  - apply Forall_cons; [|apply Forall_nil]. split; [exact H4|]. split; [exact H5|]. split; [exact H3|]. split; [exact H6|].
    intros x Hx. unfold dx_mem. rewrite H7 by exact Hx. discriminate.
  - apply FOP_cons; [apply Forall_nil|apply FOP_nil].
  - exact (flist_nodup _ _ _ F).
  - intros c Hc. unfold acells, cells. cbn [a_cs a_blocks dx_arena flat_map]. rewrite app_nil_r. exact (Hi c Hc).
Qed.
Example dx_heap_ok : heap_ok dx_g [] [] [] [10096].
Proof.
  destruct dx_kinds as (K1 & K2). constructor; cbn [g_mem g_obj g_prop g_sig g_str dx_g].
  - apply dx_arena_ok; try lia; [intros x Hx; unfold dx_in; lia|constructor|intros c []].
  - apply dx_arena_ok; try lia; [intros x Hx; unfold dx_in; lia|constructor|intros c []].
  - apply dx_arena_ok; try lia; [intros x Hx; unfold dx_in; lia|econstructor; [discriminate|vm_compute; reflexivity|constructor]|].
    intros c [<-|[]]. vm_compute. auto.
  - repeat split.
  - split; [|split]; intros c Hc Hn; vm_compute in Hc; each Hc; try (eexists; split; [vm_compute; reflexivity|split; [lia|reflexivity]]).
  - intros x. rewrite !dx_in_arena. lia.
  - reflexivity.
  - constructor.
  - vm_compute. reflexivity.
  - intros a Ha. vm_compute in Ha. rewrite !dx_in_arena. each Ha; repeat split; try lia.
  - intros a Ha. apply dx_reach in Ha. assert (E : exists v, dx_mem a = Some v).
    { unfold dx_places in Ha. cbn [In] in Ha. each Ha; eexists; vm_compute; reflexivity. }
    destruct E as (v & E). exists v. split; [exact E|]. destruct (dx_slot a v Ha E) as [->| ->]; (split; [vm_compute; split; congruence|split; [|split]]).
    + intros [H|H]; rewrite K1 in H; discriminate H.
    + intros _. split; [vm_compute; auto|]. vm_compute. intros [H|[]]. discriminate H.
    + intros H. vm_compute in H. discriminate H.
    + intros [H|H]; rewrite K2 in H; discriminate H.
    + intros H. rewrite K2 in H. discriminate H.
    + intros H. vm_compute in H. discriminate H.
  - exists (fun _ => []). split; [|intros o1 o2 q _ _ []]. intros o Ho. apply dx_reach in Ho. unfold dx_places in Ho. cbn [In] in Ho. each Ho.
Qed.
Example dx_dtors : dtors dx_g.
Proof. repeat split. Qed.
Example dx_own : own_blocks dx_g [10096].
Proof.
  intros c d w (H1 & _) (H2 & _) M1 M2 Hw. vm_compute in H1, H2. each H1; each H2; try reflexivity; vm_compute in M1, M2; congruence.
Qed.
(** The collection frees the block of the second signature, mjs_destroy then that of the first. *)
Definition dx_log (r : R gstate) : option (list Z) := match r with OK g => Some (g_log g) | _ => None end.
Definition dx_end (r : R (mem * list Z)) : option (list Z * list (option Z)) :=
  match r with OK (m, l) => Some (l, map m [8000; 9000; 10000; 10032; 12008]) | _ => None end.
Example dx_collect : dx_log (mjs_gc 60 dx_g) = Some [20064].
Proof. vm_compute. reflexivity. Qed.
Example dx_destroy : dx_end (g' <- mjs_gc 60 dx_g ;; mjs_destroy 60 g') = Some ([20064; 20000], [None; None; None; None; Some (dx_sig 10000)]).
Proof. vm_compute. reflexivity. Qed.
Example dx_collections : exists g1, collections dx_g g1 /\ g_log g1 = [20064].
Proof.
  destruct (mjs_gc 60 dx_g) as [g1| | |] eqn:E; pose proof dx_collect as L; rewrite E in L; try discriminate L.
  exists g1. split; [exact (cs_more _ 60 _ _ E (cs_none _))|]. cbn [dx_log] in L. congruence.
Qed.

Print Assumptions signatures_released_once.
Print Assumptions destroy_releases_everything.
Print Assumptions destroy_only_arenas.
Print Assumptions no_double_free.

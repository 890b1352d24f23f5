(** A collection that ends gives the same with more fuel. *)
From Verif Require Import Base Varint_Model Value_Model Str_Model Gc_Model.

Definition upto {A} (x y : R A) : Prop := forall a, x = OK a -> y = OK a.
Lemma upto_refl {A} (x : R A) : upto x x. Proof. intros a H. exact H. Qed.
Lemma upto_bind {A B} (x y : R A) (k k' : A -> R B) : upto x y -> (forall a, upto (k a) (k' a)) -> upto (bind x k) (bind y k').
Proof. intros H K b E. destruct x as [a| | |]; try discriminate E. rewrite (H a eq_refl). exact (K a b E). Qed.
Lemma upto_none {A} (y : R A) : upto NoFuel y. Proof. intros a H. discriminate H. Qed.
Ltac up := repeat first [apply upto_none | match goal with
  | H : _ |- _ => apply H
  | |- upto (bind _ _) (bind _ _) => apply upto_bind; [|intros]
  | |- upto (let (_, _) := ?p in _) _ => destruct p
  | |- upto (if ?b then _ else _) _ => destruct b
  | |- upto (match ?x with Some _ => _ | None => _ end) _ => destruct x
  | |- upto ?x ?x => apply upto_refl end].
Lemma mark_free_up : forall f m c, upto (mark_free_loop f m c) (mark_free_loop (S f) m c).
Proof. induction f as [|f IH]; intros m c; [apply upto_none|]. set (n := S f). cbn [mark_free_loop]. unfold n at 1. cbn [mark_free_loop]. up. Qed.
Lemma unthread_up : forall f m h d, upto (unthread f m h d) (unthread (S f) m h d).
Proof. induction f as [|f IH]; intros m h d; [apply upto_none|]. set (n := S f). cbn [unthread]. unfold n at 1. cbn [unthread]. up. Qed.
Lemma compact_up : forall f m b p d, upto (compact_loop f m b p d) (compact_loop (S f) m b p d).
Proof.
  induction f as [|f IH]; intros m b p d; [apply upto_none|]. pose proof (unthread_up (S f)) as U. set (n := S f) in *.
  change (compact_loop (S n) m b p d) with (if p <? zlen b then
      match nthz b (p - 1) with
      | None => UB
      | Some k =>
        if k =? 1 then
          if p + 6 <=? zlen b then
            '(m1, six) <- unthread (S n) m (le_val (sub b p 6)) d ;;
            '(n0, llen) <- varint_decode_unsafe (le_bytes 8 six) ;;
            let len := s32 n0 + llen + 1 in
            let b1 := blit b p (le_bytes 6 six) in
            if p + len <=? zlen b then
              let b2 := blit b1 d (sub b1 p len) in
              let b3 := blit b2 (d - 1) [0] in
              compact_loop n m1 b3 (p + len) (d + len)
            else UB
          else UB
        else
          '(n0, llen) <- varint_decode_unsafe (skipn (Z.to_nat p) b) ;;
          compact_loop n m b (p + (s32 n0 + llen + 1)) d
      end
    else OK (m, firstn (Z.to_nat d) b)).
  unfold n at 1. cbn [compact_loop]. fold n. cbv zeta. up.
Qed.
Lemma mark_up : forall f ao ap asg,
  (forall m b v, upto (gc_mark f ao ap asg m b v) (gc_mark (S f) ao ap asg m b v)) /\
  (forall m b w, upto (gc_mark_object f ao ap asg m b w) (gc_mark_object (S f) ao ap asg m b w)) /\
  (forall m b p, upto (gc_mark_props f ao ap asg m b p) (gc_mark_props (S f) ao ap asg m b p)).
Proof.
  induction f as [|f IH]; intros ao ap asg; [repeat split; intros; apply upto_none|]. destruct (IH ao ap asg) as (I1 & I2 & I3). set (n := S f) in *.
  repeat split; intros; cbn [gc_mark gc_mark_object gc_mark_props]; unfold n at 1; cbn [gc_mark gc_mark_object gc_mark_props]; cbv zeta; up.
Qed.
Lemma mark_all_up f ao ap asg : forall vs m b, upto (mark_all f ao ap asg m b vs) (mark_all (S f) ao ap asg m b vs).
Proof. destruct (mark_up f ao ap asg) as (I1 & _). induction vs as [|v vs IH]; intros m b; cbn [mark_all]; up. Qed.
Lemma sweep_up f m a l : upto (gc_sweep f m a l) (gc_sweep (S f) m a l).
Proof. unfold gc_sweep. apply upto_bind; [apply mark_free_up|]. intros. apply upto_refl. Qed.
Theorem gc_fuel f f' g g' : (f <= f')%nat -> mjs_gc f g = OK g' -> mjs_gc f' g = OK g'.
Proof.
  intros L H. induction L as [|f' L IH]; [exact H|]. revert IH. clear. revert g'. change (upto (mjs_gc f' g) (mjs_gc (S f') g)).
  unfold mjs_gc. unfold gc_compact_strings.
  apply upto_bind; [apply mark_all_up|]. intros [m1 b1]. apply upto_bind; [apply compact_up|]. intros [m2 b2].
  apply upto_bind; [apply sweep_up|]. intros [[m3 ao] l1]. apply upto_bind; [apply sweep_up|]. intros [[m4 ap] l2].
  apply upto_bind; [apply sweep_up|]. intros [[m5 asg] l3]. apply upto_refl.
Qed.

(** When two states of the interpreter are the same but for the numbers of their objects and for
    objects that nothing refers to. *)
From Verif Require Import Base Lang_Spec.

(** [R i j]: the object [i] of one state is the object [j] of the other. *)
Definition pairing := nat -> nat -> Prop.
Definition one_to_one (R : pairing) : Prop :=
  (forall i j k, R i j -> R i k -> j = k) /\ (forall i j k, R i k -> R j k -> i = j).
Definition same_val (R : pairing) (v w : val) : Prop :=
  match v, w with
  | VObj i, VObj j | VArr i, VArr j => R i j
  | VPrim a, VPrim b => a = b
  | VFun ps b, VFun qs c => ps = qs /\ b = c
  | VHost p, VHost q => p = q
  | _, _ => False
  end.
Definition same_cell (R : pairing) (c d : cell) : Prop :=
  Forall2 (fun x y => fst x = fst y /\ same_val R (snd x) (snd y)) c d.
(** Paired objects have the same properties in the same order, with the same values. *)
Definition same_state (R : pairing) (s t : state) : Prop :=
  one_to_one R /\ left s = left t /\
  forall i j, R i j -> exists c d, nth_error (objs s) i = Some c /\ nth_error (objs t) j = Some d /\ same_cell R c d.
Definition extends (R R' : pairing) : Prop := forall i j, R i j -> R' i j.

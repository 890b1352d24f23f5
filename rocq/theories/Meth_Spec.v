(** Specification of f.apply(t, [...]) called by scripts: the arguments the function gets. *)
From Verif Require Import Base Value_Model SUtil_Spec Vm_Model Expr_Spec Lang_Spec.

(** The array [i] of the store has the elements [vs]; missing ones are undefined. *)
Definition elements (s : state) (i : nat) (vs : list val) : Prop :=
  arr_len s i = Some (zlen vs) /\
  forall j v, nth_error vs j = Some v -> exists t, numeral 10 (Z.of_nat j) t /\ v = match own s i t with Some a => a | None => undef end.
(** The arguments of the call f.apply(us...): the elements of the second argument if it is an
    array, otherwise none. *)
Definition spread (s : state) (us vs : list val) : Prop :=
  match nth_error us 1 with Some (VArr i) => elements s i vs | _ => vs = [] end.

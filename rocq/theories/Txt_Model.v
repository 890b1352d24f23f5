(** Byte strings written as text. *)
From Coq Require Export Strings.String Strings.Ascii Lists.List.
From Verif Require Import Base.
Fixpoint bs (s : string) : list Z :=
  match s with
  | EmptyString => []
  | String c s => Z.of_N (N_of_ascii c) :: bs s
  end.
Export List.
Open Scope list_scope.

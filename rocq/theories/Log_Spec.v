(** What the prefix of a log message should be. *)
From Verif Require Import Base Str_Spec.

Definition separator (c : Z) : Prop := c = 47 \/ c = 92.
(** The name of a file: what follows the last slash or backslash. *)
Definition base_name (file name : list Z) : Prop :=
  Forall (fun c => ~ separator c) name /\ exists dir, file = dir ++ name /\ (dir = [] \/ exists d c, dir = d ++ [c] /\ separator c).
(** The decimal digits of a number, without leading zeros. *)
Definition decimal (n : Z) (ds : list Z) : Prop :=
  ds <> [] /\ Forall (fun c => 48 <= c <= 57) ds /\ digits_val ds = n /\ (ds = [48] \/ hd 0 ds <> 48).
(** Name, colon, line; the name is shortened so that there is at least one blank after the line. *)
Definition place (name ds : list Z) : list Z := firstn (22 - length ds) name ++ 58 :: ds.
Definition padded (l : list Z) : list Z := l ++ repeat 32 (24 - length l).
(** The entries of a list of levels: those with a value whose key begins the place; the first decides. *)
Inductive level_for (ps : list Z) (dflt : Z) : list (list Z * option (list Z)) -> Z -> Prop :=
| lf_none : level_for ps dflt [] dflt
| lf_hit k d v l rest : ps = k ++ rest -> level_for ps dflt ((k, Some (d :: v)) :: l) (d - 48)
| lf_miss k d v l n : (forall rest, ps <> k ++ rest) -> level_for ps dflt l n -> level_for ps dflt ((k, Some (d :: v)) :: l) n
| lf_no_value k v l n : v = None \/ v = Some [] -> level_for ps dflt l n -> level_for ps dflt ((k, v) :: l) n.

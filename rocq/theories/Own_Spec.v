(** Specification of own/disown: a multiset of pointers, given by its counting function. *)
From Verif Require Import Base Mbuf_Model Own_Model.

Definition bag := Z -> nat.
Definition bempty : bag := fun _ => O.
Definition badd (p : Z) (B : bag) : bag := fun q => if q =? p then S (B q) else B q.
Definition bdel (p : Z) (B : bag) : bag := fun q => if q =? p then pred (B q) else B q.

(** [own_spec B o r B']: what call [o] may return on the registrations [B], and what it
    leaves. A registration is lost only when memory is exhausted. *)
Inductive own_spec (B : bag) : own_op -> Z -> bag -> Prop :=
| os_own p al1 al2 : own_spec B (Own p al1 al2) 8 (badd p B)
| os_own_fail p al1 al2 : (exists n, al1 n = None) ->
    own_spec B (Own p al1 al2) 0 B
| os_disown p : B p <> O -> own_spec B (Disown p) 1 (bdel p B)
| os_disown_absent p : B p = O -> own_spec B (Disown p) 0 B.
Inductive own_specs : bag -> list own_op -> list Z -> bag -> Prop :=
| ons_nil B : own_specs B [] [] B
| ons_cons B o x B1 os xs B2 : own_spec B o x B1 -> own_specs B1 os xs B2 -> own_specs B (o :: os) (x :: xs) B2.

(** Blocks handed out by realloc lie in the address space and not in its first bytes or
    its last page. *)
Definition alloc_sane (al : allocator) : Prop :=
  forall n p f, al n = Some (p, f) -> 8 <= p /\ p + n <= 2 ^ 64 - 4096.
Definition own_op_ok (o : own_op) : Prop :=
  match o with Own v a1 a2 => is_u64 v /\ alloc_sane a1 /\ alloc_sane a2 | Disown v => is_u64 v end.

(** The multiset a list of pointers denotes. *)
Definition bag_of (l : list Z) : bag := fun q => count_occ Z.eq_dec l q.

(** Specification of the text of a value (JSON.stringify). *)
From Verif Require Import Base Value_Model Value_Spec Str_Model Str_Spec SUtil_Spec Obj_Spec Arr_Spec NumText_Spec Json_Spec.

(** Values without a text: left out of objects, null in arrays. *)
Definition skipped (v : Z) : Prop :=
  is_u64 v /\ (kind_of v = KUndefined \/ kind_of v = KFunction \/ kind_of v = KForeign).
(** Texts separated by commas. *)
Fixpoint commas (l : list (list Z)) : list Z :=
  match l with [] => [] | [t] => t | t :: r => t ++ 44 :: commas r end.
(** The length of an array: above all its indices, and no more. *)
Definition arr_len (m : omap) (L : Z) : Prop :=
  0 <= L /\ (forall n w j, In (n, w) m -> index_text n j -> j < 4294967295 -> j < L) /\
  (L = 0 \/ exists n w, In (n, w) m /\ index_text n (L - 1) /\ L - 1 < 4294967295).

Section Shows.
Context (st : strs) (ext : extmem) (M : store).
(** [shows vis v t]: [t] is the text of [v] inside the containers [vis]; a container met again
    inside itself is not entered. *)
Inductive shows : list Z -> Z -> list Z -> Prop :=
| S_skip vis v : skipped v -> shows vis v []
| S_circular vis v : In v vis -> (exists o, is_obj_ref v o \/ is_arr_ref v o) ->
    shows vis v [91; 67; 105; 114; 99; 117; 108; 97; 114; 93]
| S_null vis : shows vis V_NULL [110; 117; 108; 108]
| S_true vis : shows vis (mk_boolean true) [116; 114; 117; 101]
| S_false vis : shows vis (mk_boolean false) [102; 97; 108; 115; 101]
| S_num vis v t : is_u64 v -> kind_of v = KNumber -> num_shows v t -> shows vis v t
| S_str vis v s : holds st ext v s -> bytes_ok s -> zlen (quoted s) < 2 ^ 31 -> shows vis v (quoted s)
| S_obj vis v o m l : is_obj_ref v o -> ~ In v vis -> M o = Some m -> mshows (v :: vis) m l ->
    shows vis v (123 :: commas l ++ [125])
| S_arr vis v o m L l : is_arr_ref v o -> ~ In v vis -> M o = Some m -> arr_len m L ->
    ashows (v :: vis) m 0 (Z.to_nat L) l -> shows vis v (91 :: commas l ++ [93])
(** the members, newest first *)
with mshows : list Z -> omap -> list (list Z) -> Prop :=
| MS_nil vis : mshows vis [] []
| MS_skip vis k w m l : skipped w -> mshows vis m l -> mshows vis ((k, w) :: m) l
| MS_show vis k w m t l : ~ skipped w -> zlen k + 3 < 2 ^ 31 -> shows vis w t -> mshows vis m l ->
    mshows vis ((k, w) :: m) ((34 :: k ++ 34 :: 58 :: t) :: l)
(** the elements from index [i] on *)
with ashows : list Z -> omap -> Z -> nat -> list (list Z) -> Prop :=
| AS_nil vis m i : ashows vis m i O []
| AS_hole vis m i n d l : numeral 10 i d ->
    (lookup m d = None \/ exists w, lookup m d = Some w /\ skipped w) ->
    ashows vis m (i + 1) n l -> ashows vis m i (S n) ([110; 117; 108; 108] :: l)
| AS_show vis m i n d w t l : numeral 10 i d -> lookup m d = Some w -> ~ skipped w -> shows vis w t ->
    ashows vis m (i + 1) n l -> ashows vis m i (S n) (t :: l).
End Shows.

(** Values JSON.stringify can print: everything but ffi functions, infinities, integers outside
    int64 and dangling references; containers hold such values. *)
Definition jvalue (st : strs) (ext : extmem) (M : store) (v : Z) : Prop :=
  skipped v \/ v = V_NULL \/ v = mk_boolean true \/ v = mk_boolean false \/
  (is_u64 v /\ kind_of v = KNumber /\ printable v) \/
  (exists s, holds st ext v s /\ bytes_ok s /\ zlen (quoted s) < 2 ^ 31) \/
  (exists o, (is_obj_ref v o \/ is_arr_ref v o) /\ M o <> None).
Definition jstore (st : strs) (ext : extmem) (M : store) : Prop :=
  forall o m k w, M o = Some m -> In (k, w) m -> zlen k + 3 < 2 ^ 31 /\ jvalue st ext M w.

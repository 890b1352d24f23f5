(** Base definitions shared by the whole model: bytes, 64-bit words,
    little-endian conversion, slices of byte lists and the outcome type.

    Modelling conventions (see DESIGN.md):
    - C integers are [Z]; wrap-around is written explicitly with [mod].
    - a byte is a [Z] in [0,256); byte strings are [list Z].
    - [R A] is the outcome of a C computation. [UB] is undefined behaviour
      (out-of-bounds access, null dereference, undefined arithmetic), [Abort] is
      a call to abort() or a failed assert(), [NoFuel] is the artefact of fuelled
      recursion and never a C outcome. *)
From Coq Require Export List ZArith Lia Bool.
From Coq Require Export ZifyBool.
Export ListNotations.
Open Scope Z_scope.

Inductive R (A : Type) : Type :=
| OK (a : A)
| UB
| Abort
| NoFuel.
Arguments OK {A} a.
Arguments UB {A}.
Arguments Abort {A}.
Arguments NoFuel {A}.

Definition bind {A B} (m : R A) (f : A -> R B) : R B :=
  match m with OK a => f a | UB => UB | Abort => Abort | NoFuel => NoFuel end.
Notation "x <- m ;; k" := (bind m (fun x => k))
  (at level 100, m at next level, right associativity).
Notation "' p <- m ;; k" := (bind m (fun x => let p := x in k))
  (at level 100, p pattern, m at next level, right associativity).

(** A well-formed byte. *)
Definition is_byte (b : Z) : Prop := 0 <= b < 256.
Definition bytes_ok (l : list Z) : Prop := Forall is_byte l.

(** Unsigned 64-bit and 32-bit words. *)
Definition u64 (z : Z) : Z := z mod 2 ^ 64.
Definition u32 (z : Z) : Z := z mod 2 ^ 32.
Definition is_u64 (z : Z) : Prop := 0 <= z < 2 ^ 64.
(** (int)x for an unsigned x: two's complement reinterpretation. *)
Definition s32 (z : Z) : Z :=
  let w := z mod 2 ^ 32 in if w <? 2 ^ 31 then w else w - 2 ^ 32.

(** Length as Z. *)
Definition zlen {A} (l : list A) : Z := Z.of_nat (length l).

(** [sub l off n]: the [n] bytes of [l] from offset [off]. *)
Definition sub {A} (l : list A) (off n : Z) : list A :=
  firstn (Z.to_nat n) (skipn (Z.to_nat off) l).

(** Overwrite [length d] elements of [l] starting at [off] (C memcpy into a
    buffer that is large enough; callers check the range). *)
Definition blit {A} (l : list A) (off : Z) (d : list A) : list A :=
  firstn (Z.to_nat off) l ++ d ++ skipn (Z.to_nat off + length d) l.

(** Nth element with option result, index in Z. *)
Definition nthz {A} (l : list A) (i : Z) : option A :=
  if i <? 0 then None else nth_error l (Z.to_nat i).

(** Little-endian value of a byte list, and the first [k] bytes of a word. *)
Fixpoint le_val (l : list Z) : Z :=
  match l with [] => 0 | b :: r => b + 256 * le_val r end.
Fixpoint le_bytes (k : nat) (z : Z) : list Z :=
  match k with O => [] | S k' => z mod 256 :: le_bytes k' (z / 256) end.

(** Byte-list equality test (memcmp(...) == 0 on equal lengths). *)
Fixpoint bytes_eqb (a b : list Z) : bool :=
  match a, b with
  | [], [] => true
  | x :: a', y :: b' => (x =? y) && bytes_eqb a' b'
  | _, _ => false
  end.

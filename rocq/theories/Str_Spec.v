(** Specification of strings: what it means for a value to hold bytes, and an
    independent grammar of string-literal escapes. *)
From Verif Require Import Base Value_Model Value_Spec Str_Model.

(** Value [v] is a string whose API-visible contents (mjs_get_string) are [d]. *)
Definition holds (st : strs) (ext : extmem) (v : Z) (d : list Z) : Prop :=
  is_u64 v /\ kind_of v = KString /\
  exists l, get_string st v = OK (l, zlen d) /\ l <> PNull /\ loc_read st ext v l (zlen d) = OK d.

(** The byte following the contents is a NUL, so C code can use it as a C string. *)
Definition nul_terminated (st : strs) (ext : extmem) (v : Z) (d : list Z) : Prop :=
  exists l, get_string st v = OK (l, zlen d) /\ loc_read st ext v l (zlen d + 1) = OK (d ++ [0]).

(** First occurrence of [n] in [h], at or after 0. *)
Definition occurs_at (h n : list Z) (i : nat) : Prop := firstn (length n) (skipn i h) = n /\ (i + length n <= length h)%nat.

(** Elements of a string-literal body. *)
Inductive lit :=
| LPlain (b : Z)                  (* any byte but a backslash *)
| LSimple (c : Z)                 (* backslash and one of b t n v f r, backslash, quotes, newline *)
| LHex (a b : Z)                  (* \xAB *)
| LUni (a b c d : Z)              (* backslash, u, four hex digits *)
| LOther (c : Z).                 (* backslash and any other byte: both are kept *)

Definition simple_val (c : Z) : option Z :=
  match c with
  | 98 => Some 8 | 116 => Some 9 | 110 => Some 10 | 118 => Some 11 | 102 => Some 12
  | 114 => Some 13 | 92 => Some 92 | 34 => Some 34 | 39 => Some 39 | 10 => Some 10
  | _ => None
  end.
Definition hexd (c : Z) : option Z :=
  if (48 <=? c) && (c <=? 57) then Some (c - 48)
  else if (97 <=? c) && (c <=? 102) then Some (c - 87)
  else if (65 <=? c) && (c <=? 70) then Some (c - 55) else None.

Definition lit_ok (l : lit) : Prop :=
  match l with
  | LPlain b => is_byte b /\ b <> 92
  | LSimple c => simple_val c <> None
  | LHex a b => hexd a <> None /\ hexd b <> None
  | LUni a b c d => hexd a <> None /\ hexd b <> None /\ hexd c <> None /\ hexd d <> None
  | LOther c => is_byte c /\ simple_val c = None /\ c <> 0 /\ c <> 99 /\ c <> 117 /\ c <> 120
  end.
Definition lit_src (l : lit) : list Z :=
  match l with
  | LPlain b => [b]
  | LSimple c => [92; c]
  | LHex a b => [92; 120; a; b]
  | LUni a b c d => [92; 117; a; b; c; d]
  | LOther c => [92; c]
  end.
Definition hv (c : Z) : Z := match hexd c with Some n => n | None => 0 end.
(** What the element denotes: \u escapes keep only the low byte (no Unicode). *)
Definition lit_val (l : lit) : list Z :=
  match l with
  | LPlain b => [b]
  | LSimple c => match simple_val c with Some n => [n] | None => [] end
  | LHex a b => [16 * hv a + hv b]
  | LUni a b c d => [16 * hv c + hv d]
  | LOther c => [92; c]
  end.
Definition lits_src (ls : list lit) : list Z := concat (map lit_src ls).
Definition lits_val (ls : list lit) : list Z := concat (map lit_val ls).

(** \xNN for one byte. *)
Definition hexchar (n : Z) : Z := if n <? 10 then 48 + n else 87 + n.
Definition lit_of_byte (b : Z) : lit := LHex (hexchar (b / 16)) (hexchar (b mod 16)).

(** Shorter strings first, then lexicographic. *)
Inductive lexlt : list Z -> list Z -> Prop :=
| lex_head x y a b : x < y -> lexlt (x :: a) (y :: b)
| lex_tail x a b : lexlt a b -> lexlt (x :: a) (x :: b).
Definition shortlex_lt (a b : list Z) : Prop := zlen a < zlen b \/ (zlen a = zlen b /\ lexlt a b).

(** The index an int denotes in a sequence of length [n]: negative counts from the
    end, then clamped to [0, n]. *)
Definition clamp_idx (i n : Z) : Z := Z.max 0 (Z.min n (if i <? 0 then n + i else i)).

(** [k] is the least index >= [from] at which [t] occurs in [s]. *)
Definition first_occurrence (s t : list Z) (from k : Z) : Prop :=
  from <= k /\ k + zlen t <= zlen s /\ sub s k (zlen t) = t /\
  forall j, from <= j < k -> sub s j (zlen t) <> t.
Definition no_occurrence (s t : list Z) (from : Z) : Prop :=
  forall j, from <= j -> j + zlen t <= zlen s -> sub s j (zlen t) <> t.

(** Decimal digit strings. *)
Definition digits_ok (ds : list Z) : Prop := ds <> [] /\ Forall (fun c => 48 <= c <= 57) ds.
Definition digits_val (ds : list Z) : Z := fold_left (fun a c => a * 10 + (c - 48)) ds 0.

(** Histories of string creations. *)
Inductive str_op := MkCopy (d : list Z) | MkForeign (p n : Z) | Concat (a b : Z)
  | Slice (this : Z) (args : list Z).
Definition str_step (ext : extmem) (st : strs) (o : str_op) : R (strs * Z) :=
  match o with
  | MkCopy d => mk_string st d
  | MkForeign p n => mk_string_foreign st p n
  | Concat a b => s_concat st ext a b
  | Slice this args => '(st', v, _) <- string_slice st ext this args ;; OK (st', v)
  end.
Fixpoint str_run (ext : extmem) (st : strs) (os : list str_op) : R (strs * list Z) :=
  match os with
  | [] => OK (st, [])
  | o :: r => '(st1, v) <- str_step ext st o ;; '(st2, vs) <- str_run ext st1 r ;; OK (st2, v :: vs)
  end.

(** Byte code as a sequence of instructions. *)
From Verif Require Import Base Varint_Spec Bcode_Model.

(** [b] are the bytes of the number [n] (7 bits each, at most ten bytes). *)
Definition num_bytes (n : Z) (b : list Z) : Prop :=
  exists a t, b = a ++ [t] /\ Forall cont a /\ 0 <= t < 128 /\ zlen a <= 9 /\ groups_val b = n /\ n < 2 ^ 64.
Definition plain (op : Z) : Prop := In op
  [OP_NOP; OP_DROP; OP_DUP; OP_SWAP; OP_FIND_SCOPE; OP_PUSH_SCOPE; OP_PUSH_TRUE; OP_PUSH_FALSE; OP_PUSH_NULL; OP_PUSH_UNDEF; OP_PUSH_OBJ;
   OP_PUSH_ARRAY; OP_PUSH_THIS; OP_GET; OP_CREATE; OP_APPEND; OP_NEW_SCOPE; OP_DEL_SCOPE; OP_CALL; OP_RETURN; OP_BREAK; OP_CONTINUE;
   OP_SETRETVAL; OP_EXIT; OP_ARGS; OP_FOR_IN_NEXT].
(** One instruction: an operation without operand, with a number (a jump, a function, an integer), with a
    text, with a number and a text (a parameter), with two numbers (a loop), or an operator. *)
Inductive ins : list Z -> Prop :=
| i_plain op : plain op -> ins [op]
| i_num op n b : In op [OP_PUSH_FUNC; OP_PUSH_INT; OP_JMP; OP_JMP_TRUE; OP_JMP_NEUTRAL_TRUE; OP_JMP_FALSE; OP_JMP_NEUTRAL_FALSE] ->
    num_bytes n b -> ins (op :: b)
| i_text op b s : In op [OP_PUSH_STR; OP_PUSH_DBL] -> num_bytes (zlen s) b -> ins (op :: b ++ s)
| i_par n b b' s : num_bytes n b -> num_bytes (zlen s) b' -> ins (OP_SET_ARG :: b ++ b' ++ s)
| i_loop n b n' b' : num_bytes n b -> num_bytes n' b' -> ins (OP_LOOP :: b ++ b')
| i_expr t : ins [OP_EXPR; t].
(** Where the instructions begin *)
Fixpoint ins_starts (k : Z) (is : list (list Z)) : list Z :=
  match is with [] => [] | b :: r => k :: ins_starts (k + zlen b) r end.
(** A part of byte code: header, name of the file, instructions, table of lines. The sizes in the header do not
    count its first byte. *)
Definition part_bytes (fname : list Z) (is : list (list Z)) (map : list Z) : list Z :=
  let before := 12 + zlen fname + 1 in
  let total := before + zlen (concat is) + zlen map in
  OP_BCODE_HEADER :: le_bytes 4 total ++ le_bytes 4 before ++ le_bytes 4 (before + zlen (concat is)) ++ fname ++ [0] ++ concat is ++ map.
(** Bytes that, read as an operation, take an operand. *)
Definition wants_operand (b : Z) : bool :=
  existsb (Z.eqb b) [OP_PUSH_FUNC; OP_PUSH_INT; OP_JMP; OP_JMP_TRUE; OP_JMP_NEUTRAL_TRUE; OP_JMP_FALSE; OP_JMP_NEUTRAL_FALSE;
    OP_PUSH_STR; OP_PUSH_DBL; OP_SET_ARG; OP_LOOP; OP_EXPR; OP_BCODE_HEADER].

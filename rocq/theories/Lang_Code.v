(** The byte code of a tree. *)
From Verif Require Import Base Str_Model Bcode_Model TokNum_Model Parse_Model Expr_Spec Expr_Proofs1 Lang_Spec.

(** * Code *)
Definition dropcode (cs : list (list Z)) : list Z := flat_map (fun c => OP_DROP :: c) cs.
Definition seqcode (cs : list (list Z)) : list Z := match cs with [] => [OP_PUSH_UNDEF] | c :: cs => c ++ dropcode cs end.
Fixpoint parcode (n : Z) (ps : list (list Z)) : list Z :=
  match ps with [] => [] | p :: ps => OP_SET_ARG :: varint n ++ strb p ++ parcode (n + 1) ps end.
Definition bracket (ps : list (list Z)) (b : list Z) : list Z := OP_NEW_SCOPE :: parcode 0 ps ++ b ++ [OP_RETURN].
Definition declcode (x : list Z) : list Z := OP_PUSH_STR :: strb x ++ [OP_PUSH_SCOPE; OP_CREATE].
Definition varcode (x : list Z) : list Z := OP_PUSH_STR :: strb x ++ [OP_FIND_SCOPE].
Definition funcode (ps : list (list Z)) (b : list Z) : list Z :=
  let k := bracket ps b in OP_JMP :: varint (zlen k) ++ k ++ OP_PUSH_FUNC :: varint (zlen k).
Definition andcode (j : Z) (a b : list Z) : list Z := a ++ j :: varint (1 + zlen b) ++ OP_DROP :: b.
Definition condcode (c a b : list Z) : list Z :=
  let off := varint (1 + zlen b) in c ++ OP_JMP_FALSE :: varint (zlen a + 1 + zlen off) ++ a ++ OP_JMP :: off ++ OP_DROP :: b.
(** what a loop's break offset spans, from after that offset *)
Definition while_rest (c b : list Z) : list Z := 0 :: c ++ OP_JMP_FALSE :: varint (zlen b + 2) ++ b ++ [OP_DROP; OP_CONTINUE; OP_BREAK].
Definition whilecode (c b : list Z) : list Z :=
  OP_NEW_SCOPE :: OP_LOOP :: varint (zlen (while_rest c b)) ++ while_rest c b ++ [OP_DEL_SCOPE].
Definition for_rest (i c u b : list Z) : list Z :=
  varint (zlen i + 2 + zlen (varint (zlen u + 1))) ++ i ++ OP_DROP :: OP_JMP :: varint (zlen u + 1) ++ u ++ OP_DROP :: c ++
  OP_JMP_FALSE :: varint (zlen b + 2) ++ b ++ [OP_DROP; OP_CONTINUE; OP_BREAK].
Definition forcode (i c u b : list Z) : list Z :=
  OP_NEW_SCOPE :: OP_LOOP :: varint (zlen (for_rest i c u b)) ++ for_rest i c u b ++ [OP_DEL_SCOPE].
(** for (x in e) b: the variable, the object and the place reached stay on the stack *)
Definition forin_rest (b : list Z) : list Z :=
  0 :: [OP_FOR_IN_NEXT; OP_DUP] ++ OP_JMP_FALSE :: varint (zlen b + 2) ++ b ++ [OP_DROP; OP_CONTINUE; OP_BREAK].
Definition forincode (d : bool) (x e b : list Z) : list Z :=
  OP_NEW_SCOPE :: (if d then declcode x else []) ++ OP_PUSH_STR :: strb x ++ e ++
  OP_PUSH_UNDEF :: OP_LOOP :: varint (zlen (forin_rest b)) ++ forin_rest b ++ [OP_DROP; OP_DROP; OP_DROP; OP_DEL_SCOPE].
Definition refcode (f : lx -> list Z) (r : lx) : list Z :=
  match r with
  | XVar x => varcode x
  | XDot o x => f o ++ OP_PUSH_STR :: strb x ++ [OP_SWAP]
  | XIdx o k => f o ++ f k ++ [OP_SWAP]
  | _ => []
  end.
Fixpoint cex (e : lx) : list Z :=
  match e with
  | XConst e => comp e
  | XThis => [OP_PUSH_THIS]
  | XVar x => varcode x ++ [OP_GET]
  | XUn op a => cex a ++ [OP_EXPR; unary_code op]
  | XBin op a b => cex a ++ cex b ++ [OP_EXPR; op]
  | XAnd a b => andcode OP_JMP_NEUTRAL_FALSE (cex a) (cex b)
  | XOr a b => andcode OP_JMP_NEUTRAL_TRUE (cex a) (cex b)
  | XCond c a b => condcode (cex c) (cex a) (cex b)
  | XAsg op r e => refcode cex r ++ cex e ++ [OP_EXPR; op]
  | XInc op r => refcode cex r ++ [OP_EXPR; op]
  | XDot o x => (cex o ++ OP_PUSH_STR :: strb x ++ [OP_SWAP]) ++ [OP_GET]
  | XIdx o k => (cex o ++ cex k ++ [OP_SWAP]) ++ [OP_GET]
  | XCall f l => cex f ++ OP_ARGS :: flat_map cex l ++ [OP_CALL]
  | XObj l => OP_PUSH_OBJ :: flat_map (fun p => OP_DUP :: OP_PUSH_STR :: strb (fst p) ++ OP_SWAP :: cex (snd p) ++ [OP_EXPR; TOK_ASSIGN; OP_DROP]) l
  | XArr l => OP_PUSH_ARRAY :: flat_map (fun e => OP_DUP :: cex e ++ [OP_APPEND]) l
  | XFun None ps b => funcode ps (seqcode (map cst b))
  | XFun (Some f) ps b => declcode f ++ varcode f ++ funcode ps (seqcode (map cst b)) ++ [OP_EXPR; TOK_ASSIGN]
  end
with cst (s : stmt) : list Z :=
  match s with
  | SEmpty => [OP_PUSH_UNDEF]
  | SExprs l => seqcode (map cex l)
  | SLet l => seqcode (map (fun p => declcode (fst p) ++
      match snd p with None => [OP_PUSH_UNDEF] | Some e => varcode (fst p) ++ cex e ++ [OP_EXPR; TOK_ASSIGN] end) l)
  | SBlock l => OP_NEW_SCOPE :: seqcode (map cst l) ++ [OP_DEL_SCOPE]
  | SIf c a None => cex c ++ OP_JMP_FALSE :: varint (zlen (cst a)) ++ cst a
  | SIf c a (Some b) => condcode (cex c) (cst a) (cst b)
  | SWhile c b => whilecode (cex c) (seqcode (map cst b))
  | SFor i c u b => forcode (cst i) (cex c) (cex u) (seqcode (map cst b))
  | SForIn d x e b => forincode d x (cex e) (seqcode (map cst b))
  | SBreak => [OP_PUSH_UNDEF; OP_BREAK]
  | SContinue => [OP_CONTINUE]
  | SReturn None => [OP_PUSH_UNDEF; OP_SETRETVAL; OP_RETURN]
  | SReturn (Some e) => cex e ++ [OP_SETRETVAL; OP_RETURN]
  end.
Definition cref (r : lx) : list Z := refcode cex r.


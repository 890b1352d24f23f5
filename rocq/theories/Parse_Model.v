(** Model of src/mjs_parser.c: the recursive-descent parser that emits byte code. Each C
    function is a definition over [rec], the parser one level down; [parse] ties the knot on
    a fuel that bounds the depth of nested calls and loop rounds. A loop of a C function is a
    nonterminal of its own. Error results keep the parser state, because callers may inspect
    it. Error texts (mjs_set_errorf) are not kept. *)
From Verif Require Import Base Value_Model Str_Model Ops_Model TokNum_Model Num_Model Tok_Model Bcode_Model.

(** struct pstate (mjs_tok.h:18-34): tokenizer part, code generator part, depth *)
Record ps := { p_t : tstate; p_g : gen; p_depth : Z }.
Definition with_t (s : ps) (t : tstate) : ps := {| p_t := t; p_g := p_g s; p_depth := p_depth s |}.
Definition with_g (s : ps) (g : gen) : ps := {| p_t := p_t s; p_g := g; p_depth := p_depth s |}.
Definition with_depth (s : ps) (d : Z) : ps := {| p_t := p_t s; p_g := p_g s; p_depth := d |}.
(** p->tok.tok; p->cur_idx; the bytes of the current token *)
Definition tk (s : ps) : Z := t_tok (p_t s).
Definition cur (s : ps) : Z := g_cur (p_g s).
Definition tok_text (t : tstate) : list Z := firstn (Z.to_nat (t_len t)) (t_ptr t).

(** A parsing function's result: the state and its mjs_err_t. *)
Definition pres : Type := R (ps * Z).
Definition pok (s : ps) : pres := OK (s, E_OK).
Definition syntax_error (s : ps) : pres := OK (s, E_SYNTAX).
(** if ((res = m) != MJS_OK) return res; k *)
Definition andthen (m : pres) (k : ps -> pres) : pres :=
  match m with
  | OK (s, e) => if e =? E_OK then k s else OK (s, e)
  | UB => UB | Abort => Abort | NoFuel => NoFuel
  end.
Notation "x <-- m ;; k" := (andthen m (fun x => k)) 
  (at level 100, m at next level, right associativity).

(** pnext1; EXPECT (mjs_parser.c:26-38); ptest (43-48) *)
Definition pnext1 (s : ps) : R ps := t <- pnext (p_t s) ;; OK (with_t s t).
Definition expect (s : ps) (t : Z) : pres :=
  if tk s =? t then s <- pnext1 s ;; pok s else syntax_error s.
Definition ptest (s : ps) : R Z := t <- pnext (p_t s) ;; OK (t_tok t).

(** mjs_parser.c:50-61 operator tables; findtok (63-67) is compared with TOK_EOF *)
Definition s_unary_ops : list Z :=
  [TOK_NOT; TOK_TILDA; TOK_PLUS_PLUS; TOK_MINUS_MINUS; TOK_KEYWORD_TYPEOF; TOK_MINUS; TOK_PLUS].
Definition s_comparison_ops : list Z := [TOK_LT; TOK_LE; TOK_GT; TOK_GE].
Definition s_postfix_ops : list Z := [TOK_PLUS_PLUS; TOK_MINUS_MINUS].
Definition s_equality_ops : list Z := [TOK_EQ; TOK_NE; TOK_EQ_EQ; TOK_NE_NE].
Definition s_assign_ops : list Z :=
  [TOK_ASSIGN; TOK_PLUS_ASSIGN; TOK_MINUS_ASSIGN; TOK_MUL_ASSIGN; TOK_DIV_ASSIGN; TOK_REM_ASSIGN;
   TOK_LSHIFT_ASSIGN; TOK_RSHIFT_ASSIGN; TOK_URSHIFT_ASSIGN; TOK_AND_ASSIGN; TOK_XOR_ASSIGN; TOK_OR_ASSIGN].
Definition findtok (ops : list Z) (t : Z) : bool := existsb (Z.eqb t) ops.

(** emit_byte, emit_int, emit_str on the parser state: the line recorded is p->line_no *)
Definition e_byte (s : ps) (b : Z) : R ps := g <- emit_byte (p_g s) (t_line (p_t s)) b ;; OK (with_g s g).
Definition e_int (s : ps) (n : Z) : R ps := g <- emit_int (p_g s) (t_line (p_t s)) n ;; OK (with_g s g).
Definition e_str (s : ps) (d : list Z) : R ps := g <- emit_str (p_g s) (t_line (p_t s)) d ;; OK (with_g s g).
Fixpoint e_bytes (s : ps) (l : list Z) : R ps :=
  match l with [] => OK s | b :: l => s <- e_byte s b ;; e_bytes s l end.
(** mjs_parser.c:67-71 emit_op *)
Definition emit_op (s : ps) (t : Z) : R ps :=
  if (0 <=? t) && (t <=? 255) then e_bytes s [OP_EXPR; t] else Abort.
(** mjs_parser.c:133-142 emit_init_offset, MJS_INIT_OFFSET_SIZE = 1; the position reserved *)
Definition emit_off (s : ps) : R (ps * Z) := s' <- e_byte s 0 ;; OK (s', cur s).
(** mjs_bcode_insert_offset; the arithmetic on size_t wraps *)
Definition ins (s : ps) (off v : Z) : R (ps * Z) :=
  '(g, d) <- insert_offset (p_g s) off (u64 v) ;; OK (with_g s g, d).

(** Functions and loops of the parser. [NBin l prev_op] is the level-[l] function of
    parse_mul_div_rem ... parse_logical_or. *)
Inductive level := LMul | LAdd | LShift | LCmp | LEqu | LBand | LXor | LBor | LLand | LLor.
Inductive nt :=
| NStmtList (et : Z) | NStmts (et : Z) (drop : bool) | NSemis | NBlock (mkscope : bool)
| NFunction | NFunArgs (n : Z) | NObject | NObjLoop | NArray | NArrLoop | NLiteral
| NMem | NMemLoop | NArgsLoop | NPostfix | NUnary | NBin (l : level) (prev : Z)
| NTernary (prev : Z) | NAssign | NLet | NLetLoop | NBlockOrStmt (cs : bool)
| NForIn | NFor | NWhile | NIf | NReturn | NStmt | NComma.

Definition ops_of (l : level) : list Z :=
  match l with
  | LMul => [TOK_MUL; TOK_DIV; TOK_REM]
  | LAdd => [TOK_PLUS; TOK_MINUS]
  | LShift => [TOK_LSHIFT; TOK_RSHIFT; TOK_URSHIFT]
  | LCmp => s_comparison_ops
  | LEqu => s_equality_ops
  | LBand => [TOK_AND]
  | LXor => [TOK_XOR]
  | LBor => [TOK_OR]
  | LLand => [TOK_LOGICAL_AND]
  | LLor => [TOK_LOGICAL_OR]
  end.
(** the f1 of each level (mjs_parser.c:412-466) *)
Definition lower (l : level) : nt :=
  match l with
  | LMul => NUnary
  | LAdd => NBin LMul TOK_EOF
  | LShift => NBin LAdd TOK_EOF
  | LCmp => NBin LShift TOK_EOF
  | LEqu => NBin LCmp TOK_EOF
  | LBand => NBin LEqu TOK_EOF
  | LXor => NBin LBand TOK_EOF
  | LBor => NBin LXor TOK_EOF
  | LLand => NBin LBor TOK_EOF
  | LLor => NBin LLand TOK_EOF
  end.
(** the jump of a short-circuit level *)
Definition short_op (l : level) : option Z :=
  match l with LLand => Some OP_JMP_NEUTRAL_FALSE | LLor => Some OP_JMP_NEUTRAL_TRUE | _ => None end.
(** STACK_LIMIT / BINOP_STACK_FRAME_SIZE (mjs_parser.c:75-76) *)
Definition DEPTH_LIMIT : Z := 512.

Section Rec.
Context (rec : nt -> ps -> pres).

(** mjs_parser.c:78-117 PARSE_LTR_BINOP. The depth is restored on every path. *)
Definition undepth (m : pres) : pres :=
  match m with OK (s, e) => OK (with_depth s (p_depth s - 1), e) | UB => UB | Abort => Abort | NoFuel => NoFuel end.
Definition opt_op (s : ps) (prev : Z) : R ps := if prev =? TOK_EOF then OK s else emit_op s prev.
Definition parse_ltr (l : level) (prev : Z) (s : ps) : pres :=
  let s := with_depth s (p_depth s + 1) in
  undepth
    (if DEPTH_LIMIT <? p_depth s then syntax_error s
     else
       s <-- rec (lower l) s ;;
       s <- opt_op s prev ;;
       if findtok (ops_of l) (tk s) then
         let op := tk s in
         match short_op l with
         | Some j =>
           s <- e_byte s j ;; '(s, off) <- emit_off s ;; s <- e_byte s OP_DROP ;;
           s <- pnext1 s ;;
           s <-- rec (NBin l TOK_EOF) s ;;
           (* off_if is never 0: the code starts after a header *)
           '(s, _) <- ins s off (cur s - off - 1) ;; pok s
         | None => s <- pnext1 s ;; rec (NBin l op) s
         end
       else pok s).

(** mjs_parser.c:144-163 parse_statement_list and its loop; the inner loop over semicolons *)
Definition parse_statement_list (et : Z) (s : ps) : pres := s <- pnext1 s ;; rec (NStmts et false) s.
Definition parse_stmts (et : Z) (drop : bool) (s : ps) : pres :=
  if (tk s =? TOK_EOF) || (tk s =? et) then
    if drop then pok s else s <- e_byte s OP_PUSH_UNDEF ;; pok s
  else
    s <- (if drop then e_byte s OP_DROP else OK s) ;;
    '(s, e) <- rec NStmt s ;;
    '(s, _) <- rec NSemis s ;;
    if e =? E_OK then rec (NStmts et true) s else OK (s, e).
Definition parse_semis (s : ps) : pres :=
  if tk s =? TOK_SEMICOLON then s <- pnext1 s ;; rec NSemis s else pok s.

(** mjs_parser.c:165-179 parse_block: a failure of the list is reported as the syntax error
    of EXPECT unless the token is the closing brace. The depth is not restored. *)
Definition parse_block (mkscope : bool) (s : ps) : pres :=
  let s := with_depth s (p_depth s + 1) in
  if DEPTH_LIMIT <? p_depth s then syntax_error s
  else
    s <- (if mkscope then e_byte s OP_NEW_SCOPE else OK s) ;;
    '(s, e) <- rec (NStmtList TOK_CLOSE_CURLY) s ;;
    s <-- expect s TOK_CLOSE_CURLY ;;
    s <- (if mkscope then e_byte s OP_DEL_SCOPE else OK s) ;;
    OK (s, e).

(** mjs_parser.c:181-231 parse_function; the loop over the argument names *)
Definition parse_fun_args (n : Z) (s : ps) : pres :=
  if tk s =? TOK_CLOSE_PAREN then pok s
  else if negb (tk s =? TOK_IDENT) then syntax_error s
  else
    s <- e_byte s OP_SET_ARG ;; s <- e_int s n ;;
    s <- e_str s (tok_text (p_t s)) ;;
    t <- ptest s ;;
    s <- (if t =? TOK_COMMA then pnext1 s else OK s) ;;
    s <- pnext1 s ;;
    rec (NFunArgs (n + 1)) s.
Definition parse_function (s : ps) : pres :=
  s <-- expect s TOK_KEYWORD_FUNCTION ;;
  let named := tk s =? TOK_IDENT in
  s <- (if named then
          let name := tok_text (p_t s) in
          s <- e_byte s OP_PUSH_STR ;; s <- e_str s name ;;
          s <- e_bytes s [OP_PUSH_SCOPE; OP_CREATE; OP_PUSH_STR] ;; s <- e_str s name ;;
          s <- e_byte s OP_FIND_SCOPE ;; pnext1 s
        else OK s) ;;
  s <- e_byte s OP_JMP ;;
  '(s, off) <- emit_off s ;;
  let prologue := cur s in
  s <-- expect s TOK_OPEN_PAREN ;;
  s <- e_byte s OP_NEW_SCOPE ;;
  s <-- rec (NFunArgs 0) s ;;
  s <-- expect s TOK_CLOSE_PAREN ;;
  s <-- rec (NBlock false) s ;;
  s <- e_byte s OP_RETURN ;;
  '(s, d) <- ins s off (cur s - off - 1) ;;
  let prologue := prologue + d in
  s <- e_byte s OP_PUSH_FUNC ;;
  s <- e_int s (cur s - 1 - prologue) ;;
  s <- (if named then emit_op s TOK_ASSIGN else OK s) ;;
  pok s.

(** mjs_parser.c:233-257 parse_object_literal *)
Definition parse_object_literal (s : ps) : pres :=
  s <-- expect s TOK_OPEN_CURLY ;; s <- e_byte s OP_PUSH_OBJ ;; rec NObjLoop s.
Definition parse_obj_loop (s : ps) : pres :=
  if tk s =? TOK_CLOSE_CURLY then pok s
  else if negb (tk s =? TOK_IDENT) && negb (tk s =? TOK_STR) then syntax_error s
  else
    s <- e_bytes s [OP_DUP; OP_PUSH_STR] ;;
    s <- e_str s (tok_text (p_t s)) ;;
    s <- e_byte s OP_SWAP ;;
    s <- pnext1 s ;;
    s <-- expect s TOK_COLON ;;
    s <-- rec NAssign s ;;
    s <- emit_op s TOK_ASSIGN ;;
    s <- e_byte s OP_DROP ;;
    if tk s =? TOK_COMMA then s <- pnext1 s ;; rec NObjLoop s
    else if negb (tk s =? TOK_CLOSE_CURLY) then syntax_error s
    else rec NObjLoop s.

(** mjs_parser.c:259-270 parse_array_literal *)
Definition parse_array_literal (s : ps) : pres :=
  s <-- expect s TOK_OPEN_BRACKET ;; s <- e_byte s OP_PUSH_ARRAY ;; rec NArrLoop s.
Definition parse_arr_loop (s : ps) : pres :=
  if tk s =? TOK_CLOSE_BRACKET then pok s
  else
    s <- e_byte s OP_DUP ;;
    s <-- rec NAssign s ;;
    s <- e_byte s OP_APPEND ;;
    s <- (if tk s =? TOK_COMMA then pnext1 s else OK s) ;;
    rec NArrLoop s.

(** mjs_parser.c:304-316 the double of a number token. strtoul is always called, two bytes
    into the token; a double that is a whole number is converted to int64_t. *)
Definition num_literal (txt : list Z) : R Z :=
  if (length txt <? 2)%nat then UB (* reads beyond the terminating NUL *)
  else
    let uv := fst (strtoul16 (skipn 2 txt)) in
    match txt with
    | z :: x :: _ => if (z =? 48) && (x =? 120) then OK (d_of_Z uv) else OK (fst (strtod txt))
    | _ => UB
    end.
(** modf(d, &iv) == 0; the fraction of an infinity is zero *)
Definition is_whole (d : Z) : bool :=
  match d_dec d with
  | S754_zero _ | S754_infinity _ => true
  | S754_nan => false
  | S754_finite _ m e => (0 <=? e) || (Z.pos m mod 2 ^ (- e) =? 0)
  end.

(** OP_GET is emitted unless the value is about to be assigned (mjs_parser.c:293-298,
    361-366) *)
Definition wants_get (next_tok prev_tok : Z) : bool :=
  negb (findtok s_assign_ops next_tok) && negb (findtok s_postfix_ops next_tok) && negb (findtok s_postfix_ops prev_tok).

(** mjs_parser.c:272-346 parse_literal *)
Definition parse_literal (s : ps) : pres :=
  let t := tk s in
  '(s, e) <-
    (if t =? TOK_KEYWORD_FALSE then s <- e_byte s OP_PUSH_FALSE ;; pok s
     else if t =? TOK_KEYWORD_TRUE then s <- e_byte s OP_PUSH_TRUE ;; pok s
     else if t =? TOK_KEYWORD_UNDEFINED then s <- e_byte s OP_PUSH_UNDEF ;; pok s
     else if t =? TOK_KEYWORD_NULL then s <- e_byte s OP_PUSH_NULL ;; pok s
     else if t =? TOK_IDENT then
       let prev := t_prev (p_t s) in
       nxt <- ptest s ;;
       s <- e_byte s OP_PUSH_STR ;;
       s <- e_str s (tok_text (p_t s)) ;;
       s <- e_byte s (if prev =? TOK_DOT then OP_SWAP else OP_FIND_SCOPE) ;;
       s <- (if wants_get nxt prev then e_byte s OP_GET else OK s) ;;
       pok s
     else if t =? TOK_NUM then
       d <- num_literal (t_ptr (p_t s)) ;;
       if is_whole d then
         s <- e_byte s OP_PUSH_INT ;; n <- to_i64 d ;; s <- e_int s n ;; pok s
       else
         s <- e_byte s OP_PUSH_DBL ;; s <- e_str s (tok_text (p_t s)) ;; pok s
     else if t =? TOK_STR then
       s <- e_byte s OP_PUSH_STR ;;
       d <- unescape_str (t_ptr (p_t s) ++ [0]) (t_len (p_t s)) ;;
       (* embed_string does not record a line *)
       g <- put (p_g s) (varint (zlen d) ++ d) ;; pok (with_g s g)
     else if t =? TOK_OPEN_BRACKET then rec NArray s
     else if t =? TOK_OPEN_CURLY then rec NObject s
     else if t =? TOK_OPEN_PAREN then
       s <- pnext1 s ;;
       '(s, e) <- rec NAssign s ;;
       if negb (tk s =? TOK_CLOSE_PAREN) then syntax_error s else OK (s, e)
     else if t =? TOK_KEYWORD_FUNCTION then rec NFunction s
     else if t =? TOK_KEYWORD_THIS then s <- e_byte s OP_PUSH_THIS ;; pok s
     else syntax_error s) ;;
  (* the error exits of the switch leave before the final pnext1, which only moves the
     tokenizer; a failed sub-parser reaches it *)
  if negb (e =? E_OK) && negb (t =? TOK_OPEN_BRACKET) && negb (t =? TOK_OPEN_CURLY) && negb (t =? TOK_OPEN_PAREN)
  then OK (s, e)
  else if t =? TOK_OPEN_PAREN then
    if tk s =? TOK_CLOSE_PAREN then s <- pnext1 s ;; OK (s, e) else OK (s, e)
  else if t =? TOK_KEYWORD_FUNCTION then OK (s, e)
  else s <- pnext1 s ;; OK (s, e).

(** mjs_parser.c:348-380 parse_call_dot_mem, its loop, and the loop over call arguments *)
Definition parse_call_dot_mem (s : ps) : pres := s <-- rec NLiteral s ;; rec NMemLoop s.
Definition parse_mem_loop (s : ps) : pres :=
  if tk s =? TOK_OPEN_BRACKET then
    let prev := t_prev (p_t s) in
    s <-- expect s TOK_OPEN_BRACKET ;;
    s <-- rec NAssign s ;;
    s <- e_byte s OP_SWAP ;;
    s <-- expect s TOK_CLOSE_BRACKET ;;
    s <- (if wants_get (tk s) prev then e_byte s OP_GET else OK s) ;;
    rec NMemLoop s
  else if tk s =? TOK_OPEN_PAREN then
    s <-- expect s TOK_OPEN_PAREN ;;
    s <- e_byte s OP_ARGS ;;
    s <-- rec NArgsLoop s ;;
    s <- e_byte s OP_CALL ;;
    s <-- expect s TOK_CLOSE_PAREN ;;
    rec NMemLoop s
  else if tk s =? TOK_DOT then
    s <-- expect s TOK_DOT ;;
    s <-- rec NMem s ;;
    rec NMemLoop s
  else pok s.
Definition parse_args_loop (s : ps) : pres :=
  if tk s =? TOK_CLOSE_PAREN then pok s
  else
    s <-- rec NAssign s ;;
    s <- (if tk s =? TOK_COMMA then pnext1 s else OK s) ;;
    rec NArgsLoop s.

(** mjs_parser.c:382-391 parse_postfix; 393-413 parse_unary *)
Definition parse_postfix (s : ps) : pres :=
  s <-- rec NMem s ;;
  if (tk s =? TOK_PLUS_PLUS) || (tk s =? TOK_MINUS_MINUS) then
    s <- emit_op s (if tk s =? TOK_PLUS_PLUS then TOK_POSTFIX_PLUS else TOK_POSTFIX_MINUS) ;;
    s <- pnext1 s ;; pok s
  else pok s.
Definition unary_code (op : Z) : Z :=
  if op =? TOK_MINUS then TOK_UNARY_MINUS else if op =? TOK_PLUS then TOK_UNARY_PLUS else op.
Definition parse_unary (s : ps) : pres :=
  let has := findtok s_unary_ops (tk s) in
  let op := tk s in
  s <- (if has then pnext1 s else OK s) ;;
  s <-- rec (if findtok s_unary_ops (tk s) then NUnary else NPostfix) s ;;
  s <- (if has then emit_op s (unary_code op) else OK s) ;;
  pok s.

(** mjs_parser.c:469-505 parse_ternary *)
Definition parse_ternary (prev : Z) (s : ps) : pres :=
  s <-- rec (NBin LLor TOK_EOF) s ;;
  s <- opt_op s prev ;;
  if tk s =? TOK_QUESTION then
    s <-- expect s TOK_QUESTION ;;
    s <- e_byte s OP_JMP_FALSE ;; '(s, off_if) <- emit_off s ;;
    s <-- rec (NTernary TOK_EOF) s ;;
    s <- e_byte s OP_JMP ;; '(s, off_else) <- emit_off s ;;
    let off_endif := cur s in
    s <- e_byte s OP_DROP ;;
    s <-- expect s TOK_COLON ;;
    s <-- rec (NTernary TOK_EOF) s ;;
    '(s, d) <- ins s off_else (cur s - off_else - 1) ;;
    let off_endif := off_endif + d in
    '(s, _) <- ins s off_if (off_endif - off_if - 1) ;;
    pok s
  else pok s.
(** mjs_parser.c:119-131 PARSE_RTL_BINOP as used by parse_assignment (507-509); parse_expr
    (511-513) is parse_assignment *)
Definition parse_assignment (s : ps) : pres :=
  s <-- rec (NTernary TOK_EOF) s ;;
  if findtok s_assign_ops (tk s) then
    let op := tk s in
    s <- pnext1 s ;;
    s <-- rec NAssign s ;;
    s <- emit_op s op ;; pok s
  else pok s.

(** mjs_parser.c:510-540 parse_let and its loop *)
Definition parse_let (s : ps) : pres := s <-- expect s TOK_KEYWORD_LET ;; rec NLetLoop s.
Definition parse_let_loop (s : ps) : pres :=
  let name := tok_text (p_t s) in
  s <-- expect s TOK_IDENT ;;
  s <- e_byte s OP_PUSH_STR ;; s <- e_str s name ;; s <- e_bytes s [OP_PUSH_SCOPE; OP_CREATE] ;;
  s <-- (if tk s =? TOK_ASSIGN then
           s <- pnext1 s ;;
           s <- e_byte s OP_PUSH_STR ;; s <- e_str s name ;; s <- e_byte s OP_FIND_SCOPE ;;
           s <-- rec NAssign s ;;
           s <- emit_op s TOK_ASSIGN ;; pok s
         else s <- e_byte s OP_PUSH_UNDEF ;; pok s) ;;
  s <- (if tk s =? TOK_COMMA then s <- e_byte s OP_DROP ;; pnext1 s else OK s) ;;
  if (tk s =? TOK_SEMICOLON) || (tk s =? TOK_EOF) then pok s else rec NLetLoop s.

(** mjs_parser.c:542-548 parse_block_or_stmt: ptest looks at the token after the current one *)
Definition parse_block_or_stmt (cs : bool) (s : ps) : pres :=
  t <- ptest s ;;
  if t =? TOK_OPEN_CURLY then rec (NBlock cs) s else rec NStmt s.

(** The body of a loop statement (mjs_parser.c:592-599, 731-738, 811-818) *)
Definition loop_body (s : ps) : pres :=
  s <-- (if tk s =? TOK_OPEN_CURLY then
           s <-- rec (NStmtList TOK_CLOSE_CURLY) s ;; s <- pnext1 s ;; pok s
         else rec NStmt s) ;;
  s <- e_bytes s [OP_DROP; OP_CONTINUE] ;; pok s.

(** mjs_parser.c:550-616 parse_for_in: the result of parse_expr is ignored *)
Definition parse_for_in (s : ps) : pres :=
  s <- e_byte s OP_NEW_SCOPE ;;
  s <-- (if tk s =? TOK_KEYWORD_LET then
           s <-- expect s TOK_KEYWORD_LET ;;
           s <- e_byte s OP_PUSH_STR ;; s <- e_str s (tok_text (p_t s)) ;;
           s <- e_bytes s [OP_PUSH_SCOPE; OP_CREATE] ;; pok s
         else pok s) ;;
  s <- e_byte s OP_PUSH_STR ;; s <- e_str s (tok_text (p_t s)) ;;
  s <-- expect s TOK_IDENT ;;
  s <-- expect s TOK_KEYWORD_IN ;;
  '(s, _) <- rec NAssign s ;;
  s <-- expect s TOK_CLOSE_PAREN ;;
  s <- e_bytes s [OP_PUSH_UNDEF; OP_LOOP] ;;
  '(s, off_b) <- emit_off s ;;
  s <- e_bytes s [0; OP_FOR_IN_NEXT; OP_DUP; OP_JMP_FALSE] ;;
  '(s, off_check_end) <- emit_off s ;;
  s <-- loop_body s ;;
  '(s, _) <- ins s off_check_end (cur s - off_check_end - 1) ;;
  s <- e_byte s OP_BREAK ;;
  '(s, _) <- ins s off_b (cur s - off_b - 1) ;;
  s <- e_bytes s [OP_DROP; OP_DROP; OP_DROP; OP_DEL_SCOPE] ;;
  pok s.

(** mjs_parser.c:618-628 check_for_in *)
Definition check_for_in (s : ps) : R bool :=
  s <- (if tk s =? TOK_KEYWORD_LET then pnext1 s else OK s) ;;
  if tk s =? TOK_IDENT then s <- pnext1 s ;; OK (tk s =? TOK_KEYWORD_IN) else OK false.

(** p->cur_idx = n *)
Definition set_cur (s : ps) (n : Z) : ps :=
  let g := p_g s in
  with_g s {| g_code := g_code g; g_cur := n; g_start := g_start g; g_map := g_map g; g_last := g_last g |}.

(** mjs_parser.c:630-749 parse_for *)
Definition parse_for (s : ps) : pres :=
  s <-- expect s TOK_KEYWORD_FOR ;;
  s <-- expect s TOK_OPEN_PAREN ;;
  forin <- check_for_in s ;;
  if forin : bool then rec NForIn s
  else
    s <- e_bytes s [OP_NEW_SCOPE; OP_LOOP] ;;
    '(s, off_b) <- emit_off s ;;
    '(s, off_c) <- emit_off s ;;
    s <-- rec (if tk s =? TOK_KEYWORD_LET then NLet else NAssign) s ;;
    s <-- expect s TOK_SEMICOLON ;;
    s <- e_bytes s [OP_DROP; OP_JMP] ;;
    '(s, off_init_end) <- emit_off s ;;
    let off_incr_begin := cur s in
    let off_cond_begin := cur s in
    s <-- rec NAssign s ;;
    s <-- expect s TOK_SEMICOLON ;;
    let buf_cur_idx := cur s in
    let s := set_cur s off_incr_begin in
    s <-- rec NAssign s ;;
    s <-- expect s TOK_CLOSE_PAREN ;;
    s <- e_byte s OP_DROP ;;
    let incr_size := cur s - off_incr_begin in
    let off_cond_begin := off_cond_begin + incr_size in
    let s := set_cur s (buf_cur_idx + incr_size) in
    s <- e_byte s OP_JMP_FALSE ;;
    '(s, off_cond_end) <- emit_off s ;;
    s <-- loop_body s ;;
    '(s, _) <- ins s off_cond_end (cur s - off_cond_end - 1) ;;
    '(s, d) <- ins s off_init_end (off_cond_begin - off_init_end - 1) ;;
    let off_incr_begin := off_incr_begin + d in
    '(s, _) <- ins s off_c (off_incr_begin - off_c - 1) ;;
    s <- e_byte s OP_BREAK ;;
    '(s, _) <- ins s off_b (cur s - off_b - 1) ;;
    s <- e_byte s OP_DEL_SCOPE ;;
    pok s.

(** mjs_parser.c:751-815 parse_while *)
Definition parse_while (s : ps) : pres :=
  s <-- expect s TOK_KEYWORD_WHILE ;;
  s <-- expect s TOK_OPEN_PAREN ;;
  s <- e_bytes s [OP_NEW_SCOPE; OP_LOOP] ;;
  '(s, off_b) <- emit_off s ;;
  s <- e_byte s 0 ;;
  s <-- rec NAssign s ;;
  s <-- expect s TOK_CLOSE_PAREN ;;
  s <- e_byte s OP_JMP_FALSE ;;
  '(s, off_cond_end) <- emit_off s ;;
  s <-- loop_body s ;;
  '(s, _) <- ins s off_cond_end (cur s - off_cond_end - 1) ;;
  s <- e_byte s OP_BREAK ;;
  '(s, _) <- ins s off_b (cur s - off_b - 1) ;;
  s <- e_byte s OP_DEL_SCOPE ;;
  pok s.

(** mjs_parser.c:817-865 parse_if *)
Definition parse_if (s : ps) : pres :=
  s <-- expect s TOK_KEYWORD_IF ;;
  s <-- expect s TOK_OPEN_PAREN ;;
  s <-- rec NAssign s ;;
  s <- e_byte s OP_JMP_FALSE ;;
  '(s, off_if) <- emit_off s ;;
  s <-- expect s TOK_CLOSE_PAREN ;;
  s <-- rec (NBlockOrStmt true) s ;;
  if tk s =? TOK_KEYWORD_ELSE then
    s <- pnext1 s ;;
    s <- e_byte s OP_JMP ;;
    '(s, off_else) <- emit_off s ;;
    let off_endif := cur s in
    s <- e_byte s OP_DROP ;;
    s <-- rec (NBlockOrStmt true) s ;;
    '(s, d) <- ins s off_else (cur s - off_else - 1) ;;
    '(s, _) <- ins s off_if (off_endif + d - off_if - 1) ;;
    pok s
  else
    '(s, _) <- ins s off_if (cur s - off_if - 1) ;;
    pok s.

(** mjs_parser.c:888-899 pstate_revert: the byte-code buffer and the line map are cut back to
    their old lengths. Cutting to a length the buffer had before cannot extend it: the buffers
    only grow. *)
Definition pstate_revert (s old : ps) (old_len : Z) : ps :=
  let g := p_g s in
  let go := p_g old in
  {| p_t := p_t old; p_depth := p_depth old;
     p_g := {| g_code := firstn (Z.to_nat old_len) (g_code g); g_cur := g_cur go; g_start := g_start g;
               g_map := firstn (length (g_map go)) (g_map g); g_last := g_last go |} |}.
(** mjs_parser.c:901-918 parse_return *)
Definition parse_return (s : ps) : pres :=
  s <-- expect s TOK_KEYWORD_RETURN ;;
  let saved := s in
  let old_len := zlen (g_code (p_g s)) in
  '(s, e) <- rec NAssign s ;;
  s <- (if e =? E_OK then OK s else e_byte (pstate_revert s saved old_len) OP_PUSH_UNDEF) ;;
  s <- e_bytes s [OP_SETRETVAL; OP_RETURN] ;; pok s.

(** mjs_parser.c:935-946 keywords that are recognised only to be refused *)
Definition refused : list Z :=
  [TOK_KEYWORD_CASE; TOK_KEYWORD_CATCH; TOK_KEYWORD_DELETE; TOK_KEYWORD_DO; TOK_KEYWORD_INSTANCEOF;
   TOK_KEYWORD_NEW; TOK_KEYWORD_SWITCH; TOK_KEYWORD_THROW; TOK_KEYWORD_TRY; TOK_KEYWORD_VAR;
   TOK_KEYWORD_VOID; TOK_KEYWORD_WITH].
(** mjs_parser.c:899-953 parse_statement; the loop over comma expressions *)
Definition parse_statement (s : ps) : pres :=
  let t := tk s in
  if t =? TOK_SEMICOLON then s <- e_byte s OP_PUSH_UNDEF ;; s <- pnext1 s ;; pok s
  else if t =? TOK_KEYWORD_LET then rec NLet s
  else if t =? TOK_OPEN_CURLY then rec (NBlock true) s
  else if t =? TOK_KEYWORD_RETURN then rec NReturn s
  else if t =? TOK_KEYWORD_FOR then rec NFor s
  else if t =? TOK_KEYWORD_WHILE then rec NWhile s
  else if t =? TOK_KEYWORD_BREAK then s <- e_bytes s [OP_PUSH_UNDEF; OP_BREAK] ;; s <- pnext1 s ;; pok s
  else if t =? TOK_KEYWORD_CONTINUE then s <- e_byte s OP_CONTINUE ;; s <- pnext1 s ;; pok s
  else if t =? TOK_KEYWORD_IF then rec NIf s
  else if findtok refused t then syntax_error s
  else rec NComma s.
Definition parse_comma (s : ps) : pres :=
  s <-- rec NAssign s ;;
  if tk s =? TOK_COMMA then s <- e_byte s OP_DROP ;; s <- pnext1 s ;; rec NComma s else pok s.

Definition rule (n : nt) (s : ps) : pres :=
  match n with
  | NStmtList et => parse_statement_list et s
  | NStmts et drop => parse_stmts et drop s
  | NSemis => parse_semis s
  | NBlock mk => parse_block mk s
  | NFunction => parse_function s
  | NFunArgs k => parse_fun_args k s
  | NObject => parse_object_literal s
  | NObjLoop => parse_obj_loop s
  | NArray => parse_array_literal s
  | NArrLoop => parse_arr_loop s
  | NLiteral => parse_literal s
  | NMem => parse_call_dot_mem s
  | NMemLoop => parse_mem_loop s
  | NArgsLoop => parse_args_loop s
  | NPostfix => parse_postfix s
  | NUnary => parse_unary s
  | NBin l prev => parse_ltr l prev s
  | NTernary prev => parse_ternary prev s
  | NAssign => parse_assignment s
  | NLet => parse_let s
  | NLetLoop => parse_let_loop s
  | NBlockOrStmt cs => parse_block_or_stmt cs s
  | NForIn => parse_for_in s
  | NFor => parse_for s
  | NWhile => parse_while s
  | NIf => parse_if s
  | NReturn => parse_return s
  | NStmt => parse_statement s
  | NComma => parse_comma s
  end.
End Rec.

Fixpoint parse (fuel : nat) (n : nt) (s : ps) : pres :=
  match fuel with O => NoFuel | S fuel => rule (parse fuel) n s end.

(** mjs_parser.c:955-1028 mjs_parse: the generated part (header, file name, code, line map)
    when parsing succeeds. [start] is the length of what bcode_gen held before, 0 after every
    commit or failure. The header items are uint32_t: total size, code offset, map offset. *)
Definition le32 (n : Z) : list Z := le_bytes 4 (u32 n).
Definition mjs_parse (fuel : nat) (path src : list Z) : R (list Z * Z) :=
  let pre := OP_BCODE_HEADER :: repeat 0 12 ++ path ++ [0] in
  let bcode_offset := zlen pre - 1 in
  let g := {| g_code := pre; g_cur := zlen pre; g_start := zlen pre;
              g_map := []; g_last := 1 |} in
  '(s, e) <- parse fuel (NStmtList TOK_EOF) {| p_t := pinit src; p_g := g; p_depth := 0 |} ;;
  s <- e_byte s OP_EXIT ;;
  let c := g_code (p_g s) in
  let map_offset := zlen c - 1 in
  let m := g_map (p_g s) in
  let all := c ++ varint (zlen m) ++ m in
  let total := zlen all - 1 in
  OK (blit all 1 (le32 total ++ le32 bcode_offset ++ le32 map_offset), e).

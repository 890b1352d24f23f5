(** Model of src/mjs_tok.c. A position in the source is the list of bytes that remain before
    the terminating NUL; reading beyond that NUL is undefined. *)
From Verif Require Import Base Str_Model TokNum_Model Num_Model Txt_Model.

(** p->pos[i] *)
Definition pk (p : list Z) (i : nat) : R Z :=
  match nth_error p i with
  | Some b => OK b
  | None => if (i =? length p)%nat then OK 0 else UB
  end.

(** mjs_tok.c:25-40 character classes *)
Definition t_space (c : Z) : bool :=
  (c =? 32) || (c =? 13) || (c =? 10) || (c =? 9) || (c =? 12) || (c =? 11).
Definition is_alpha (c : Z) : bool := ((97 <=? c) && (c <=? 122)) || ((65 <=? c) && (c <=? 90)).
Definition is_ident (c : Z) : bool := (c =? 95) || (c =? 36) || is_alpha c.
(** strchr(set, c) != NULL for a c that is not NUL *)
Definition in_set (set : string) (c : Z) : bool := existsb (Z.eqb c) (bs set).

(** mjs_tok.h:18-34 struct pstate, the part the tokenizer uses *)
Record tstate := { t_pos : list Z; t_line : Z; t_tok : Z; t_len : Z; t_ptr : list Z; t_prev : Z }.

(** mjs_tok.c:42-51 longtok: the token (TOK_EOF if the first character does not match) and
    how far p->pos and p->tok.len advance *)
Definition longtok (p : list Z) (first second : string) : R (Z * nat) :=
  c0 <- pk p 0 ;;
  (* strchr also finds the terminating NUL of the set *)
  if negb (in_set first c0 || (c0 =? 0)) then OK (TOK_EOF, 0%nat)
  else c1 <- pk p 1 ;;
       if negb (c1 =? 0) && in_set second c1 then OK (c0 * 256 + c1, 1%nat) else OK (c0, 0%nat).
(** mjs_tok.c:54-61 longtok3; mjs_tok.c:64-71 longtok4: comparisons stop at a mismatch *)
Definition longtok3 (p : list Z) (a b c : Z) : R (Z * nat) :=
  c0 <- pk p 0 ;;
  if negb (c0 =? a) then OK (TOK_EOF, 0%nat)
  else c1 <- pk p 1 ;;
  if negb (c1 =? b) then OK (TOK_EOF, 0%nat)
  else c2 <- pk p 2 ;;
  if negb (c2 =? c) then OK (TOK_EOF, 0%nat)
  else OK (a * 65536 + b * 256 + c, 2%nat).
Definition longtok4 (p : list Z) (a b c d : Z) : R (Z * nat) :=
  c0 <- pk p 0 ;;
  if negb (c0 =? a) then OK (TOK_EOF, 0%nat)
  else c1 <- pk p 1 ;;
  if negb (c1 =? b) then OK (TOK_EOF, 0%nat)
  else c2 <- pk p 2 ;;
  if negb (c2 =? c) then OK (TOK_EOF, 0%nat)
  else c3 <- pk p 3 ;;
  if negb (c3 =? d) then OK (TOK_EOF, 0%nat)
  else OK (a * 16777216 + b * 65536 + c * 256 + d, 3%nat).

(** mjs_tok.c:73-83 getnum: how many bytes the number takes. strtoul that finds no digit
    leaves the end at its argument. *)
Definition getnum (p : list Z) : R nat :=
  c0 <- pk p 0 ;;
  x <- (if c0 =? 48 then c1 <- pk p 1 ;; OK (c1 =? 120) else OK false) ;;
  if x then OK (2 + snd (strtoul16 (skipn 2 p)))%nat else OK (snd (strtod p)).

(** mjs_tok.c:85-100 is_reserved_word_token on the identifier's bytes *)
Definition reserved : list (list Z) :=
  map bs ["break"; "case"; "catch"; "continue"; "debugger"; "default"; "delete"; "do"; "else";
          "false"; "finally"; "for"; "function"; "if"; "in"; "instanceof"; "new"; "null";
          "return"; "switch"; "this"; "throw"; "true"; "try"; "typeof"; "var"; "void";
          "while"; "with"; "let"; "undefined"]%string.
Fixpoint word_index (ws : list (list Z)) (s : list Z) (i : Z) : Z :=
  match ws with
  | [] => 0
  | w :: ws => if bytes_eqb w s then i + 1 else word_index ws s (i + 1)
  end.
Definition is_reserved_word_token (s : list Z) : Z :=
  match s with
  | c :: _ => if is_alpha c then word_index reserved s 0 else 0
  | [] => 0
  end.

(** mjs_tok.c:102-107 getident: number of identifier characters *)
Fixpoint ident_len (p : list Z) : nat :=
  match p with
  | c :: p' => if is_ident c || is_digit c then S (ident_len p') else 0
  | [] => 0
  end.
(** mjs_tok.c:109-122 getstr: bytes before the closing quote (or the end of the source).
    Of an escape only the two-byte forms are recognised here. *)
Fixpoint str_len (quote : Z) (p : list Z) : nat :=
  match p with
  | [] => 0
  | c :: p' =>
    if c =? quote then 0
    else match p' with
         | e :: p'' => if (c =? 92) && ((e =? quote) || in_set "bfnrtv\" e)
                       then S (S (str_len quote p'')) else S (str_len quote p')
         | [] => 1
         end
  end.

(** mjs_tok.c:124-147 skip_spaces_and_comments *)
Fixpoint skip_space (line : Z) (p : list Z) : Z * list Z :=
  match p with
  | c :: p' => if t_space c then skip_space (if c =? 10 then line + 1 else line) p' else (line, p)
  | [] => (line, p)
  end.
Fixpoint skip_line (p : list Z) : list Z :=
  match p with
  | c :: p' => if c =? 10 then p else skip_line p'
  | [] => p
  end.
Fixpoint skip_block (line : Z) (p : list Z) : Z * list Z :=
  match p with
  | [] => (line, p)
  | c :: p' =>
    let line' := if c =? 10 then line + 1 else line in
    match p' with
    | d :: p'' => if (c =? 42) && (d =? 47) then (line', p'') else skip_block line' p'
    | [] => skip_block line' p'
    end
  end.
Definition skip_round (line : Z) (p : list Z) : R (Z * list Z) :=
  let '(l1, p1) := skip_space line p in
  c0 <- pk p1 0 ;;
  c1 <- (if c0 =? 47 then pk p1 1 else OK 0) ;;
  let p2 := if (c0 =? 47) && (c1 =? 47) then skip_line p1 else p1 in
  c0 <- pk p2 0 ;;
  c1 <- (if c0 =? 47 then pk p2 1 else OK 0) ;;
  OK (if (c0 =? 47) && (c1 =? 42) then skip_block l1 (skipn 2 p2) else (l1, p2)).
Fixpoint skip_loop (fuel : nat) (line : Z) (p : list Z) : R (Z * list Z) :=
  match fuel with
  | O => NoFuel
  | S fuel =>
    '(l1, p1) <- skip_round line p ;;
    if (length p1 <? length p)%nat then skip_loop fuel l1 p1 else OK (l1, p1)
  end.

(** mjs_tok.c:149-207 ptranslate *)
Definition DT (a b : Z) : Z := a * 256 + b.
Definition TT (a b c : Z) : Z := a * 65536 + b * 256 + c.
Definition QT (a b c d : Z) : Z := a * 16777216 + b * 65536 + c * 256 + d.
(** the bytes of an operator as the number longtok makes of them *)
Definition opnum (s : string) : Z :=
  match bs s with
  | [a] => a
  | [a; b] => DT a b
  | [a; b; c] => TT a b c
  | [a; b; c; d] => QT a b c d
  | _ => 0
  end.
Definition op_table : list (string * Z) :=
  [(":", TOK_COLON); (";", TOK_SEMICOLON); (",", TOK_COMMA); ("=", TOK_ASSIGN);
   ("{", TOK_OPEN_CURLY); ("}", TOK_CLOSE_CURLY); ("(", TOK_OPEN_PAREN);
   (")", TOK_CLOSE_PAREN); ("[", TOK_OPEN_BRACKET); ("]", TOK_CLOSE_BRACKET);
   ("*", TOK_MUL); ("+", TOK_PLUS); ("-", TOK_MINUS); ("/", TOK_DIV); ("%", TOK_REM);
   ("&", TOK_AND); ("|", TOK_OR); ("^", TOK_XOR); (".", TOK_DOT); ("?", TOK_QUESTION);
   ("!", TOK_NOT); ("~", TOK_TILDA); ("<", TOK_LT); (">", TOK_GT);
   ("<<", TOK_LSHIFT); (">>", TOK_RSHIFT); ("--", TOK_MINUS_MINUS); ("++", TOK_PLUS_PLUS);
   ("+=", TOK_PLUS_ASSIGN); ("-=", TOK_MINUS_ASSIGN); ("*=", TOK_MUL_ASSIGN);
   ("/=", TOK_DIV_ASSIGN); ("&=", TOK_AND_ASSIGN); ("|=", TOK_OR_ASSIGN);
   ("%=", TOK_REM_ASSIGN); ("^=", TOK_XOR_ASSIGN); ("==", TOK_EQ); ("!=", TOK_NE);
   ("<=", TOK_LE); (">=", TOK_GE); ("&&", TOK_LOGICAL_AND); ("||", TOK_LOGICAL_OR);
   ("===", TOK_EQ_EQ); ("!==", TOK_NE_NE); ("<<=", TOK_LSHIFT_ASSIGN);
   (">>=", TOK_RSHIFT_ASSIGN); (">>>", TOK_URSHIFT); (">>>=", TOK_URSHIFT_ASSIGN)]%string.
Fixpoint translate (t : list (string * Z)) (tok : Z) : Z :=
  match t with
  | [] => tok
  | (s, n) :: t => if tok =? opnum s then n else translate t tok
  end.
Definition ptranslate (tok : Z) : Z := translate op_table tok.

(** The chain of alternatives in mjs_tok.c:232-249: the first that is not TOK_EOF. *)
Fixpoint first_tok (l : list (R (Z * nat))) : R (Z * nat) :=
  match l with
  | [] => OK (TOK_EOF, 0%nat)
  | m :: l => '(t, k) <- m ;; if t =? TOK_EOF then first_tok l else OK (t, k)
  end.
Definition operator (p : list Z) : R (Z * nat) :=
  '(t, k) <- first_tok
    [longtok3 p 60 60 61; longtok3 p 62 62 61; longtok4 p 62 62 62 61; longtok3 p 62 62 62;
     longtok3 p 61 61 61; longtok3 p 33 61 61; longtok p "&" "&="; longtok p "|" "|=";
     longtok p "<" "<="; longtok p ">" ">="; longtok p "-" "-="; longtok p "+" "+=";
     longtok p "^~+-%/*<>=!|&" "="] ;;
  OK (if t =? TOK_EOF then (TOK_INVALID, k) else (t, k)).

(** mjs_tok.c:209-254 pnext. [adv] is the distance from the start of the token to p->pos
    before the final increment. *)
Definition pnext (s : tstate) : R tstate :=
  '(line, p) <- skip_loop (S (length (t_pos s))) (t_line s) (t_pos s) ;;
  c0 <- pk p 0 ;;
  '(tok, len, ptr, adv) <-
    (if c0 =? 0 then OK (TOK_EOF, 1, p, 0%nat)
     else if is_digit c0 then
       n <- getnum p ;;
       (* p->pos-- after strtod; strtod consumes at least the digit *)
       match n with O => UB | S n' => OK (TOK_NUM, Z.of_nat n, p, n') end
     else if (c0 =? 39) || (c0 =? 34) then
       let k := str_len c0 (skipn 1 p) in
       OK (TOK_STR, Z.of_nat k, skipn 1 p, S k)
     else if is_ident c0 then
       let k := ident_len p in
       match k with
       | O => UB
       | S k' => OK (TOK_IDENT + is_reserved_word_token (firstn k p), Z.of_nat k, p, k')
       end
     else if in_set ",.:;{}[]()?" c0 then OK (c0, 1, p, 0%nat)
     else '(t, k) <- operator p ;; OK (t, 1 + Z.of_nat k, p, k)) ;;
  let p1 := skipn adv p in
  c <- pk p1 0 ;;
  OK {| t_pos := if negb (c =? 0) then skipn 1 p1 else p1; t_line := line;
        t_tok := ptranslate tok; t_len := len; t_ptr := ptr; t_prev := t_tok s |}.

(** mjs_tok.c:12-20 pinit *)
Definition pinit (src : list Z) : tstate :=
  {| t_pos := src; t_line := 1; t_tok := 0; t_len := 0; t_ptr := []; t_prev := 0 |}.

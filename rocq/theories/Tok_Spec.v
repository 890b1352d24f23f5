(** Specification of tokenizing: a grammar of blank text, the table of operators with the
    rule of the longest match, and reserved words as whole identifiers. *)
From Verif Require Import Base TokNum_Model Txt_Model.

Definition blank_char (c : Z) : Prop := In c [32; 9; 10; 11; 12; 13].
Definition starts (pre p : list Z) : Prop := exists r, p = pre ++ r.
Definition no_newline (l : list Z) : Prop := ~ In 10 l.
Definition no_close (l : list Z) : Prop := forall a b, l <> a ++ [42; 47] ++ b.

(** [gap g rest]: of the text [g ++ rest] exactly [g] is blank space and comments. *)
Inductive gap : list Z -> list Z -> Prop :=
| gap_end rest : (forall c r, rest = c :: r -> ~ blank_char c) ->
    ~ starts [47; 47] rest -> ~ starts [47; 42] rest -> gap [] rest
| gap_space c g rest : blank_char c -> gap g rest -> gap (c :: g) rest
| gap_line body g rest : no_newline body -> (g ++ rest = [] \/ starts [10] (g ++ rest)) ->
    gap g rest -> gap ([47; 47] ++ body ++ g) rest
| gap_block body g rest : no_close (body ++ [42]) -> gap g rest ->
    gap ([47; 42] ++ body ++ [42; 47] ++ g) rest
| gap_open body : no_close body -> gap ([47; 42] ++ body) [].

Definition newlines (l : list Z) : Z := zlen (filter (Z.eqb 10) l).

(** The operators and punctuators of the language. *)
Definition operators : list (list Z * Z) :=
  map (fun '(s, n) => (bs s, n))
  [(":", TOK_COLON); (";", TOK_SEMICOLON); (",", TOK_COMMA); ("=", TOK_ASSIGN);
   ("{", TOK_OPEN_CURLY); ("}", TOK_CLOSE_CURLY); ("(", TOK_OPEN_PAREN);
   (")", TOK_CLOSE_PAREN); ("[", TOK_OPEN_BRACKET); ("]", TOK_CLOSE_BRACKET);
   ("*", TOK_MUL); ("+", TOK_PLUS); ("-", TOK_MINUS); ("/", TOK_DIV); ("%", TOK_REM);
   ("&", TOK_AND); ("|", TOK_OR); ("^", TOK_XOR); (".", TOK_DOT); ("?", TOK_QUESTION);
   ("!", TOK_NOT); ("~", TOK_TILDA); ("<", TOK_LT); (">", TOK_GT);
   ("<<", TOK_LSHIFT); (">>", TOK_RSHIFT); ("--", TOK_MINUS_MINUS); ("++", TOK_PLUS_PLUS);
   ("+=", TOK_PLUS_ASSIGN); ("-=", TOK_MINUS_ASSIGN); ("*=", TOK_MUL_ASSIGN);
   ("/=", TOK_DIV_ASSIGN); ("&=", TOK_AND_ASSIGN); ("|=", TOK_OR_ASSIGN);
   ("%=", TOK_REM_ASSIGN); ("^=", TOK_XOR_ASSIGN); ("==", TOK_EQ); ("!=", TOK_NE);
   ("<=", TOK_LE); (">=", TOK_GE); ("&&", TOK_LOGICAL_AND); ("||", TOK_LOGICAL_OR);
   ("===", TOK_EQ_EQ); ("!==", TOK_NE_NE); ("<<=", TOK_LSHIFT_ASSIGN);
   (">>=", TOK_RSHIFT_ASSIGN); (">>>", TOK_URSHIFT); (">>>=", TOK_URSHIFT_ASSIGN)]%string.
Definition longest_operator (p o : list Z) (n : Z) : Prop :=
  In (o, n) operators /\ starts o p /\
  forall o' n', In (o', n') operators -> starts o' p -> (length o' <= length o)%nat.

Definition keywords : list (list Z * Z) :=
  map (fun '(s, n) => (bs s, n))
  [("break", TOK_KEYWORD_BREAK); ("case", TOK_KEYWORD_CASE); ("catch", TOK_KEYWORD_CATCH);
   ("continue", TOK_KEYWORD_CONTINUE); ("debugger", TOK_KEYWORD_DEBUGGER);
   ("default", TOK_KEYWORD_DEFAULT); ("delete", TOK_KEYWORD_DELETE); ("do", TOK_KEYWORD_DO);
   ("else", TOK_KEYWORD_ELSE); ("false", TOK_KEYWORD_FALSE); ("finally", TOK_KEYWORD_FINALLY);
   ("for", TOK_KEYWORD_FOR); ("function", TOK_KEYWORD_FUNCTION); ("if", TOK_KEYWORD_IF);
   ("in", TOK_KEYWORD_IN); ("instanceof", TOK_KEYWORD_INSTANCEOF); ("new", TOK_KEYWORD_NEW);
   ("null", TOK_KEYWORD_NULL); ("return", TOK_KEYWORD_RETURN); ("switch", TOK_KEYWORD_SWITCH);
   ("this", TOK_KEYWORD_THIS); ("throw", TOK_KEYWORD_THROW); ("true", TOK_KEYWORD_TRUE);
   ("try", TOK_KEYWORD_TRY); ("typeof", TOK_KEYWORD_TYPEOF); ("var", TOK_KEYWORD_VAR);
   ("void", TOK_KEYWORD_VOID); ("while", TOK_KEYWORD_WHILE); ("with", TOK_KEYWORD_WITH);
   ("let", TOK_KEYWORD_LET); ("undefined", TOK_KEYWORD_UNDEFINED)]%string.

(** Identifier characters: letters, digits, _ and $; an identifier does not start with a
    digit. *)
Definition letter (c : Z) : Prop := 97 <= c <= 122 \/ 65 <= c <= 90 \/ c = 95 \/ c = 36.
Definition ident_char (c : Z) : Prop := letter c \/ 48 <= c <= 57.
(** [w] is the longest run of identifier characters at the start of [p]. *)
Definition whole_ident (p w : list Z) : Prop :=
  exists r, p = w ++ r /\ Forall ident_char w /\ (forall c r', r = c :: r' -> ~ ident_char c).

(** Bytes of a C string. *)
Definition c_text (l : list Z) : Prop := Forall (fun b => 0 < b < 256) l.

(** The inside of a string literal in quotes [q], with what follows it: escape pairs and
    characters other than the quote. *)
Definition escapable (q e : Z) : Prop := e = q \/ In e (bs "bfnrtv\").
Inductive str_body (q : Z) : list Z -> list Z -> Prop :=
| sb_nil rest : (forall c r, rest = c :: r -> c = q) -> str_body q [] rest
| sb_esc e l rest : q <> 92 -> escapable q e -> str_body q l rest -> str_body q (92 :: e :: l) rest
| sb_char c l rest : c <> q -> (c = 92 -> forall e r, l ++ rest = e :: r -> ~ escapable q e) ->
    str_body q l rest -> str_body q (c :: l) rest.

(** [token lex rest tok body]: in front of the text [rest], the text [lex] is one token with
    number [tok]; [body] is the part handed to the parser. *)
Inductive token (lex rest : list Z) : Z -> list Z -> Prop :=
| tk_word c w n : lex = c :: w -> letter c -> whole_ident (lex ++ rest) lex ->
    (In (lex, n) keywords \/ (forall m, ~ In (lex, m) keywords) /\ n = TOK_IDENT) -> token lex rest n lex
| tk_num c w : lex = c :: w -> 48 <= c <= 57 -> token lex rest TOK_NUM lex
| tk_str q body : q = 34 \/ q = 39 -> lex = q :: body ++ [q] -> str_body q body (q :: rest) ->
    token lex rest TOK_STR body
| tk_str_open q body : q = 34 \/ q = 39 -> lex = q :: body -> rest = [] -> str_body q body [] ->
    token lex rest TOK_STR body
| tk_op n : longest_operator (lex ++ rest) lex n -> token lex rest n lex
| tk_tilda : lex = bs "~=" -> token lex rest 32317 lex
| tk_bad c : lex = [c] -> ~ letter c -> ~ 48 <= c <= 57 -> c <> 34 -> c <> 39 ->
    (forall o n, In (o, n) operators -> ~ starts o (lex ++ rest)) -> token lex rest TOK_INVALID lex.

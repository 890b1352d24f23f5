(** Token numbers: the anonymous enum of src/mjs_tok.h:37-130, in order. *)
From Verif Require Import Base.

Definition TOK_EOF := 0.
Definition TOK_INVALID := 1.
Definition TOK_COLON := 2.
Definition TOK_SEMICOLON := 3.
Definition TOK_COMMA := 4.
Definition TOK_ASSIGN := 5.
Definition TOK_OPEN_CURLY := 6.
Definition TOK_CLOSE_CURLY := 7.
Definition TOK_OPEN_PAREN := 8.
Definition TOK_CLOSE_PAREN := 9.
Definition TOK_OPEN_BRACKET := 10.
Definition TOK_CLOSE_BRACKET := 11.
Definition TOK_MUL := 12.
Definition TOK_PLUS := 13.
Definition TOK_MINUS := 14.
Definition TOK_DIV := 15.
Definition TOK_REM := 16.
Definition TOK_AND := 17.
Definition TOK_OR := 18.
Definition TOK_XOR := 19.
Definition TOK_DOT := 20.
Definition TOK_QUESTION := 21.
Definition TOK_NOT := 22.
Definition TOK_TILDA := 23.
Definition TOK_LT := 24.
Definition TOK_GT := 25.
Definition TOK_LSHIFT := 26.
Definition TOK_RSHIFT := 27.
Definition TOK_MINUS_MINUS := 28.
Definition TOK_PLUS_PLUS := 29.
Definition TOK_PLUS_ASSIGN := 30.
Definition TOK_MINUS_ASSIGN := 31.
Definition TOK_MUL_ASSIGN := 32.
Definition TOK_DIV_ASSIGN := 33.
Definition TOK_AND_ASSIGN := 34.
Definition TOK_OR_ASSIGN := 35.
Definition TOK_REM_ASSIGN := 36.
Definition TOK_XOR_ASSIGN := 37.
Definition TOK_EQ := 38.
Definition TOK_NE := 39.
Definition TOK_LE := 40.
Definition TOK_GE := 41.
Definition TOK_LOGICAL_AND := 42.
Definition TOK_LOGICAL_OR := 43.
Definition TOK_EQ_EQ := 44.
Definition TOK_NE_NE := 45.
Definition TOK_LSHIFT_ASSIGN := 46.
Definition TOK_RSHIFT_ASSIGN := 47.
Definition TOK_URSHIFT := 48.
Definition TOK_URSHIFT_ASSIGN := 49.
Definition TOK_UNARY_PLUS := 50.
Definition TOK_UNARY_MINUS := 51.
Definition TOK_POSTFIX_PLUS := 52.
Definition TOK_POSTFIX_MINUS := 53.
Definition TOK_NUM := 200.
Definition TOK_STR := 201.
Definition TOK_IDENT := 202.
Definition TOK_KEYWORD_BREAK := 203.
Definition TOK_KEYWORD_CASE := 204.
Definition TOK_KEYWORD_CATCH := 205.
Definition TOK_KEYWORD_CONTINUE := 206.
Definition TOK_KEYWORD_DEBUGGER := 207.
Definition TOK_KEYWORD_DEFAULT := 208.
Definition TOK_KEYWORD_DELETE := 209.
Definition TOK_KEYWORD_DO := 210.
Definition TOK_KEYWORD_ELSE := 211.
Definition TOK_KEYWORD_FALSE := 212.
Definition TOK_KEYWORD_FINALLY := 213.
Definition TOK_KEYWORD_FOR := 214.
Definition TOK_KEYWORD_FUNCTION := 215.
Definition TOK_KEYWORD_IF := 216.
Definition TOK_KEYWORD_IN := 217.
Definition TOK_KEYWORD_INSTANCEOF := 218.
Definition TOK_KEYWORD_NEW := 219.
Definition TOK_KEYWORD_NULL := 220.
Definition TOK_KEYWORD_RETURN := 221.
Definition TOK_KEYWORD_SWITCH := 222.
Definition TOK_KEYWORD_THIS := 223.
Definition TOK_KEYWORD_THROW := 224.
Definition TOK_KEYWORD_TRUE := 225.
Definition TOK_KEYWORD_TRY := 226.
Definition TOK_KEYWORD_TYPEOF := 227.
Definition TOK_KEYWORD_VAR := 228.
Definition TOK_KEYWORD_VOID := 229.
Definition TOK_KEYWORD_WHILE := 230.
Definition TOK_KEYWORD_WITH := 231.
Definition TOK_KEYWORD_LET := 232.
Definition TOK_KEYWORD_UNDEFINED := 233.
Definition TOK_MAX := 234.

(** Specification of the language: trees, the grammar over token sequences, and a
    definitional interpreter. Independent of the byte code: states are maps from names to
    values, control flow is structural. *)
From Verif Require Import Base Value_Model Str_Spec TokNum_Model Num_Model Txt_Model Tok_Spec NumText_Spec Expr_Spec.

(** * Trees *)
Inductive lx :=
| XConst (e : expr)                       (* number, string, boolean, null, undefined *)
| XThis | XVar (x : list Z)
| XUn (op : Z) (a : lx) | XBin (op : Z) (a b : lx)
| XAnd (a b : lx) | XOr (a b : lx) | XCond (c a b : lx)
| XAsg (op : Z) (r e : lx)                (* r = e, r += e, ... *)
| XInc (op : Z) (r : lx)                  (* ++r, --r, r++, r-- *)
| XDot (o : lx) (x : list Z) | XIdx (o k : lx)
| XCall (f : lx) (l : list lx)
| XObj (l : list (list Z * lx)) | XArr (l : list lx)
| XFun (name : option (list Z)) (ps : list (list Z)) (b : list stmt)
with stmt :=
| SEmpty | SExprs (l : list lx)           (* e1, e2, ... *)
| SLet (l : list (list Z * option lx))
| SBlock (l : list stmt)
| SIf (c : lx) (a : stmt) (b : option stmt)
| SWhile (c : lx) (b : list stmt)
| SFor (i : stmt) (c u : lx) (b : list stmt)
| SForIn (d : bool) (x : list Z) (e : lx) (b : list stmt)   (* for (let x in e) b, for (x in e) b *)
| SBreak | SContinue
| SReturn (e : option lx).

(** * Grammar *)
Definition assign_toks : list Z :=
  [TOK_ASSIGN; TOK_PLUS_ASSIGN; TOK_MINUS_ASSIGN; TOK_MUL_ASSIGN; TOK_DIV_ASSIGN; TOK_REM_ASSIGN;
   TOK_LSHIFT_ASSIGN; TOK_RSHIFT_ASSIGN; TOK_URSHIFT_ASSIGN; TOK_AND_ASSIGN; TOK_XOR_ASSIGN; TOK_OR_ASSIGN].
Definition inc_toks : list Z := [TOK_PLUS_PLUS; TOK_MINUS_MINUS].
(** The tokens that continue an expression. *)
Definition joins : list Z :=
  [TOK_MUL; TOK_DIV; TOK_REM; TOK_PLUS; TOK_MINUS; TOK_LSHIFT; TOK_RSHIFT; TOK_URSHIFT; TOK_LT; TOK_LE; TOK_GT; TOK_GE;
   TOK_EQ; TOK_NE; TOK_EQ_EQ; TOK_NE_NE; TOK_AND; TOK_XOR; TOK_OR; TOK_LOGICAL_AND; TOK_LOGICAL_OR; TOK_QUESTION;
   TOK_OPEN_BRACKET; TOK_OPEN_PAREN; TOK_DOT] ++ inc_toks ++ assign_toks.
(** The tokens that make a statement something other than an expression. *)
Definition stmt_words : list Z :=
  [TOK_SEMICOLON; TOK_KEYWORD_LET; TOK_OPEN_CURLY; TOK_KEYWORD_RETURN; TOK_KEYWORD_FOR; TOK_KEYWORD_WHILE; TOK_KEYWORD_BREAK;
   TOK_KEYWORD_CONTINUE; TOK_KEYWORD_IF; TOK_KEYWORD_CASE; TOK_KEYWORD_CATCH; TOK_KEYWORD_DELETE; TOK_KEYWORD_DO;
   TOK_KEYWORD_INSTANCEOF; TOK_KEYWORD_NEW; TOK_KEYWORD_SWITCH; TOK_KEYWORD_THROW; TOK_KEYWORD_TRY; TOK_KEYWORD_VAR;
   TOK_KEYWORD_VOID; TOK_KEYWORD_WITH].
(** The token number at the front of [ts] followed by token [k]; the number of the last token. *)
Definition hd_tok (ts : list tokn) (k : Z) : Z := match ts with [] => k | t :: _ => lx_tok t end.
Definition last_tok (ts : list tokn) : Z := match rev ts with [] => TOK_EOF | t :: _ => lx_tok t end.
(** A branch of an if statement: the parser looks one token too far for the brace. *)
Definition branch_ok (ts : list tokn) (k : Z) : Prop :=
  hd_tok ts k = TOK_OPEN_CURLY \/ hd_tok (tl ts) k <> TOK_OPEN_CURLY.
(** A for statement is not the beginning of a for-in statement. *)
Definition not_in (ts : list tokn) (k : Z) : Prop :=
  hd_tok ts k = TOK_IDENT -> hd_tok (tl ts) k <> TOK_KEYWORD_IN.

(** Comma-separated names. *)
Inductive pars : list tokn -> list (list Z) -> Prop :=
| pa_nil : pars [] []
| pa_one t : lx_tok t = TOK_IDENT -> pars [t] [lx_text t]
| pa_more t c ts l : lx_tok t = TOK_IDENT -> lx_tok c = TOK_COMMA -> pars ts l -> pars (t :: c :: ts) (lx_text t :: l).
(** The name of a function. *)
Inductive fun_name : list tokn -> option (list Z) -> Prop :=
| fn_none : fun_name [] None
| fn_some t : lx_tok t = TOK_IDENT -> fun_name [t] (Some (lx_text t)).

(** In all these, [p] and [q] are the parser's nesting counter before and after the tokens; it
    must not pass 512. Every level of operators counts one while it is parsed, as does every
    further operand of a level; every block and function body counts one from then on.
    [xp c]: categories 0 (unary), 1 to 8 (left-associative operators), 9 (&&), 10 (||), 11
    (conditional), 12 (assignment). *)
Inductive xp : nat -> Z -> Z -> list tokn -> lx -> Prop :=
| x_mem r p q ts e : mem r p q ts e -> xp 0 p q ts e
| x_post p q ts t e : mem true p q ts e -> In (lx_tok t) inc_toks ->
    xp 0 p q (ts ++ [t]) (XInc (if lx_tok t =? TOK_PLUS_PLUS then TOK_POSTFIX_PLUS else TOK_POSTFIX_MINUS) e)
| x_pre p t u : In (lx_tok t) inc_toks -> lx_tok u = TOK_IDENT -> xp 0 p p [t; u] (XInc (lx_tok t) (XVar (lx_text u)))
| x_prefix p q t ts e : In (lx_tok t) prefix_ops -> xp 0 p q ts e -> xp 0 p q (t :: ts) (XUn (lx_tok t) e)
| x_level l p q q1 ts0 ts e0 e : (1 <= l <= 8)%nat -> p + 1 <= 512 -> xp (l - 1) (p + 1) q1 ts0 e0 -> more l q1 (q + 1) e0 ts e ->
    xp l p q (ts0 ++ ts) e
| x_and1 p q ts e : p + 1 <= 512 -> xp 8 (p + 1) (q + 1) ts e -> xp 9 p q ts e
| x_and p q q1 ts1 t ts2 a b : lx_tok t = TOK_LOGICAL_AND -> p + 1 <= 512 -> xp 8 (p + 1) q1 ts1 a -> xp 9 q1 (q + 1) ts2 b ->
    xp 9 p q (ts1 ++ t :: ts2) (XAnd a b)
| x_or1 p q ts e : p + 1 <= 512 -> xp 9 (p + 1) (q + 1) ts e -> xp 10 p q ts e
| x_or p q q1 ts1 t ts2 a b : lx_tok t = TOK_LOGICAL_OR -> p + 1 <= 512 -> xp 9 (p + 1) q1 ts1 a -> xp 10 q1 (q + 1) ts2 b ->
    xp 10 p q (ts1 ++ t :: ts2) (XOr a b)
| x_cond1 p q ts e : xp 10 p q ts e -> xp 11 p q ts e
| x_cond p q q1 q2 ts1 t ts2 u ts3 c a b : lx_tok t = TOK_QUESTION -> lx_tok u = TOK_COLON ->
    xp 10 p q1 ts1 c -> xp 11 q1 q2 ts2 a -> xp 11 q2 q ts3 b ->
    xp 11 p q (ts1 ++ t :: ts2 ++ u :: ts3) (XCond c a b)
| x_assign1 p q ts e : xp 11 p q ts e -> xp 12 p q ts e
| x_assign p q q1 ts1 t ts2 r e : In (lx_tok t) assign_toks -> p + 10 <= 512 ->
    mem true (p + 10) (q1 + 10) ts1 r -> xp 12 q1 q ts2 e ->
    xp 12 p q (ts1 ++ t :: ts2) (XAsg (lx_tok t) r e)
(** further operands of level [l] after the tree [acc] *)
with more : nat -> Z -> Z -> lx -> list tokn -> lx -> Prop :=
| o_none l p acc : more l p p acc [] acc
| o_one l p q q1 acc t ts ts' b e : prec (lx_tok t) = l -> p + 1 <= 512 -> xp (l - 1) (p + 1) q1 ts b ->
    more l q1 (q + 1) (XBin (lx_tok t) acc b) ts' e -> more l p q acc (t :: ts ++ ts') e
(** operand, member access, calls; [r]: the result is a variable or a member *)
with mem : bool -> Z -> Z -> list tokn -> lx -> Prop :=
| m_intro r0 r p q q1 ts1 ts2 e0 e : prim r0 p q1 ts1 e0 -> tail r0 r q1 q e0 ts2 e -> mem r p q (ts1 ++ ts2) e
with prim : bool -> Z -> Z -> list tokn -> lx -> Prop :=
| p_const p t e : leaf t e -> lx_tok t <> TOK_IDENT -> prim false p p [t] (XConst e)
| p_var p t : lx_tok t = TOK_IDENT -> prim true p p [t] (XVar (lx_text t))
| p_this p t : lx_tok t = TOK_KEYWORD_THIS -> prim false p p [t] XThis
| p_paren p q lp ts rp e : lx_tok lp = TOK_OPEN_PAREN -> lx_tok rp = TOK_CLOSE_PAREN -> xp 12 p q ts e ->
    prim false p q (lp :: ts ++ [rp]) e
| p_obj p q lc ts rc l : lx_tok lc = TOK_OPEN_CURLY -> lx_tok rc = TOK_CLOSE_CURLY -> props p q ts l ->
    prim false p q (lc :: ts ++ [rc]) (XObj l)
| p_arr p q lb ts rb l : lx_tok lb = TOK_OPEN_BRACKET -> lx_tok rb = TOK_CLOSE_BRACKET -> args p q ts l ->
    prim false p q (lb :: ts ++ [rb]) (XArr l)
| p_fun p q f fn name lp ps l rp lc ts b rc : lx_tok f = TOK_KEYWORD_FUNCTION -> fun_name fn name ->
    lx_tok lp = TOK_OPEN_PAREN -> pars ps l -> lx_tok rp = TOK_CLOSE_PAREN ->
    lx_tok lc = TOK_OPEN_CURLY -> lx_tok rc = TOK_CLOSE_CURLY -> p + 1 <= 512 -> stmts TOK_CLOSE_CURLY (p + 1) q ts b ->
    prim false p q (f :: fn ++ lp :: ps ++ rp :: lc :: ts ++ [rc]) (XFun name l b)
(** member accesses and calls that follow the tree [acc] *)
with tail : bool -> bool -> Z -> Z -> lx -> list tokn -> lx -> Prop :=
| t_none r p acc : tail r r p p acc [] acc
| t_dot r0 r p q acc t u ts e : lx_tok t = TOK_DOT -> lx_tok u = TOK_IDENT ->
    tail true r p q (XDot acc (lx_text u)) ts e -> tail r0 r p q acc (t :: u :: ts) e
| t_idx r0 r p q q1 acc lb ts rb ts' k e : lx_tok lb = TOK_OPEN_BRACKET -> lx_tok rb = TOK_CLOSE_BRACKET ->
    xp 12 p q1 ts k -> tail true r q1 q (XIdx acc k) ts' e -> tail r0 r p q acc (lb :: ts ++ rb :: ts') e
| t_call r0 r p q q1 acc lp ts rp ts' l e : lx_tok lp = TOK_OPEN_PAREN -> lx_tok rp = TOK_CLOSE_PAREN ->
    args p q1 ts l -> tail false r q1 q (XCall acc l) ts' e -> tail r0 r p q acc (lp :: ts ++ rp :: ts') e
(** comma-separated expressions; a comma may end the list *)
with args : Z -> Z -> list tokn -> list lx -> Prop :=
| a_nil p : args p p [] []
| a_one p q ts e : xp 12 p q ts e -> args p q ts [e]
| a_more p q q1 ts c ts' e l : xp 12 p q1 ts e -> lx_tok c = TOK_COMMA -> args q1 q ts' l -> args p q (ts ++ c :: ts') (e :: l)
with props : Z -> Z -> list tokn -> list (list Z * lx) -> Prop :=
| pr_nil p : props p p [] []
| pr_one p q n k ts e : lx_tok n = TOK_IDENT \/ lx_tok n = TOK_STR -> lx_tok k = TOK_COLON -> xp 12 p q ts e ->
    props p q (n :: k :: ts) [(lx_text n, e)]
| pr_more p q q1 n k ts c ts' e l : lx_tok n = TOK_IDENT \/ lx_tok n = TOK_STR -> lx_tok k = TOK_COLON -> xp 12 p q1 ts e ->
    lx_tok c = TOK_COMMA -> props q1 q ts' l -> props p q (n :: k :: ts ++ c :: ts') ((lx_text n, e) :: l)
(** one or more expressions between commas *)
with commas : Z -> Z -> list tokn -> list lx -> Prop :=
| c_one p q ts e : xp 12 p q ts e -> commas p q ts [e]
| c_more p q q1 ts c ts' e l : xp 12 p q1 ts e -> lx_tok c = TOK_COMMA -> commas q1 q ts' l -> commas p q (ts ++ c :: ts') (e :: l)
(** the names and initial values of a let *)
with lets : Z -> Z -> list tokn -> list (list Z * option lx) -> Prop :=
| l_one p q n ts e : lx_tok n = TOK_IDENT -> init p q ts e -> lets p q (n :: ts) [(lx_text n, e)]
| l_more p q q1 n ts c ts' e l : lx_tok n = TOK_IDENT -> init p q1 ts e -> lx_tok c = TOK_COMMA -> lets q1 q ts' l ->
    lets p q (n :: ts ++ c :: ts') ((lx_text n, e) :: l)
with init : Z -> Z -> list tokn -> option lx -> Prop :=
| i_none p : init p p [] None
| i_some p q t ts e : lx_tok t = TOK_ASSIGN -> xp 12 p q ts e -> init p q (t :: ts) (Some e)
(** [sp p q ts k s]: the tokens [ts], followed by a token [k], are the statement [s] *)
with sp : Z -> Z -> list tokn -> Z -> stmt -> Prop :=
| s_empty p t k : lx_tok t = TOK_SEMICOLON -> sp p p [t] k SEmpty
| s_exprs p q ts k l : commas p q ts l -> ~ In (hd_tok ts k) stmt_words -> ~ In k joins -> k <> TOK_COMMA -> sp p q ts k (SExprs l)
| s_let p q t ts k l : lx_tok t = TOK_KEYWORD_LET -> lets p q ts l -> k = TOK_SEMICOLON \/ k = TOK_EOF -> sp p q (t :: ts) k (SLet l)
| s_block p q lc ts rc k l : lx_tok lc = TOK_OPEN_CURLY -> lx_tok rc = TOK_CLOSE_CURLY -> p + 1 <= 512 ->
    stmts TOK_CLOSE_CURLY (p + 1) q ts l -> sp p q (lc :: ts ++ [rc]) k (SBlock l)
| s_if p q q1 t lp ts rp ts1 k c a : lx_tok t = TOK_KEYWORD_IF -> lx_tok lp = TOK_OPEN_PAREN -> lx_tok rp = TOK_CLOSE_PAREN ->
    xp 12 p q1 ts c -> sp q1 q ts1 k a -> branch_ok ts1 k -> k <> TOK_KEYWORD_ELSE ->
    sp p q (t :: lp :: ts ++ rp :: ts1) k (SIf c a None)
| s_ifelse p q q1 q2 t lp ts rp ts1 u ts2 k c a b : lx_tok t = TOK_KEYWORD_IF -> lx_tok lp = TOK_OPEN_PAREN -> lx_tok rp = TOK_CLOSE_PAREN ->
    lx_tok u = TOK_KEYWORD_ELSE -> xp 12 p q1 ts c -> sp q1 q2 ts1 TOK_KEYWORD_ELSE a -> branch_ok ts1 TOK_KEYWORD_ELSE ->
    sp q2 q ts2 k b -> branch_ok ts2 k ->
    sp p q (t :: lp :: ts ++ rp :: ts1 ++ u :: ts2) k (SIf c a (Some b))
| s_while p q q1 t lp ts rp ts1 k c b : lx_tok t = TOK_KEYWORD_WHILE -> lx_tok lp = TOK_OPEN_PAREN -> lx_tok rp = TOK_CLOSE_PAREN ->
    xp 12 p q1 ts c -> body q1 q ts1 k b -> sp p q (t :: lp :: ts ++ rp :: ts1) k (SWhile c b)
| s_for p q q1 q2 q3 t lp ts1 s1 ts2 s2 ts3 rp ts4 k i c u b : lx_tok t = TOK_KEYWORD_FOR -> lx_tok lp = TOK_OPEN_PAREN -> lx_tok rp = TOK_CLOSE_PAREN ->
    lx_tok s1 = TOK_SEMICOLON -> lx_tok s2 = TOK_SEMICOLON ->
    start p q1 ts1 i -> xp 12 q1 q2 ts2 c -> xp 12 q2 q3 ts3 u -> body q3 q ts4 k b ->
    sp p q (t :: lp :: ts1 ++ s1 :: ts2 ++ s2 :: ts3 ++ rp :: ts4) k (SFor i c u b)
| s_forin p q q1 t lp n u ts rp ts1 k e b : lx_tok t = TOK_KEYWORD_FOR -> lx_tok lp = TOK_OPEN_PAREN -> lx_tok rp = TOK_CLOSE_PAREN ->
    lx_tok n = TOK_IDENT -> lx_tok u = TOK_KEYWORD_IN -> xp 12 p q1 ts e -> body q1 q ts1 k b ->
    sp p q (t :: lp :: n :: u :: ts ++ rp :: ts1) k (SForIn false (lx_text n) e b)
| s_forlet p q q1 t lp lt n u ts rp ts1 k e b : lx_tok t = TOK_KEYWORD_FOR -> lx_tok lp = TOK_OPEN_PAREN -> lx_tok rp = TOK_CLOSE_PAREN ->
    lx_tok lt = TOK_KEYWORD_LET -> lx_tok n = TOK_IDENT -> lx_tok u = TOK_KEYWORD_IN -> xp 12 p q1 ts e -> body q1 q ts1 k b ->
    sp p q (t :: lp :: lt :: n :: u :: ts ++ rp :: ts1) k (SForIn true (lx_text n) e b)
| s_break p t k : lx_tok t = TOK_KEYWORD_BREAK -> sp p p [t] k SBreak
| s_continue p t k : lx_tok t = TOK_KEYWORD_CONTINUE -> sp p p [t] k SContinue
| s_return0 p t k : lx_tok t = TOK_KEYWORD_RETURN -> In k [TOK_SEMICOLON; TOK_CLOSE_CURLY; TOK_EOF] -> sp p p [t] k (SReturn None)
| s_return p q t ts k e : lx_tok t = TOK_KEYWORD_RETURN -> xp 12 p q ts e -> ~ In k joins -> sp p q (t :: ts) k (SReturn (Some e))
(** the first part of a for statement *)
with start : Z -> Z -> list tokn -> stmt -> Prop :=
| st_let p q t ts l : lx_tok t = TOK_KEYWORD_LET -> lets p q ts l -> not_in ts TOK_SEMICOLON -> start p q (t :: ts) (SLet l)
| st_expr p q ts e : xp 12 p q ts e -> hd_tok ts TOK_SEMICOLON <> TOK_KEYWORD_LET -> not_in ts TOK_SEMICOLON -> start p q ts (SExprs [e])
(** the body of a loop: no scope of its own *)
with body : Z -> Z -> list tokn -> Z -> list stmt -> Prop :=
| b_list p q lc ts rc k l : lx_tok lc = TOK_OPEN_CURLY -> lx_tok rc = TOK_CLOSE_CURLY ->
    stmts TOK_CLOSE_CURLY p q ts l -> body p q (lc :: ts ++ [rc]) k l
| b_one p q ts k s : hd_tok ts k <> TOK_OPEN_CURLY -> sp p q ts k s -> body p q ts k [s]
(** [stmts et]: a list of statements, followed by the token [et] *)
with stmts : Z -> Z -> Z -> list tokn -> list stmt -> Prop :=
| ss_nil et p : stmts et p p [] []
| ss_cons et p q q1 ts1 ts2 ts3 s l : sp p q1 ts1 (hd_tok (ts2 ++ ts3) et) s ->
    hd_tok ts1 TOK_EOF <> TOK_EOF -> hd_tok ts1 et <> et ->
    Forall (fun t => lx_tok t = TOK_SEMICOLON) ts2 -> hd_tok ts3 et <> TOK_SEMICOLON ->
    (ts3 = [] \/ ~ In (last_tok (ts1 ++ ts2)) (TOK_DOT :: inc_toks)) ->      (* no statement ends in a dot *)
    stmts et q1 q ts3 l -> stmts et p q (ts1 ++ ts2 ++ ts3) (s :: l).

Scheme xp_ind2 := Minimality for xp Sort Prop with more_ind2 := Minimality for more Sort Prop
  with mem_ind2 := Minimality for mem Sort Prop with prim_ind2 := Minimality for prim Sort Prop
  with tail_ind2 := Minimality for tail Sort Prop with args_ind2 := Minimality for args Sort Prop
  with props_ind2 := Minimality for props Sort Prop with commas_ind2 := Minimality for commas Sort Prop
  with lets_ind2 := Minimality for lets Sort Prop with init_ind2 := Minimality for init Sort Prop
  with sp_ind2 := Minimality for sp Sort Prop with start_ind2 := Minimality for start Sort Prop
  with body_ind2 := Minimality for body Sort Prop with stmts_ind2 := Minimality for stmts Sort Prop.
Combined Scheme grammar_ind from xp_ind2, more_ind2, mem_ind2, prim_ind2, tail_ind2, args_ind2, props_ind2, commas_ind2,
  lets_ind2, init_ind2, sp_ind2, start_ind2, body_ind2, stmts_ind2.

(** * Values and states *)
Inductive val :=
| VPrim (a : aval)
| VObj (i : nat) | VArr (i : nat)                     (* the i-th object of the store *)
| VFun (ps : list (list Z)) (b : list stmt)           (* functions do not capture scopes *)
| VHost (p : Z).                                      (* a value made by the host, with its bits *)
Definition undef : val := VPrim AUndef.
(** Properties, newest first. *)
Definition cell := list (list Z * val).
(** The objects and how many bytes of memory are left. *)
Record state := { objs : list cell; left : Z }.

Definition name_eqb (a b : list Z) : bool := if list_eq_dec Z.eq_dec a b then true else false.
Fixpoint find_name (c : cell) (n : list Z) : option val :=
  match c with [] => None | (k, v) :: r => if name_eqb k n then Some v else find_name r n end.
Fixpoint change (c : cell) (n : list Z) (v : val) : cell :=
  match c with [] => [] | (k, w) :: r => if name_eqb k n then (k, v) :: r else (k, w) :: change r n v end.
Definition put (c : cell) (n : list Z) (v : val) : cell :=
  match find_name c n with Some _ => change c n v | None => (n, v) :: c end.
Fixpoint upd {A} (l : list A) (i : nat) (x : A) : list A :=
  match l, i with [], _ => [] | _ :: r, O => x :: r | y :: r, S i => y :: upd r i x end.

Notation "'let?' x := m 'in' k" := (match m with Some x => k | None => None end) (at level 200, x pattern, right associativity).
Definition take (n : Z) (s : state) : option state :=
  if (0 <=? n) && (n <=? left s) then Some {| objs := objs s; left := left s - n |} else None.
(** Names as the engine can tell them apart: bytes without NUL. *)
Definition good_name (n : list Z) : bool := forallb (fun c => (1 <=? c) && (c <=? 255)) n && (zlen n <? 2 ^ 31).
(** A name is made into a string when it is used. *)
Definition use_name (n : list Z) (s : state) : option state := if good_name n then take (zlen n + 16) s else None.
Definition own (s : state) (i : nat) (n : list Z) : option val :=
  match nth_error (objs s) i with Some c => find_name c n | None => None end.
Definition set_own (s : state) (i : nat) (n : list Z) (v : val) : option state :=
  match nth_error (objs s) i with
  | Some c => take (zlen n + 40) {| objs := upd (objs s) i (put c n v); left := left s |}
  | None => None
  end.
Definition new_cell (s : state) : option (nat * state) :=
  let? s := take 16 s in Some (length (objs s), {| objs := objs s ++ [[]]; left := left s |}).
(** The innermost scope with the name. *)
Fixpoint find_var (s : state) (sc : list nat) (x : list Z) : option nat :=
  match sc with [] => None | i :: r => match own s i x with Some _ => Some i | None => find_var s r x end end.

Definition n_apply : list Z := bs "apply".
Definition n_proto : list Z := bs "__p".
(** The property of an object; one that is not there is undefined. A property that would have
    to be looked up in a prototype is not covered. *)
Definition prop_of (s : state) (i : nat) (n : list Z) : option val :=
  if name_eqb n n_apply then None
  else match nth_error (objs s) i with
       | Some c => match find_name c n with
                   | Some v => Some v
                   | None => match find_name c n_proto with None => Some undef | Some _ => None end
                   end
       | None => None
       end.
(** Decimal digits. *)
Fixpoint digits10 (f : nat) (n : Z) : list Z :=
  match f with O => [] | S f => if n <? 10 then [48 + n] else digits10 f (n / 10) ++ [48 + n mod 10] end.
Definition dec_name (n : Z) : list Z := digits10 20 n.
Definition dec_digit (c : Z) : bool := (48 <=? c) && (c <=? 57).
Definition dec_value (n : list Z) : Z := fold_left (fun a c => 10 * a + (c - 48)) n 0.
(** The index that is written as a number. *)
Definition key_index (k : val) : option Z :=
  match k with
  | VPrim (ANum p) => let? i := int32_part p in if (0 <=? i) && (p =? of_int i) then Some i else None
  | _ => None
  end.
(** The name that a value denotes between brackets. *)
Definition key_name (k : val) : option (list Z) :=
  match k with
  | VPrim (AStr n) => if good_name n then Some n else None
  | VPrim (ANum _) => option_map dec_name (key_index k)
  | _ => None
  end.
(** Only strings name a property that is changed in place. *)
Definition text_key (k : val) : option (list Z) :=
  match k with VPrim (AStr n) => if good_name n then Some n else None | _ => None end.
(** The element of an array that a name denotes, if any. Names that begin like a number but
    are not the decimal text of an index are not covered. *)
Definition as_index (n : list Z) : option (option Z) :=
  match n with
  | [] => Some None
  | c :: _ =>
    if dec_digit c then
      if name_eqb (dec_name (dec_value n)) n && (dec_value n <? 4294967295) then Some (Some (dec_value n)) else None
    else if (c =? 32) || (9 <=? c) && (c <=? 13) || (c =? 43) || (c =? 45) then None else Some None
  end.
Fixpoint len_of (c : cell) : option Z :=
  match c with
  | [] => Some 0
  | (n, _) :: r =>
    let? l := len_of r in
    let? i := as_index n in Some (match i with Some i => Z.max l (i + 1) | None => l end)
  end.
Definition arr_len (s : state) (i : nat) : option Z := let? c := nth_error (objs s) i in len_of c.
(** The methods of arrays and strings: C functions, known by the bits of their values. *)
Definition host_bits (a : Z) : Z := 65522 * 2 ^ 48 + a.
Definition h_push : Z := host_bits 65600.
Definition h_splice : Z := host_bits 65584.
Definition h_slice : Z := host_bits 65568.
Definition h_index_of : Z := host_bits 65552.
Definition h_char_code_at : Z := host_bits 65536.
Definition vint (n : Z) : val := VPrim (ANum (of_int n)).
Definition member (s : state) (o k : val) : option val :=
  match o with
  | VObj i => let? n := key_name k in prop_of s i n
  | VArr i =>
    let? n := key_name k in
    if name_eqb n (bs "length") then let? l := arr_len s i in Some (vint l)
    else if name_eqb n (bs "push") then Some (VHost h_push)
    else if name_eqb n (bs "splice") then Some (VHost h_splice)
    else prop_of s i n
  | VPrim (AStr t) =>
    let? n := key_name k in
    if name_eqb n (bs "length") then Some (vint (zlen t))
    else if name_eqb n (bs "at") || name_eqb n (bs "charCodeAt") then Some (VHost h_char_code_at)
    else if name_eqb n (bs "indexOf") then Some (VHost h_index_of)
    else if name_eqb n (bs "slice") then Some (VHost h_slice)
    else let? i := key_index k in
         if zlen t <? 2 ^ 31 then Some (match nth_error t (Z.to_nat i) with Some c => VPrim (AStr [c]) | None => undef end) else None
  | _ => None
  end.

Definition v_truthy (v : val) : bool := match v with VPrim a => truthy a | _ => true end.
Definition v_type (v : val) : list Z :=
  match v with
  | VPrim a => type_name a | VObj _ => bs "object" | VArr _ => bs "array" | VFun _ _ => bs "function" | VHost _ => bs "foreign_ptr"
  end.
(** Strict equality; comparing two functions, or a host value with null, is not covered. *)
Definition v_same (a b : val) : option bool :=
  match a, b with
  | VPrim x, VPrim y => Some (same x y)
  | VObj i, VObj j | VArr i, VArr j => Some (Nat.eqb i j)
  | VFun _ _, VFun _ _ => None
  | VHost p, VHost q => Some (p =? q)
  | VHost _, VPrim ANull | VPrim ANull, VHost _ => None
  | _, _ => Some false
  end.
Definition un_op (op : Z) (v : val) : option val :=
  if op =? TOK_NOT then Some (VPrim (ABool (negb (v_truthy v))))
  else if op =? TOK_KEYWORD_TYPEOF then Some (VPrim (AStr (v_type v)))
  else match v with VPrim a => option_map VPrim (un_val op a) | _ => None end.
Definition bin_op (op : Z) (a b : val) : option val :=
  if op =? TOK_EQ_EQ then option_map (fun r => VPrim (ABool r)) (v_same a b)
  else if op =? TOK_NE_NE then option_map (fun r => VPrim (ABool (negb r))) (v_same a b)
  else match a, b with VPrim x, VPrim y => option_map VPrim (bin_val op x y) | _, _ => None end.
Definition v_cost (v : val) : Z := match v with VPrim a => val_cost a | _ => 0 end.
(** The operator of a compound assignment. *)
Definition compound : list (Z * Z) :=
  [(TOK_MINUS_ASSIGN, TOK_MINUS); (TOK_PLUS_ASSIGN, TOK_PLUS); (TOK_MUL_ASSIGN, TOK_MUL); (TOK_DIV_ASSIGN, TOK_DIV);
   (TOK_REM_ASSIGN, TOK_REM); (TOK_AND_ASSIGN, TOK_AND); (TOK_OR_ASSIGN, TOK_OR); (TOK_XOR_ASSIGN, TOK_XOR);
   (TOK_LSHIFT_ASSIGN, TOK_LSHIFT); (TOK_RSHIFT_ASSIGN, TOK_RSHIFT); (TOK_URSHIFT_ASSIGN, TOK_URSHIFT)].
Definition compound_op (t : Z) : option Z := option_map snd (find (fun x => fst x =? t) compound).

(** Assignments to the property [k] of [o]. *)
Definition set_member (s : state) (o k v : val) : option state :=
  let? n := key_name k in match o with VObj i | VArr i => set_own s i n v | _ => None end.
(** Computes with the old value and stores the result: (old, new). *)
Definition modify (s : state) (o k : val) (op : Z) (v : val) : option (val * val * state) :=
  match o with
  | VObj i | VArr i =>
    let? n := text_key k in
    let? old := own s i n in
    let? w := bin_op op old v in
    let? s := take (v_cost w) s in
    let? s := set_own s i n w in Some (old, w, s)
  | _ => None
  end.
(** The value of a compound assignment is the old value (unlike JavaScript). *)
Definition assign_to (s : state) (op : Z) (o k v : val) : option (val * state) :=
  if op =? TOK_ASSIGN then let? s := set_member s o k v in Some (v, s)
  else let? b := compound_op op in let? (old, _, s) := modify s o k b v in Some (old, s).
Definition inc_to (s : state) (op : Z) (o k : val) : option (val * state) :=
  let one := vint 1 in
  if op =? TOK_PLUS_PLUS then let? (_, w, s) := modify s o k TOK_PLUS one in Some (w, s)
  else if op =? TOK_MINUS_MINUS then let? (_, w, s) := modify s o k TOK_MINUS one in Some (w, s)
  else if op =? TOK_POSTFIX_PLUS then let? (old, _, s) := modify s o k TOK_PLUS one in Some (old, s)
  else if op =? TOK_POSTFIX_MINUS then let? (old, _, s) := modify s o k TOK_MINUS one in Some (old, s)
  else None.
(** A new last element of an array. *)
Definition append (s : state) (i : nat) (v : val) : option state := let? n := arr_len s i in set_own s i (dec_name n) v.
Fixpoint append_all (s : state) (i : nat) (vs : list val) : option state :=
  match vs with [] => Some s | v :: vs => let? s := append s i v in append_all s i vs end.
(** Numbers given as positions: what is after the decimal point does not count. Negative ones
    are not covered. *)
Definition arg_int (v : val) : option Z :=
  match v with VPrim (ANum p) => let? i := int32_part p in if 0 <=? i then Some i else None | _ => None end.
(** Where [x] begins first in [t], which begins at position [k]. *)
Fixpoint begins (x t : list Z) : bool :=
  match x, t with [], _ => true | a :: x, b :: t => (a =? b) && begins x t | _, [] => false end.
Fixpoint index_in (x t : list Z) (k : Z) : Z :=
  if begins x t then k else match t with [] => -1 | _ :: t => index_in x t (k + 1) end.
(** The methods of the string [t]. *)
Definition char_code_of (t : list Z) (vs : list val) : option val :=
  match vs with
  | v :: _ => let? i := arg_int v in Some (match nth_error t (Z.to_nat i) with Some b => vint b | None => undef end)
  | [] => None
  end.
Definition slice_of (t : list Z) (vs : list val) : option val :=
  match vs with
  | v :: r =>
    let? i := arg_int v in
    let? j := (match r with [] => Some (zlen t) | u :: _ => arg_int u end) in
    Some (VPrim (AStr (firstn (Z.to_nat j - Z.to_nat i) (skipn (Z.to_nat i) t))))
  | [] => None
  end.
Definition index_of (t : list Z) (vs : list val) : option val :=
  match vs with
  | VPrim (AStr x) :: r =>
    let? i := (match r with [] => Some 0 | u :: _ => arg_int u end) in
    let k := Z.min (zlen t) i in Some (vint (index_in x (skipn (Z.to_nat k) t) k))
  | _ => None
  end.
(** Calls of C functions. *)
Definition call_host (p : Z) (th : val) (vs : list val) (s : state) : option (val * state) :=
  match th with
  | VArr i => if p =? h_push then let? s := append_all s i vs in let? n := arr_len s i in Some (vint n, s) else None
  | VPrim (AStr t) =>
    if zlen t <? 2 ^ 31 then
      let? v := (if p =? h_char_code_at then char_code_of t vs else if p =? h_slice then slice_of t vs
                 else if p =? h_index_of then index_of t vs else None) in
      let? s := take (v_cost v) s in Some (v, s)
    else None
  | _ => None
  end.

(** * Interpreter *)
(** How a statement ends. *)
Inductive outcome := ONormal (v : val) | OBreak | OContinue | OReturn (v : val).

(** An evaluator for everything up to some nesting depth. *)
Record evaluator := {
  ev : list nat -> val -> lx -> state -> option (val * state);
  ev_ref : list nat -> val -> lx -> state -> option (val * val * state);
  ev_args : list nat -> val -> list lx -> state -> option (list val * state);
  ex : list nat -> val -> stmt -> state -> option (outcome * state) }.

Section Eval.
Context (E : evaluator) (rounds : nat).

Definition eval_var (sc : list nat) (x : list Z) (s : state) : option (val * state) :=
  if name_eqb x n_apply then None
  else let? s := use_name x s in
       let? i := find_var s sc x in
       let? v := own s i x in Some (v, s).
(** The properties of an object literal. *)
Fixpoint fill (sc : list nat) (th : val) (i : nat) (l : list (list Z * lx)) (s : state) : option state :=
  match l with
  | [] => Some s
  | (n, e) :: l =>
    let? s := use_name n s in
    let? (v, s) := ev E sc th e s in
    let? s := set_own s i n v in fill sc th i l s
  end.
(** The elements of an array literal. *)
Fixpoint fill_arr (sc : list nat) (th : val) (i : nat) (l : list lx) (s : state) : option state :=
  match l with
  | [] => Some s
  | e :: l => let? (v, s) := ev E sc th e s in let? s := append s i v in fill_arr sc th i l s
  end.
(** The values of the parameters. *)
Fixpoint bind_pars (i : nat) (ps : list (list Z)) (vs : list val) (s : state) : option state :=
  match ps with
  | [] => Some s
  | p :: ps =>
    let? s := use_name p s in
    let? s := set_own s i p (match vs with v :: _ => v | [] => undef end) in
    bind_pars i ps (List.tl vs) s
  end.
(** Statements one after the other; the value is that of the last one. *)
Fixpoint ex_list (sc : list nat) (th : val) (l : list stmt) (v : val) (s : state) : option (outcome * state) :=
  match l with
  | [] => Some (ONormal v, s)
  | a :: l =>
    let? (o, s) := ex E sc th a s in
    match o with ONormal v => ex_list sc th l v s | _ => Some (o, s) end
  end.
Definition call (sc : list nat) (f th : val) (vs : list val) (s : state) : option (val * state) :=
  match f with
  | VFun ps b =>
    let? (i, s) := new_cell s in
    let? s := bind_pars i ps vs s in
    let? (o, s) := ex_list (i :: sc) th b undef s in
    match o with ONormal _ => Some (undef, s) | OReturn v => Some (v, s) | _ => None end
  | VHost p => call_host p th vs s
  | _ => None
  end.
(** The declaration and initialisation of [x] in the innermost scope. *)
Definition declare (sc : list nat) (x : list Z) (s : state) : option state :=
  match sc with
  | i :: _ => let? s := use_name x s in
              match own s i x with Some _ => Some s | None => set_own s i x undef end
  | [] => None
  end.
Definition eval_let (sc : list nat) (th : val) (x : list Z) (e : option lx) (s : state) : option (val * state) :=
  let? s := declare sc x s in
  match e with
  | None => Some (undef, s)
  | Some e =>
    let? s := use_name x s in
    let? (v, s) := ev E sc th e s in
    match sc with i :: _ => let? s := set_own s i x v in Some (v, s) | [] => None end
  end.
Fixpoint eval_lets (sc : list nat) (th : val) (l : list (list Z * option lx)) (v : val) (s : state) : option (val * state) :=
  match l with
  | [] => Some (v, s)
  | (x, e) :: l => let? (v, s) := eval_let sc th x e s in eval_lets sc th l v s
  end.
Fixpoint eval_all (sc : list nat) (th : val) (l : list lx) (v : val) (s : state) : option (val * state) :=
  match l with
  | [] => Some (v, s)
  | e :: l => let? (v, s) := ev E sc th e s in eval_all sc th l v s
  end.
(** At most [n] rounds of a loop; [step] is what is done between two rounds. *)
Fixpoint loop (sc : list nat) (th : val) (c : lx) (step : option lx) (b : list stmt) (n : nat) (s : state) : option (outcome * state) :=
  match n with
  | O => None
  | S n =>
    let? (v, s) := ev E sc th c s in
    if v_truthy v then
      let? (o, s) := ex_list sc th b undef s in
      match o with
      | ONormal _ | OContinue =>
        let? s := match step with None => Some s | Some u => let? (_, s) := ev E sc th u s in Some s end in
        loop sc th c step b n s
      | OBreak => Some (ONormal undef, s)
      | OReturn v => Some (OReturn v, s)
      end
    else Some (ONormal undef, s)
  end.

(** One round for each of the names [ks], the last one made first; the value is the name of the variable. *)
Fixpoint each (sc : list nat) (th : val) (x : list Z) (b : list stmt) (ks : list (list Z)) (s : state) : option (outcome * state) :=
  match ks with
  | [] => Some (ONormal (VPrim (AStr x)), s)
  | k :: ks =>
    let? i := find_var s sc x in
    let? s := set_own s i x (VPrim (AStr k)) in
    let? (o, s) := ex_list sc th b undef s in
    match o with
    | ONormal _ | OContinue => each sc th x b ks s
    | OBreak => Some (ONormal (VPrim (AStr x)), s)
    | OReturn v => Some (OReturn v, s)
    end
  end.

(** An object and the key of one of its properties. *)
Definition eval_ref (sc : list nat) (th : val) (r : lx) (s : state) : option (val * val * state) :=
  match r with
  | XVar x => let? s := use_name x s in let? i := find_var s sc x in Some (VObj i, VPrim (AStr x), s)
  | XDot o x => let? (v, s) := ev E sc th o s in let? s := use_name x s in Some (v, VPrim (AStr x), s)
  | XIdx o k => let? (v, s) := ev E sc th o s in let? (w, s) := ev E sc th k s in Some (v, w, s)
  | _ => None
  end.
(** Expressions whose call has no receiver. *)
Definition plain (f : lx) : bool := match f with XDot _ _ | XIdx _ _ | XAnd _ _ | XOr _ _ | XCond _ _ _ => false | _ => true end.
(** A function and the [this] of its call. *)
Definition eval_callee (sc : list nat) (th : val) (f : lx) (s : state) : option (val * val * state) :=
  match f with
  | XDot _ _ | XIdx _ _ => let? (o, k, s) := ev_ref E sc th f s in let? v := member s o k in Some (v, o, s)
  | _ => if plain f then let? (v, s) := ev E sc th f s in Some (v, undef, s) else None
  end.
Definition eval1 (sc : list nat) (th : val) (e : lx) (s : state) : option (val * state) :=
  match e with
  | XConst e => let? (a, n) := value (fun _ => None) e in let? s := take n s in Some (VPrim a, s)
  | XThis => Some (th, s)
  | XVar x => eval_var sc x s
  | XUn op a => let? (v, s) := ev E sc th a s in let? r := un_op op v in let? s := take (v_cost r) s in Some (r, s)
  | XBin op a b =>
    let? (v, s) := ev E sc th a s in let? (w, s) := ev E sc th b s in
    let? r := bin_op op v w in let? s := take (v_cost r) s in Some (r, s)
  | XAnd a b => let? (v, s) := ev E sc th a s in if v_truthy v then ev E sc th b s else Some (v, s)
  | XOr a b => let? (v, s) := ev E sc th a s in if v_truthy v then Some (v, s) else ev E sc th b s
  | XCond c a b => let? (v, s) := ev E sc th c s in ev E sc th (if v_truthy v then a else b) s
  | XAsg op r e =>
    let? (o, k, s) := ev_ref E sc th r s in
    let? (v, s) := ev E sc th e s in assign_to s op o k v
  | XInc op r => let? (o, k, s) := ev_ref E sc th r s in inc_to s op o k
  | XDot _ _ | XIdx _ _ => let? (o, k, s) := ev_ref E sc th e s in let? v := member s o k in Some (v, s)
  | XCall f l =>
    let? (v, t, s) := eval_callee sc th f s in
    let? (vs, s) := ev_args E sc th l s in call sc v t vs s
  | XObj l => let? (i, s) := new_cell s in let? s := fill sc th i l s in Some (VObj i, s)
  | XArr l => let? (i, s) := new_cell s in let? s := fill_arr sc th i l s in Some (VArr i, s)
  | XFun None ps b => Some (VFun ps b, s)
  | XFun (Some f) ps b =>
    let? s := declare sc f s in
    let? s := use_name f s in
    match sc with i :: _ => let? s := set_own s i f (VFun ps b) in Some (VFun ps b, s) | [] => None end
  end.
Definition eval_args (sc : list nat) (th : val) (l : list lx) (s : state) : option (list val * state) :=
  match l with
  | [] => Some ([], s)
  | e :: l => let? (v, s) := ev E sc th e s in let? (vs, s) := ev_args E sc th l s in Some (v :: vs, s)
  end.
Definition exec1 (sc : list nat) (th : val) (a : stmt) (s : state) : option (outcome * state) :=
  match a with
  | SEmpty => Some (ONormal undef, s)
  | SExprs l => let? (v, s) := eval_all sc th l undef s in Some (ONormal v, s)
  | SLet l => let? (v, s) := eval_lets sc th l undef s in Some (ONormal v, s)
  | SBlock l => let? (i, s) := new_cell s in ex_list (i :: sc) th l undef s
  | SIf c a b =>
    let? (v, s) := ev E sc th c s in
    if v_truthy v then ex E sc th a s
    else match b with Some b => ex E sc th b s | None => Some (ONormal undef, s) end
  | SWhile c b => let? (i, s) := new_cell s in loop (i :: sc) th c None b rounds s
  | SFor i0 c u b =>
    let? (i, s) := new_cell s in
    let? (_, s) := ex E (i :: sc) th i0 s in
    loop (i :: sc) th c (Some u) b rounds s
  | SForIn d x e b =>
    let? (i, s) := new_cell s in
    let? s := (if d then declare (i :: sc) x s else Some s) in
    let? s := use_name x s in
    let? (v, s) := ev E (i :: sc) th e s in
    match v with
    | VObj j | VArr j => let? c := nth_error (objs s) j in each (i :: sc) th x b (map fst c) s   (* the names it has now *)
    | _ => None
    end
  | SBreak => Some (OBreak, s)
  | SContinue => Some (OContinue, s)
  | SReturn None => Some (OReturn undef, s)
  | SReturn (Some e) => let? (v, s) := ev E sc th e s in Some (OReturn v, s)
  end.
End Eval.

Fixpoint at_depth (rounds : nat) (d : nat) : evaluator :=
  match d with
  | O => {| ev := fun _ _ _ _ => None; ev_ref := fun _ _ _ _ => None; ev_args := fun _ _ _ _ => None; ex := fun _ _ _ _ => None |}
  | S d => let E := at_depth rounds d in
           {| ev := eval1 E; ev_ref := eval_ref E; ev_args := eval_args E; ex := exec1 E rounds |}
  end.
(** A program: the value of its last statement. [depth] bounds the nesting of expressions,
    statements and calls, [rounds] the rounds of each loop. *)
Definition run_program (rounds depth : nat) (sc : list nat) (th : val) (l : list stmt) (s : state) : option (val * state) :=
  let? (o, s) := ex_list (at_depth rounds depth) sc th l undef s in
  match o with ONormal v => Some (v, s) | _ => None end.

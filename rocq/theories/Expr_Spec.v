(** Specification of expressions: trees, the precedence grammar over token sequences, and the
    value of a tree. Numbers are IEEE doubles given by their 64-bit patterns ([d_dec] and
    [d_enc] are the IEEE format), arithmetic is that of the standard library's specification
    floats. *)
From Verif Require Import Base Value_Model Str_Spec TokNum_Model Num_Model Txt_Model Tok_Spec NumText_Spec.

(** A token: its number and the text handed to the parser. *)
Record tokn := { lx_tok : Z; lx_text : list Z }.
Definition op_tok (t : tokn) (n : Z) : Prop := lx_tok t = n.

Inductive expr :=
| EInt (n : Z) | EDec (txt : list Z) (p : Z) | EStr (s : list Z) | EBool (b : bool) | ENull | EUndef | EVar (x : list Z)
| EUn (op : Z) (e : expr) | EBin (op : Z) (a b : expr)
| EAnd (a b : expr) | EOr (a b : expr) | ECond (c a b : expr).

(** Precedence of the left-associative binary operators, tightest first; 9 is &&, 10 is ||,
    11 is the conditional. *)
Definition prec (op : Z) : nat :=
  if existsb (Z.eqb op) [TOK_MUL; TOK_DIV; TOK_REM] then 1
  else if existsb (Z.eqb op) [TOK_PLUS; TOK_MINUS] then 2
  else if existsb (Z.eqb op) [TOK_LSHIFT; TOK_RSHIFT; TOK_URSHIFT] then 3
  else if existsb (Z.eqb op) [TOK_LT; TOK_LE; TOK_GT; TOK_GE] then 4
  else if existsb (Z.eqb op) [TOK_EQ; TOK_NE; TOK_EQ_EQ; TOK_NE_NE] then 5
  else if op =? TOK_AND then 6
  else if op =? TOK_XOR then 7
  else if op =? TOK_OR then 8
  else 0%nat.
Definition prefix_ops : list Z := [TOK_NOT; TOK_TILDA; TOK_KEYWORD_TYPEOF; TOK_MINUS; TOK_PLUS].

(** * Number literals *)
Definition within (lo hi n : Z) : bool := (lo <=? n) && (n <=? hi).
(** The double nearest to an integer. *)
Definition of_int (n : Z) : Z := d_enc (binary_normalize 53 1024 n 0 false).
Definition digits (ds : list Z) : Prop := Forall (fun c => 48 <= c <= 57) ds.
Definition hex_val (c : Z) : option Z :=
  if within 48 57 c then Some (c - 48) else if within 97 102 c then Some (c - 87)
  else if within 65 70 c then Some (c - 55) else None.
Definition hexs_val (hs : list Z) : Z := fold_left (fun a c => a * 16 + match hex_val c with Some d => d | None => 0 end) hs 0.
(** An exponent part and its value. *)
Definition exponent (eo : list Z) (e : Z) : Prop :=
  eo = [] /\ e = 0 \/
  exists ec sg ep, (ec = 101 \/ ec = 69) /\ digits_ok ep /\ eo = ec :: sg ++ ep /\
    (sg = [] /\ e = digits_val ep \/ sg = [43] /\ e = digits_val ep \/ sg = [45] /\ e = - digits_val ep).
(** [literal txt p]: the text is a number literal and [p] the double nearest to what it
    denotes: digits, a fraction, an exponent; or 0x and hexadecimal digits of a value below
    2^64. [scale10 m e] is the double nearest to [m * 10^e]. *)
Inductive literal : list Z -> Z -> Prop :=
| lit_dec ip fo fr eo e : digits_ok ip -> (fo = [] /\ fr = [] \/ fo = 46 :: fr /\ digits fr) -> exponent eo e ->
    literal (ip ++ fo ++ eo) (scale10 (digits_val (ip ++ fr)) (e - zlen fr))
| lit_hex hs : hs <> [] -> Forall (fun c => hex_val c <> None) hs -> hexs_val hs < 2 ^ 64 ->
    literal (48 :: 120 :: hs) (of_int (hexs_val hs)).
(** What cannot continue a number: the end, or a character that is no letter, digit or dot. *)
Definition num_stop (q : list Z) : Prop := match q with [] => True | c :: _ => ~ ident_char c /\ c <> 46 end.
(** A number that ends the source must have two characters: the parser looks at the two
    behind its start. *)
Definition num_end (lex q : list Z) : Prop := num_stop q /\ (q = [] -> 2 <= zlen lex).

(** [source p ts]: the text [p] is the tokens [ts] with blanks and comments between them, and
    nothing else; numbers are literals as above, and the two characters [~=] must not meet. *)
Inductive source : list Z -> list tokn -> Prop :=
| src_end g : gap g [] -> source g []
| src_tok g lex rest t ts : gap g (lex ++ rest) -> token lex rest (lx_tok t) (lx_text t) ->
    ~ starts (bs "~=") (lex ++ rest) -> (lx_tok t = TOK_NUM -> (exists p, literal lex p) /\ num_end lex rest) ->
    source rest ts -> source (g ++ lex ++ rest) (t :: ts).

(** Literals and variables. A number is an integer or a fraction; integers from 2^63 on, and
    infinities, are not covered (the parser converts them to a 64-bit integer). *)
Inductive leaf : tokn -> expr -> Prop :=
| leaf_int t p n : lx_tok t = TOK_NUM -> literal (lx_text t) p -> whole p n -> n < 2 ^ 63 -> leaf t (EInt n)
| leaf_dec t p s m e : lx_tok t = TOK_NUM -> literal (lx_text t) p -> d_dec p = S754_finite s m e ->
    (forall n, ~ whole p n) -> leaf t (EDec (lx_text t) p)
| leaf_str t ls : lx_tok t = TOK_STR -> Forall lit_ok ls -> lx_text t = lits_src ls ->
    leaf t (EStr (lits_val ls))
| leaf_true t : lx_tok t = TOK_KEYWORD_TRUE -> leaf t (EBool true)
| leaf_false t : lx_tok t = TOK_KEYWORD_FALSE -> leaf t (EBool false)
| leaf_null t : lx_tok t = TOK_KEYWORD_NULL -> leaf t ENull
| leaf_undef t : lx_tok t = TOK_KEYWORD_UNDEFINED -> leaf t EUndef
| leaf_var t : lx_tok t = TOK_IDENT -> leaf t (EVar (lx_text t)).

(** [derive c d ts e]: the tokens [ts] are an expression of category [c] with tree [e]:
    category 0 are the unary expressions, 1 to 8 the levels of left-associative operators, 9
    conjunctions, 10 disjunctions, 11 conditionals. [d] bounds the nesting the way the parser
    counts it: one for every level entered and one for every further operand of a level.
    && and || nest to the right, which denotes the same value. *)
Inductive derive : nat -> nat -> list tokn -> expr -> Prop :=
| d_leaf d t e : leaf t e -> derive 0 d [t] e
| d_paren d lp ts rp e : lx_tok lp = TOK_OPEN_PAREN -> lx_tok rp = TOK_CLOSE_PAREN ->
    derive 11 d ts e -> derive 0 d (lp :: ts ++ [rp]) e
| d_prefix d t ts e : In (lx_tok t) prefix_ops -> derive 0 d ts e -> derive 0 d (t :: ts) (EUn (lx_tok t) e)
| d_level l d ts0 ts e0 e : (1 <= l <= 8)%nat -> derive (l - 1) d ts0 e0 -> operands l d e0 ts e ->
    derive l (S d) (ts0 ++ ts) e
| d_and1 d ts e : derive 8 d ts e -> derive 9 (S d) ts e
| d_and d ts1 t ts2 a b : lx_tok t = TOK_LOGICAL_AND -> derive 8 d ts1 a -> derive 9 d ts2 b ->
    derive 9 (S d) (ts1 ++ t :: ts2) (EAnd a b)
| d_or1 d ts e : derive 9 d ts e -> derive 10 (S d) ts e
| d_or d ts1 t ts2 a b : lx_tok t = TOK_LOGICAL_OR -> derive 9 d ts1 a -> derive 10 d ts2 b ->
    derive 10 (S d) (ts1 ++ t :: ts2) (EOr a b)
| d_cond1 d ts e : derive 10 d ts e -> derive 11 d ts e
| d_cond d ts1 q ts2 k ts3 c a b : lx_tok q = TOK_QUESTION -> lx_tok k = TOK_COLON ->
    derive 10 d ts1 c -> derive 11 d ts2 a -> derive 11 d ts3 b ->
    derive 11 d (ts1 ++ q :: ts2 ++ k :: ts3) (ECond c a b)
(** the operators and operands of level [l] that follow the tree [acc] *)
with operands : nat -> nat -> expr -> list tokn -> expr -> Prop :=
| o_none l d acc : operands l d acc [] acc
| o_one l d acc t ts ts' b e : prec (lx_tok t) = l -> derive (l - 1) d ts b ->
    operands l d (EBin (lx_tok t) acc b) ts' e -> operands l (S d) acc (t :: ts ++ ts') e.
Scheme derive_ind2 := Minimality for derive Sort Prop
  with operands_ind2 := Minimality for operands Sort Prop.
Combined Scheme derive_operands_ind from derive_ind2, operands_ind2.

(** The parser's nesting limit. *)
Definition nesting_limit : nat := 512.

(** * Values *)
Inductive aval := ANum (p : Z) | ABool (b : bool) | ANull | AUndef | AStr (s : list Z).

Definition nan_num : Z := 65525 * 2 ^ 48.
(** Every NaN is represented by one pattern. *)
Definition canon (p : Z) : Z := match d_dec p with S754_nan => nan_num | _ => p end.
(** The integer part of a finite double. *)
Definition int_part (p : Z) : option Z :=
  match d_dec p with
  | S754_zero _ => Some 0
  | S754_finite s m e => let a := if 0 <=? e then Z.pos m * 2 ^ e else Z.pos m / 2 ^ (- e) in
                         Some (if s then - a else a)
  | _ => None
  end.
Definition int64_part (p : Z) : option Z :=
  match int_part p with Some n => if within (- 2 ^ 63) (2 ^ 63 - 1) n then Some n else None | None => None end.
Definition uint32_part (p : Z) : option Z :=
  match int_part p with Some n => if within 0 (2 ^ 32 - 1) n then Some n else None | None => None end.
Definition int32_part (p : Z) : option Z :=
  match int_part p with Some n => if within (- 2 ^ 31) (2 ^ 31 - 1) n then Some n else None | None => None end.
Definition wrap64 (n : Z) : Z := (n + 2 ^ 63) mod 2 ^ 64 - 2 ^ 63.
Definition is_nan (p : Z) : bool := match d_dec p with S754_nan => true | _ => false end.
Definition is_zero (p : Z) : bool := match d_dec p with S754_zero _ => true | _ => false end.
Definition flip (p : Z) : Z := if p <? 2 ^ 63 then p + 2 ^ 63 else p - 2 ^ 63.

Definition int_bin (f : Z -> Z -> Z) (p q : Z) : option Z :=
  match int64_part p, int64_part q with Some x, Some y => Some (of_int (f x y)) | _, _ => None end.
(** The arithmetic operators on two numbers; [None] where C leaves the result undefined. In
    mJS a division by zero and a remainder by zero give NaN. *)
Definition num_bin (op p q : Z) : option Z :=
  if is_nan p || is_nan q then Some nan_num
  else if op =? TOK_PLUS then Some (canon (d_enc (SFadd 53 1024 (d_dec p) (d_dec q))))
  else if op =? TOK_MINUS then Some (canon (d_enc (SFsub 53 1024 (d_dec p) (d_dec q))))
  else if op =? TOK_MUL then Some (canon (d_enc (SFmul 53 1024 (d_dec p) (d_dec q))))
  else if op =? TOK_DIV then
    if is_zero q then Some nan_num else Some (canon (d_enc (SFdiv 53 1024 (d_dec p) (d_dec q))))
  else if op =? TOK_REM then
    match int32_part q with
    | Some y =>
      if y =? 0 then Some nan_num
      else let neg := SFltb (d_dec p) (S754_zero false) in
           match int64_part (if neg then flip p else p) with
           | Some x => let r := of_int (Z.rem x (Z.abs y)) in Some (canon (if neg then flip r else r))
           | None => None
           end
    | None => None
    end
  else if op =? TOK_AND then option_map canon (int_bin Z.land p q)
  else if op =? TOK_OR then option_map canon (int_bin Z.lor p q)
  else if op =? TOK_XOR then option_map canon (int_bin Z.lxor p q)
  else if op =? TOK_LSHIFT then
    match int64_part q with
    | Some y => if within 0 63 y then option_map canon (int_bin (fun x y => wrap64 (x * 2 ^ y)) p q) else None
    | None => None
    end
  else if op =? TOK_RSHIFT then
    match int64_part q with
    | Some y => if within 0 63 y then option_map canon (int_bin (fun x y => x / 2 ^ y) p q) else None
    | None => None
    end
  else if op =? TOK_URSHIFT then
    match uint32_part p, uint32_part q with
    | Some x, Some y => if y <=? 31 then Some (canon (of_int (x / 2 ^ y))) else None
    | _, _ => None
    end
  else None.

Definition truthy (a : aval) : bool :=
  match a with
  | ANum p => negb (is_zero p || is_nan p)
  | ABool b => b
  | ANull | AUndef => false
  | AStr s => match s with [] => false | _ => true end
  end.
(** Strict equality. Numbers are equal when their representations are, so that -0 differs
    from 0 (unlike JavaScript). *)
Definition same (a b : aval) : bool :=
  match a, b with
  | ANum p, ANum q => (p =? q) && negb (is_nan p)
  | ABool x, ABool y => Bool.eqb x y
  | ANull, ANull | AUndef, AUndef => true
  | AStr s, AStr t => if list_eq_dec Z.eq_dec s t then true else false
  | _, _ => false
  end.
Definition type_name (a : aval) : list Z :=
  match a with
  | ANum _ => bs "number" | ABool _ => bs "boolean" | ANull => bs "null"
  | AUndef => bs "undefined" | AStr _ => bs "string"
  end.

(** The unary operators; [None]: an error, or a conversion that C leaves undefined. *)
Definition un_val (op : Z) (a : aval) : option aval :=
  if op =? TOK_NOT then Some (ABool (negb (truthy a)))
  else if op =? TOK_KEYWORD_TYPEOF then Some (AStr (type_name a))
  else match a with
  | ANum p =>
    if op =? TOK_PLUS then Some a
    else if op =? TOK_MINUS then Some (ANum (canon (flip p)))
    else if op =? TOK_TILDA then
      match int64_part p with Some n => Some (ANum (canon (of_int (- n - 1)))) | None => None end
    else None
  | _ => None
  end.
Definition bin_val (op : Z) (a b : aval) : option aval :=
  if op =? TOK_EQ_EQ then Some (ABool (same a b))
  else if op =? TOK_NE_NE then Some (ABool (negb (same a b)))
  else if (op =? TOK_EQ) || (op =? TOK_NE) then None
  else match a, b with
  | ANum p, ANum q =>
    if op =? TOK_LT then Some (ABool (SFltb (d_dec p) (d_dec q)))
    else if op =? TOK_GT then Some (ABool (SFltb (d_dec q) (d_dec p)))
    else if op =? TOK_LE then Some (ABool (SFleb (d_dec p) (d_dec q)))
    else if op =? TOK_GE then Some (ABool (SFleb (d_dec q) (d_dec p)))
    else match num_bin op p q with Some r => Some (ANum r) | None => None end
  | AStr s, AStr t => if op =? TOK_PLUS then Some (AStr (s ++ t)) else None
  | _, _ => None
  end.

(** The value of a tree in an environment, and the number of bytes of string memory that
    computing it may take (contents, length prefix and terminator of every string made). *)
Definition str_cost (s : list Z) : Z := zlen s + 16.
Definition val_cost (a : aval) : Z := match a with AStr s => str_cost s | _ => 0 end.
Fixpoint value (env : list Z -> option aval) (e : expr) : option (aval * Z) :=
  match e with
  | EInt n => Some (ANum (of_int n), 0)
  | EDec _ p => Some (ANum p, 0)
  | EStr s => Some (AStr s, str_cost s)
  | EBool b => Some (ABool b, 0)
  | ENull => Some (ANull, 0)
  | EUndef => Some (AUndef, 0)
  | EVar x => match env x with Some a => Some (a, str_cost x) | None => None end
  | EUn op e =>
    match value env e with
    | Some (a, n) => match un_val op a with Some r => Some (r, n + val_cost r) | None => None end
    | None => None
    end
  | EBin op a b =>
    match value env a with
    | Some (x, n) =>
      match value env b with
      | Some (y, k) => match bin_val op x y with Some r => Some (r, n + k + val_cost r) | None => None end
      | None => None
      end
    | None => None
    end
  | EAnd a b =>
    match value env a with
    | Some (x, n) =>
      if truthy x then match value env b with Some (y, k) => Some (y, n + k) | None => None end
      else Some (x, n)
    | None => None
    end
  | EOr a b =>
    match value env a with
    | Some (x, n) =>
      if truthy x then Some (x, n)
      else match value env b with Some (y, k) => Some (y, n + k) | None => None end
    | None => None
    end
  | ECond c a b =>
    match value env c with
    | Some (x, n) =>
      match value env (if truthy x then a else b) with Some (y, k) => Some (y, n + k) | None => None end
    | None => None
    end
  end.

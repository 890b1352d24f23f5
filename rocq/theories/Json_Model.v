(** Model of src/mjs_json.c (JSON.stringify and JSON.parse) and of the parser and the string
    decoder of src/frozen/frozen.c. *)
From Verif Require Import Base Value_Model Str_Model SUtil_Model Num_Model Conv_Model Obj_Model Arr_Model.

(** * Quoting *)

(** if (buf < limit) *buf++ = c, where [w] are the bytes stored so far. *)
Definition bput (size : Z) (w : list Z) (c : Z) : list Z := if zlen w <? size then w ++ [c] else w.
(** mjs_json.c:44-52 append_hex *)
Definition append_hex (size : Z) (w : list Z) (c : Z) : list Z :=
  fold_left (bput size)
    [117; 48; 48; hex_digit_of (Z.shiftr c 4 mod 15); hex_digit_of (Z.land c 15)] w.
(** mjs_json.c:80-97: the loop of snquote; char is signed. *)
Definition specials := [98; 116; 110; 118; 102; 114].
Fixpoint snq_loop (size : Z) (w : list Z) (i : Z) (s : list Z) : list Z * Z :=
  match s with
  | [] => (w, i)
  | c :: r =>
    let sc := schar c in
    if (sc =? 34) || (sc =? 92) then snq_loop size (bput size (bput size w 92) c) (i + 2) r
    else if (8 <=? sc) && (sc <=? 13) then
      snq_loop size (bput size (bput size w 92) (nth (Z.to_nat (sc - 8)) specials 0)) (i + 2) r
    else if (c <? 8) || ((13 <? sc) && (sc <? 32)) then
      snq_loop size (append_hex size (bput size w 92) c) (i + 6) r
    else snq_loop size (bput size w c) (i + 1) r
  end.
(** mjs_json.c:60-112 snquote: the bytes stored from buf on, and the result. Simplification:
    the counter does not wrap, it is converted to int at the end. *)
Definition snquote (size : Z) (s : list Z) : list Z * Z :=
  let '(w, i) := snq_loop size (bput size [] 34) 1 s in
  let w := bput size w 34 in
  (if zlen w <? size then w ++ [0]
   else if negb (size =? 0) then removelast w ++ [0] else w, s32 (i + 1)).

(** * Decoding of string tokens *)

(** frozen.c:549-554 hexdec *)
Definition tolower (c : Z) : Z := if (65 <=? c) && (c <=? 90) then c + 32 else c.
Definition hextoi (c : Z) : Z := if (48 <=? c) && (c <=? 57) then c - 48 else c - 87.
Definition hexdec (a b : Z) : Z :=
  Z.lor (Z.shiftl (hextoi (tolower a)) 4) (hextoi (tolower b)) mod 256.
(** frozen.c:865, 881-882: strchr finds the terminating NUL, too. *)
Definition esc1 := [34; 92; 47; 98; 102; 110; 114; 116; 0].
Definition esc2 := [34; 92; 47; 8; 12; 10; 13; 9; 0].
Fixpoint esc_find (a b : list Z) (c : Z) : option Z :=
  match a, b with
  | x :: a, y :: b => if x =? c then Some y else esc_find a b c
  | _, _ => None
  end.
Definition J_INVALID := -1.
Definition J_INCOMPLETE := -2.
Inductive ures := UErr (rc : Z) | UDone (d : list Z).
Definition ucons (c : Z) (r : ures) : ures := match r with UDone d => UDone (c :: d) | e => e end.
(** frozen.c:862-894 json_unescape: the decoded bytes, or the error code. The caller's
    destination is as long as the source, so no store is suppressed. *)
Fixpoint unescape (l : list Z) : ures :=
  match l with
  | [] => UDone []
  | c :: r =>
    if c =? 92 then
      match r with
      | [] => UErr J_INCOMPLETE
      | e :: r1 =>
        if e =? 117 then
          match r1 with
          | a :: b :: x :: y :: r2 =>
            if (a =? 48) && (b =? 48) then ucons (hexdec x y) (unescape r2) else UErr J_INVALID
          | _ => UErr J_INCOMPLETE
          end
        else match esc_find esc1 esc2 e with
             | Some b => ucons b (unescape r1)
             | None => UErr J_INVALID
             end
      end
    else ucons c (unescape r)
  end.

(** * The parser *)

(** What the callback receives. The name is given by its bytes, [None] for a NULL pointer.
    A name of an array element points into the path buffer; the bytes are taken when the
    pointer is set, the buffer is not changed before they are read. A number carries the
    bytes from the start of the token to the end of the buffer and the length of the token.
    End events use neither their name nor their token. *)
Inductive ev :=
| EvStr (name : option (list Z)) (tok : list Z)
| EvNum (name : option (list Z)) (buf : list Z) (len : Z)
| EvTrue (name : option (list Z)) | EvFalse (name : option (list Z)) | EvNull (name : option (list Z))
| EvObj (name : option (list Z)) | EvArr (name : option (list Z))
| EvObjEnd | EvArrEnd.

(** frozen.c:75-87 struct frozen: the bytes from cur to end, the current name, the path
    before its terminating NUL, and the callbacks made so far. *)
Record fz := { z_cur : list Z; z_name : option (list Z); z_path : list Z; z_ev : list ev }.
Definition at_cur (f : fz) (l : list Z) : fz :=
  {| z_cur := l; z_name := z_name f; z_path := z_path f; z_ev := z_ev f |}.
Definition with_name (f : fz) (n : list Z) : fz :=
  {| z_cur := z_cur f; z_name := Some n; z_path := z_path f; z_ev := z_ev f |}.
Definition with_path (f : fz) (p : list Z) : fz :=
  {| z_cur := z_cur f; z_name := z_name f; z_path := p; z_ev := z_ev f |}.

(** frozen.c:98-112 CALL_BACK, and the same for the end events. *)
Definition call_back (f : fz) (e : option (list Z) -> ev) : fz :=
  if (zlen (z_path f) =? 0) || negb (last (z_path f) 0 =? 46) then
    {| z_cur := z_cur f; z_name := None; z_path := z_path f; z_ev := z_ev f ++ [e (z_name f)] |}
  else f.
(** frozen.c:114-127 json_append_to_path, json_truncate_path; JSON_MAX_PATH_LEN is 256. *)
Definition append_path (f : fz) (s : list Z) : fz :=
  with_path f (z_path f ++ firstn (Z.to_nat (255 - zlen (z_path f))) s).
Definition truncate_path (f : fz) (n : nat) : fz := with_path f (firstn n (z_path f)).

(** frozen.c:149-169 *)
Definition j_space (c : Z) : bool := (c =? 32) || (c =? 9) || (c =? 13) || (c =? 10).
Fixpoint skip_ws (l : list Z) : list Z :=
  match l with [] => [] | c :: r => if j_space c then skip_ws r else l end.
Definition cur_ch (l : list Z) : Z := match l with [] => -1 | c :: _ => c end.
(** json_cur: skips whitespace, then the byte or -1. *)
Definition j_cur (f : fz) : fz * Z := let l := skip_ws (z_cur f) in (at_cur f l, cur_ch l).
Definition end_or_bad (ch : Z) : Z := if ch =? -1 then J_INCOMPLETE else J_INVALID.
Definition test_and_skip (f : fz) (c : Z) : fz * Z :=
  let '(f, ch) := j_cur f in
  if ch =? c then (at_cur f (tl (z_cur f)), 0) else (f, end_or_bad ch).

(** frozen.c:171-182 *)
Definition j_alpha (c : Z) : bool := ((97 <=? c) && (c <=? 122)) || ((65 <=? c) && (c <=? 90)).
Definition j_digit (c : Z) : bool := (48 <=? c) && (c <=? 57).
Definition j_xdigit (c : Z) : bool :=
  j_digit c || ((97 <=? c) && (c <=? 102)) || ((65 <=? c) && (c <=? 70)).

(** frozen.c:184-204 json_get_escape_len(s, len): [s] are the bytes from s to the end of the
    text, [len] counts from the backslash. The switch reads *s before looking at len; [guard]
    is the byte behind the text, [None] when it may not be read. *)
Definition escape_len (guard : option Z) (s : list Z) (len : Z) : R Z :=
  c <- (match s with c :: _ => OK c | [] => match guard with Some g => OK g | None => UB end end) ;;
  OK (if c =? 117 then
        if len <? 6 then J_INCOMPLETE
        else match s with
             | _ :: a :: b :: x :: y :: _ =>
               if j_xdigit a && j_xdigit b && j_xdigit x && j_xdigit y then 5 else J_INVALID
             | _ => J_INVALID
             end
      else if (c =? 34) || (c =? 92) || (c =? 47) || (c =? 98) || (c =? 102) || (c =? 110) ||
              (c =? 114) || (c =? 116)
      then (if len <? 2 then J_INCOMPLETE else 1)
      else J_INVALID).

(** frozen.c:221-231 json_get_utf8_char_len *)
Definition utf8_len (c : Z) : Z :=
  if Z.land c 128 =? 0 then 1
  else if Z.land c 240 =? 240 then 4 else if Z.land c 240 =? 224 then 3 else 2.

(** frozen.c:239-255: the loop of json_parse_string from [l]; [acc] is the token so far.
    Result: the token and the rest after the closing quote, or the error code. *)
Inductive sres := SErr (rc : Z) | SDone (tok rest : list Z).
Fixpoint str_scan (fuel : nat) (guard : option Z) (acc l : list Z) : R sres :=
  match l with
  | [] => OK (SErr J_INCOMPLETE)
  | ch :: r =>
    match fuel with
    | O => NoFuel
    | S f =>
      let len := utf8_len ch in
      if ch <? 32 then OK (SErr J_INVALID)
      else if zlen l <? len then OK (SErr J_INCOMPLETE)
      else if ch =? 92 then
        n <- escape_len guard r (zlen l) ;;
        if n <=? 0 then OK (SErr n)
        else let k := Z.to_nat (len + n) in
             str_scan f guard (acc ++ firstn k l) (skipn k l)
      else if ch =? 34 then OK (SDone acc r)
      else let k := Z.to_nat len in str_scan f guard (acc ++ firstn k l) (skipn k l)
    end
  end.
(** frozen.c:234-256 json_parse_string. The state at an error is not used again. *)
Definition parse_string (guard : option Z) (f : fz) : R (fz * Z) :=
  let '(f, rc) := test_and_skip f 34 in
  if rc <? 0 then OK (f, rc)
  else
    s <- str_scan (length (z_cur f)) guard [] (z_cur f) ;;
    match s with
    | SErr e => OK (f, e)
    | SDone tok rest => OK (at_cur (call_back f (fun n => EvStr n tok)) rest, 0)
    end.

(** frozen.c:207-219 json_parse_identifier *)
Fixpoint ident_scan (l : list Z) : list Z * list Z :=
  match l with
  | [] => ([], [])
  | c :: r => if (c =? 95) || j_alpha c || j_digit c
              then let '(a, b) := ident_scan r in (c :: a, b) else ([], l)
  end.
Definition parse_identifier (f : fz) : fz * Z :=
  let '(f, ch) := j_cur f in
  if negb (j_alpha ch) then (f, J_INVALID)
  else let '(a, b) := ident_scan (z_cur f) in (call_back (at_cur f b) (fun n => EvStr n a), 0).

(** frozen.c:259-290 json_parse_number: the bytes after the number, or the error code. *)
Inductive nres := NErr (rc : Z) | NDone (rest : list Z).
Fixpoint skip_run (p : Z -> bool) (l : list Z) : list Z :=
  match l with [] => [] | c :: r => if p c then skip_run p r else l end.
(** At least one character of the run; INCOMPLETE at the end of the text. *)
Definition need_run (p : Z -> bool) (l : list Z) : nres :=
  match l with
  | [] => NErr J_INCOMPLETE
  | c :: _ => if p c then NDone (skip_run p l) else NErr J_INVALID
  end.
Definition num_frac (l : list Z) : nres :=
  match l with c :: r => if c =? 46 then need_run j_digit r else NDone l | [] => NDone l end.
Definition num_exp (l : list Z) : nres :=
  match l with
  | c :: r => if (c =? 101) || (c =? 69) then
                match r with
                | [] => NErr J_INCOMPLETE
                | s :: r' => need_run j_digit (if (s =? 43) || (s =? 45) then r' else r)
                end
              else NDone l
  | [] => NDone l
  end.
Definition nbind (r : nres) (k : list Z -> nres) : nres :=
  match r with NDone l => k l | e => e end.
Definition num_scan (l : list Z) : nres :=
  let l := match l with c :: r => if c =? 45 then r else l | [] => l end in
  match l with
  | z :: x :: r => if (z =? 48) && (x =? 120) then need_run j_xdigit r
                   else nbind (need_run j_digit l) (fun l => nbind (num_frac l) num_exp)
  | _ => nbind (need_run j_digit l) (fun l => nbind (num_frac l) num_exp)
  end.
Definition parse_number (f : fz) : fz * Z :=
  let '(f, _) := j_cur f in
  match num_scan (z_cur f) with
  | NErr e => (f, e)
  | NDone rest =>
    let buf := z_cur f in
    (call_back (at_cur f rest) (fun n => EvNum n buf (zlen buf - zlen rest)), 0)
  end.

(** frozen.c:322-336 json_expect *)
Fixpoint expect_scan (l s : list Z) : nres :=
  match s with
  | [] => NDone l
  | c :: s' => match l with
               | [] => NErr J_INCOMPLETE
               | d :: l' => if d =? c then expect_scan l' s' else NErr J_INVALID
               end
  end.
Definition j_expect (f : fz) (s : list Z) (e : option (list Z) -> ev) : fz * Z :=
  match expect_scan (z_cur f) s with
  | NErr rc => (f, rc)
  | NDone rest => (call_back (at_cur f rest) e, 0)
  end.

(** frozen.c:303-308: the name of element [i]. strlen(path) stops at a NUL that a key has put
    there; a negative offset reads before the buffer. *)
Definition elem_buf (i : Z) : R (list Z) := d <- dec_text i ;; OK (91 :: d ++ [93]).
Definition elem_name (path b : list Z) : R (list Z) :=
  let off := zlen (until_nul path) - zlen b + 1 in
  if off <? 0 then UB else OK (sub path off (zlen b - 2)).

(** frozen.c:384-394 json_parse_key *)
Definition parse_key (guard : option Z) (f : fz) : R (fz * Z) :=
  let '(f, ch) := j_cur f in
  if j_alpha ch then OK (parse_identifier f)
  else if ch =? 34 then parse_string guard f
  else OK (f, end_or_bad ch).
(** frozen.c:397-407: the key of a pair; [tok] are the bytes from the first of the key on. *)
Definition key_name (tok rest : list Z) : list Z :=
  let k := zlen tok - zlen rest in
  match tok with
  | c :: r => if c =? 34 then sub tok 1 (k - 2) else sub tok 0 k
  | [] => []
  end.

(** if (json_cur(f) == ',') f->cur++ *)
Definition skip_comma (f : fz) : fz :=
  let '(f, ch) := j_cur f in if ch =? 44 then at_cur f (tl (z_cur f)) else f.

Definition null_txt := [110; 117; 108; 108].
Definition true_txt := [116; 114; 117; 101].
Definition false_txt := [102; 97; 108; 115; 101].

(** frozen.c:339-381 json_parse_value, 294-319 json_parse_array, 397-429 json_parse_pair and
    json_parse_object. Recursion is fuelled; the machine stack is not modelled. *)
Fixpoint parse_value (fuel : nat) (guard : option Z) (f : fz) : R (fz * Z) :=
  match fuel with
  | O => NoFuel
  | S n =>
    let '(f, ch) := j_cur f in
    if ch =? 34 then parse_string guard f
    else if ch =? 123 then
      let f := call_back f EvObj in
      let '(f, rc) := test_and_skip f 123 in
      if rc <? 0 then OK (f, rc)
      else
        let plen := length (z_path f) in
        '(f, rc) <- obj_loop n guard (append_path f [46]) ;;
        if rc <? 0 then OK (f, rc)
        else
          let '(f, rc) := test_and_skip f 125 in
          if rc <? 0 then OK (f, rc)
          else OK (call_back (truncate_path f plen) (fun _ => EvObjEnd), 0)
    else if ch =? 91 then
      let f := call_back f EvArr in
      let '(f, rc) := test_and_skip f 91 in
      if rc <? 0 then OK (f, rc)
      else
        let plen := length (z_path f) in
        '(f, rc) <- arr_loop n guard 0 f ;;
        if rc <? 0 then OK (f, rc)
        else
          let '(f, rc) := test_and_skip f 93 in
          if rc <? 0 then OK (f, rc)
          else OK (call_back (truncate_path f plen) (fun _ => EvArrEnd), 0)
    else if ch =? 110 then OK (j_expect f null_txt EvNull)
    else if ch =? 116 then OK (j_expect f true_txt EvTrue)
    else if ch =? 102 then OK (j_expect f false_txt EvFalse)
    else if (ch =? 45) || j_digit ch then OK (parse_number f)
    else OK (f, end_or_bad ch)
  end
(* while (json_cur(f) != ']') *)
with arr_loop (fuel : nat) (guard : option Z) (i : Z) (f : fz) : R (fz * Z) :=
  match fuel with
  | O => NoFuel
  | S n =>
    let '(f, ch) := j_cur f in
    if ch =? 93 then OK (f, 0)
    else
      b <- elem_buf i ;;
      let plen := length (z_path f) in
      let f := append_path f b in
      nm <- elem_name (z_path f) b ;;
      '(f, rc) <- parse_value n guard (with_name f nm) ;;
      if rc <? 0 then OK (f, rc)
      else arr_loop n guard (i + 1) (skip_comma (truncate_path f plen))
  end
(* while (json_cur(f) != '}'), with json_parse_pair *)
with obj_loop (fuel : nat) (guard : option Z) (f : fz) : R (fz * Z) :=
  match fuel with
  | O => NoFuel
  | S n =>
    let '(f, ch) := j_cur f in
    if ch =? 125 then OK (f, 0)
    else
      let tok := z_cur f in
      '(f, rc) <- parse_key guard f ;;
      if rc <? 0 then OK (f, rc)
      else
        let nm := key_name tok (z_cur f) in
        let plen := length (z_path f) in
        let f := append_path (with_name f nm) nm in
        let '(f, rc) := test_and_skip f 58 in
        if rc <? 0 then OK (f, rc)
        else
          '(f, rc) <- parse_value n guard f ;;
          if rc <? 0 then OK (f, rc)
          else obj_loop n guard (skip_comma (truncate_path f plen))
  end.

(** frozen.c:431-435, 803-818 json_doit, json_walk: the callbacks made and the result.
    Simplification: the length fits an int. *)
Definition walk_fuel (txt : list Z) : nat := S (2 * length txt).
Definition fz_init (txt : list Z) : fz := {| z_cur := txt; z_name := None; z_path := []; z_ev := [] |}.
Definition json_walk (guard : option Z) (txt : list Z) : R (list ev * Z) :=
  match txt with
  | [] => OK ([], J_INCOMPLETE)
  | _ =>
    '(f, rc) <- parse_value (walk_fuel txt) guard (fz_init txt) ;;
    OK (z_ev f, if rc <? 0 then rc else zlen txt - zlen (z_cur f))
  end.

(** * JSON.parse *)

(** mjs_json.c:303-308 struct json_parse_ctx: the heap, the result, the frames (innermost
    first), and whether an error was set. Simplification: owning the values (mjs_own) is not
    modelled, no collection happens. *)
Record jctx := { j_h : heap; j_res : Z; j_frames : list Z; j_err : bool }.

(** strtod(token->ptr, NULL). The token starts with a digit or a minus sign. The buffer is
    not NUL terminated: the scan must be stopped by a byte inside it. Simplification: bytes
    that strtod may look at without using them all count as read. *)
Definition num_ahead (c : Z) : bool :=
  (c =? 46) || (c =? 43) || (c =? 45) || (c =? 101) || (c =? 69) || (c =? 112) || (c =? 80) ||
  (c =? 120) || (c =? 88).
Definition j_strtod (buf : list Z) : R Z :=
  let '(neg, l) := match buf with c :: r => if c =? 45 then (true, r) else (false, buf) | [] => (false, []) end in
  let '(d, k) := strtod l in
  if forallb num_ahead (skipn k l) then UB
  else OK (if neg then d + 2 ^ 63 else d).

(** mjs_json.c:389-423: store the value, then push a frame for a container. *)
Definition cb_value (ext : extmem) (c : jctx) (h : heap) (name : option (list Z)) (v : Z) (frame : bool)
  : R jctx :=
  '(h, res) <- (match name with
                | Some (n0 :: n) =>
                  match j_frames c with
                  | [] => UB
                  | fr :: _ =>
                    if is_object fr then '(h, _) <- obj_set h ext fr (n0 :: n) v ;; OK (h, j_res c)
                    else OK (h, j_res c)
                  end
                | _ => match j_frames c with [] => OK (h, v) | _ => Abort end
                end) ;;
  OK {| j_h := h; j_res := res; j_frames := if frame then v :: j_frames c else j_frames c;
        j_err := j_err c |}.
(** mjs_json.c:330-426 frozen_cb. Lines 394-403 cannot be reached: mjs_is_object holds for
    arrays, too. *)
Definition frozen_cb (ext : extmem) (c : jctx) (e : ev) : R jctx :=
  let h := j_h c in
  match e with
  | EvStr name tok =>
    match unescape tok with
    | UErr _ => OK {| j_h := h; j_res := j_res c; j_frames := j_frames c; j_err := true |}
    | UDone d => '(st, v) <- mk_string (h_st h) d ;; cb_value ext c (with_st h st) name v false
    end
  | EvNum name buf _ => d <- j_strtod buf ;; cb_value ext c h name (mk_number d) false
  | EvTrue name => cb_value ext c h name (mk_boolean true) false
  | EvFalse name => cb_value ext c h name (mk_boolean false) false
  | EvNull name => cb_value ext c h name V_NULL false
  | EvObj name => '(h, v) <- mk_object h ;; cb_value ext c h name v true
  | EvArr name => '(h, v) <- mk_array h ;; cb_value ext c h name v true
  | EvObjEnd | EvArrEnd =>
    match j_frames c with
    | [] => UB
    | _ :: up => OK {| j_h := h; j_res := j_res c; j_frames := up; j_err := j_err c |}
    end
  end.
Fixpoint run_cb (ext : extmem) (c : jctx) (es : list ev) : R jctx :=
  match es with [] => OK c | e :: r => c <- frozen_cb ext c e ;; run_cb ext c r end.

(** mjs_json.c:428-484 mjs_json_parse: the heap, *res ([None]: not set) and whether an error
    was set. The copy of the text has no byte after its end. Simplification: the callbacks
    run after the walk instead of during it. *)
Definition json_parse (h : heap) (ext : extmem) (txt : list Z) : R (heap * option Z * bool) :=
  '(es, rc) <- json_walk None txt ;;
  c <- run_cb ext {| j_h := h; j_res := V_UNDEFINED; j_frames := []; j_err := false |} es ;;
  if rc <? 0 then OK (j_h c, None, true)
  else match j_frames c with
       | [] => OK (j_h c, Some (j_res c), j_err c)
       | _ => Abort
       end.
(** mjs_json.c:503-516 mjs_op_json_parse: the value returned and whether an error was set. *)
Definition op_json_parse (h : heap) (ext : extmem) (arg : Z) : R (heap * Z * bool) :=
  if is_string arg then
    txt <- str_bytes (h_st h) ext arg ;;
    '(h, r, e) <- json_parse h ext txt ;;
    OK (h, match r with Some v => v | None => V_UNDEFINED end, e)
  else OK (h, V_UNDEFINED, true).

(** * JSON.stringify *)

(** mjs_json.c:25-42 should_skip_for_json *)
Definition skip_for_json (v : Z) : R bool :=
  t <- get_type v ;;
  OK (match t with TyNull | TyBoolean | TyNumber | TyString | TyObject | TyArray => false | _ => true end).

(** The destination: its bytes and the current position. BUF_LEFT(size, used) of a nested
    call is the room left in the whole buffer, 0 beyond its end. Computing a pointer beyond
    the end (or from NULL) is not treated as undefined. *)
Definition buf_left (B : list Z) (off : Z) : Z := if off <? zlen B then zlen B - off else 0.
(** Stores [d] from the current position on. *)
Definition store_at (B : list Z) (off : Z) (d : list Z) : R (list Z) :=
  match d with
  | [] => OK B
  | _ => if off + zlen d <=? zlen B then OK (blit B off d) else UB
  end.
(** c_snprintf(b, BUF_LEFT(...), fmt, ...) *)
Definition j_printf (B : list Z) (off : Z) (fmt : list Z) (args : list varg) : R (list Z * Z) :=
  '(b, n) <- c_vsnprintf (skipn (Z.to_nat off) B) (buf_left B off) fmt args ;;
  OK (firstn (Z.to_nat off) B ++ b, n).
(** strncpy(buf, s, size): at most size bytes, padded with NULs. *)
Definition circular_txt := [91; 67; 105; 114; 99; 117; 108; 97; 114; 93].
Definition j_strncpy (B : list Z) (off : Z) (s : list Z) : R (list Z) :=
  let n := Z.to_nat (buf_left B off) in
  store_at B off (firstn n s ++ repeat 0 (n - length s)).

Definition fmt_str := [37; 46; 42; 115].                     (* %.*s *)
Definition fmt_key := [34; 37; 46; 42; 115; 34; 58].         (* \"%.*s\": *)

(** Result of to_json_or_debug: buffer, *res_len, visited stack, error code. *)
Definition jout : Type := list Z * Z * list Z * Z.

(** mjs_json.c:180-200: the properties from cell [p] on; [start] is the position of the
    opening brace, [off] the current one. The result has the position instead of the
    length. Property names are NUL terminated. *)
Fixpoint props_loop (rec : list Z -> Z -> list Z -> Z -> R jout) (fuel : nat) (h : heap) (ext : extmem)
  (start p : Z) (B : list Z) (off : Z) (vis : list Z) : R jout :=
  if p =? 0 then OK (B, off, vis, E_OK)
  else match fuel with
  | O => NoFuel
  | S n =>
    c <- prop_at h p ;;
    sk <- skip_for_json (pc_val c) ;;
    if (sk : bool) then props_loop rec n h ext start (pc_next c) B off vis
    else
      '(B, off) <- (if off - start =? 1 then OK (B, off)
                    else '(B, k) <- j_printf B off [44] [] ;; OK (B, off + k)) ;;
      s <- str_bytes (h_st h) ext (pc_name c) ;;
      '(B, k) <- j_printf B off fmt_key [VInt (s32 (zlen s)); VStr (Some (s ++ [0]))] ;;
      '(B, tmp, vis, rc) <- rec B (off + k) vis (pc_val c) ;;
      if rc =? E_OK then props_loop rec n h ext start (pc_next c) B (off + k + tmp) vis
      else OK (B, off + k, vis, rc)
  end.
(** mjs_json.c:215-235: [n] elements from index [i]. *)
Fixpoint elems_loop (rec : list Z -> Z -> list Z -> Z -> R jout) (n : nat) (h : heap) (ext : extmem)
  (v alen i : Z) (B : list Z) (off : Z) (vis : list Z) : R jout :=
  match n with
  | O => OK (B, off, vis, E_OK)
  | S n =>
    '(el, has) <- array_get2 h ext v i ;;
    '(B, k, vis, rc) <-
       (if (has : bool) then
          sk <- skip_for_json el ;;
          if (sk : bool) then '(B, k) <- j_printf B off null_txt [] ;; OK (B, k, vis, E_OK)
          else rec B off vis el
        else '(B, k) <- j_printf B off null_txt [] ;; OK (B, k, vis, E_OK)) ;;
    if rc =? E_OK then
      '(B, c) <- (if i =? alen - 1 then OK (B, 0) else j_printf B (off + k) [44] []) ;;
      elems_loop rec n h ext v alen (i + 1) B (off + k + c) vis
    else OK (B, off, vis, rc)
  end.

(** mjs_json.c:114-259 to_json_or_debug with is_debug = 0 (the only use). [vis] is
    json_visited_stack, last pushed last. An error leaves the pushed value on it. Recursion is
    fuelled by depth. *)
Fixpoint to_json (fuel : nat) (h : heap) (ext : extmem) (B : list Z) (off : Z) (vis : list Z) (v : Z) : R jout :=
  match fuel with
  | O => NoFuel
  | S f =>
    B <- (if buf_left B off >? 0 then store_at B off [0] else OK B) ;;
    sk <- skip_for_json v ;;
    if (sk : bool) then OK (B, 0, vis, E_OK)
    else if existsb (fun x => x =? v) vis then
      B <- j_strncpy B off circular_txt ;; OK (B, 10, vis, E_OK)
    else
      t <- get_type v ;;
      match t with
      | TyNull | TyBoolean | TyNumber | TyUndefined | TyForeign =>
        r <- to_string (h_st h) ext v ;;
        match r with
        | Some s => '(B, _) <- j_printf B off fmt_str [VInt (s32 (zlen s)); VStr (Some (s ++ [0]))] ;;
                    OK (B, zlen s, vis, E_OK)
        | None => OK (B, 0, vis, E_TYPE)
        end
      | TyString =>
        s <- str_bytes (h_st h) ext v ;;
        let '(w, n) := snquote (buf_left B off) s in
        B <- store_at B off w ;; OK (B, n mod 2 ^ 64, vis, E_OK)
      | TyFunction | TyObject =>
        let vis1 := vis ++ [v] in
        '(B, k) <- j_printf B off [123] [] ;;
        o <- get_object_struct v ;;
        p <- obj_first h o ;;
        '(B, off2, vis2, rc) <- props_loop (to_json f h ext) (pfuel h) h ext off p B (off + k) vis1 ;;
        if rc =? E_OK then
          '(B, k2) <- j_printf B off2 [125] [] ;;
          OK (B, off2 + k2 - off, removelast vis2, E_OK)
        else OK (B, 0, vis2, rc)
      | TyArray =>
        alen <- array_length h ext v ;;
        let vis1 := vis ++ [v] in
        '(B, k) <- j_printf B off [91] [] ;;
        '(B, off2, vis2, rc) <- elems_loop (to_json f h ext) (Z.to_nat alen) h ext v alen 0 B (off + k) vis1 ;;
        if rc =? E_OK then
          '(B, k2) <- j_printf B off2 [93] [] ;;
          OK (B, off2 + k2 - off, removelast vis2, E_OK)
        else OK (B, 0, vis2, rc)
      end
  end.

(** mjs_json.c:261-289 mjs_json_stringify from a NULL buffer (line 494): a first pass to learn
    the length, a second one into len + 1 bytes; the result is that buffer. [junk] is what
    malloc returns. A second pass that did not fit would allocate again; fuel bounds that. *)
Definition json_fuel (h : heap) : nat := S (2 * length (h_objs h)).
Fixpoint stringify_into (fuel : nat) (h : heap) (ext : extmem) (junk : Z -> list Z) (vis : list Z)
  (v : Z) (B : list Z) : R (list Z * list Z) :=
  match fuel with
  | O => NoFuel
  | S f =>
    '(B, len, vis, _) <- to_json (json_fuel h) h ext B 0 vis v ;;
    if len >=? zlen B then stringify_into f h ext junk vis v (junk (len + 1))
    else OK (B, vis)
  end.
Definition json_stringify (h : heap) (ext : extmem) (junk : Z -> list Z) (vis : list Z) (v : Z) : R (list Z * list Z) :=
  stringify_into 2 h ext junk vis v [].
(** mjs_json.c:486-501 mjs_op_json_stringify: a string of the result up to its NUL. *)
Definition op_json_stringify (h : heap) (ext : extmem) (junk : Z -> list Z) (vis : list Z) (args : list Z)
  : R (heap * list Z * Z * bool) :=
  match args with
  | [] => OK (h, vis, V_UNDEFINED, true)
  | v :: _ =>
    '(B, vis) <- json_stringify h ext junk vis v ;;
    '(st, r) <- mk_cstring (h_st h) B ;;
    OK (with_st h st, vis, r, false)
  end.

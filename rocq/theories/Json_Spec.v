(** Specification of JSON: quoting, documents and the trees they denote, and what it means
    for an engine value to represent a tree. *)
From Verif Require Import Base Value_Model Str_Model Str_Spec Num_Model SUtil_Spec Obj_Spec Arr_Spec.

(** * Quoting *)

Definition hexchar (n : Z) : Z := if n <? 10 then 48 + n else 87 + n.
(** How one byte appears between quotes. *)
Definition quote_byte (c : Z) : list Z :=
  match c with
  | 34 => [92; 34] | 92 => [92; 92]
  | 8 => [92; 98] | 9 => [92; 116] | 10 => [92; 110] | 11 => [92; 118] | 12 => [92; 102] | 13 => [92; 114]
  | _ => if c <? 32 then [92; 117; 48; 48; hexchar (c / 16); hexchar (c mod 16)] else [c]
  end.
Fixpoint quote_bytes (s : list Z) : list Z :=
  match s with [] => [] | c :: r => quote_byte c ++ quote_bytes r end.
Definition quoted (s : list Z) : list Z := 34 :: quote_bytes s ++ [34].

(** What a bounded writer leaves of a text: as much as fits, then a NUL. *)
Definition clipped (size : Z) (t : list Z) : list Z :=
  if size =? 0 then [] else firstn (Z.to_nat (size - 1)) t ++ [0].

(** * Characters of strings *)

(** Well-formed UTF-8 characters (continuation bytes are 10xxxxxx). *)
Definition cont (c : Z) : Prop := 128 <= c < 192.
Inductive uchar : list Z -> Prop :=
| U1 a : 0 <= a < 128 -> uchar [a]
| U2 a b : 192 <= a < 224 -> cont b -> uchar [a; b]
| U3 a b c : 224 <= a < 240 -> cont b -> cont c -> uchar [a; b; c]
| U4 a b c d : 240 <= a < 248 -> cont b -> cont c -> cont d -> uchar [a; b; c; d].
Inductive utf8 : list Z -> Prop :=
| U_nil : utf8 []
| U_cons c r : uchar c -> utf8 r -> utf8 (c ++ r).

(** * Documents *)

(** A tree: numbers are double patterns, strings and names byte strings. *)
Inductive jt := TNull | TBool (b : bool) | TNum (d : Z) | TStr (s : list Z)
  | TArr (l : list jt) | TObj (l : list (list Z * jt)).

Definition jblank (c : Z) : Prop := c = 32 \/ c = 9 \/ c = 10 \/ c = 13.
Definition ws (w : list Z) : Prop := Forall jblank w.

(** Numbers: sign, integer digits, fraction digits, exponent. *)
Definition jdigits (l : list Z) : Prop := Forall (fun c => 48 <= c <= 57) l.
Fixpoint dval (acc : Z) (l : list Z) : Z :=
  match l with [] => acc | c :: r => dval (acc * 10 + (c - 48)) r end.
Inductive number : Z -> list Z -> Prop :=
| N_num (neg : bool) ip fr (fo : list Z) ep eo e :
    jdigits ip -> ip <> [] ->
    (fo = [] /\ fr = [] \/ fo = 46 :: fr /\ jdigits fr /\ fr <> []) ->
    (eo = [] /\ e = 0 \/
     exists ec sg, (ec = 101 \/ ec = 69) /\ jdigits ep /\ ep <> [] /\
       (sg = [] /\ e = dval 0 ep \/ sg = [43] /\ e = dval 0 ep \/ sg = [45] /\ e = - dval 0 ep) /\
       eo = ec :: sg ++ ep) ->
    number (scale10 (dval 0 (ip ++ fr)) (e - zlen fr) + (if neg then 2 ^ 63 else 0))
           ((if neg then [45] else []) ++ ip ++ fo ++ eo).

(** Strings: raw characters, short escapes, and code points below 256 written in hex. *)
Inductive sitem := SRaw (c : list Z) | SEsc (c : Z) | SHex (a b : Z).
Definition short_esc (c : Z) : option Z :=
  match c with
  | 34 => Some 34 | 92 => Some 92 | 47 => Some 47 | 98 => Some 8 | 102 => Some 12 | 110 => Some 10
  | 114 => Some 13 | 116 => Some 9 | _ => None
  end.
Definition raw_char (c : list Z) : Prop := uchar c /\ c <> [34] /\ c <> [92] /\ (forall a, c = [a] -> 32 <= a).
Definition sitem_ok (i : sitem) : Prop :=
  match i with
  | SRaw c => raw_char c
  | SEsc c => short_esc c <> None
  | SHex a b => hexd a <> None /\ hexd b <> None
  end.
Definition sitem_src (i : sitem) : list Z :=
  match i with SRaw c => c | SEsc c => [92; c] | SHex a b => [92; 117; 48; 48; a; b] end.
Definition sitem_val (i : sitem) : list Z :=
  match i with
  | SRaw c => c
  | SEsc c => match short_esc c with Some v => [v] | None => [] end
  | SHex a b => [16 * hv a + hv b]
  end.
(** Names of members: raw characters only (the parser does not decode escapes in them). *)
Inductive plain : list Z -> Prop :=
| P_nil : plain []
| P_cons c r : raw_char c -> plain r -> plain (c ++ r).

(** [denotes t x]: the text [x] is a document, without blanks around it, for the tree [t]. *)
Inductive denotes : jt -> list Z -> Prop :=
| D_null : denotes TNull [110; 117; 108; 108]
| D_true : denotes (TBool true) [116; 114; 117; 101]
| D_false : denotes (TBool false) [102; 97; 108; 115; 101]
| D_num d x : number d x -> denotes (TNum d) x
| D_str l : Forall sitem_ok l -> denotes (TStr (flat_map sitem_val l)) (34 :: flat_map sitem_src l ++ [34])
| D_arr0 w : ws w -> denotes (TArr []) (91 :: w ++ [93])
| D_arr l y : elems l y -> denotes (TArr l) (91 :: y ++ [93])
| D_obj0 w : ws w -> denotes (TObj []) (123 :: w ++ [125])
| D_obj l y : members l y -> denotes (TObj l) (123 :: y ++ [125])
with elems : list jt -> list Z -> Prop :=
| E_one t w1 x w2 : ws w1 -> denotes t x -> ws w2 -> elems [t] (w1 ++ x ++ w2)
| E_more t w1 x w2 l y : ws w1 -> denotes t x -> ws w2 -> elems l y ->
    elems (t :: l) (w1 ++ x ++ w2 ++ 44 :: y)
with members : list (list Z * jt) -> list Z -> Prop :=
| M_one k t w1 w2 w3 x w4 : ws w1 -> plain k -> ws w2 -> ws w3 -> denotes t x -> ws w4 ->
    members [(k, t)] (w1 ++ 34 :: k ++ 34 :: w2 ++ 58 :: w3 ++ x ++ w4)
| M_more k t w1 w2 w3 x w4 l y : ws w1 -> plain k -> ws w2 -> ws w3 -> denotes t x -> ws w4 -> members l y ->
    members ((k, t) :: l) (w1 ++ 34 :: k ++ 34 :: w2 ++ 58 :: w3 ++ x ++ w4 ++ 44 :: y).

(** A number at the end of a document needs a byte after it that cannot continue a number. *)
Definition stopc (c : Z) : Prop := ~ 48 <= c <= 57 /\ ~ In c [46; 43; 45; 101; 69; 112; 80; 120; 88].
Definition stops (t : jt) (rest : list Z) : Prop :=
  match t with TNum _ => exists c r, rest = c :: r /\ stopc c | _ => True end.

(** * Limits of the parser *)

(** The path of a value, ".name" for members and "[i]" for elements, has at most 255 bytes;
    names are neither empty nor end in a full stop. [n] is the length of the path so far. *)
Fixpoint fits (n : Z) (t : jt) : Prop :=
  match t with
  | TArr l => (fix go (i : Z) (l : list jt) : Prop :=
                 match l with
                 | [] => True
                 | x :: r => (exists d, numeral 10 i d /\ n + zlen d + 2 <= 255 /\ fits (n + zlen d + 2) x) /\
                             go (i + 1) r
                 end) 0 l
  | TObj l => (fix go (l : list (list Z * jt)) : Prop :=
                 match l with
                 | [] => True
                 | (k, x) :: r => (k <> [] /\ last k 0 <> 46 /\ n + zlen k + 1 <= 255 /\
                                   fits (n + zlen k + 1) x) /\ go r
                 end) l
  | _ => True
  end.

(** * Values *)

(** The map built by setting the members in order. *)
Fixpoint mbuild (m : omap) (l : list (list Z * Z)) : omap :=
  match l with [] => m | (k, v) :: r => mbuild (mput m k v) r end.
Definition is_arr_ref (v o : Z) : Prop := 0 < o < 2 ^ 48 /\ v = 65532 * 2 ^ 48 + o.
Definition is_obj_ref (v o : Z) : Prop := 0 < o < 2 ^ 48 /\ v = 65521 * 2 ^ 48 + o.

(** Value [v] represents the tree, in the store [M]. *)
Inductive repr (st : strs) (ext : extmem) (M : store) : Z -> jt -> Prop :=
| R_null : repr st ext M V_NULL TNull
| R_bool b : repr st ext M (mk_boolean b) (TBool b)
| R_num d : repr st ext M (mk_number d) (TNum d)
| R_str v s : holds st ext v s -> repr st ext M v (TStr s)
| R_arr v o m vs l : is_arr_ref v o -> M o = Some m -> arr m (lf vs) (fun _ => None) ->
    reprs st ext M vs l -> repr st ext M v (TArr l)
| R_obj v o m vs l : is_obj_ref v o -> M o = Some m -> m = mbuild [] (combine (map fst l) vs) ->
    reprs st ext M vs (map snd l) -> repr st ext M v (TObj l)
with reprs (st : strs) (ext : extmem) (M : store) : list Z -> list jt -> Prop :=
| RS_nil : reprs st ext M [] []
| RS_cons v t vs l : repr st ext M v t -> reprs st ext M vs l -> reprs st ext M (v :: vs) (t :: l).

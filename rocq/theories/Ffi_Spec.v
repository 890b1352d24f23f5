(** Specification of FFI declarations, independent of the parser: what a well-formed C
    declaration looks like as text, which declarations are acceptable, and what they mean. *)
From Verif Require Import Base Str_Model Txt_Model Ffi_Model.

(** * Signatures *)
(** The declared arguments: the types before the first void. *)
Fixpoint upto_void (tys : list Z) : list Z :=
  match tys with [] => [] | t :: r => if t =? T_NONE then [] else t :: upto_void r end.
Definition arg_types (g : sig) : list Z := upto_void (tl (s_types g)).
Definition count (x : Z) (l : list Z) : nat := length (filter (Z.eqb x) l).
Definition data_type (t : Z) : Prop :=
  t = T_INT \/ t = T_BOOL \/ t = T_VOID_PTR \/ t = T_CHAR_PTR \/ t = T_MG_STR_PTR \/ t = T_DOUBLE \/ t = T_FLOAT.
(** The acceptable types of a C function and of a callback *)
Definition good_types (k : sig_type) (ret : Z) (args : list Z) : Prop :=
  match k with
  | SigFunc =>
    In ret [T_NONE; T_INT; T_BOOL; T_DOUBLE; T_FLOAT; T_VOID_PTR; T_CHAR_PTR] /\
    Forall (fun t => data_type t \/ t = T_CALLBACK \/ t = T_USERDATA) args /\
    (count T_USERDATA args <= 1)%nat /\ (In T_CALLBACK args <-> In T_USERDATA args)
  | SigCallback =>
    In ret [T_NONE; T_INT; T_BOOL; T_DOUBLE; T_FLOAT; T_VOID_PTR] /\
    Forall (fun t => data_type t \/ t = T_USERDATA) args /\ count T_USERDATA args = 1%nat
  end.
Definition good_sig (k : sig_type) (g : sig) : Prop := good_types k (hd 0 (s_types g)) (arg_types g).

(** * Texts *)
Definition spaces (l : list Z) : Prop := Forall (fun c => is_space c = true) l.
Definition names_type (n : list Z) (t : Z) : Prop :=
  (n = bs "void" /\ t = T_NONE) \/ (n = bs "userdata" /\ t = T_USERDATA) \/ (n = bs "int" /\ t = T_INT) \/
  (n = bs "bool" /\ t = T_BOOL) \/ (n = bs "double" /\ t = T_DOUBLE) \/ (n = bs "float" /\ t = T_FLOAT) \/
  (n = bs "char*" /\ t = T_CHAR_PTR) \/ (n = bs "char *" /\ t = T_CHAR_PTR) \/
  (n = bs "void*" /\ t = T_VOID_PTR) \/ (n = bs "void *" /\ t = T_VOID_PTR) \/
  (n = bs "struct mg_str" /\ t = T_MG_STR) \/ (n = bs "struct mg_str*" /\ t = T_MG_STR_PTR) \/
  (n = bs "struct mg_str *" /\ t = T_MG_STR_PTR).
(** the name of a type, blanks around it *)
Record piece := { p_pre : list Z; p_name : list Z; p_post : list Z; p_type : Z }.
Definition ptext (p : piece) : list Z := p_pre p ++ p_name p ++ p_post p.
Definition piece_ok (p : piece) : Prop := spaces (p_pre p) /\ spaces (p_post p) /\ names_type (p_name p) (p_type p).
(** texts separated by commas *)
Fixpoint commas (l : list (list Z)) : list Z :=
  match l with [] => [] | [x] => x | x :: r => x ++ [44] ++ commas r end.
(** a callback argument: ret (anything) (args) *)
Record cbdecl := { c_ret : piece; c_in : list Z; c_gap : list Z; c_args : list piece; c_tail : list Z }.
Definition ctext (c : cbdecl) : list Z :=
  ptext (c_ret c) ++ [40] ++ c_in c ++ [41] ++ c_gap c ++ [40] ++ commas (map ptext (c_args c)) ++ [41] ++ c_tail c.
Definition no_paren (c : Z) : Prop := c <> 0 /\ c <> 40 /\ c <> 41.
(** void only as the only argument *)
Definition void_alone (l : list Z) : Prop := l = [T_NONE] \/ ~ In T_NONE l.
Definition cb_ok (c : cbdecl) : Prop :=
  piece_ok (c_ret c) /\ Forall no_paren (c_in c) /\ spaces (c_gap c) /\ spaces (c_tail c) /\
  Forall piece_ok (c_args c) /\ void_alone (map p_type (c_args c)).
Inductive argdecl := Plain (p : piece) | Callback (c : cbdecl).
Definition atext (a : argdecl) : list Z := match a with Plain p => ptext p | Callback c => ctext c end.
Definition atype (a : argdecl) : Z := match a with Plain p => p_type p | Callback _ => T_CALLBACK end.
Definition arg_ok (a : argdecl) : Prop := match a with Plain p => piece_ok p | Callback c => cb_ok c end.
(** a function: ret name (args) and anything without an opening parenthesis *)
Record decl := { d_ret : piece; d_name : list Z; d_gap : list Z; d_args : list argdecl; d_tail : list Z }.
Definition dtext (d : decl) : list Z :=
  ptext (d_ret d) ++ d_name d ++ d_gap d ++ [40] ++ commas (map atext (d_args d)) ++ [41] ++ d_tail d.
Definition name_char (c : Z) : Prop := 48 <= c <= 57 \/ 65 <= c <= 90 \/ 97 <= c <= 122 \/ c = 95.
Definition decl_ok (d : decl) : Prop :=
  piece_ok (d_ret d) /\ (p_post (d_ret d) <> [] \/ last (p_name (d_ret d)) 0 = 42) /\
  d_name d <> [] /\ Forall name_char (d_name d) /\ spaces (d_gap d) /\
  Forall arg_ok (d_args d) /\ void_alone (map atype (d_args d)) /\ Forall (fun c => c <> 40 /\ c <> 0) (d_tail d).

(** * Meaning *)
Definition real_args (l : list Z) : list Z := upto_void l.
(** the position of the userdata, from 1 *)
Fixpoint position (x : Z) (l : list Z) (i : Z) : Z :=
  match l with [] => 0 | y :: r => if y =? x then i else position x r (i + 1) end.
(** which implementation serves a callback of these types *)
Definition impl_of (ret : Z) (args : list Z) : option cb_impl :=
  if in_dec Z.eq_dec T_FLOAT args then None
  else if in_dec Z.eq_dec ret [T_NONE; T_INT; T_BOOL] then
    match count T_DOUBLE args, position T_USERDATA args 1 with
    | 0%nat, u => Some (ImplW u)
    | 1%nat, 1 => Some ImplWPD
    | 1%nat, 2 => Some ImplWDP
    | _, _ => None
    end
  else None.
Definition padded (l : list Z) : list Z := l ++ repeat T_NONE (7 - length l).
Definition cb_types (c : cbdecl) : list Z := map p_type (c_args c).
Definition good_cb (c : cbdecl) (i : cb_impl) : Prop :=
  (length (c_args c) <= 6)%nat /\ good_types SigCallback (p_type (c_ret c)) (real_args (cb_types c)) /\
  impl_of (p_type (c_ret c)) (real_args (cb_types c)) = Some i.
Definition cb_sig (c : cbdecl) (i : cb_impl) : sig :=
  {| s_cb := None; s_types := padded (p_type (c_ret c) :: cb_types c); s_fn := FnImpl i;
     s_cnt := zlen (real_args (cb_types c)); s_callback := true; s_valid := true |}.
Definition callbacks (l : list argdecl) : list cbdecl :=
  flat_map (fun a => match a with Plain _ => [] | Callback c => [c] end) l.
(** [means resolve d g]: [d] is acceptable and denotes [g] *)
Inductive means (resolve : list Z -> Z) (d : decl) : sig -> Prop :=
| means_intro cb :
    (length (d_args d) <= 6)%nat ->
    resolve (firstn 99 (d_name d)) <> 0 ->
    good_types SigFunc (p_type (d_ret d)) (real_args (map atype (d_args d))) ->
    match callbacks (d_args d) with
    | [] => cb = None
    | [c] => exists i, good_cb c i /\ cb = Some (cb_sig c i)
    | _ => False
    end ->
    means resolve d
      {| s_cb := cb; s_types := padded (p_type (d_ret d) :: map atype (d_args d));
         s_fn := FnC (resolve (firstn 99 (d_name d))); s_cnt := zlen (real_args (map atype (d_args d)));
         s_callback := false; s_valid := true |}.

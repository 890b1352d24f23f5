(** Specification of objects: a store of insertion-ordered finite maps, and what it means
    for a heap of cells to represent one. *)
From Verif Require Import Base Value_Model Str_Model Str_Spec Obj_Model.

(** A map from names to values, newest first. *)
Definition omap := list (list Z * Z).
Fixpoint lookup (m : omap) (n : list Z) : option Z :=
  match m with
  | [] => None
  | (k, v) :: r => if bytes_eqb k n then Some v else lookup r n
  end.
Fixpoint replace (m : omap) (n : list Z) (v : Z) : omap :=
  match m with
  | [] => []
  | (k, w) :: r => if bytes_eqb k n then (k, v) :: r else (k, w) :: replace r n v
  end.
(** Setting keeps the position of an existing name and puts a new one in front. *)
Definition mput (m : omap) (n : list Z) (v : Z) : omap :=
  match lookup m n with Some _ => replace m n v | None => (n, v) :: m end.
Fixpoint mremove (m : omap) (n : list Z) : omap :=
  match m with
  | [] => []
  | (k, w) :: r => if bytes_eqb k n then r else (k, w) :: mremove r n
  end.

(** A store: object address to map. *)
Definition store := Z -> option omap.
Definition supd (M : store) (o : Z) (m : omap) : store := fun x => if x =? o then Some m else M x.
Definition sempty : store := fun _ => None.

(** Value [v] is a reference (object or array) to the object at [o]. *)
Definition refers (v o : Z) : Prop :=
  0 < o < 2 ^ 48 /\ (v = 65521 * 2 ^ 48 + o \/ v = 65532 * 2 ^ 48 + o).

(** Names the engine's comparison does not alias. *)
Definition name_ok (n : list Z) : Prop := bytes_ok n /\ Forall (fun c => c <> 0) n /\ zlen n < 2 ^ 31.

(** [kv] is the name [n]: it holds the bytes, is NUL terminated, and short names are stored
    inline (as mjs_mk_string with copying makes them). *)
Definition name_of (st : strs) (ext : extmem) (kv : Z) (n : list Z) : Prop :=
  holds st ext kv n /\ nul_terminated st ext kv n /\ (zlen n <= 5 -> mk_string st n = OK (st, kv)).

(** The cells linked from address [p]. *)
Fixpoint cells (h : heap) (p : Z) (l : list (Z * pcell)) : Prop :=
  match l with
  | [] => p = 0
  | (a, c) :: r => p = a /\ a <> 0 /\ aget (h_props h) a = Some c /\ cells h (pc_next c) r
  end.
Definition entry_rep (st : strs) (ext : extmem) (x : Z * pcell) (e : list Z * Z) : Prop :=
  name_of st ext (pc_name (snd x)) (fst e) /\ pc_val (snd x) = snd e.
Definition obj_rep (h : heap) (ext : extmem) (o : Z) (cs : list (Z * pcell)) (m : omap) : Prop :=
  exists first, aget (h_objs h) o = Some first /\ cells h first cs /\
                Forall2 (entry_rep (h_st h) ext) cs m.

(** The heap represents the store: every object has its own cells. *)
Definition hrep (h : heap) (ext : extmem) (M : store) : Prop :=
  exists C : Z -> list (Z * pcell),
    (forall o, M o = None <-> aget (h_objs h) o = None) /\
    (forall o m, M o = Some m ->
       obj_rep h ext o (C o) m /\ NoDup (map fst m) /\ Forall (fun e => name_ok (fst e)) m) /\
    (forall o1 o2 m1 m2 a, o1 <> o2 -> M o1 = Some m1 -> M o2 = Some m2 ->
       In a (map fst (C o1)) -> In a (map fst (C o2)) -> False) /\
    (forall a c, aget (h_props h) a = Some c -> 0 < a < h_next h) /\
    (forall o p, aget (h_objs h) o = Some p -> 0 < o < h_next h).

(** Room for [k] more bytes of cells and strings. *)
Definition small (h : heap) (k : Z) : Prop :=
  0 < h_next h /\ h_next h + k <= 2 ^ 47 /\ zlen (so (h_st h)) + k < 2 ^ 48.

(** Histories of API calls on objects, addressed by order of creation. *)
Inductive obj_op := ONew | OGet (i : nat) (n : list Z) | OSet (i : nat) (n : list Z) (v : Z)
  | ODel (i : nat) (n : list Z) | OKeys (i : nat).
(** What a call returns. *)
Inductive obj_out := RUnit | RVal (v : Z) | RErr (e : Z) | RNames (l : list (list Z)).

(** The specification: a list of maps. *)
Fixpoint list_upd {A} (l : list A) (i : nat) (x : A) : list A :=
  match l, i with
  | [], _ => []
  | _ :: r, O => x :: r
  | y :: r, S k => y :: list_upd r k x
  end.
Definition spec_op (S : list omap) (op : obj_op) : list omap * obj_out :=
  match op with
  | ONew => (S ++ [[]], RUnit)
  | OGet i n => (S, RVal (match lookup (nth i S []) n with Some v => v | None => V_UNDEFINED end))
  | OSet i n v => (list_upd S i (mput (nth i S []) n v), RErr 0)
  | ODel i n => (list_upd S i (mremove (nth i S []) n),
                 RErr (match lookup (nth i S []) n with Some _ => 0 | None => -1 end))
  | OKeys i => (S, RNames (map fst (nth i S [])))
  end.
Fixpoint spec_run (S : list omap) (ops : list obj_op) : list obj_out :=
  match ops with
  | [] => []
  | op :: r => let '(S1, o) := spec_op S op in o :: spec_run S1 r
  end.

(** The implementation: [os] are the object values created so far. Keys are collected with
    mjs_next until it returns undefined. *)
Fixpoint keys_loop (fuel : nat) (h : heap) (ext : extmem) (obj it : Z) : R (list (list Z)) :=
  match fuel with
  | O => NoFuel
  | S f =>
    '(k, it') <- obj_next h obj it ;;
    if k =? V_UNDEFINED then OK []
    else d <- str_bytes (h_st h) ext k ;; r <- keys_loop f h ext obj it' ;; OK (d :: r)
  end.
Definition impl_op (h : heap) (ext : extmem) (os : list Z) (op : obj_op) : R (heap * list Z * obj_out) :=
  match op with
  | ONew => '(h1, v) <- mk_object h ;; OK (h1, os ++ [v], RUnit)
  | OGet i n => v <- obj_get h ext (nth i os V_UNDEFINED) n ;; OK (h, os, RVal v)
  | OSet i n v => '(h1, e) <- obj_set h ext (nth i os V_UNDEFINED) n v ;; OK (h1, os, RErr e)
  | ODel i n => '(h1, e) <- obj_del h ext (nth i os V_UNDEFINED) n ;; OK (h1, os, RErr e)
  | OKeys i => l <- keys_loop (S (pfuel h)) h ext (nth i os V_UNDEFINED) V_UNDEFINED ;; OK (h, os, RNames l)
  end.
Fixpoint impl_run (h : heap) (ext : extmem) (os : list Z) (ops : list obj_op) : R (list obj_out) :=
  match ops with
  | [] => OK []
  | op :: r => '(h1, os1, o) <- impl_op h ext os op ;; l <- impl_run h1 ext os1 r ;; OK (o :: l)
  end.
(** Well-formed histories: only objects created earlier are used; names are not aliased. *)
Fixpoint ops_ok (k : nat) (ops : list obj_op) : Prop :=
  match ops with
  | [] => True
  | ONew :: r => ops_ok (S k) r
  | OGet i n :: r => (i < k)%nat /\ name_ok n /\ ops_ok k r
  | OSet i n _ :: r => (i < k)%nat /\ name_ok n /\ ops_ok k r
  | ODel i n :: r => (i < k)%nat /\ name_ok n /\ ops_ok k r
  | OKeys i :: r => (i < k)%nat /\ ops_ok k r
  end.
Definition op_cost (op : obj_op) : Z :=
  match op with OSet _ n _ => 64 + zlen n | _ => 64 end.
Fixpoint ops_cost (ops : list obj_op) : Z :=
  match ops with [] => 0 | op :: r => op_cost op + ops_cost r end.

(** Prototype lookup in the store: value [v] has or inherits [x] under name [n], in [k] steps. *)
Inductive proto_finds (M : store) (n : list Z) : Z -> Z -> nat -> Prop :=
| PF_own v o m x : refers v o -> M o = Some m -> lookup m n = Some x -> proto_finds M n v x 1
| PF_end v o m : refers v o -> M o = Some m -> lookup m n = None -> lookup m proto_name = None ->
    proto_finds M n v V_UNDEFINED 1
| PF_other v : is_object v = false -> proto_finds M n v V_UNDEFINED 1
| PF_up v o m pv x k : refers v o -> M o = Some m -> lookup m n = None -> lookup m proto_name = Some pv ->
    proto_finds M n pv x k -> proto_finds M n v x (S k).
(** An endless prototype chain without the name. *)
Definition endless_chain (M : store) (n : list Z) (path : nat -> Z) : Prop :=
  forall i, exists o m, refers (path i) o /\ M o = Some m /\ lookup m n = None /\
                        lookup m proto_name = Some (path (S i)).

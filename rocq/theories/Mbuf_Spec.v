(** Specification of growable buffers: a plain list of bytes. *)
From Verif Require Import Base Mbuf_Model.

(** [mspec l o v l']: on contents [l] the call [o] may return [v] and leave [l'].
    A refused insertion (return 0 for a non-empty insertion) changes nothing. *)
Inductive mspec (l : list Z) : mbuf_op -> Z -> list Z -> Prop :=
| ms_insert a b d : l = a ++ b -> mspec l (MInsert (zlen a) d) (zlen d) (a ++ d ++ b)
| ms_insert_fail off d : mspec l (MInsert off d) 0 l
| ms_append d : mspec l (MAppend d) (zlen d) (l ++ d)
| ms_append_fail d : mspec l (MAppend d) 0 l
| ms_appendfree p d : mspec l (MAppendFree p d) (zlen d) (l ++ d)
| ms_appendfree_fail p d : l <> [] -> mspec l (MAppendFree p d) 0 l
| ms_remove n a b : l = a ++ b -> zlen a = n -> mspec l (MRemove n) 0 b
| ms_remove_skip n : n <= 0 \/ zlen l < n -> mspec l (MRemove n) 0 l
| ms_clear : mspec l MClear 0 []
| ms_resize n : mspec l (MResize n) 0 l
| ms_trim : mspec l MTrim 0 l
| ms_free : mspec l MFree 0 [].

Inductive mspec_run : list Z -> list mbuf_op -> list Z -> list Z -> Prop :=
| mr_nil l : mspec_run l [] [] l
| mr_cons l o v l1 os vs l2 :
    mspec l o v l1 -> mspec_run l1 os vs l2 -> mspec_run l (o :: os) (v :: vs) l2.

(** Call sequences that respect the API's preconditions: insertion offsets inside
    the contents (mbuf.c:73 asserts it), non-negative sizes. *)
Definition op_ok (len : Z) (o : mbuf_op) : Prop :=
  match o with
  | MInsert off _ => 0 <= off <= len
  | MRemove n | MResize n => 0 <= n
  | MAppendFree p _ => 0 < p
  | _ => True
  end.

(** Allocators return non-null addresses. *)
Definition alloc_ok (al : allocator) : Prop :=
  forall n p f, al n = Some (p, f) -> 0 < p.

(** What every call of a history must satisfy: non-negative arguments, an adopted
    block with a real address, allocators returning non-null. *)
Definition op_sane (o : mbuf_op) : Prop :=
  match o with
  | MInsert off _ => 0 <= off
  | MRemove n | MResize n => 0 <= n
  | MAppendFree p _ => 0 < p
  | _ => True
  end.
Definition ops_ok (ops : list (mbuf_op * allocator * allocator)) : Prop :=
  Forall (fun t => op_sane (fst (fst t)) /\ alloc_ok (snd (fst t)) /\ alloc_ok (snd t)) ops.

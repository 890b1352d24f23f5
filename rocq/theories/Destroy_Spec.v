(** What collections and mjs_destroy must release. *)
From Verif Require Import Base Value_Model Gc_Model Gc_Spec.

(** The signature in the cell [c] of the arena of FFI signatures has been made and not yet
    collected. *)
Definition in_use (g : gstate) (fls : list Z) (c : Z) : Prop := In c (acells (g_sig g)) /\ ~ In c fls.
(** [ws] are the blocks held by the signatures that satisfy [P], each signature once. The first word of a
    signature is the pointer to its block (the signature of its callback), or NULL. *)
Definition blocks_of (m : mem) (P : Z -> Prop) (ws : list Z) : Prop :=
  exists cs, NoDup cs /\ (forall c, In c cs <-> P c /\ m c <> Some 0) /\ Forall2 (fun c w => m c = Some w) cs ws.
(** Only signatures have a destructor (mjs_core.c:98-104). *)
Definition dtors (g : gstate) : Prop := a_dtor (g_obj g) = false /\ a_dtor (g_prop g) = false /\ a_dtor (g_sig g) = true.
(** Different signatures have different blocks. *)
Definition own_blocks (g : gstate) (fls : list Z) : Prop :=
  forall c d w, in_use g fls c -> in_use g fls d -> g_mem g c = Some w -> g_mem g d = Some w -> w <> 0 -> c = d.
(** Addresses of the three arenas *)
Definition in_any (g : gstate) (x : Z) : Prop := in_arena (g_obj g) x \/ in_arena (g_prop g) x \/ in_arena (g_sig g) x.
(** [g'] is [g] after some number of collections, with nothing done in between. *)
Inductive collections : gstate -> gstate -> Prop :=
| cs_none g : collections g g
| cs_more g f g1 g2 : mjs_gc f g = OK g1 -> collections g1 g2 -> collections g g2.

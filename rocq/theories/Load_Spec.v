(** Specification of loading files: the frame of a running C function, the scopes a loaded file
    runs in, and which files an engine has loaded. *)
From Verif Require Import Base Value_Model Bcode_Model Vm_Model Expr_Spec Lang_Spec Lang_Spec2 Lang_Spec3.

(** A C function is running: its arguments are [xs], [f] is the function itself, [base] what
    was on the data stack before the call. *)
Definition called (m : vm) (xs : list Z) (f : Z) (base C : list Z) : Prop :=
  sk_live (m_stack m) = rev xs ++ f :: base /\ sk_live (m_call m) = vnum (zlen base + 1) :: C /\ zlen base + 1 < 2 ^ 31.
(** It has given [r]: the arguments are gone, nothing else has changed on the stacks. *)
Definition gave (m m' : vm) (base : list Z) (r : Z) : Prop :=
  sk_live (m_stack m') = r :: base /\ sk_live (m_call m') = sk_live (m_call m) /\ sk_live (m_arg m') = sk_live (m_arg m) /\
  sk_live (m_scopes m') = sk_live (m_scopes m) /\ sk_live (m_loops m') = sk_live (m_loops m) /\ m_mem m' = m_mem m.

(** The scopes in which load(path, global, ...) runs the file: the object [global] is the
    innermost scope. (An array as [global] is not covered.) *)
Definition load_scopes (sc : list nat) (vs : list val) : option (list nat) :=
  match vs with
  | _ :: VObj i :: _ => Some (i :: sc)
  | _ :: VArr _ :: _ => None
  | _ => Some sc
  end.
Definition has_global (vs : list val) : bool := match vs with _ :: VObj _ :: _ => true | _ => false end.
Definition no_nul (l : list Z) : Prop := Forall (fun c => c <> 0) l.

(** No piece of code has this file name. *)
Definition other_name (path : list Z) (bp : part) : Prop := exists n, bcode_filename bp = OK n /\ n <> path.
Definition unknown (cd : code) (path : list Z) : Prop := Forall (other_name path) (c_parts cd).
(** [bp] is the program [p], and the oldest piece of code with its file name. *)
Definition known (cd : code) (p : prog) (bp : part) : Prop :=
  well_formed p /\ compiles p (bp_data bp) /\ part_of cd bp /\
  exists l r, c_parts cd = l ++ bp :: r /\ Forall (other_name (g_path p)) l.

(** mjs_load is called with the arguments [xs], which are the values [vs]: the first is the
    file name [path]. *)
Definition load_call (m : vm) (W : world) (s : state) (sc : list nat) (th : val) (xs : list Z) (vs : list val) (base path : list Z) (sc' : list nat) : Prop :=
  (exists f C, called m xs f base C) /\ Forall2 (vrep (m_code m) (m_ext m) W) xs vs /\ in_state m W s sc th /\
  (exists r, vs = VPrim (AStr path) :: r) /\ no_nul path /\ load_scopes sc vs = Some sc'.

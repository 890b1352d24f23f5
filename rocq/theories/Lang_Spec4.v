(** Specification of calls from C: mjs_apply of functions made by scripts. *)
From Verif Require Import Base Value_Model Str_Model Ops_Model Obj_Model TokNum_Model Vm_Model Parse_Model Run_Model Lang_Spec Lang_Spec3.

(** What the host gets from calling the function [f] with the value [th] of [this] and the
    arguments [vs], in the scopes [sc]: the value that is returned. A function that ends without
    a return statement gives itself (mjs_apply keeps the function in the slot of the result;
    OP_CALL puts undefined there). *)
Definition host_call (rounds depth : nat) (sc : list nat) (f th : val) (vs : list val) (s : state) : option (val * state) :=
  match f with
  | VFun ps b =>
    let? (i, s) := new_cell s in
    let? s := bind_pars i ps vs s in
    let? (o, s) := ex_list (at_depth rounds depth) (i :: sc) th b undef s in
    match o with ONormal _ => Some (f, s) | OReturn v => Some (v, s) | _ => None end
  | _ => None
  end.

(** A host that runs programs and calls functions: a function, the value of [this] and the
    arguments are results of earlier steps, by number. *)
Inductive act := Run (p : prog) | Call (f th : nat) (vs : list nat).
Fixpoint all_of {A} (l : list A) (ns : list nat) : option (list A) :=
  match ns with
  | [] => Some []
  | n :: ns => let? x := nth_error l n in let? r := all_of l ns in Some (x :: r)
  end.
(** The interpreter: [vs] are the values so far, the oldest first. *)
Fixpoint run_acts (rounds depth : nat) (sc : list nat) (th : val) (l : list act) (vs : list val) (s : state) : option (list val * state) :=
  match l with
  | [] => Some (vs, s)
  | Run p :: l => let? (v, s) := run_program rounds depth sc th (g_tree p) s in run_acts rounds depth sc th l (vs ++ [v]) s
  | Call f t ns :: l =>
    let? f := nth_error vs f in let? t := nth_error vs t in let? xs := all_of vs ns in
    let? (v, s) := host_call rounds depth sc f t xs s in run_acts rounds depth sc th l (vs ++ [v]) s
  end.
(** The engine, as long as there is no error. *)
Fixpoint exec_acts (fuel : nat) (w : host) (m : vm) (l : list act) (rs : list Z) : R (vm * list Z) :=
  match l with
  | [] => OK (m, rs)
  | Run p :: l => '(m, r) <- mjs_exec fuel w m (g_path p) (g_src p) ;;
                  if m_err m =? E_OK then exec_acts fuel w m l (rs ++ [r]) else Abort
  | Call f t ns :: l =>
    match nth_error rs f, nth_error rs t, all_of rs ns with
    | Some f, Some t, Some xs => '(m, r) <- apply fuel w m f t xs ;;
                                 if m_err m =? E_OK then exec_acts fuel w m l (rs ++ [r]) else Abort
    | _, _, _ => Abort
    end
  end.
(** The programs of a session. *)
Fixpoint programs (l : list act) : list prog :=
  match l with [] => [] | Run p :: l => p :: programs l | Call _ _ _ :: l => programs l end.
(** No call has more than [n] arguments. *)
Definition few (n : nat) (l : list act) : Prop := Forall (fun a => match a with Call _ _ ns => (length ns <= n)%nat | Run _ => True end) l.

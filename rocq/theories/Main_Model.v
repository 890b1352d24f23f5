(** Model of main (src/mjs_main.c:16-59) over any engine. *)
From Verif Require Import Base TokNum_Model Txt_Model.

(** The engine: a state, values, and what the calls of main do; mjs_exec and mjs_exec_file give an error code and a value. *)
Record engine := { St : Type; Val : Type; undef : Val; set_level : St -> list Z -> St; set_jsc : St -> St;
  exec : St -> list Z -> St * Z * Val; exec_file : St -> list Z -> St * Z * Val }.
(** How main ends: the result printed, the error printed, the usage, or the unknown flag; with the state destroyed at the end. *)
Inductive ending (E : engine) := Shown (st : St E) (v : Val E) | Failed (st : St E) | Usage | Unknown (a : list Z).
Arguments Shown {E}. Arguments Failed {E}. Arguments Usage {E}. Arguments Unknown {E}.

Definition text_is (a b : list Z) : bool := if list_eq_dec Z.eq_dec a b then true else false.
(** mjs_main.c:46-58 *)
Fixpoint main_files (E : engine) (argv : list (list Z)) (st : St E) (err : Z) (res : Val E) : ending E * Z :=
  if err =? 0 then
    match argv with
    | [] => (Shown st res, 0)
    | a :: r => let '(st, err, res) := exec_file E st a in main_files E r st err res
    end
  else (Failed st, 0).
(** mjs_main.c:22-45. [argv] is argv from 1, each text without its NUL; argv[i][0] of the empty text is the NUL. *)
Fixpoint main_opts (E : engine) (argv : list (list Z)) (st : St E) (err : Z) (res : Val E) : ending E * Z :=
  match argv with
  | [] => main_files E [] st err res
  | a :: r =>
    if (hd 0 a =? 45) && (err =? 0) then
      let rest := if text_is a (bs "-j") then main_opts E r (set_jsc E st) err res
                  else if text_is a (bs "-h") || text_is a (bs "--help") then (Usage, 0)
                  else (Unknown a, 1) in
      match r with
      | x :: r' =>
        if text_is a (bs "-l") then main_opts E r' (set_level E st x) err res
        else if text_is a (bs "-e") then let '(st, err, res) := exec E st x in main_opts E r' st err res
        else if text_is a (bs "-f") then let '(st, err, res) := exec_file E st x in main_opts E r' st err res
        else rest
      | [] => rest
      end
    else main_files E argv st err res
  end.
Definition main (E : engine) (st : St E) (argv : list (list Z)) : ending E * Z := main_opts E argv st 0 (undef E).

(** Files and blocks in use after some calls. *)
From Verif Require Import Base File_Model.

Fixpoint count (f : event -> Z) (tr : list event) : Z := match tr with [] => 0 | x :: r => f x + count f r end.
Definition files_open (tr : list event) : Z := count (fun x => match x with Opened => 1 | Closed => -1 | _ => 0 end) tr.
Definition blocks_live (tr : list event) : Z := count (fun x => match x with Malloced _ => 1 | Freed => -1 | _ => 0 end) tr.
(** ftell answers a position *)
Definition tells (e : env) : Prop := 0 <= e_tell e < 2 ^ 63.
(** All calls succeed, and the file does not shrink between ftell and fread. *)
Definition readable (e : env) : Prop :=
  e_open e = true /\ e_seek e = true /\ e_malloc e (e_tell e + 1) = true /\
  (e_tell e = 0 \/ (e_rewind e = true /\ e_tell e <= zlen (e_bytes e))).
(** The file can be opened, but fewer bytes than ftell told can be read. *)
Definition shrunk (e : env) : Prop :=
  e_open e = true /\ e_seek e = true /\ e_malloc e (e_tell e + 1) = true /\ ~ readable e.

(** Command lines. *)
From Verif Require Import Base TokNum_Model Txt_Model Main_Model.

Inductive action := Level (x : list Z) | Jsc | Exec (x : list Z) | File (x : list Z).
Inductive last := Done | Help | Bad (a : list Z).
Definition is_flag (a : list Z) : Prop := exists t, a = 45 :: t.
Definition takes_text (a : list Z) (x : list Z) (c : action) : Prop :=
  (a = bs "-l" /\ c = Level x) \/ (a = bs "-e" /\ c = Exec x) \/ (a = bs "-f" /\ c = File x).
(** Flags with their texts first, then files *)
Inductive command_line : list (list Z) -> list action -> last -> Prop :=
| cl_text a x c r l e : takes_text a x c -> command_line r l e -> command_line (a :: x :: r) (c :: l) e
| cl_jsc r l e : command_line r l e -> command_line (bs "-j" :: r) (Jsc :: l) e
| cl_help a r : a = bs "-h" \/ a = bs "--help" -> command_line (a :: r) [] Help
| cl_bad a r : is_flag a -> ~ In a [bs "-j"; bs "-h"; bs "--help"] -> r = [] \/ ~ In a [bs "-l"; bs "-e"; bs "-f"] -> command_line (a :: r) [] (Bad a)
| cl_files r : (forall a r', r = a :: r' -> ~ is_flag a) -> command_line r (map File r) Done.
(** Actions are performed up to the first that fails; the value is that of the last program. *)
Inductive performs (E : engine) : St E -> Val E -> list action -> St E -> Z -> Val E -> Prop :=
| pf_nil st v : performs E st v [] st 0 v
| pf_level st v x l st' n v' : performs E (set_level E st x) v l st' n v' -> performs E st v (Level x :: l) st' n v'
| pf_jsc st v l st' n v' : performs E (set_jsc E st) v l st' n v' -> performs E st v (Jsc :: l) st' n v'
| pf_exec st v x l st1 v1 st' n v' : exec E st x = (st1, 0, v1) -> performs E st1 v1 l st' n v' -> performs E st v (Exec x :: l) st' n v'
| pf_exec_fails st v x l st1 n v1 : exec E st x = (st1, n, v1) -> n <> 0 -> performs E st v (Exec x :: l) st1 n v1
| pf_file st v x l st1 v1 st' n v' : exec_file E st x = (st1, 0, v1) -> performs E st1 v1 l st' n v' -> performs E st v (File x :: l) st' n v'
| pf_file_fails st v x l st1 n v1 : exec_file E st x = (st1, n, v1) -> n <> 0 -> performs E st v (File x :: l) st1 n v1.
Definition ends (E : engine) (e : last) (st : St E) (n : Z) (v : Val E) (r : ending E * Z) : Prop :=
  (n <> 0 -> r = (Failed st, 0)) /\
  (n = 0 -> r = match e with Done => (Shown st v, 0) | Help => (Usage, 0) | Bad a => (Unknown a, 1) end).

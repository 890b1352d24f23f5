(** Specification of the line map and of the layout of a committed part. *)
From Verif Require Import Base Varint_Model.

(** A line map is a list of (offset, line) pairs written as varints. *)
Definition map_bytes (es : list (Z * Z)) : list Z :=
  concat (map (fun e => varint_bytes (fst e) ++ varint_bytes (snd e)) es).
Definition entry_ok (e : Z * Z) : Prop := 0 <= fst e < 2 ^ 31 /\ 0 <= snd e < 2 ^ 31.

(** The line recorded by the last of the entries, line 1 if there is none. *)
Definition last_line (es : list (Z * Z)) : Z := snd (last es (0, 1)).

(** A part: header byte, total size, code offset and map offset, the NUL-terminated file
    name, the code, the map's length and the map. *)
Definition layout (hd total : Z) (fname bytecode : list Z) (es : list (Z * Z)) : list Z :=
  [hd] ++ le_bytes 4 total ++ le_bytes 4 (12 + zlen fname + 1) ++
  le_bytes 4 (12 + zlen fname + 1 + zlen bytecode) ++ fname ++ [0] ++ bytecode ++
  varint_bytes (zlen (map_bytes es)) ++ map_bytes es.
(** Where the instruction bytes of a part laid out like this start. *)
Definition code_start (fname : list Z) : Z := 13 + zlen fname + 1.

(** The entries that a sequence of emissions (line, bytes) leaves: one for each emission on a
    line beyond all earlier ones, at the position where it was emitted. *)
Fixpoint line_entries (last pos : Z) (es : list (Z * list Z)) : list (Z * Z) :=
  match es with
  | [] => []
  | (l, d) :: es => if last <? l then (pos, l) :: line_entries l (pos + zlen d) es
                    else line_entries last (pos + zlen d) es
  end.

(** C39, C41, C64: quoting, the JSON parser, and JSON.parse. *)
From Verif Require Import Base BaseFacts Value_Model Value_Spec Value_Proofs Str_Model Str_Spec Str_Proofs Txt_Model Num_Model SUtil_Model
  Obj_Model Obj_Spec Obj_Proofs Obj_Proofs2 Arr_Model Arr_Spec
  Json_Model Json_Spec Json_Proofs Json_Proofs2 Json_Proofs3 Json_Proofs4.

Definition jext : extmem := fun _ => 0.
Definition jrep (n : nat) (l : list Z) : list Z := List.concat (repeat l n).

(** C39: for every string and every buffer size, snquote stores exactly the part of the quoted
    text that fits and a NUL, never more than [size] bytes, and returns the whole length. *)
Theorem snquote_bounded : forall size s, 0 <= size -> bytes_ok s -> zlen (quoted s) < 2 ^ 31 ->
  snquote size s = (clipped size (quoted s), zlen (quoted s)) /\ zlen (clipped size (quoted s)) <= size.
Proof.
  intros size s H B L. split; [apply snquote_spec; assumption|]. unfold clipped. destruct (size =? 0) eqn:E; [unfold zlen; cbn; lia|].
  rewrite zlen_app. unfold zlen at 1. rewrite firstn_length. unfold zlen. cbn [length]. lia.
Qed.
Print Assumptions snquote_bounded.
Example snquote_bounded_example :
  snquote 8 (bs "a" ++ [34; 10; 1]) = (bs """a\""\n\" ++ [0], 13).
Proof. reflexivity. Qed.

(** The quoted text of UTF-8 bytes without vertical tabs is a document for those bytes, and
    JSON.parse makes a string with exactly those bytes of it. *)
Theorem quoted_text_decodes : forall s, utf8 s -> ~ In 11 s ->
  denotes (TStr s) (quoted s) /\ unescape (quote_bytes s) = UDone s.
Proof.
  intros s U N. destruct (quote_items s U N) as (l & F & E1 & E2). split.
  - unfold quoted. rewrite <- E1. rewrite <- E2 at 1. apply D_str. assumption.
  - rewrite <- E1, <- E2 at 1. rewrite E2 at 1. rewrite <- E2. apply unescape_items. assumption.
Qed.
Print Assumptions quoted_text_decodes.
Example quoted_text_example :
  utf8 ([34; 92; 9; 31] ++ [226; 130; 172]) /\ ~ In 11 ([34; 92; 9; 31] ++ [226; 130; 172]) /\
  quoted ([34; 92; 9; 31] ++ [226; 130; 172]) = bs """\""\\\t\u001f" ++ [226; 130; 172; 34].
Proof.
  split; [|split; [cbn; intuition discriminate|reflexivity]].
  apply (U_cons [34]); [constructor; lia|]. apply (U_cons [92]); [constructor; lia|]. apply (U_cons [9]); [constructor; lia|].
  apply (U_cons [31]); [constructor; lia|]. apply (U_cons [226; 130; 172] []); [|constructor]. constructor; unfold cont; lia.
Qed.
(** Printable ASCII text is of that kind. *)
Theorem printable_text_decodes : forall s, Forall (fun c => 32 <= c < 127) s -> utf8 s /\ ~ In 11 s.
Proof.
  intros s F. split.
  - induction F as [|c s Hc _ IH]; [constructor|]. apply (U_cons [c]); [constructor; lia|assumption].
  - intros I. rewrite Forall_forall in F. specialize (F 11 I). lia.
Qed.
Print Assumptions printable_text_decodes.
(** A vertical tab is written as an escape that JSON.parse rejects: no string with one comes back. *)
Theorem quoted_vertical_tab_rejected : forall s, bytes_ok s -> In 11 s -> unescape (quote_bytes s) = UErr J_INVALID.
Proof. exact unescape_quote_vt. Qed.
Print Assumptions quoted_vertical_tab_rejected.
Theorem quoted_text_decodes_refuted : exists s,
  utf8 s /\ json_parse heap_init jext (quoted s) = OK (heap_init, None, true).
Proof. exists [65; 11]. split; [|reflexivity]. apply (U_cons [65]); [constructor; lia|]. apply (U_cons [11] []); [constructor; lia|constructor]. Qed.
Print Assumptions quoted_text_decodes_refuted.
(** Nor does a string that is not UTF-8: its last byte swallows the quote. *)
Theorem quoted_bytes_decode_refuted : exists s,
  bytes_ok s /\ json_parse heap_init jext (quoted s) = OK (heap_init, None, true).
Proof. exists [65; 195]. split; [|reflexivity]. repeat constructor; unfold is_byte; lia. Qed.
Print Assumptions quoted_bytes_decode_refuted.

(** C41: on every text without NULs that does not end in a backslash, the parser terminates
    without reading outside the text; it returns an error code or the number of bytes it
    consumed. If the byte behind the text is readable, the backslash is harmless. *)
Theorem json_walk_total : forall guard txt, Forall (fun c => c <> 0) txt -> zlen txt < 2 ^ 31 ->
  (guard = None -> last txt 0 <> 92) ->
  exists evs rc, json_walk guard txt = OK (evs, rc) /\ (rc = -1 \/ rc = -2 \/ 0 < rc <= zlen txt).
Proof. exact walk_total. Qed.
Print Assumptions json_walk_total.
(** What the parser does is independent of the bytes behind the text. *)
Theorem json_walk_independent : forall guard txt r, json_walk None txt = OK r -> json_walk guard txt = OK r.
Proof. exact walk_guard. Qed.
Print Assumptions json_walk_independent.
Example json_walk_example :
  json_walk None (bs "[1, {a:""x""}") = OK ([EvArr None; EvNum (Some (bs "0")) (bs "1, {a:""x""}") 1; EvObj (Some (bs "1"));
     EvStr (Some (bs "a")) (bs "x"); EvObjEnd], -2) /\
  exists evs, json_walk None (bs "[true] ,") = OK (evs, 6).
Proof. split; [reflexivity|]. eexists. reflexivity. Qed.
(** Without the condition on the last byte it does read behind the text. *)
Theorem json_walk_overread_refuted : exists txt, Forall (fun c => c <> 0) txt /\ json_walk None txt = UB.
Proof. exists [34; 92]. split; [repeat constructor; discriminate|reflexivity]. Qed.
Print Assumptions json_walk_overread_refuted.
(** With a NUL inside a key it reads before the path buffer. *)
Theorem json_walk_nul_refuted : exists txt g, json_walk (Some g) txt = UB /\ last txt 0 <> 92.
Proof.
  exists ([123; 34; 192; 0; 34; 58; 91] ++ jrep 10 [49; 44] ++ [49; 93; 125]), 0. split; [vm_compute; reflexivity|discriminate].
Qed.
Print Assumptions json_walk_nul_refuted.

(** C64: every document within the limits is parsed into a value representing its tree.
    Existing objects stay as they are; blanks may precede the document, and what follows
    it is ignored. *)
Theorem documents_are_parsed : forall h ext M w x tail t,
  hrep h ext M -> ws w -> denotes t x -> fits 0 t -> stops t tail ->
  zlen (w ++ x ++ tail) < 2 ^ 31 -> small h (300 * zlen x) ->
  exists h' M' v, json_parse h ext (w ++ x ++ tail) = OK (h', Some v, false) /\ hrep h' ext M' /\
    (forall o m, M o = Some m -> M' o = Some m) /\ grows (h_st h) (h_st h') /\ repr (h_st h') ext M' v t.
Proof. exact json_parse_doc. Qed.
Print Assumptions documents_are_parsed.
(** The same for JSON.parse applied to a string value. *)
Theorem json_parse_builtin : forall h ext M s w x tail t,
  hrep h ext M -> holds (h_st h) ext s (w ++ x ++ tail) -> ws w -> denotes t x -> fits 0 t -> stops t tail ->
  zlen (w ++ x ++ tail) < 2 ^ 31 -> small h (300 * zlen x) ->
  exists h' M' v, op_json_parse h ext s = OK (h', v, false) /\ hrep h' ext M' /\
    (forall o m, M o = Some m -> M' o = Some m) /\ grows (h_st h) (h_st h') /\ repr (h_st h') ext M' v t.
Proof.
  intros h ext M s w x tail t H Hs W D Fi St L S.
  destruct (json_parse_doc h ext M w x tail t H W D Fi St L S) as (h' & M' & v & E & R). exists h', M', v. split; [|exact R].
  pose proof Hs as (U & K & _). destruct (preds_kind s U) as (_ & _ & _ & _ & P & _).
  unfold op_json_parse. rewrite P, K. cbn [kind_eqb]. rewrite (holds_str_bytes _ _ _ _ Hs). cbn [bind]. rewrite E. reflexivity.
Qed.
Print Assumptions json_parse_builtin.

Definition ex_doc : list Z := bs "{""a"": [1,-2.5e1 ,""x\n""], ""b"":{}}".
Definition ex_tree : jt :=
  TObj [(bs "a", TArr [TNum (scale10 1 0); TNum (scale10 25 0 + 2 ^ 63); TStr [120; 10]]); (bs "b", TObj [])].
Lemma ws_nil : ws []. Proof. constructor. Qed.
Lemma ws_sp : ws [32]. Proof. repeat constructor. Qed.
Example documents_example :
  denotes ex_tree ex_doc /\ fits 0 ex_tree /\ stops ex_tree [] /\ hrep heap_init jext sempty /\
  small heap_init (300 * zlen ex_doc) /\ zlen ex_doc < 2 ^ 31.
Proof.
  split; [|split; [|split; [|split; [|split]]]].
  - assert (N1 : number (scale10 1 0 + 0) [49]).
    { apply (N_num false [49] [] [] [] [] 0); [repeat constructor; lia|discriminate|left; auto|left; auto]. }
    assert (N2 : number (scale10 25 0 + 2 ^ 63) [45; 50; 46; 53; 101; 49]).
    { apply (N_num true [50] [53] [46; 53] [49] [101; 49] 1); [repeat constructor; lia|discriminate| |].
      - right. split; [reflexivity|]. split; [repeat constructor; lia|discriminate].
      - right. exists 101, []. split; [left; reflexivity|]. split; [repeat constructor; lia|]. split; [discriminate|]. split; [left; auto|reflexivity]. }
    assert (S3 : denotes (TStr [120; 10]) [34; 120; 92; 110; 34]).
    { apply (D_str [SRaw [120]; SEsc 110]). constructor; [|constructor; [discriminate|constructor]].
      split; [constructor; lia|]. split; [discriminate|]. split; [discriminate|]. intros a Q. injection Q as <-. lia. }
    assert (PA : forall c, 97 <= c <= 98 -> plain [c]).
    { intros c Hc. apply (P_cons [c] []); [|constructor]. split; [constructor; lia|]. split; [intros Q; injection Q; lia|].
      split; [intros Q; injection Q; lia|]. intros a Q. injection Q as <-. lia. }
    assert (A : denotes (TArr [TNum (scale10 1 0); TNum (scale10 25 0 + 2 ^ 63); TStr [120; 10]])
                  (91 :: ([] ++ [49] ++ [] ++ 44 :: ([] ++ [45; 50; 46; 53; 101; 49] ++ [32] ++ 44 :: ([] ++ [34; 120; 92; 110; 34] ++ []))) ++ [93])).
    { apply D_arr. apply E_more; [apply ws_nil| |apply ws_nil|].
      - apply D_num. rewrite Z.add_0_r in N1. exact N1.
      - apply E_more; [apply ws_nil|apply D_num; exact N2|apply ws_sp|]. apply E_one; [apply ws_nil|exact S3|apply ws_nil]. }
    exact (D_obj _ _ (M_more [97] _ [] [] [32] _ [] _ _ ws_nil (PA 97 ltac:(lia)) ws_nil ws_sp A ws_nil
             (M_one [98] _ [32] [] [] _ [] ws_sp (PA 98 ltac:(lia)) ws_nil ws_nil (D_obj0 [] ws_nil) ws_nil))).
  - assert (NU : forall i, 0 <= i <= 2 -> SUtil_Spec.numeral 10 i [48 + i]).
    { intros i Hi. split; [discriminate|]. assert (C : i = 0 \/ i = 1 \/ i = 2) by lia.
      destruct C as [->|[->| ->]]; (split; [repeat constructor; unfold SUtil_Spec.is_digit_in; cbn; lia|split; [reflexivity|]]); cbn; congruence. }
    unfold ex_tree. cbn [fits]. change (zlen (bs "a")) with 1. change (zlen (bs "b")) with 1.
    split; [|split; [|exact I]].
    + split; [discriminate|]. split; [discriminate|]. split; [lia|].
      repeat split; [exists [48]|exists [49]|exists [50]]; (split; [apply (NU 0) || apply (NU 1) || apply (NU 2); lia|]);
        change (zlen [48]) with 1; change (zlen [49]) with 1; change (zlen [50]) with 1; split; try exact I; lia.
    + split; [discriminate|]. split; [discriminate|]. split; [lia|exact I].
  - exact I.
  - apply hrep_init.
  - vm_compute. split; [reflexivity|]. split; [discriminate|reflexivity].
  - vm_compute. reflexivity.
Qed.

(** The limits are needed. A number that ends the text is read past its end: *)
Theorem number_document_refuted : exists x d, number d x /\ json_parse heap_init jext x = UB.
Proof.
  exists [53], (scale10 5 0 + 0). split; [|reflexivity].
  apply (N_num false [53] [] [] [] [] 0); [repeat constructor; lia|discriminate|left; auto|left; auto].
Qed.
Print Assumptions number_document_refuted.
(** a member without a name is dropped: *)
Theorem empty_name_kept_refuted : exists x h v, x = bs "{"""":1}" /\
  json_parse heap_init jext x = OK (h, Some v, false) /\ obj_first h 4096 = OK 0.
Proof. do 3 eexists. split; [reflexivity|]. split; vm_compute; reflexivity. Qed.
Print Assumptions empty_name_kept_refuted.
(** the members of a member whose name ends in a full stop are moved into its parent: *)
Theorem dotted_name_kept_refuted : exists x h v,
  x = bs "{""a."":{""b"":true}}" /\ json_parse heap_init jext x = OK (h, Some v, false) /\
  own_property h jext v (bs "a.") = OK 0 /\ exists p, own_property h jext v (bs "b") = OK p /\ p <> 0.
Proof. do 3 eexists. split; [reflexivity|]. split; [vm_compute; reflexivity|]. split; [vm_compute; reflexivity|].
  eexists. split; [vm_compute; reflexivity|discriminate]. Qed.
Print Assumptions dotted_name_kept_refuted.
(** a path of 255 bytes makes the program abort: *)
Theorem long_path_refuted : exists x, json_parse heap_init jext x = Abort.
Proof. exists (bs "{" ++ jrep 254 (bs "k") ++ bs ":{a:1}}"). vm_compute. reflexivity. Qed.
Print Assumptions long_path_refuted.
(** elements inside 86 arrays overwrite each other (the innermost array keeps its last one): *)
Theorem deep_elements_refuted : exists x h v, x = jrep 86 (bs "[") ++ bs "true,false" ++ jrep 86 (bs "]") /\
  json_parse heap_init jext x = OK (h, Some v, false) /\
  forallb (fun c => pc_next (snd c) =? 0) (h_props h) = true.
Proof. do 3 eexists. split; [reflexivity|]. split; vm_compute; reflexivity. Qed.
Print Assumptions deep_elements_refuted.
(** escapes in names are not decoded: *)
Theorem escaped_names_refuted : exists x h v p, x = bs "{""a\""b"":true}" /\
  json_parse heap_init jext x = OK (h, Some v, false) /\
  own_property h jext v [97; 34; 98] = OK 0 /\ own_property h jext v [97; 92; 34; 98] = OK p /\ p <> 0.
Proof. do 4 eexists. split; [reflexivity|]. split; [vm_compute; reflexivity|]. split; [vm_compute; reflexivity|].
  split; [vm_compute; reflexivity|discriminate]. Qed.
Print Assumptions escaped_names_refuted.
(** Texts that are not documents are accepted: *)
Theorem only_documents_accepted_refuted : exists x h v, x = bs "{a:true b:[null true,]} junk" /\
  json_parse heap_init jext x = OK (h, Some v, false).
Proof. do 3 eexists. split; [reflexivity|]. vm_compute. reflexivity. Qed.
Print Assumptions only_documents_accepted_refuted.
(** and a code point above 255 yields undefined with an error set, though the text is a document: *)
Theorem wide_escape_refuted : exists x h, x = [34; 92; 117; 48; 49; 48; 48; 34] /\
  json_parse heap_init jext x = OK (h, Some V_UNDEFINED, true).
Proof. do 2 eexists. split; [reflexivity|]. vm_compute. reflexivity. Qed.
Print Assumptions wide_escape_refuted.

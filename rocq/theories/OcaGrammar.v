(** The OCAfile grammar.  Transcribes semantics/oca-file/src/ocafile.pest, rule by rule.
    Silent rules ([_{ }]) are definitions; the others are constructors of [srule].
    Simplification: the inner SCRIPTS token of [char] (113) is left out, nothing reads it. *)
From Verif Require Export Peg.

(** ocafile.pest lines 1-260: the names of the grammar's rules (the tokens of the parse tree). *)
Inductive srule :=
| Rmeta_attr_key | Rmeta_attr_value | Rmeta_key_pair | Rmeta_comment
| Rcomment | Rempty_line
| Rinner | Rescape | Runicode | Rsingle_quoted_inner | Rstring
| Rfrom | Radd | Rmodify | Rremove | Rchar | Rfrom_said
| Rlabel | Rmeta | Rinformation | Rcharacter_encoding | Rcharacter_encoding_props | Rformat | Rconformance
| Rconditional | Rcardinality | Rentry_code | Rentry | Runit | Rlink | Rattribute_framing
| Rframing_metadata_key | Rframing_metadata_value | Rframing_metadata_pair | Rframing_metadata
| Rattr_framing_key_pair | Rattr_framing_key_pairs
| Rurl | Rjson_key | Rjson_value | Rjson_pair | Rjson_object
| Rflagged_attrs | Rclassification | Rremove_classification | Rclassification_value
| Rattribute | Rremove_attribute | Rremove_meta | Rremove_label
| Rattr_key | Rprop_key | Rkey_value | Rkey_pair | Rattr_key_pairs | Rprop_key_pairs
| Runit_char | Runit_value | Runit_key_pair | Runit_attr_key_pairs
| Rentry_code_list | Rentry_code_object | Rentry_code_group_key | Rentry_code_key_value_pair
| Rentry_code_key_value | Rentry_code_key_pair | Rattr_entry_code_key_pairs
| Rentry_value | Rentry_key | Rentry_object | Rentry_key_value | Rentry_key_value_pair | Rentry_key_pair | Rattr_entry_key_pairs
| Rlist_value | Rbase_attr_type | Rarray_attr_type | Ralias | Rsaid | R_attr_type | Rattr_pair | Rattr_pairs
| Rlang | Rfile | REOI.

Section Grammar.
(** Non-ASCII letters, numbers and script characters (pest LETTER, NUMBER and the SCRIPTS of lines 88-112). *)
Variable wide : ascii -> bool.

Notation pe := (pe srule).
Notation "a ~> b" := (PSeq a b) (at level 42, right associativity).
Notation "a // b" := (PAlt a b) (at level 50, no associativity).
Let R (r : srule) : pe := PRul r.
Let L (s : string) : pe := PLit s.
Let I (s : string) : pe := PLitI s.

(** line 113 [char] *)
Definition char_c (c : ascii) : bool :=
  alpha_c c || digit_c c || is_c "." c || is_c "-" c || is_c "_" c || is_c "/" c || is_c ":" c || (Nat.leb 128 (nat_of_ascii c) && wide c).
(** lines 204 [attr_key], 205 [prop_key]: the characters of a key *)
Definition attr_key_c (c : ascii) : bool := alpha_c c || digit_c c || is_c "-" c || is_c "_" c || is_c "." c.
(** ocafile.pest line 205 *)
Definition prop_key_c (c : ascii) : bool := alpha_c c || digit_c c || is_c "-" c || is_c "_" c.
(** line 5 [ws] *)
Definition ws_c (c : ascii) : bool := is_c " " c || is_c TAB c.
(** line 18: the plain characters of a double-quoted text; line 23: of a single-quoted one *)
Definition dq_c (c : ascii) : bool := negb (is_c DQ c || is_c BSL c || Nat.eqb (nat_of_ascii c) 0 || Nat.eqb (nat_of_ascii c) 31).
(** ocafile.pest line 23 *)
Definition sq_c (c : ascii) : bool := negb (is_c "'" c || is_c BSL c || Nat.eqb (nat_of_ascii c) 0 || Nat.eqb (nat_of_ascii c) 31).
(** pest's NEWLINE, as excluded in lines 13, 60 *)
Definition not_nl_c (c : ascii) : bool := negb (is_c LF c || is_c CR c).

(** ocafile.pest line 5 *)
Definition g_ws : pe := PCls ws_c.
(** lines 14, 11 *)
Definition g_comment_line : pe := PStar g_ws ~> R Rcomment ~> POpt PNewline.
(** ocafile.pest line 11 *)
Definition g_meta_comment_line : pe := PStar g_ws ~> R Rmeta_comment ~> POpt PNewline.
(** lines 17, 22 *)
Definition g_double_quoted_string : pe := L (String DQ "") ~> R Rinner ~> L (String DQ "").
(** ocafile.pest line 22 *)
Definition g_single_quoted_string : pe := L "'" ~> R Rsingle_quoted_inner ~> L "'".
(** lines 28 [line_continuation], 32 [arg_ws] *)
Definition g_line_continuation : pe := L (String BSL "") ~> PStar g_ws ~> PNewline.
(** ocafile.pest line 32: one step of the repetition *)
Definition g_arg_ws1 : pe := g_ws // (g_line_continuation ~> PStar (g_comment_line // R Rempty_line)).
(** ocafile.pest line 32 *)
Definition g_arg_ws : pe := PPlus g_arg_ws1.
(** [arg_ws | NEWLINE], inline in ocafile.pest lines 185, 190, 191 *)
Definition g_arg_ws_nl : pe := g_arg_ws // PNewline.
(** lines 73-80 [commands] *)
Definition g_commands : pe := PAlts [R Rfrom; R Radd; R Rmodify; R Rremove] ~> POpt PNewline.
(** lines 118-138 [oca_object], 140-160 [remove_oca_object] *)
Definition g_oca_object : pe := PAlts [R Rmeta; R Rlabel; R Rattribute; R Rclassification; R Rinformation; R Runit; R Rcharacter_encoding;
  R Rcharacter_encoding_props; R Rformat; R Rconformance; R Rconditional; R Rcardinality; R Rentry_code; R Rentry; R Rlink; R Rattribute_framing; R Rflagged_attrs].
(** ocafile.pest lines 140-160 *)
Definition g_remove_oca_object : pe := PAlts [R Rremove_meta; R Rremove_label; R Rremove_attribute; R Rremove_classification; R Rinformation; R Runit; R Rcharacter_encoding;
  R Rcharacter_encoding_props; R Rformat; R Rconformance; R Rconditional; R Rcardinality; R Rentry_code; R Rentry; R Rlink; R Rattribute_framing; R Rflagged_attrs].
(** lines 162-163 *)
Definition g_attrs_key : pe := I "attrs" ~> g_arg_ws.
(** ocafile.pest line 163 *)
Definition g_props_key : pe := I "props" ~> g_arg_ws.
(** lines 243-249: references *)
Definition g_ref_said : pe := I "refs:" ~> R Rsaid.
(** ocafile.pest lines 243-249 *)
Definition g_ref_alias : pe := I "refn:" ~> R Ralias.
(** ocafile.pest lines 243-249 *)
Definition g_reference_type : pe := g_ref_said // g_ref_alias.
(** [key ~ arg_ws? ~ "=" ~ arg_ws? ~ value], the shape of the key pairs (lines 9, 181, 184, 207, 213, 251) *)
Definition g_eq (k v : pe) : pe := k ~> POpt g_arg_ws ~> L "=" ~> POpt g_arg_ws ~> v.
(** [(arg_ws? ~ pair ~ arg_ws?)+] (lines 208, 209, 214, 223, 231, 233) *)
Definition g_spaced (p : pe) : pe := PPlus (POpt g_arg_ws ~> p ~> POpt g_arg_ws).
(** " "* inline in ocafile.pest lines 216-229 *)
Definition g_spaces : pe := PStar (L " ").
(** Overlays without and with a language: lines 164-175 *)
Definition g_overlay (name : string) (key pairs : pe) : pe := I name ~> g_arg_ws ~> key ~> pairs.
(** ocafile.pest lines 164-166, 174 *)
Definition g_lang_overlay (name : string) (key pairs : pe) : pe := I name ~> g_arg_ws ~> R Rlang ~> g_arg_ws ~> key ~> pairs.

(** Lines 7-256, one entry per rule.  Rules nothing refers to (35-69, 234) are left out; SOI holds at the start of the text. *)
Definition sgrammar (r : srule) : mode * pe :=
  match r with
  | Rmeta_attr_key => (Compound, PAlts [L "name"; L "version"; L "precompiler"])
  | Rmeta_attr_value => (Compound, R Rstring // PPlus (R Rchar))
  | Rmeta_key_pair => (Atomic, g_eq (R Rmeta_attr_key) (R Rmeta_attr_value))
  | Rmeta_comment => (Atomic, L "--" ~> PStar g_ws ~> PStar (PNot PNewline ~> R Rmeta_key_pair))
  | Rcomment => (Atomic, L "#" ~> PStar (PNot PNewline ~> PAny))
  | Rempty_line => (Atomic, PStar g_ws ~> PNewline)
  | Rinner => (Atomic, PStar (PNot (PCls (fun c => negb (dq_c c))) ~> PAny) ~> POpt (R Rescape ~> R Rinner))
  | Rescape => (Atomic, L (String BSL "") ~> POpt (PAlts [L "b"; L "t"; L "n"; L "f"; L "r"; L (String DQ ""); L (String BSL ""); L "'"; R Runicode; PNewline]))
  | Runicode => (Atomic, (L "u" ~> PRep 4 (PCls hex_c)) // (L "U" ~> PRep 8 (PCls hex_c)))
  | Rsingle_quoted_inner => (Atomic, PStar (PNot (PCls (fun c => negb (sq_c c))) ~> PAny) ~> POpt (R Rescape ~> R Rsingle_quoted_inner))
  | Rstring => (Compound, g_single_quoted_string // g_double_quoted_string)
  | Rfrom => (Normal, I "from" ~> PStar g_ws ~> R Rfrom_said)
  | Radd => (Normal, I "add" ~> PStar g_arg_ws ~> g_oca_object)
  | Rmodify => (Normal, I "modify" ~> PPlus (R Rchar))
  | Rremove => (Normal, I "remove" ~> PStar g_arg_ws ~> g_remove_oca_object)
  | Rchar => (Normal, PCls char_c)
  | Rfrom_said => (Normal, PStar g_ws ~> PPlus (R Rchar))
  | Rlabel => (Normal, g_lang_overlay "label" g_attrs_key (R Rattr_key_pairs))
  | Rmeta => (Normal, g_lang_overlay "meta" g_props_key (R Rprop_key_pairs))
  | Rinformation => (Normal, g_lang_overlay "information" g_attrs_key (R Rattr_key_pairs))
  | Rcharacter_encoding => (Normal, g_overlay "character_encoding" g_attrs_key (R Rattr_key_pairs))
  | Rcharacter_encoding_props => (Normal, g_overlay "character_encoding" g_props_key (R Rprop_key_pairs))
  | Rformat => (Normal, g_overlay "format" g_attrs_key (R Rattr_key_pairs))
  | Rconformance => (Normal, g_overlay "conformance" g_attrs_key (R Rattr_key_pairs))
  | Rconditional => (Normal, g_overlay "condition" g_attrs_key (R Rattr_key_pairs))
  | Rcardinality => (Normal, g_overlay "cardinality" g_attrs_key (R Rattr_key_pairs))
  | Rentry_code => (Normal, g_overlay "entry_code" g_attrs_key (R Rattr_entry_code_key_pairs))
  | Rentry => (Normal, g_lang_overlay "entry" g_attrs_key (R Rattr_entry_key_pairs))
  | Runit => (Normal, g_overlay "unit" g_attrs_key (R Runit_attr_key_pairs))
  | Rlink => (Normal, I "link" ~> g_arg_ws ~> g_reference_type ~> g_arg_ws ~> g_attrs_key ~> R Rattr_key_pairs)
  | Rattribute_framing => (Normal, I "attr_framing" ~> g_arg_ws ~> R Rframing_metadata ~> g_arg_ws ~> g_attrs_key ~> PPlus (R Rattr_framing_key_pairs))
  | Rframing_metadata_key => (Compound, PAlts [L "id"; L "label"; L "location"; L "version"])
  | Rframing_metadata_value => (Compound, R Rstring // PPlus (R Rchar))
  | Rframing_metadata_pair => (Atomic, g_eq (R Rframing_metadata_key) (R Rframing_metadata_value))
  | Rframing_metadata => (Normal, R Rframing_metadata_pair ~> PStar (g_arg_ws ~> R Rframing_metadata_pair))
  | Rattr_framing_key_pair => (Atomic, g_eq (R Rattr_key) (R Rjson_object))
  | Rattr_framing_key_pairs => (Compound, PStar g_arg_ws ~> R Rattr_framing_key_pair ~> POpt g_arg_ws_nl)
  | Rurl => (Compound, R Rstring)
  | Rjson_key => (Compound, R Rstring)
  | Rjson_value => (Compound, PAlts [R Rstring; R Rurl; R Rjson_object])
  | Rjson_pair => (Compound, R Rjson_key ~> PStar g_arg_ws ~> L ":" ~> POpt g_arg_ws_nl ~> R Rjson_value ~> POpt (POpt g_arg_ws ~> L "," ~> POpt g_arg_ws_nl))
  | Rjson_object => (Compound, L "{" ~> PPlus (POpt g_arg_ws_nl ~> PStar g_arg_ws ~> R Rjson_pair ~> POpt g_arg_ws_nl) ~> PStar g_arg_ws ~> L "}")
  | Rflagged_attrs => (Normal, I "flagged_attributes" ~> g_arg_ws ~> R Rlist_value)
  | Rclassification => (Normal, I "classification" ~> g_arg_ws ~> R Rclassification_value)
  | Rremove_classification => (Normal, I "classification")
  | Rclassification_value => (Normal, R Rstring // PPlus (R Rchar))
  | Rattribute => (Normal, I "attribute" ~> PPlus (R Rattr_pairs))
  | Rremove_attribute => (Normal, I "attribute" ~> PStar (g_arg_ws ~> R Rattr_key))
  | Rremove_meta => (Normal, I "meta" ~> g_arg_ws ~> R Rlang ~> POpt (g_arg_ws ~> g_props_key ~> PPlus (R Rprop_key)))
  | Rremove_label => (Normal, I "label" ~> g_arg_ws ~> R Rlang ~> POpt (g_arg_ws ~> g_attrs_key ~> PPlus (R Rattr_key)))
  | Rattr_key => (Compound, PPlus (PCls attr_key_c))
  | Rprop_key => (Compound, PPlus (PCls prop_key_c))
  | Rkey_value => (Compound, R Rstring // PPlus (R Rchar))
  | Rkey_pair => (Atomic, g_eq (R Rattr_key) (R Rkey_value))
  | Rattr_key_pairs => (Compound, g_spaced (R Rkey_pair))
  | Rprop_key_pairs => (Compound, g_spaced (R Rkey_pair))
  | Runit_char => (Compound, PNot (L " ") ~> PNot PNewline ~> PAny)
  | Runit_value => (Compound, R Rstring // PPlus (R Runit_char))
  | Runit_key_pair => (Atomic, g_eq (R Rattr_key) (R Runit_value))
  | Runit_attr_key_pairs => (Compound, g_spaced (R Runit_key_pair))
  | Rentry_code_list => (Normal, (L "[" ~> L "]") // (L "[" ~> R Rstring ~> PStar (L "," ~> g_spaces ~> R Rstring) ~> L "]"))
  | Rentry_code_object => (Normal, (L "{" ~> L "}") // (L "{" ~> g_spaces ~> R Rentry_code_key_value_pair ~> PStar (L "," ~> g_spaces ~> R Rentry_code_key_value_pair) ~> g_spaces ~> L "}"))
  | Rentry_code_group_key => (Compound, R Rstring)
  | Rentry_code_key_value_pair => (Normal, R Rentry_code_group_key ~> L ":" ~> g_spaces ~> R Rentry_code_list)
  | Rentry_code_key_value => (Normal, PAlts [R Rkey_value; R Rentry_code_list; R Rentry_code_object])
  | Rentry_code_key_pair => (Compound, R Rattr_key ~> L "=" ~> R Rentry_code_key_value)
  | Rattr_entry_code_key_pairs => (Compound, g_spaced (R Rentry_code_key_pair))
  | Rentry_value => (Compound, R Rstring)
  | Rentry_key => (Compound, R Rstring)
  | Rentry_object => (Normal, (L "{" ~> L "}") // (L "{" ~> g_spaces ~> R Rentry_key_value_pair ~> PStar (L "," ~> g_spaces ~> R Rentry_key_value_pair) ~> g_spaces ~> L "}"))
  | Rentry_key_value => (Normal, R Rkey_value // R Rentry_object)
  | Rentry_key_value_pair => (Normal, R Rentry_key ~> L ":" ~> g_spaces ~> R Rentry_value)
  | Rentry_key_pair => (Compound, R Rattr_key ~> L "=" ~> R Rentry_key_value)
  | Rattr_entry_key_pairs => (Compound, g_spaced (R Rentry_key_pair))
  | Rlist_value => (Compound, g_spaced (R Rkey_value))
  | Rbase_attr_type => (Atomic, PAlts [L "Text"; L "Numeric"; L "Boolean"; L "Binary"; L "DateTime"])
  | Rarray_attr_type => (Compound, L "Array[" ~> POpt g_arg_ws ~> PAlts [R Rbase_attr_type; g_reference_type; R Rarray_attr_type] ~> POpt g_arg_ws ~> L "]")
  | Ralias => (Atomic, PPlus (R Rchar))
  | Rsaid => (Atomic, PPlus (R Rchar))
  | R_attr_type => (Compound, PAlts [R Rbase_attr_type; R Rarray_attr_type; g_ref_said; g_ref_alias])
  | Rattr_pair => (Atomic, g_eq (R Rattr_key) (R R_attr_type))
  | Rattr_pairs => (Compound, PPlus (g_arg_ws ~> R Rattr_pair))
  | Rlang => (Compound, PRep 2 (PCls alpha_c) ~> POpt (L "-" ~> PRep 2 (PCls alpha_c)))
  | Rfile => (Normal, PStar (PAlts [R Rempty_line; g_meta_comment_line; g_comment_line; g_commands]) ~> R REOI)
  | REOI => (Normal, PEnd)
  end.

(** OCAfileParser::parse(rule, text); the fuel is enough for every text (OcaGrammar_proofs, [sparse_total]). *)
(** OCAfileParser::parse, semantics/oca-file/src/ocafile/mod.rs 21-23, 46, with ocafile.pest as above. *)
Definition sparse (r : srule) (s : string) : pres srule := run sgrammar (S (String.length s) * 300 + 300) false (PRul r) s.
End Grammar.

(** The grammars of the dispatching parser (oca-file/src/ocafile.pest) and of the transformation parser
    (transformation/oca-file/src/ocafile.pest), rule by rule.  Their shared rules are textually the same; [dispatch] selects
    the [file] rule.  Silent rules ([_{ }]) are definitions.  Rules nothing refers to are left out. *)
From Verif Require Export OcaGrammar.

(** The names of the rules of the two pest files. *)
Inductive trule :=
| Tmeta_attr_key | Tmeta_attr_value | Tmeta_key_pair | Tmeta_comment | Tcomment | Tempty_line
| Tinner | Tescape | Tunicode | Tsingle_quoted_inner | Tstring | Tchar
| Tfrom | Trename | Tlink | Tfrom_said
| Trename_attributes | Trename_attr_pair | Trename_attr_pairs | Tlink_attributes | Tlink_attr_pair | Tlink_attr_pairs | Tattr_key
| Tfile | TEOI.

Section TGrammar.
(** Which of the two files. *)
Variable dispatch : bool.
(** Non-ASCII letters, numbers and script characters. *)
Variable wide : ascii -> bool.

Notation pe := (pe trule).
Notation "a ~> b" := (PSeq a b) (at level 42, right associativity).
Notation "a // b" := (PAlt a b) (at level 50, no associativity).
Let R (r : trule) : pe := PRul r.
Let L (s : string) : pe := PLit s.
Let I (s : string) : pe := PLitI s.

(** ws; comment_line, meta_comment_line, line_continuation, arg_ws (dispatch 4-18; transformation 5-37) *)
Definition t_ws : pe := PCls ws_c.
(** dispatch line 9, transformation line 14 *)
Definition t_comment_line : pe := PStar t_ws ~> R Tcomment ~> POpt PNewline.
(** dispatch line 16, transformation line 11 *)
Definition t_meta_comment_line : pe := PStar t_ws ~> R Tmeta_comment ~> POpt PNewline.
(** dispatch line 7, transformation line 28 *)
Definition t_line_continuation : pe := L (String BSL "") ~> PStar t_ws ~> PNewline.
(** dispatch line 5, transformation line 32: one step of the repetition *)
Definition t_arg_ws1 : pe := t_ws // (t_line_continuation ~> PStar (t_comment_line // R Tempty_line)).
(** dispatch line 5, transformation line 32 *)
Definition t_arg_ws : pe := PPlus t_arg_ws1.
(** dispatch line 25, transformation line 17 *)
Definition t_double_quoted_string : pe := L (String DQ "") ~> R Tinner ~> L (String DQ "").
(** dispatch line 23, transformation line 22 *)
Definition t_single_quoted_string : pe := L "'" ~> R Tsingle_quoted_inner ~> L "'".
(** [a ~ arg_ws? ~ sep ~ arg_ws? ~ b] *)
(** transformation lines 9, 116, 120; dispatch line 14 *)
Definition t_pair (sep : string) (a b : pe) : pe := a ~> POpt t_arg_ws ~> L sep ~> POpt t_arg_ws ~> b.
(** transformation 78-85 [commands] *)
Definition t_commands : pe := PAlts [R Tfrom; R Trename; R Tlink] ~> POpt PNewline.

(** dispatch (oca-file/src/ocafile.pest) lines 4-61 and transformation (transformation/oca-file/src/ocafile.pest) lines 5-143, one entry per rule; rules nothing refers to are left out. *)
Definition tgrammar (r : trule) : mode * pe :=
  match r with
  | Tmeta_attr_key => (Compound, PAlts [L "name"; L "version"; L "precompiler"; L "source"; L "target"])
  | Tmeta_attr_value => (Compound, R Tstring // PPlus (R Tchar))
  | Tmeta_key_pair => (Atomic, t_pair "=" (R Tmeta_attr_key) (R Tmeta_attr_value))
  | Tmeta_comment => (Atomic, L "--" ~> PStar t_ws ~> PStar (PNot PNewline ~> R Tmeta_key_pair))
  | Tcomment => (Atomic, L "#" ~> PStar (PNot PNewline ~> PAny))
  | Tempty_line => (Atomic, PStar t_ws ~> PNewline)
  | Tinner => (Atomic, PStar (PNot (PCls (fun c => negb (dq_c c))) ~> PAny) ~> POpt (R Tescape ~> R Tinner))
  | Tescape => (Atomic, L (String BSL "") ~> POpt (PAlts [L "b"; L "t"; L "n"; L "f"; L "r"; L (String DQ ""); L (String BSL ""); L "'"; R Tunicode; PNewline]))
  | Tunicode => (Atomic, (L "u" ~> PRep 4 (PCls hex_c)) // (L "U" ~> PRep 8 (PCls hex_c)))
  | Tsingle_quoted_inner => (Atomic, PStar (PNot (PCls (fun c => negb (sq_c c))) ~> PAny) ~> POpt (R Tescape ~> R Tsingle_quoted_inner))
  | Tstring => (Compound, t_single_quoted_string // t_double_quoted_string)
  | Tchar => (Normal, PCls (char_c wide))
  | Tfrom => (Normal, I "from" ~> PStar t_ws ~> R Tfrom_said)
  | Trename => (Normal, I "rename" ~> PStar t_arg_ws ~> R Trename_attributes)
  | Tlink => (Normal, I "link" ~> PStar t_arg_ws ~> R Tlink_attributes)
  | Tfrom_said => (Normal, PStar t_ws ~> PPlus (R Tchar))
  | Trename_attributes => (Normal, I "attribute" ~> PPlus (R Trename_attr_pairs))
  | Trename_attr_pair => (Atomic, t_pair "=" (R Tattr_key) (R Tattr_key))
  | Trename_attr_pairs => (Compound, PPlus (t_arg_ws ~> R Trename_attr_pair))
  | Tlink_attributes => (Normal, I "attribute" ~> PPlus (R Tlink_attr_pairs))
  | Tlink_attr_pair => (Atomic, t_pair "->" (R Tattr_key) (R Tattr_key))
  | Tlink_attr_pairs => (Compound, PPlus (t_arg_ws ~> R Tlink_attr_pair))
  | Tattr_key => (Compound, PPlus (PCls prop_key_c))
  | Tfile => (Normal, PStar (PAlts [R Tempty_line; t_meta_comment_line; t_comment_line; if dispatch then PAny else t_commands]) ~> R TEOI)
  | TEOI => (Normal, PEnd)
  end.

(** OCAfileParser::parse(rule, text); the fuel is enough for every text (TGrammar_proofs, [tparse_total]). *)
(** oca-file/src/ocafile/mod.rs 27, transformation/oca-file/src/ocafile/mod.rs 40 *)
Definition tparse (r : trule) (s : string) : pres trule := run tgrammar (S (String.length s) * 300 + 300) false (PRul r) s.
End TGrammar.

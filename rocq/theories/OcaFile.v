(** Reading and writing OCAfiles.  Models semantics/oca-file/src/ocafile/mod.rs and its instructions/ directory, on top of the
    grammar of OcaGrammar.v. *)
From Verif Require Export OcaGrammar Ast AstValidator Codec Bundle.

Notation spair := (pair srule).

Section OcaFile.
Variable wide : ascii -> bool.
(** [SelfAddressingIdentifier::from_str] succeeds (said crate). *)
Variable said_ok : string -> bool.

(** [string_pair.into_inner().next_back().unwrap().as_span().as_str()]: the text between the quotes. *)
(** helpers.rs, wherever a [string] pair is read (84-356); models the [unwrap] as a panic. *)
Definition quoted (p : spair) : outcome string :=
  match last (p_inner p) with Some i => Ok (p_text i) | None => Panic end.

(** helpers.rs 13-44 [extract_attr_type]. *)
Fixpoint extract_attr_type (p : spair) : outcome nattr :=
  match p with
  | Pair Rarray_attr_type _ (q :: _) => let! t := extract_attr_type q in Ok (NArr t)
  | Pair Rarray_attr_type _ [] => Err ["Missing attribute type"]
  | Pair Ralias t _ => Ok (NRef (RName t))
  | Pair Rsaid t _ => if said_ok t then Ok (NRef (RSaid t)) else Err ["Said error"]
  | Pair Rbase_attr_type t _ => match attr_type_parse t with Some a => Ok (NVal a) | None => Err ["Unknown attribute type"] end
  | Pair _ _ _ => Err ["Unexpected pest rule"]
  end.

(** helpers.rs 46-82 [extract_attribute]: the loop over the inner pairs, with the name and the type found so far. *)
Fixpoint attribute_items (l : list spair) (name : string) (t : nattr) : outcome (string * nattr) :=
  match l with
  | [] => Ok (name, t)
  | Pair Rattr_key x _ :: l => attribute_items l x t
  | Pair R_attr_type _ [] :: _ => Err ["Missing attribute type"]
  | Pair R_attr_type _ (i :: _) :: l => let! t' := extract_attr_type i in attribute_items l name t'
  | _ :: _ => Err ["Unexpected pest rule"]
  end.
(** helpers.rs 46-82 *)
Definition extract_attribute (p : spair) : outcome (string * nattr) := attribute_items (p_inner p) "" (NVal TText).

(** [to_lowercase]; only the ASCII letters change here. *)
(** [str::to_lowercase], called in helpers.rs and from.rs on property values; restricted to ASCII. *)
Fixpoint lower_str (s : string) : string := match s with String c s => String (lower c) (lower_str s) | EmptyString => EmptyString end.

(** helpers.rs 297-356 [extract_json_object]. *)
Fixpoint extract_json_object (p : spair) : outcome nvalue :=
  match p with
  | Pair _ _ items =>
    let! l := (fix pairs (items : list spair) (acc : imap nvalue) : outcome (imap nvalue) :=
      match items with
      | [] => Ok acc
      | Pair Rjson_pair _ els :: items =>
        let! kv := (fix elems (els : list spair) (key : string) (value : nvalue) : outcome (string * nvalue) :=
          match els with
          | [] => Ok (key, value)
          | Pair Rjson_key _ ks :: els => match last ks with Some k => let! t := quoted k in elems els (lower_str t) value | None => Panic end
          | Pair Rjson_value _ (v :: _) :: els =>
            match v with
            | Pair Rstring _ _ => let! t := quoted v in elems els key (VVal t)
            | Pair Rjson_object _ _ => let! o := extract_json_object v in elems els key o
            | _ => Panic
            end
          | Pair Rjson_value _ [] :: els => elems els key value
          | _ => Panic
          end) els "" (VVal "") in
        pairs items (imap_insert kv.1 kv.2 acc)
      | _ => Panic
      end) items [] in
    Ok (VObj l)
  end.

(** The pushes of [entry_code_list]: helpers.rs 129-149, 185-205. *)
Fixpoint code_list (l : list spair) : outcome (list nvalue) :=
  match l with
  | [] => Ok []
  | p :: l => match p_rule p with Rstring => let! t := quoted p in let! r := code_list l in Ok (VVal t :: r) | _ => Panic end
  end.
(** A value that is a [string] or plain characters: [item] is the pair whose text is kept in the second case
    (helpers.rs 96-116, 120-140, 232-250). *)
Definition text_value (item : spair) (nested : spair) : outcome nvalue :=
  match p_rule nested with Rstring => let! t := quoted nested in Ok (VVal t) | _ => Ok (VVal (p_text item)) end.
(** helpers.rs 84-279 [extract_attribute_key_pairs]; it always answers [Some]. *)
Fixpoint extract_kv (p : spair) : outcome (string * nvalue) :=
  match p with
  | Pair _ _ items =>
    (fix go (items : list spair) (key : string) (value : nvalue) : outcome (string * nvalue) :=
      match items with
      | [] => Ok (key, value)
      | item :: items =>
        match item with
        | Pair (Rattr_key | Rframing_metadata_key) t _ => go items t value
        | Pair (Rkey_value | Runit_value | Rframing_metadata_value) _ inner =>
          match inner with [] => go items key value | n :: _ => let! v := text_value item n in go items key v end
        | Pair Rentry_code_key_value _ inner =>
          match inner with
          | [] => go items key value
          | Pair Rkey_value _ [] :: _ => go items key value
          | Pair Rkey_value _ (n :: _) :: _ => let! v := text_value item n in go items key v
          | Pair Rentry_code_list _ els :: _ => let! l := code_list els in go items key (VArr l)
          | Pair Rentry_code_object _ els :: _ =>
            let! m := (fix elems (els : list spair) (acc : imap nvalue) : outcome (imap nvalue) :=
              match els with [] => Ok acc | el :: els => let! kv := extract_kv el in elems els (imap_insert kv.1 kv.2 acc) end) els [] in
            go items key (VObj m)
          | _ => Panic
          end
        | Pair (Rentry_code_group_key | Rentry_key) _ inner =>
          match inner with
          | n :: _ => match p_rule n with Rstring => let! t := quoted n in go items t value | _ => go items key value end
          | [] => go items key value
          end
        | Pair Rentry_code_list _ els => let! l := code_list els in go items key (VArr l)
        | Pair Rentry_value _ inner =>
          match inner with
          | n :: _ => match p_rule n with Rstring => let! t := quoted n in go items key (VVal t) | _ => go items key value end
          | [] => go items key value
          end
        | Pair Rentry_key_value _ inner =>
          match inner with
          | [] => go items key value
          | Pair Rkey_value _ [] :: _ => go items key value
          | Pair Rkey_value _ (n :: _) :: _ => let! v := text_value item n in go items key v
          | Pair Rentry_object _ els :: _ =>
            let! m := (fix elems (els : list spair) (acc : imap nvalue) : outcome (imap nvalue) :=
              match els with [] => Ok acc | el :: els => let! kv := extract_kv el in elems els (imap_insert kv.1 kv.2 acc) end) els [] in
            go items key (VObj m)
          | _ => Panic
          end
        | Pair Rjson_object _ _ => let! v := extract_json_object item in go items key v
        | _ => Panic
        end
      end) items "" (VVal "")
  end.
(** Each pair of a list inserted into the map: the loops of helpers.rs 366-376, 399-407, 444-452. *)
Fixpoint insert_kvs (l : list spair) (acc : imap nvalue) : outcome (imap nvalue) :=
  match l with [] => Ok acc | p :: l => let! kv := extract_kv p in insert_kvs l (imap_insert kv.1 kv.2 acc) end.

(** helpers.rs 358-390 [extract_attributes_key_paris]. *)
Fixpoint content_attrs (l : list spair) (acc : imap nvalue) : outcome (imap nvalue) :=
  match l with
  | [] => Ok acc
  | Pair (Rattr_key_pairs | Rattr_entry_code_key_pairs | Rattr_entry_key_pairs | Runit_attr_key_pairs | Rattr_framing_key_pairs) _ ps :: l =>
    let! acc' := insert_kvs ps acc in content_attrs l acc'
  | _ :: l => content_attrs l acc
  end.
(** helpers.rs 392-463 [extract_properites_key_pairs]; no rule of the grammar refers to [unit_system] (434-440). *)
Fixpoint content_props (l : list spair) (acc : imap nvalue) : outcome (imap nvalue) :=
  match l with
  | [] => Ok acc
  | Pair (Rprop_key_pairs | Rframing_metadata) _ ps :: l => let! acc' := insert_kvs ps acc in content_props l acc'
  | Pair Rlang t _ :: l => content_props l (imap_insert "lang" (VVal t) acc)
  | Pair Ralias t _ :: l => content_props l (imap_insert "target" (VRef (RName t)) acc)
  | Pair Rsaid t _ :: l => content_props l (if said_ok t then imap_insert "target" (VRef (RSaid t)) acc else acc)
  | _ :: l => content_props l acc
  end.
(** helpers.rs 465-477 [extract_content]. *)
Definition extract_content (p : spair) : outcome content :=
  let! ps := content_props (p_inner p) [] in
  let! ats := content_attrs (p_inner p) [] in
  Ok (Content (Some ats) (Some ps)).
(** helpers.rs 479-496 [extract_flagged_attrs]. *)
Definition extract_flagged (p : spair) : list string :=
  omap (fun q => match p_rule q with Rlist_value => Some (p_text q) | _ => None end) (p_inner p).

(** add.rs 28-50: the attributes of one ADD ATTRIBUTE. *)
Fixpoint insert_attrs (l : list spair) (acc : imap nattr) : outcome (imap nattr) :=
  match l with [] => Ok acc | p :: l => let! kv := extract_attribute p in insert_attrs l (imap_insert kv.1 kv.2 acc) end.
(** add.rs 28-50: the loop over the pairs below ADD ATTRIBUTE. *)
Fixpoint attribute_pairs (l : list spair) (acc : imap nattr) : outcome (imap nattr) :=
  match l with
  | [] => Ok acc
  | Pair Rattr_pairs _ ps :: l => let! acc' := insert_attrs ps acc in attribute_pairs l acc'
  | _ :: _ => Err ["Invalid attributes in ATTRIBUTE instruction"]
  end.

(** The overlay kind of a rule: add.rs 21-26, 72-155. *)
Definition overlay_rule (r : srule) : option okind :=
  match r with
  | Rmeta => Some KMeta | Rinformation => Some KInformation | Rcharacter_encoding | Rcharacter_encoding_props => Some KCharacterEncoding
  | Rlabel => Some KLabel | Runit => Some KUnit | Rformat => Some KFormat | Rconformance => Some KConformance
  | Rconditional => Some KConditional | Rcardinality => Some KCardinality | Rentry_code => Some KEntryCode | Rentry => Some KEntry
  | Rlink => Some KLink | Rattribute_framing => Some KAttributeFraming | _ => None
  end.
(** add.rs 18-172 [AddInstruction::from_record]: the loop; the last object wins. *)
Fixpoint add_objects (l : list spair) (o : option obj_kind) : outcome (option obj_kind) :=
  match l with
  | [] => Ok o
  | p :: l =>
    match p with
    | Pair Rattribute _ inner => let! ats := attribute_pairs inner [] in add_objects l (Some (OCaptureBase (CapContent (Some ats) None None)))
    | Pair Rcomment _ _ => add_objects l o
    | Pair Rclassification _ [] => Panic
    | Pair Rclassification _ (c :: _) => add_objects l (Some (OCaptureBase (CapContent None (Some [("classification", VVal (p_text c))]) None)))
    | Pair Rflagged_attrs _ _ => add_objects l (Some (OCaptureBase (CapContent None None (Some (extract_flagged p)))))
    | Pair r _ _ =>
      match overlay_rule r with
      | Some k => let! c := extract_content p in add_objects l (Some (OOverlay (OType k "1.1") c))
      | None => Err ["Overlay: unexpected token"]
      end
    end
  end.
(** add.rs 165-172, remove.rs 69-75: the command from the object found; [unwrap] panics without one. *)
Definition command_of (k : cmd_type) (o : option obj_kind) : outcome command :=
  match o with Some o => Ok (Command k o) | None => Panic end.
(** add.rs 15-172 [AddInstruction::from_record] *)
Definition add_instruction (p : spair) : outcome command := let! o := add_objects (p_inner p) None in command_of CAdd o.

(** remove.rs 78-96 [extract_properties_pairs], 98-116 [extract_attribute_pairs]: both stop at the first other pair. *)
Fixpoint leading_keys (r : srule -> bool) (l : list spair) (acc : imap nvalue) : imap nvalue :=
  match l with
  | p :: l => if r (p_rule p) then leading_keys r l (imap_insert (p_text p) (VVal "") acc) else acc
  | [] => acc
  end.
(** remove.rs 78-96: the pairs that loop takes. *)
Definition is_prop_key (r : srule) : bool := match r with Rprop_key => true | _ => false end.
(** remove.rs 98-116: the pairs that loop takes. *)
Definition is_attr_key (r : srule) : bool := match r with Rattr_key => true | _ => false end.
(** remove.rs 13-76 [RemoveInstruction::from_record]. *)
Fixpoint remove_objects (l : list spair) (o : option obj_kind) : outcome (option obj_kind) :=
  match l with
  | [] => Ok o
  | Pair Rremove_meta _ inner :: l => remove_objects l (Some (OOverlay (OType KMeta "1.1") (Content None (Some (leading_keys is_prop_key inner [])))))
  | Pair Rremove_classification _ _ :: l => remove_objects l (Some (OCaptureBase (CapContent None (Some [("classification", VVal "")]) None)))
  | Pair Rremove_label _ inner :: l =>
    remove_objects l (Some (OOverlay (OType KLabel "1.1") (Content (Some (leading_keys is_attr_key inner [])) (Some (leading_keys is_prop_key inner [])))))
  | Pair Rremove_attribute _ inner :: l =>
    remove_objects l (Some (OCaptureBase (CapContent (Some (fold_left (fun acc k => imap_insert (p_text k) NNull acc) inner [])) None None)))
  | _ :: _ => Err ["unexpected token"]
  end.
(** remove.rs 13-76 *)
Definition remove_instruction (p : spair) : outcome command := let! o := remove_objects (p_inner p) None in command_of CRemove o.

(** from.rs 12-40 [FromInstruction::from_record]. *)
Fixpoint from_field (l : list spair) (o : option string) : outcome (option string) :=
  match l with
  | [] => Ok o
  | Pair Rfrom_said t _ :: l => from_field l (Some t)
  | Pair Rcomment _ _ :: l => from_field l o
  | _ :: _ => Err ["unexpected token"]
  end.
(** from.rs 12-40 *)
Definition from_instruction (p : spair) : outcome command :=
  let! o := from_field (p_inner p) None in
  match o with
  | None => Panic
  | Some t => if said_ok t then Ok (Command CFrom (OBundle (BundleContent (RSaid t)))) else Err [("Invalid said: " +:+ t)%string]
  end.

(** ocafile/mod.rs 31-43 [try_from_pair]. *)
Definition instruction (p : spair) : outcome command :=
  match p_rule p with
  | Rfrom => from_instruction p
  | Radd => add_instruction p
  | Rremove => remove_instruction p
  | _ => Err ["unexpected token"]
  end.

(** ocafile/mod.rs 73-96: the key and value of a metadata line. *)
Fixpoint meta_items (l : list spair) (key value : string) : outcome (string * string) :=
  match l with
  | [] => Ok (key, value)
  | Pair Rmeta_attr_key t _ :: l => meta_items l t value
  | Pair Rmeta_attr_value t _ :: l => meta_items l key t
  | Pair _ t _ :: _ => Err [t]
  end.
(** ocafile/mod.rs 73-96 *)
Definition meta_line (p : spair) : outcome (string * string) :=
  let! kv := meta_items (p_inner p) "" "" in
  if String.eqb kv.1 "" then Err ["key is empty"] else if String.eqb kv.2 "" then Err ["value is empty"] else Ok kv.

(** ocafile/mod.rs 66-126: the loop over the lines; [n] is the position of the line among them. *)
Fixpoint read_lines (n : nat) (l : list spair) (a : ast) : outcome ast :=
  match l with
  | [] => Ok a
  | p :: l =>
    match p_rule p with
    | REOI | Rcomment | Rempty_line => read_lines (S n) l a
    | Rmeta_comment => let! kv := meta_line p in read_lines (S n) l (Ast (ast_version a) (ast_commands a) (ast_cmeta a) (<[kv.1 := kv.2]> (ast_meta a)))
    | _ =>
      let! c := instruction p in
      let! _ := ast_validate a c in
      read_lines (S n) l (push_command a c (CmdMeta (S n) (p_text p)))
    end
  end.

(** ocafile/mod.rs 45-128 [parse_from_string].  The text of a grammar error (line, column, expected tokens) is not modelled. *)
Definition parse_ocafile (s : string) : outcome ast :=
  match sparse wide Rfile s with
  | PDone _ (f :: _) _ => read_lines 0 (p_inner f) ast_new
  | PDone _ [] _ => Panic
  | _ => Err ["grammar error"]
  end.
End OcaFile.

(** ** Writing *)
(** The quotation mark of the format strings of ocafile/mod.rs 205-443. *)
Definition Q : string := String DQ "".
(** [IndexMap::remove], which is [swap_remove]: the last pair takes the place of the removed one. *)
(** Called in ocafile/mod.rs 196, 299, 460 as [properties.remove("lang")]. *)
Definition swap_remove {V} (k : string) (m : imap V) : imap V :=
  if imap_mem k m then
    match rev m with
    | [] => []
    | x :: r => if String.eqb k x.1 then rev r else map (fun y => if String.eqb k y.1 then x else y) (rev r)
    end
  else m.

(** ocafile/mod.rs 130-135 [format_reference], 138-151 [oca_file_format]; [None]: panic. *)
Fixpoint type_text (t : nattr) : option string :=
  match t with
  | NRef (RSaid s) => Some ("refs:" +:+ s)%string
  | NRef (RName _) => None
  | NVal a => Some (attr_type_name a)
  | NArr u => match type_text u with Some s => Some ("Array[" +:+ s +:+ "]")%string | None => None end
  | NNull => Some ""
  end.

(** The [for_each]/[push_str] loops of ocafile/mod.rs 162-520. *)
Definition cat_map {A} (f : A -> string) (l : list A) : string := String.concat "" (map f l).
(** [format!(" {}=\"{}\"", key, value)] for the plain values of a map, others skipped. *)
(** ocafile/mod.rs 202-208, 218-224, 365-371, 388-394, 466-472, 477-483 *)
Definition kv_quoted (kv : string * nvalue) : string :=
  match kv.2 with VVal v => (" " +:+ kv.1 +:+ "=" +:+ Q +:+ v +:+ Q)%string | _ => "" end.
(** [format!(" {}={}", key, value)]: ocafile/mod.rs 234-240, 305-311, 354-360 *)
Definition kv_plain (kv : string * nvalue) : string :=
  match kv.2 with VVal v => (" " +:+ kv.1 +:+ "=" +:+ v)%string | _ => "" end.
(** "PROPS" and the properties, unless there are none. *)
(** ocafile/mod.rs 200-209, 232-241, 303-312, 352-361, 464-473 *)
Definition props_text (f : string * nvalue -> string) (m : imap nvalue) : string :=
  match m with [] => "" | _ => ("PROPS " +:+ cat_map f m)%string end.
(** "ATTRS" and the attributes, when there are some: ocafile/mod.rs 216-225, 243-290, 363-372, 386-395, 475-484 *)
Definition attrs_text (f : string * nvalue -> string) (o : option (imap nvalue)) : string :=
  match o with Some m => ("ATTRS" +:+ cat_map f m)%string | None => "" end.
(** "<lang> " for a plain "lang" property, and the properties without it. *)
(** ocafile/mod.rs 194-199, 297-302, 458-463 *)
Definition lang_text (m : imap nvalue) : string :=
  match imap_get "lang" m with Some (VVal l) => (l +:+ " ")%string | _ => "" end.
(** [["a", "b"]]: the plain values, quoted and joined. *)
(** ocafile/mod.rs 247-257, 265-275 *)
Definition quote_all (l : list nvalue) : string :=
  String.concat ", " (omap (fun v => match v with VVal s => Some (Q +:+ s +:+ Q)%string | _ => None end) l).
(** ocafile/mod.rs 243-290: an ENTRY_CODE attribute. *)
Definition code_text (kv : string * nvalue) : string :=
  match kv.2 with
  | VArr l => (" " +:+ kv.1 +:+ "=[" +:+ quote_all l +:+ "]")%string
  | VObj m => (" " +:+ kv.1 +:+ "={" +:+ String.concat ", " (omap (fun gv => match gv.2 with
      VArr l => Some (Q +:+ gv.1 +:+ Q +:+ ": [" +:+ quote_all l +:+ "]")%string | _ => None end) m) +:+ "}")%string
  | VVal s => (" " +:+ kv.1 +:+ "=" +:+ Q +:+ s +:+ Q)%string
  | VRef _ => ""
  end.
(** ocafile/mod.rs 315-343: an ENTRY attribute; the form with braces is written without a space before it. *)
Definition entry_text (kv : string * nvalue) : string :=
  match kv.2 with
  | VObj m => (kv.1 +:+ "={" +:+ String.concat ", " (omap (fun gv => match gv.2 with
      VVal l => Some (Q +:+ gv.1 +:+ Q +:+ ": " +:+ Q +:+ l +:+ Q)%string | _ => None end) m) +:+ "}")%string
  | VVal s => (" " +:+ kv.1 +:+ "=" +:+ Q +:+ s +:+ Q)%string
  | _ => ""
  end.
(** [str::replace(p, "")]. *)
(** Called in ocafile/mod.rs 403 [prop_name.replace("frame_", "")]. *)
Fixpoint remove_all (n : nat) (p s : string) : string :=
  match n, s with
  | S n, String c r => match strip Ascii.eqb p s with Some (_, r') => remove_all n p r' | None => String c (remove_all n p r) end
  | _, _ => s
  end.
(** ocafile/mod.rs 403 *)
Definition without (p s : string) : string := remove_all (String.length s) p s.
(** ocafile/mod.rs 398-449: an ATTR_FRAMING command. *)
Definition nl_spaces (n : nat) : string := (NL +:+ String.concat "" (repeat " " n))%string.
(** ocafile/mod.rs 414-441: one frame of an attribute. *)
Definition frame_text (f : string * nvalue) : string :=
  (nl_spaces 12 +:+ Q +:+ f.1 +:+ Q +:+ ": {" +:+
   match f.2 with
   | VObj m => cat_map (fun kv => match kv.2 with VVal v => (nl_spaces 16 +:+ Q +:+ kv.1 +:+ Q +:+ ": " +:+ Q +:+ v +:+ Q +:+ ",")%string | _ => "" end) m
   | _ => ""
   end +:+ nl_spaces 12 +:+ "},")%string.
(** ocafile/mod.rs 411-446: one attribute. *)
Definition framing_attr_text (kv : string * nvalue) : string :=
  match kv.2 with VObj m => (nl_spaces 8 +:+ kv.1 +:+ "={" +:+ cat_map frame_text m +:+ nl_spaces 8 +:+ "}")%string | _ => "" end.
(** ocafile/mod.rs 398-449 *)
Definition framing_text (c : content) : string :=
  ("ATTR_FRAMING " +:+ String BSL NL +:+
   match ct_props c with
   | Some m => cat_map (fun kv => match kv.2 with VVal v => ("        " +:+ without "frame_" kv.1 +:+ "=" +:+ Q +:+ v +:+ Q +:+ " " +:+ String BSL NL)%string | _ => "" end) m
   | None => ""
   end +:+
   match ct_attrs c with Some m => ("    ATTRS " +:+ String BSL "" +:+ cat_map framing_attr_text m)%string | None => "" end)%string.
(** [o_type.to_string().to_case(Case::UpperSnake)] (convert_case crate). *)
(** ocafile/mod.rs 452 *)
Definition upper_snake (k : okind) : string :=
  match k with
  | KLabel => "LABEL" | KInformation => "INFORMATION" | KEncoding => "ENCODING" | KCharacterEncoding => "CHARACTER_ENCODING" | KFormat => "FORMAT"
  | KMeta => "META" | KStandard => "STANDARD" | KCardinality => "CARDINALITY" | KConditional => "CONDITIONAL" | KConformance => "CONFORMANCE"
  | KEntryCode => "ENTRY_CODE" | KEntry => "ENTRY" | KUnit => "UNIT" | KAttributeMapping => "ATTRIBUTE_MAPPING" | KEntryCodeMapping => "ENTRY_CODE_MAPPING"
  | KSubset => "SUBSET" | KUnitMapping => "UNIT_MAPPING" | KLayout => "LAYOUT" | KSensitivity => "SENSITIVITY" | KLink => "LINK" | KAttributeFraming => "ATTRIBUTE_FRAMING"
  end.
(** [if let Some(x) = ...] around the texts above: ocafile/mod.rs 170-488. *)
Definition opt_text {A} (f : A -> string) (o : option A) : string := match o with Some x => f x | None => "" end.
(** ocafile/mod.rs 189-487: the text after "ADD " of an overlay command. *)
Definition overlay_text (t : otype) (c : content) : string :=
  match ot_kind t with
  | KMeta => ("META " +:+ opt_text (fun m => (lang_text m +:+ props_text kv_quoted (swap_remove "lang" m))%string) (ct_props c))%string
  | KUnit => ("UNIT " +:+ attrs_text kv_quoted (ct_attrs c))%string
  | KEntryCode => ("ENTRY_CODE " +:+ opt_text (props_text kv_plain) (ct_props c) +:+ attrs_text code_text (ct_attrs c))%string
  | KEntry => ("ENTRY " +:+ opt_text (fun m => (lang_text m +:+ props_text kv_plain (swap_remove "lang" m) +:+
      match ct_attrs c with Some l => ("ATTRS " +:+ cat_map entry_text l)%string | None => "" end)%string) (ct_props c))%string
  | KConditional => ("CONDITION " +:+ opt_text (props_text kv_plain) (ct_props c) +:+ attrs_text kv_quoted (ct_attrs c))%string
  | KLink => ("LINK " +:+ opt_text (fun m => match imap_get "target" m with Some (VRef (RSaid s)) => ("refs:" +:+ s +:+ " ")%string | _ => "" end) (ct_props c)
      +:+ attrs_text kv_quoted (ct_attrs c))%string
  | KAttributeFraming => framing_text c
  | k => (upper_snake k +:+ " " +:+ opt_text (fun m => (lang_text m +:+ props_text kv_quoted (swap_remove "lang" m))%string) (ct_props c) +:+ attrs_text kv_quoted (ct_attrs c))%string
  end.
(** ocafile/mod.rs 170-178, 138-150: the attributes of an ADD; [None]: panic. *)
Fixpoint types_text (l : imap nattr) : option string :=
  match l with
  | [] => Some ""
  | (k, t) :: l => match type_text t, types_text l with Some s, Some r => Some (" " +:+ k +:+ "=" +:+ s +:+ r)%string | _, _ => None end
  end.
(** ocafile/mod.rs 179-187 *)
Definition class_text (kv : string * nvalue) : string :=
  match kv.2 with VVal v => if String.eqb kv.1 "classification" then ("CLASSIFICATION " +:+ v)%string else "" | _ => "" end.
(** ocafile/mod.rs 162-517: the line of a command; [None]: panic ([todo!], 132-133, 509, 516). *)
Definition command_text (c : command) : option string :=
  match cmd_kind c, cmd_obj c with
  | CAdd, OCaptureBase cc =>
    match match cc_attrs cc with Some l => option_map (fun s => ("ATTRIBUTE" +:+ s)%string) (types_text l) | None => Some "" end with
    | Some s => Some ("ADD " +:+ s +:+ opt_text (cat_map class_text) (cc_props cc))%string
    | None => None
    end
  | CAdd, OOverlay t ct => Some ("ADD " +:+ overlay_text t ct)%string
  | CAdd, OBundle _ => Some "ADD "
  | CRemove, OCaptureBase cc =>
    Some ("REMOVE " +:+ opt_text (fun l => ("ATTRIBUTE" +:+ cat_map (fun kv => (" " +:+ kv.1)%string) l)%string) (cc_attrs cc)
          +:+ opt_text (cat_map (fun kv : string * nvalue => if String.eqb kv.1 "classification" then "CLASSIFICATION" else "")) (cc_props cc))%string
  | CRemove, OOverlay _ _ => None
  | CRemove, OBundle _ => Some ""
  | CFrom, _ => Some "FROM "
  | CModify, _ => None
  end.
(** ocafile/mod.rs 159-523 [generate_from_ast]. *)
Fixpoint commands_text (l : list command) : option string :=
  match l with
  | [] => Some ""
  | c :: l => match command_text c, commands_text l with Some s, Some r => Some (s +:+ NL +:+ r)%string | _, _ => None end
  end.
(** ocafile/mod.rs 159-523 *)
Definition generate_ocafile (a : ast) : outcome string := match commands_text (ast_commands a) with Some s => Ok s | None => Panic end.

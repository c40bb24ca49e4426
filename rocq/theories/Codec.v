(** Text, byte and JSON codecs of the AST.  Models semantics/oca-ast/src/ast/mod.rs and attributes.rs. *)
From Verif Require Export Ast Bundle.

(** ast/mod.rs 435-437: Rust [str::split_once(c)]. *)
Fixpoint split_once (c : ascii) (s : string) : option (string * string) :=
  match s with
  | EmptyString => None
  | String d r => if Ascii.eqb c d then Some (EmptyString, r)
                  else match split_once c r with Some (a, b) => Some (String d a, b) | None => None end
  end.
(** ast/mod.rs 324, ast/attributes.rs 80-84: Rust [str::strip_prefix]. *)
Fixpoint strip_prefix (p s : string) : option string :=
  match p, s with
  | EmptyString, _ => Some s
  | String c p', String d s' => if Ascii.eqb c d then strip_prefix p' s' else None
  | String _ _, EmptyString => None
  end.

(** ast/mod.rs 140-162: every variant (used to state properties of all kinds). *)
Definition all_kinds : list okind :=
  [KLabel; KInformation; KEncoding; KCharacterEncoding; KFormat; KMeta; KStandard; KCardinality; KConditional; KConformance;
   KEntryCode; KEntry; KUnit; KAttributeMapping; KEntryCodeMapping; KSubset; KUnitMapping; KLayout; KSensitivity; KLink; KAttributeFraming].

(** ast/mod.rs 329-352: the second match of the deserialiser. *)
Definition kind_of_path (s : string) : option okind :=
  if String.eqb s "label" then Some KLabel else if String.eqb s "format" then Some KFormat
  else if String.eqb s "information" then Some KInformation else if String.eqb s "encoding" then Some KEncoding
  else if String.eqb s "character_encoding" then Some KCharacterEncoding else if String.eqb s "meta" then Some KMeta
  else if String.eqb s "standard" then Some KStandard else if String.eqb s "cardinality" then Some KCardinality
  else if String.eqb s "conditional" then Some KConditional else if String.eqb s "conformance" then Some KConformance
  else if String.eqb s "entry_code" then Some KEntryCode else if String.eqb s "entry" then Some KEntry
  else if String.eqb s "unit" then Some KUnit else if String.eqb s "mapping" then Some KAttributeMapping
  else if String.eqb s "entry_code_mapping" then Some KEntryCodeMapping else if String.eqb s "subset" then Some KSubset
  else if String.eqb s "unit_mapping" then Some KUnitMapping else if String.eqb s "layout" then Some KLayout
  else if String.eqb s "sensitivity" then Some KSensitivity else if String.eqb s "link" then Some KLink
  else if String.eqb s "attribute_framing" then Some KAttributeFraming else None.
Section OverlayType.
(** [digits s]: [s] matches the regex [\d+] (one or more Unicode decimal digits, in UTF-8). *)
Variable digits : string -> bool.
(** ast/mod.rs 317-357, regex [^spec/overlays/(\w+)/(\d+\.\d+)$]: [\w] excludes '/', [\d] excludes '.', so the
    match is unique.  The test of [\w+] is subsumed by the match on names. *)
Definition otype_parse (s : string) : option otype :=
  match strip_prefix "spec/overlays/" s with
  | None => None
  | Some r =>
    match split_once "/" r with
    | None => None
    | Some (name, v) =>
      match split_once "." v with
      | Some (major, minor) => if digits major && digits minor then k ← kind_of_path name; Some (OType k v) else None
      | None => None
      end
    end
  end.
End OverlayType.

(** ast/mod.rs 255-285 [FromStr for OverlayType]: version always 1.1; "Mapping", not "AttributeMapping". *)
Definition kind_of_name (s : string) : option okind :=
  if String.eqb s "Label" then Some KLabel else if String.eqb s "Information" then Some KInformation
  else if String.eqb s "Encoding" then Some KEncoding else if String.eqb s "CharacterEncoding" then Some KCharacterEncoding
  else if String.eqb s "Format" then Some KFormat else if String.eqb s "Meta" then Some KMeta
  else if String.eqb s "Standard" then Some KStandard else if String.eqb s "Cardinality" then Some KCardinality
  else if String.eqb s "Conditional" then Some KConditional else if String.eqb s "Conformance" then Some KConformance
  else if String.eqb s "EntryCode" then Some KEntryCode else if String.eqb s "Entry" then Some KEntry
  else if String.eqb s "Unit" then Some KUnit else if String.eqb s "Mapping" then Some KAttributeMapping
  else if String.eqb s "EntryCodeMapping" then Some KEntryCodeMapping else if String.eqb s "Subset" then Some KSubset
  else if String.eqb s "UnitMapping" then Some KUnitMapping else if String.eqb s "Layout" then Some KLayout
  else if String.eqb s "Sensitivity" then Some KSensitivity else if String.eqb s "Link" then Some KLink
  else if String.eqb s "AttributeFraming" then Some KAttributeFraming else None.
(** ast/mod.rs 255-285. *)
Definition otype_of_name (s : string) : option otype := k ← kind_of_name s; Some (OType k "1.1").

(** ast/mod.rs 676-840: the contentless capture base these conversions return. *)
Definition empty_capture : obj_kind := OCaptureBase (CapContent None None None).
(** ast/mod.rs 676-840: the contentless bundle. *)
Definition empty_bundle : obj_kind := OBundle (BundleContent (RName "")).
(** ast/mod.rs 676-840: a contentless overlay, version 1.1. *)
Definition empty_overlay (k : okind) : obj_kind := OOverlay (OType k "1.1") (Content None None).
(** ast/mod.rs 842-870 [From<ObjectKind> for u8]. *)
Definition obj_byte (o : obj_kind) : nat :=
  match o with
  | OCaptureBase _ => 0
  | OBundle _ => 1
  | OOverlay t _ =>
    match ot_kind t with
    | KLabel => 2 | KInformation => 3 | KEncoding => 4 | KCharacterEncoding => 5 | KFormat => 6 | KMeta => 7 | KStandard => 8
    | KCardinality => 9 | KConditional => 10 | KConformance => 11 | KEntryCode => 12 | KEntry => 13 | KUnit => 14
    | KAttributeMapping => 15 | KEntryCodeMapping => 16 | KSubset => 17 | KUnitMapping => 18 | KLayout => 19 | KSensitivity => 20
    | KLink => 21 | KAttributeFraming => 22
    end
  end.
(** ast/mod.rs 676-840 [From<u8> for ObjectKind]. *)
Definition obj_of_byte (n : nat) : outcome obj_kind :=
  match n with
  | 0 => Ok empty_capture
  | 1 => Ok empty_bundle
  | 2 => Ok (empty_overlay KLabel)
  | 3 => Ok (empty_overlay KInformation)
  | 4 => Ok (empty_overlay KEncoding)
  | 5 => Ok (empty_overlay KCharacterEncoding)
  | 6 => Ok (empty_overlay KFormat)
  | 7 => Ok (empty_overlay KMeta)
  | 8 => Ok (empty_overlay KStandard)
  | 9 => Ok (empty_overlay KCardinality)
  | 10 => Ok (empty_overlay KConditional)
  | 11 => Ok (empty_overlay KConformance)
  | 12 => Ok (empty_overlay KEntryCode)
  | 13 => Ok (empty_overlay KEntry)
  | 14 => Ok (empty_overlay KUnit)
  | 15 => Ok (empty_overlay KAttributeMapping)
  | 16 => Ok (empty_overlay KEntryCodeMapping)
  | 17 => Ok (empty_overlay KSubset)
  | 18 => Ok (empty_overlay KUnitMapping)
  | 19 => Ok (empty_overlay KLayout)
  | 20 => Ok (empty_overlay KSensitivity)
  | 21 => Ok (empty_overlay KLink)
  | 22 => Ok (empty_overlay KAttributeFraming)
  | _ => Panic
  end.
(** ast/mod.rs 872-1043 [Deserialize for ObjectKind]: the names of [Display], all kinds. *)
Definition obj_of_name (s : string) : option obj_kind :=
  if String.eqb s "CaptureBase" then Some empty_capture else if String.eqb s "OCABundle" then Some empty_bundle
  else if String.eqb s "AttributeMapping" then Some (empty_overlay KAttributeMapping)
  else if String.eqb s "Mapping" then None
  else k ← kind_of_name s; Some (empty_overlay k).

Section Refs.
(** [said_ok s]: [SelfAddressingIdentifier::from_str(s)] succeeds (crate said); the identifier is its text. *)
Variable said_ok : string -> bool.
(** ast/mod.rs 431-447 [FromStr for RefValue], 629-656 [Deserialize for RefValue] (same cases). *)
Definition ref_parse (s : string) : option ref_value :=
  match split_once ":" s with
  | None => None
  | Some (tag, rest) =>
    if String.eqb tag "refs" then (if said_ok rest then Some (RSaid rest) else None)
    else if String.eqb tag "refn" then Some (RName rest) else None
  end.
(** ast/mod.rs 124-136 [FromStr for AttributeType]. *)
Definition attr_type_parse (s : string) : option attr_type :=
  if String.eqb s "Boolean" then Some TBoolean else if String.eqb s "Binary" then Some TBinary
  else if String.eqb s "Text" then Some TText else if String.eqb s "Numeric" then Some TNumeric
  else if String.eqb s "DateTime" then Some TDateTime else None.
(** ast/attributes.rs 80-84: the prefixes that select a reference. *)
Definition starts_ref (s : string) : bool := is_some_b (strip_prefix "refs:" s) || is_some_b (strip_prefix "refn:" s).
(** ast/attributes.rs 72-107 [Deserialize for NestedAttrType]; [arr[0]] panics on an empty array, further
    elements are ignored. *)
Fixpoint nattr_parse (j : json) : outcome nattr :=
  match j with
  | JNull => Ok NNull
  | JStr s =>
    if starts_ref s then match ref_parse s with Some r => Ok (NRef r) | None => Err ["invalid reference"] end
    else match attr_type_parse s with Some t => Ok (NVal t) | None => Err [("Attribute type " +:+ s +:+ " doesn't exist")%string] end
  | JArr (x :: _) => let! a := nattr_parse x in Ok (NArr a)
  | JArr [] => Panic
  | _ => Err ["Converting failure"]
  end.

(** ast/mod.rs 390-399 [NestedValue], serde(untagged): Reference is tried first, then Value, Object, Array. *)
Fixpoint nvalue_json (v : nvalue) : json :=
  match v with
  | VRef r => JStr (ref_text r)
  | VVal s => JStr s
  | VObj l => JObj (map (fun kv => (kv.1, nvalue_json kv.2)) l)
  | VArr l => JArr (map nvalue_json l)
  end.
(** ast/mod.rs 392-399: derived Deserialize, serde(untagged). *)
Fixpoint nvalue_parse (j : json) : outcome nvalue :=
  match j with
  | JStr s => match ref_parse s with Some r => Ok (VRef r) | None => Ok (VVal s) end
  | JObj l =>
    let! l' := (fix go l := match l with
                 | [] => Ok []
                 | (k, x) :: r => let! v := nvalue_parse x in let! r' := go r in Ok ((k, v) :: r')
                 end) l in
    Ok (VObj (imap_extend [] l'))
  | JArr l =>
    let! l' := (fix go l := match l with
                 | [] => Ok []
                 | x :: r => let! v := nvalue_parse x in let! r' := go r in Ok (v :: r')
                 end) l in
    Ok (VArr l')
  | _ => Err ["data did not match any variant of untagged enum NestedValue"]
  end.

(** ast/mod.rs 359-381: serde's derived code for maps, sequences, optional fields and structs.  Objects only: the array form serde also
    accepts for structs is not modelled. *)
Fixpoint parse_pairs {V} (f : json -> outcome V) (l : list (string * json)) : outcome (list (string * V)) :=
  match l with
  | [] => Ok []
  | (k, x) :: r => let! v := f x in let! r' := parse_pairs f r in Ok ((k, v) :: r')
  end.
(** serde's Deserialize of IndexMap, as in ast/mod.rs 367-369. *)
Definition imap_parse {V} (f : json -> outcome V) (j : json) : outcome (imap V) :=
  match j with
  | JObj l => let! l' := parse_pairs f l in Ok (imap_extend [] l')
  | _ => Err ["expected a map"]
  end.
(** serde's Deserialize of [Vec<String>], as in ast/mod.rs 371. *)
Fixpoint strs_parse (l : list json) : outcome (list string) :=
  match l with
  | [] => Ok []
  | JStr s :: r => let! r' := strs_parse r in Ok (s :: r')
  | _ => Err ["expected a string"]
  end.
(** serde's Deserialize of an [Option] field, as in ast/mod.rs 366-371: missing or null is [None]. *)
Definition opt_parse {A} (f : json -> outcome A) (j : option json) : outcome (option A) :=
  match j with
  | None | Some JNull => Ok None
  | Some x => let! a := f x in Ok (Some a)
  end.
(** ast/mod.rs 364-381 (serde derive): the value of a struct field; a repeated field is an error. *)
Definition field (k : string) (l : list (string * json)) : outcome (option json) :=
  match List.filter (fun kv => String.eqb k kv.1) l with
  | [] => Ok None
  | [kv] => Ok (Some kv.2)
  | _ => Err [("duplicate field " +:+ k)%string]
  end.
(** ast/mod.rs 366-371: [skip_serializing_if = "Option::is_none"]. *)
Definition opt_field {V} (k : string) (f : V -> json) (o : option V) : list (string * json) :=
  match o with Some v => [(k, f v)] | None => [] end.
(** serde's Serialize of IndexMap, as in ast/mod.rs 367-369. *)
Definition imap_json {V} (f : V -> json) (m : imap V) : json := JObj (map (fun kv => (kv.1, f kv.2)) m).

(** ast/mod.rs 364-372 [CaptureContent]. *)
Definition capture_json (c : cap_content) : json :=
  JObj (opt_field "attributes" (imap_json nattr_json) (cc_attrs c) ++ opt_field "properties" (imap_json nvalue_json) (cc_props c) ++
        opt_field "flagged_attributes" jstrs (cc_flagged c)).
(** serde's Deserialize of [Vec<String>], as in ast/mod.rs 371. *)
Definition strs_json_parse (j : json) : outcome (list string) := match j with JArr l => strs_parse l | _ => Err ["expected a sequence"] end.
(** ast/mod.rs 364-372: derived Deserialize. *)
Definition capture_parse (j : json) : outcome cap_content :=
  match j with
  | JObj l =>
    let! a := field "attributes" l in let! a := opt_parse (imap_parse nattr_parse) a in
    let! p := field "properties" l in let! p := opt_parse (imap_parse nvalue_parse) p in
    let! f := field "flagged_attributes" l in let! f := opt_parse strs_json_parse f in
    Ok (CapContent a p f)
  | _ => Err ["expected struct CaptureContent"]
  end.
(** ast/mod.rs 375-381 [Content]. *)
Definition content_json (c : content) : json :=
  JObj (opt_field "attributes" (imap_json nvalue_json) (ct_attrs c) ++ opt_field "properties" (imap_json nvalue_json) (ct_props c)).
(** ast/mod.rs 375-381: derived Deserialize. *)
Definition content_parse (j : json) : outcome content :=
  match j with
  | JObj l =>
    let! a := field "attributes" l in let! a := opt_parse (imap_parse nvalue_parse) a in
    let! p := field "properties" l in let! p := opt_parse (imap_parse nvalue_parse) p in
    Ok (Content a p)
  | _ => Err ["expected struct Content"]
  end.
(** ast/mod.rs 359-362 [BundleContent], 383-388 [ReferenceAttrType]. *)
Definition bundle_content_json (c : bundle_content) : json := JObj [("said", JStr (ref_text (bc_said c)))].
(** ast/mod.rs 359-362, 383-390: derived Deserialize. *)
Definition bundle_content_parse (j : json) : outcome bundle_content :=
  match j with
  | JObj l => let! s := field "said" l in
              match s with
              | Some (JStr t) => match ref_parse t with Some r => Ok (BundleContent r) | None => Err ["data did not match any variant of untagged enum ReferenceAttrType"] end
              | Some _ => Err ["data did not match any variant of untagged enum ReferenceAttrType"]
              | None => Err ["missing field said"]
              end
  | _ => Err ["expected struct BundleContent"]
  end.
(** ast/mod.rs 42-48 [CommandType] (derived codec: the variant's name). *)
Definition cmd_type_name (c : cmd_type) : string :=
  match c with CAdd => "Add" | CRemove => "Remove" | CModify => "Modify" | CFrom => "From" end.
(** ast/mod.rs 42-48: derived Deserialize. *)
Definition cmd_type_parse (j : json) : outcome cmd_type :=
  match j with
  | JStr s => if String.eqb s "Add" then Ok CAdd else if String.eqb s "Remove" then Ok CRemove
              else if String.eqb s "Modify" then Ok CModify else if String.eqb s "From" then Ok CFrom else Err ["unknown variant"]
  | _ => Err ["unknown variant"]
  end.
(** ast/mod.rs 28-34, 229-253: "type", then the flattened "object_kind" and "content". *)
Definition obj_name (o : obj_kind) : string :=
  match o with OCaptureBase _ => "CaptureBase" | OBundle _ => "OCABundle" | OOverlay t _ => okind_name (ot_kind t) end.
(** ast/mod.rs 229-253: the "content" field. *)
Definition obj_content_json (o : obj_kind) : json :=
  match o with OCaptureBase c => capture_json c | OBundle c => bundle_content_json c | OOverlay _ c => content_json c end.
(** ast/mod.rs 28-34, 229-253. *)
Definition command_json (c : command) : json :=
  JObj [("type", JStr (cmd_type_name (cmd_kind c))); ("object_kind", JStr (obj_name (cmd_obj c))); ("content", obj_content_json (cmd_obj c))].
(** ast/mod.rs 535-617 [CommandVisitor::visit_map]: after "object_kind" the next entry is the content, whatever its
    key; any other key is an error. *)
Fixpoint command_visit (kind : option cmd_type) (obj : option obj_kind) (l : list (string * json)) : outcome command :=
  match l with
  | [] => match kind, obj with
          | Some k, Some o => Ok (Command k o)
          | None, _ => Err ["missing field type"]
          | _, None => Err ["missing field object_kind"]
          end
  | (key, x) :: r =>
    if String.eqb key "type" then
      match kind with
      | Some _ => Err ["duplicate field type"]
      | None => let! k := cmd_type_parse x in command_visit (Some k) obj r
      end
    else if String.eqb key "object_kind" then
      match obj, x, r with
      | Some _, _, _ => Err ["duplicate field object_kind"]
      | None, JStr name, (_, body) :: r' =>
        if String.eqb name "CaptureBase" then let! c := capture_parse body in command_visit kind (Some (OCaptureBase c)) r'
        else if String.eqb name "OCABundle" then let! c := bundle_content_parse body in command_visit kind (Some (OBundle c)) r'
        else match otype_of_name name with
             | Some t => let! c := content_parse body in command_visit kind (Some (OOverlay t c)) r'
             | None => Err [("unknown field " +:+ name)%string]
             end
      | None, JStr _, [] => Err ["missing content"]
      | None, _, _ => Err ["expected a string"]
      end
    else Err [("unknown field " +:+ key)%string]
  end.
(** ast/mod.rs 485-627. *)
Definition command_parse (j : json) : outcome command :=
  match j with JObj l => command_visit None None l | _ => Err ["expected struct Command"] end.
End Refs.

(** Reading bundles back from JSON.  Models semantics/oca-bundle/src/state/oca.rs 339-554, 623-657, 670-682 and the
    derived [Deserialize] of capture_base.rs 41-53 and the overlay structs. *)
From Verif Require Export Bundle Codec.

(** oca.rs 344, 642: [serde_value::Value] keeps objects in a BTreeMap: sorted by key, a repeated key keeps its last value. *)
Definition map_of {V} (l : list (string * V)) : gmap string V := fold_left (fun m kv => <[kv.1 := kv.2]> m) l ∅.
(** oca.rs 344, 642: the whole value in that form. *)
Fixpoint canon (j : json) : json :=
  match j with
  | JArr l => JArr (map canon l)
  | JObj l => JObj (sorted_pairs (map_of (map (fun kv => (kv.1, canon kv.2)) l)))
  | _ => j
  end.

(** overlay.rs 104-113 (serde derive): [String], [Vec<String>], [HashMap<String, V>] and [BTreeMap<String, V>]. *)
Definition str_parse (j : json) : outcome string := match j with JStr s => Ok s | _ => Err ["expected a string"] end.
(** serde's Deserialize of HashMap and BTreeMap, as in overlay.rs 111-112 and conditional.rs 128-129. *)
Definition map_parse {V} (f : json -> outcome V) (j : json) : outcome (gmap string V) :=
  match j with
  | JObj l => let! l' := parse_pairs f l in Ok (map_of l')
  | _ => Err ["expected a map"]
  end.
(** serde's Deserialize of [Vec], as the loop of oca.rs 644-646. *)
Fixpoint list_parse {V} (f : json -> outcome V) (l : list json) : outcome (list V) :=
  match l with
  | [] => Ok []
  | x :: r => let! v := f x in let! r' := list_parse f r in Ok (v :: r')
  end.
(** state/encoding.rs 7-20: derived, by the renamed variants. *)
Definition encoding_parse (j : json) : outcome encoding :=
  match j with JStr s => match encoding_of_str s with Some e => Ok e | None => Err ["unknown variant"] end | _ => Err ["unknown variant"] end.
(** state/entry_codes.rs 35-41, state/entries.rs 25-30: untagged. *)
Definition ecodes_parse (j : json) : outcome ecodes :=
  match j with
  | JStr s => Ok (ECSai s)
  | JArr l => let! l' := strs_parse l in Ok (ECArr l')
  | JObj _ => let! m := imap_parse strs_json_parse j in Ok (ECObj m)
  | _ => Err ["data did not match any variant of untagged enum EntryCodes"]
  end.
(** state/entries.rs 25-30: untagged. *)
Definition entries_parse (j : json) : outcome entries :=
  match j with
  | JStr s => Ok (EnSai s)
  | JObj _ => let! m := map_parse str_parse j in Ok (EnObj m)
  | _ => Err ["data did not match any variant of untagged enum EntriesElement"]
  end.
(** overlay.rs 104-113 (serde derive), oca.rs 355-537: a required field of a struct read from a [serde_value] map. *)
Definition need {V} (k : string) (f : json -> outcome V) (l : list (string * json)) : outcome V :=
  match imap_get k l with Some x => f x | None => Err [("missing field " +:+ k)%string] end.
(** attribute_framing.rs 12-18; [frame_meta] is skipped: empty. *)
Definition fscope_parse (j : json) : outcome fscope :=
  match j with
  | JObj l => let! p := need "predicate_id" str_parse l in let! q := need "framing_justification" str_parse l in Ok (FScope p q ∅)
  | _ => Err ["expected struct FramingScope"]
  end.

Section Parse.
Variable said_ok : string -> bool.
Variable digits : string -> bool.
(** [Language] of isolang: is this one of its codes. *)
Variable lang_ok : string -> bool.
(** [Standard::new(s).validate()], state/standard.rs 12-48. *)
Variable standard_read : string -> option string.

(** serde of SelfAddressingIdentifier (crate said), as in oca.rs 675. *)
Definition said_parse (j : json) : outcome string :=
  match j with JStr s => if said_ok s then Ok s else Err ["invalid identifier"] | _ => Err ["expected an identifier"] end.
(** serde of isolang's Language, as in meta.rs 61. *)
Definition lang_parse (j : json) : outcome string :=
  match j with JStr s => if lang_ok s then Ok s else Err ["unknown language"] | _ => Err ["expected a language"] end.
(** state/standard.rs 12-76: Deserialize validates. *)
Definition standard_parse (j : json) : outcome string :=
  match j with JStr s => match standard_read s with Some t => Ok t | None => Err ["invalid standard"] end | _ => Err ["standard must be a string"] end.
(** ast/mod.rs 317-357 through oca.rs 349-352. *)
Definition otype_json_parse (j : json) : outcome otype :=
  match j with JStr s => match otype_parse digits s with Some t => Ok t | None => Err ["invalid overlay type"] end | _ => Err ["expected an overlay type"] end.

(** meta.rs 53-64: [attr_pairs] is flattened and takes every field not declared. *)
Definition meta_reserved : list string := ["d"; "capture_base"; "type"; "language"].
(** meta.rs 62-63: serde(flatten). *)
Definition meta_rest (l : list (string * json)) : list (string * json) :=
  List.filter (fun kv => negb (existsb (String.eqb kv.1) meta_reserved)) l.
(** The struct behind each overlay type, oca.rs 355-537.  Encoding, UnitMapping, Layout and Sensitivity have none. *)
Definition body_parse (k : okind) (l : list (string * json)) : outcome body :=
  let texts := map_parse str_parse in
  match k with
  | KCharacterEncoding => let! m := need "attribute_character_encoding" (map_parse encoding_parse) l in Ok (BEncoding m)
  | KFormat => let! m := need "attribute_formats" texts l in Ok (BFormat m)
  | KConformance => let! m := need "attribute_conformance" texts l in Ok (BConformance m)
  | KCardinality => let! m := need "attribute_cardinality" texts l in Ok (BCardinality m)
  | KUnit => let! m := need "attribute_unit" texts l in Ok (BUnit m)
  | KConditional => let! c := need "attribute_conditions" texts l in
                    let! d := need "attribute_dependencies" (map_parse strs_json_parse) l in Ok (BConditional c d)
  | KEntryCode => let! m := need "attribute_entry_codes" (map_parse ecodes_parse) l in Ok (BEntryCode m)
  | KEntry => let! g := need "language" lang_parse l in let! m := need "attribute_entries" (map_parse entries_parse) l in Ok (BEntry g m)
  | KLabel => let! g := need "language" lang_parse l in let! c := need "attribute_categories" strs_json_parse l in
              let! m := need "attribute_labels" texts l in let! cl := need "category_labels" texts l in Ok (BLabel g c m cl)
  | KInformation => let! g := need "language" lang_parse l in let! m := need "attribute_information" texts l in Ok (BInformation g m)
  | KMeta => let! g := need "language" lang_parse l in let! m := texts (JObj (meta_rest l)) in Ok (BMeta g m)
  | KLink => let! t := need "target_bundle" str_parse l in let! m := need "attribute_mapping" texts l in Ok (BLink t m)
  | KAttributeFraming => let! t := need "framing_metadata" texts l in let! m := need "attribute_framing" (map_parse (map_parse fscope_parse)) l in Ok (BFraming t m)
  | KAttributeMapping => let! m := need "attribute_mapping" texts l in Ok (BMapping m)
  | KSubset => let! a := need "attributes" strs_json_parse l in Ok (BSubset a)
  | KStandard => let! m := need "attribute_standards" (map_parse standard_parse) l in Ok (BStandard (sorted_pairs m))
  | KEntryCodeMapping => let! m := need "attribute_entry_codes_mapping" (map_parse strs_json_parse) l in Ok (BEntryCodeMapping m)
  | KEncoding | KUnitMapping | KLayout | KSensitivity => Err ["Overlay type not supported"]
  end.
(** oca.rs 339-554 [Deserialize for DynOverlay]; [l] are the fields of the [serde_value] map. *)
Definition overlay_fields_parse (l : list (string * json)) : outcome overlay :=
  let! t := need "type" otype_json_parse l in
  let! d := opt_parse said_parse (imap_get "d" l) in
  let! c := opt_parse said_parse (imap_get "capture_base" l) in
  let! b := body_parse (ot_kind t) l in
  Ok (Overlay d c (ot_ver t) b).
(** oca.rs 339-554. *)
Definition overlay_parse (j : json) : outcome overlay :=
  match canon j with JObj l => overlay_fields_parse l | _ => Err ["overlay must be an object"] end.
(** oca.rs 623-657 [deserialize_overlays]: the keys are ignored, the overlays are listed in text order; a bad overlay
    panics ([unwrap]); values that are neither arrays nor objects are skipped. *)
Definition unwrap {A} (x : outcome A) : outcome A := match x with Err _ => Panic | _ => x end.
(** oca.rs 642-650: the loop. *)
Fixpoint overlays_parse (l : list (string * json)) : outcome (list overlay) :=
  match l with
  | [] => Ok []
  | (_, JArr js) :: r => let! a := list_parse (fun j => unwrap (overlay_parse j)) js in let! r' := overlays_parse r in Ok (a ++ r')
  | (_, JObj fs) :: r => let! a := unwrap (overlay_parse (JObj fs)) in let! r' := overlays_parse r in Ok (a :: r')
  | _ :: r => overlays_parse r
  end.
(** oca.rs 623-657. *)
Definition overlays_json_parse (j : json) : outcome (list overlay) :=
  match j with JObj l => overlays_parse l | _ => Err ["expected vector of overlays"] end.

(** capture_base.rs 41-53, oca.rs 670-682 (serde derive): a required field of a struct read from JSON text (a repeated field is an error). *)
Definition required {V} (k : string) (f : json -> outcome V) (l : list (string * json)) : outcome V :=
  let! x := field k l in match x with Some y => f y | None => Err [("missing field " +:+ k)%string] end.
(** An optional field, as in capture_base.rs 43-45 and oca.rs 675. *)
Definition optional {V} (k : string) (f : json -> outcome V) (l : list (string * json)) : outcome (option V) :=
  let! x := field k l in opt_parse f x.
(** capture_base.rs 41-53. *)
Definition cb_parse (j : json) : outcome capture_base :=
  match j with
  | JObj l =>
    let! d := optional "d" said_parse l in let! t := required "type" str_parse l in
    let! a := required "attributes" (imap_parse (nattr_parse said_ok)) l in
    let! c := required "classification" str_parse l in let! f := required "flagged_attributes" strs_json_parse l in
    Ok (CaptureBase d t a c f)
  | _ => Err ["expected struct CaptureBase"]
  end.
(** oca.rs 670-682.  The version field "v" that encoding adds is not a field of the struct and is ignored. *)
Definition bundle_parse (j : json) : outcome bundle :=
  match j with
  | JObj l =>
    let! d := optional "d" said_parse l in let! c := required "capture_base" cb_parse l in
    let! o := required "overlays" overlays_json_parse l in Ok (Bundle d c o)
  | _ => Err ["expected struct OCABundle"]
  end.
End Parse.

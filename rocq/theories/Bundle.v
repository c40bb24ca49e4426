(** Attributes, overlays, the OCABox and bundle generation.
    Models semantics/oca-bundle/src/state/{attribute,encoding,entries,entry_codes}.rs,
    state/oca.rs 52-337, 556-682, 921-926, state/oca/capture_base.rs, state/oca/overlay.rs and
    state/oca/overlay/{...}.rs.  Definitions only. *)
From Verif Require Export Ast Condition.

(** state/encoding.rs 7-20. *)
Inductive encoding := EBase64 | EUtf8 | EIso8859_1 | EUtf16 | EUtf16Be | EUtf16Le.
(** state/encoding.rs 7-20: the serde names. *)
Definition encoding_str (e : encoding) : string :=
  match e with
  | EBase64 => "base64" | EUtf8 => "utf-8" | EIso8859_1 => "iso-8859-1"
  | EUtf16 => "utf-16" | EUtf16Be => "utf-16be" | EUtf16Le => "utf-16le"
  end.
(** state/encoding.rs 22-36 [FromStr]; serde uses the same names (7-20). *)
Definition encoding_of_str (s : string) : option encoding :=
  if String.eqb s "base64" then Some EBase64
  else if String.eqb s "utf-8" then Some EUtf8
  else if String.eqb s "iso-8859-1" then Some EIso8859_1
  else if String.eqb s "utf-16" then Some EUtf16
  else if String.eqb s "utf-16be" then Some EUtf16Be
  else if String.eqb s "utf-16le" then Some EUtf16Le
  else None.

(** state/entry_codes.rs 35-41, state/entries.rs 25-30. *)
Inductive ecodes := ECSai (s : string) | ECArr (l : list string) | ECObj (l : imap (list string)).
(** state/entries.rs 25-30. *)
Inductive entries := EnSai (s : string) | EnObj (m : gmap string string).

(** overlay/attribute_framing.rs 10-18. *)
Record fscope := FScope { fs_pred : string; fs_just : string; fs_meta : gmap string string }.
(** overlay/attribute_framing.rs 10-18: scope name to [FramingScope]. *)
Definition framing := gmap string fscope.

(** state/attribute.rs 13-36.  Language keys are ISO 639-3 codes. [Standard] is its text. *)
Record attribute := Attribute {
  at_name : string;
  at_type : option nattr;
  at_flag : bool;
  at_labels : option (gmap string string);
  at_catlabels : option (gmap string string);
  at_infos : option (gmap string string);
  at_ecodes : option ecodes;
  at_entries : option (gmap string entries);
  at_mapping : option string;
  at_enc : option encoding;
  at_format : option string;
  at_unit : option string;
  at_ecmap : option (list string);
  at_cond : option string;
  at_deps : option (list string);
  at_card : option string;
  at_conf : option string;
  at_stds : option (list string);
  at_links : option (gmap string string);
  at_frames : option (gmap string framing) }.

(** attribute.rs 45-69 [Attribute::new]. *)
Definition attr_new (n : string) : attribute :=
  Attribute n None false None None None None None None None None None None None None None None None None None.

(** attribute.rs 150-192: merge_labels / merge_information / merge_category_labels / merge_entries. *)
Definition merge_map {V} (self other : option (gmap string V)) : option (gmap string V) :=
  match self, other with
  | None, o => o
  | Some m, None => Some m
  | Some m, Some m' => Some (m' ∪ m)
  end.
(** attribute.rs 84-146: [if other.x.is_some() { self.x.clone_from(&other.x) }] *)
Definition newer {V} (self other : option V) : option V :=
  match other with Some _ => other | None => self end.
(** attribute.rs 84-146: [if self.x.is_none() { self.x.clone_from(&other.x) }] *)
Definition older {V} (self other : option V) : option V :=
  match self with Some _ => self | None => other end.

(** attribute.rs 84-146: the body of [merge] once the names agree. *)
Definition merge_fields (self other : attribute) : attribute := {|
  at_name := at_name self;
  at_type := newer (at_type self) (at_type other);
  at_flag := at_flag self;
  at_labels := merge_map (at_labels self) (at_labels other);
  at_catlabels := merge_map (at_catlabels self) (at_catlabels other);
  at_infos := merge_map (at_infos self) (at_infos other);
  at_ecodes := older (at_ecodes self) (at_ecodes other);
  at_entries := merge_map (at_entries self) (at_entries other);
  at_mapping := newer (at_mapping self) (at_mapping other);
  at_enc := newer (at_enc self) (at_enc other);
  at_format := newer (at_format self) (at_format other);
  at_unit := older (at_unit self) (at_unit other);
  at_ecmap := older (at_ecmap self) (at_ecmap other);
  at_cond := newer (at_cond self) (at_cond other);
  at_deps := match at_cond other with
             | Some _ => newer (at_deps self) (at_deps other)
             | None => at_deps self
             end;
  at_card := newer (at_card self) (at_card other);
  at_conf := newer (at_conf self) (at_conf other);
  at_stds := newer (at_stds self) (at_stds other);
  at_links := newer (at_links self) (at_links other);
  at_frames := newer (at_frames self) (at_frames other) |}.

(** attribute.rs 80-148 [merge], with the name check. *)
Definition merge (self other : attribute) : outcome attribute :=
  if String.eqb (at_name self) (at_name other) then Ok (merge_fields self other) else Panic.

(** Setters.  attribute.rs 71-77; overlay.rs 83-87 (macro); overlay/label.rs 16-27;
    overlay/information.rs 15-23; overlay/entry.rs 15-23; overlay/link.rs 14-22;
    overlay/attribute_framing.rs 25-40; overlay/conditional.rs 24-43. *)
Definition set_type (t : nattr) (a : attribute) : attribute :=
  {| at_name := at_name a; at_type := Some t; at_flag := at_flag a; at_labels := at_labels a; at_catlabels := at_catlabels a; at_infos := at_infos a; at_ecodes := at_ecodes a; at_entries := at_entries a; at_mapping := at_mapping a; at_enc := at_enc a; at_format := at_format a; at_unit := at_unit a; at_ecmap := at_ecmap a; at_cond := at_cond a; at_deps := at_deps a; at_card := at_card a; at_conf := at_conf a; at_stds := at_stds a; at_links := at_links a; at_frames := at_frames a |}.
(** attribute.rs 71-73. *)
Definition set_flagged (a : attribute) : attribute :=
  {| at_name := at_name a; at_type := at_type a; at_flag := true; at_labels := at_labels a; at_catlabels := at_catlabels a; at_infos := at_infos a; at_ecodes := at_ecodes a; at_entries := at_entries a; at_mapping := at_mapping a; at_enc := at_enc a; at_format := at_format a; at_unit := at_unit a; at_ecmap := at_ecmap a; at_cond := at_cond a; at_deps := at_deps a; at_card := at_card a; at_conf := at_conf a; at_stds := at_stds a; at_links := at_links a; at_frames := at_frames a |}.
(** overlay/label.rs 17-26 and its copies: insert into the map, creating it when missing. *)
Definition insert_opt {V} (k : string) (v : V) (m : option (gmap string V)) : option (gmap string V) :=
  Some (<[k := v]> (unwrap_or ∅ m)).
(** overlay/label.rs 16-27. *)
Definition set_label (l s : string) (a : attribute) : attribute :=
  {| at_name := at_name a; at_type := at_type a; at_flag := at_flag a; at_labels := insert_opt l s (at_labels a); at_catlabels := at_catlabels a; at_infos := at_infos a; at_ecodes := at_ecodes a; at_entries := at_entries a; at_mapping := at_mapping a; at_enc := at_enc a; at_format := at_format a; at_unit := at_unit a; at_ecmap := at_ecmap a; at_cond := at_cond a; at_deps := at_deps a; at_card := at_card a; at_conf := at_conf a; at_stds := at_stds a; at_links := at_links a; at_frames := at_frames a |}.
(** overlay/label.rs 28-39. *)
Definition add_category_label (l s : string) (a : attribute) : attribute :=
  {| at_name := at_name a; at_type := at_type a; at_flag := at_flag a; at_labels := at_labels a; at_catlabels := insert_opt l s (at_catlabels a); at_infos := at_infos a; at_ecodes := at_ecodes a; at_entries := at_entries a; at_mapping := at_mapping a; at_enc := at_enc a; at_format := at_format a; at_unit := at_unit a; at_ecmap := at_ecmap a; at_cond := at_cond a; at_deps := at_deps a; at_card := at_card a; at_conf := at_conf a; at_stds := at_stds a; at_links := at_links a; at_frames := at_frames a |}.
(** overlay/information.rs 15-23. *)
Definition set_info (l s : string) (a : attribute) : attribute :=
  {| at_name := at_name a; at_type := at_type a; at_flag := at_flag a; at_labels := at_labels a; at_catlabels := at_catlabels a; at_infos := insert_opt l s (at_infos a); at_ecodes := at_ecodes a; at_entries := at_entries a; at_mapping := at_mapping a; at_enc := at_enc a; at_format := at_format a; at_unit := at_unit a; at_ecmap := at_ecmap a; at_cond := at_cond a; at_deps := at_deps a; at_card := at_card a; at_conf := at_conf a; at_stds := at_stds a; at_links := at_links a; at_frames := at_frames a |}.
(** overlay.rs 83-87 (macro), instantiated in overlay/entry_code.rs. *)
Definition set_ecodes (e : ecodes) (a : attribute) : attribute :=
  {| at_name := at_name a; at_type := at_type a; at_flag := at_flag a; at_labels := at_labels a; at_catlabels := at_catlabels a; at_infos := at_infos a; at_ecodes := Some e; at_entries := at_entries a; at_mapping := at_mapping a; at_enc := at_enc a; at_format := at_format a; at_unit := at_unit a; at_ecmap := at_ecmap a; at_cond := at_cond a; at_deps := at_deps a; at_card := at_card a; at_conf := at_conf a; at_stds := at_stds a; at_links := at_links a; at_frames := at_frames a |}.
(** overlay/entry.rs 15-23. *)
Definition set_entry (l : string) (e : entries) (a : attribute) : attribute :=
  {| at_name := at_name a; at_type := at_type a; at_flag := at_flag a; at_labels := at_labels a; at_catlabels := at_catlabels a; at_infos := at_infos a; at_ecodes := at_ecodes a; at_entries := insert_opt l e (at_entries a); at_mapping := at_mapping a; at_enc := at_enc a; at_format := at_format a; at_unit := at_unit a; at_ecmap := at_ecmap a; at_cond := at_cond a; at_deps := at_deps a; at_card := at_card a; at_conf := at_conf a; at_stds := at_stds a; at_links := at_links a; at_frames := at_frames a |}.
(** overlay.rs 83-87 (macro), instantiated in overlay/character_encoding.rs. *)
Definition set_encoding (e : encoding) (a : attribute) : attribute :=
  {| at_name := at_name a; at_type := at_type a; at_flag := at_flag a; at_labels := at_labels a; at_catlabels := at_catlabels a; at_infos := at_infos a; at_ecodes := at_ecodes a; at_entries := at_entries a; at_mapping := at_mapping a; at_enc := Some e; at_format := at_format a; at_unit := at_unit a; at_ecmap := at_ecmap a; at_cond := at_cond a; at_deps := at_deps a; at_card := at_card a; at_conf := at_conf a; at_stds := at_stds a; at_links := at_links a; at_frames := at_frames a |}.
(** overlay.rs 83-87 (macro), instantiated in overlay/format.rs. *)
Definition set_format (s : string) (a : attribute) : attribute :=
  {| at_name := at_name a; at_type := at_type a; at_flag := at_flag a; at_labels := at_labels a; at_catlabels := at_catlabels a; at_infos := at_infos a; at_ecodes := at_ecodes a; at_entries := at_entries a; at_mapping := at_mapping a; at_enc := at_enc a; at_format := Some s; at_unit := at_unit a; at_ecmap := at_ecmap a; at_cond := at_cond a; at_deps := at_deps a; at_card := at_card a; at_conf := at_conf a; at_stds := at_stds a; at_links := at_links a; at_frames := at_frames a |}.
(** overlay.rs 83-87 (macro), instantiated in overlay/unit.rs. *)
Definition set_unit (s : string) (a : attribute) : attribute :=
  {| at_name := at_name a; at_type := at_type a; at_flag := at_flag a; at_labels := at_labels a; at_catlabels := at_catlabels a; at_infos := at_infos a; at_ecodes := at_ecodes a; at_entries := at_entries a; at_mapping := at_mapping a; at_enc := at_enc a; at_format := at_format a; at_unit := Some s; at_ecmap := at_ecmap a; at_cond := at_cond a; at_deps := at_deps a; at_card := at_card a; at_conf := at_conf a; at_stds := at_stds a; at_links := at_links a; at_frames := at_frames a |}.
(** overlay/conditional.rs 24-43. *)
Definition set_condition (c : string) (a : attribute) : attribute :=
  {| at_name := at_name a; at_type := at_type a; at_flag := at_flag a; at_labels := at_labels a; at_catlabels := at_catlabels a; at_infos := at_infos a; at_ecodes := at_ecodes a; at_entries := at_entries a; at_mapping := at_mapping a; at_enc := at_enc a; at_format := at_format a; at_unit := at_unit a; at_ecmap := at_ecmap a; at_cond := Some (encode_condition c).1; at_deps := Some (encode_condition c).2; at_card := at_card a; at_conf := at_conf a; at_stds := at_stds a; at_links := at_links a; at_frames := at_frames a |}.
(** overlay.rs 83-87 (macro), instantiated in overlay/cardinality.rs. *)
Definition set_cardinality (s : string) (a : attribute) : attribute :=
  {| at_name := at_name a; at_type := at_type a; at_flag := at_flag a; at_labels := at_labels a; at_catlabels := at_catlabels a; at_infos := at_infos a; at_ecodes := at_ecodes a; at_entries := at_entries a; at_mapping := at_mapping a; at_enc := at_enc a; at_format := at_format a; at_unit := at_unit a; at_ecmap := at_ecmap a; at_cond := at_cond a; at_deps := at_deps a; at_card := Some s; at_conf := at_conf a; at_stds := at_stds a; at_links := at_links a; at_frames := at_frames a |}.
(** overlay.rs 83-87 (macro), instantiated in overlay/conformance.rs. *)
Definition set_conformance (s : string) (a : attribute) : attribute :=
  {| at_name := at_name a; at_type := at_type a; at_flag := at_flag a; at_labels := at_labels a; at_catlabels := at_catlabels a; at_infos := at_infos a; at_ecodes := at_ecodes a; at_entries := at_entries a; at_mapping := at_mapping a; at_enc := at_enc a; at_format := at_format a; at_unit := at_unit a; at_ecmap := at_ecmap a; at_cond := at_cond a; at_deps := at_deps a; at_card := at_card a; at_conf := Some s; at_stds := at_stds a; at_links := at_links a; at_frames := at_frames a |}.
(** overlay/link.rs 14-22. *)
Definition set_link (t s : string) (a : attribute) : attribute :=
  {| at_name := at_name a; at_type := at_type a; at_flag := at_flag a; at_labels := at_labels a; at_catlabels := at_catlabels a; at_infos := at_infos a; at_ecodes := at_ecodes a; at_entries := at_entries a; at_mapping := at_mapping a; at_enc := at_enc a; at_format := at_format a; at_unit := at_unit a; at_ecmap := at_ecmap a; at_cond := at_cond a; at_deps := at_deps a; at_card := at_card a; at_conf := at_conf a; at_stds := at_stds a; at_links := insert_opt t s (at_links a); at_frames := at_frames a |}.
(** attribute_framing.rs 25-40: scopes of an existing frame id are extended (new wins). *)
Definition frames_insert (id : string) (f : framing) (fs : option (gmap string framing)) : gmap string framing :=
  let m := unwrap_or ∅ fs in
  match m !! id with
  | Some g => <[id := f ∪ g]> m
  | None => <[id := f]> m
  end.
(** overlay/attribute_framing.rs 25-40. *)
Definition set_framing (id : string) (f : framing) (a : attribute) : attribute :=
  {| at_name := at_name a; at_type := at_type a; at_flag := at_flag a; at_labels := at_labels a; at_catlabels := at_catlabels a; at_infos := at_infos a; at_ecodes := at_ecodes a; at_entries := at_entries a; at_mapping := at_mapping a; at_enc := at_enc a; at_format := at_format a; at_unit := at_unit a; at_ecmap := at_ecmap a; at_cond := at_cond a; at_deps := at_deps a; at_card := at_card a; at_conf := at_conf a; at_stds := at_stds a; at_links := at_links a; at_frames := Some (frames_insert id f (at_frames a)) |}.

(** The overlay structs: overlay.rs 104-113 (macro: CharacterEncoding, Format, Conformance,
    Cardinality, Unit, EntryCode), conditional.rs 121-130, entry.rs 44-54, label.rs 70-87
    (the serde-skipped [_category_attributes] is never written and omitted), information.rs 44-54,
    meta.rs 54-64, link.rs 42-53, attribute_framing.rs 73-84, attribute_mapping.rs, subset.rs 9-17,
    standard.rs 28-37, entry_code_mapping.rs.
    [BStandard] is kept as a list because that HashMap is serialised unsorted. *)
Inductive body :=
| BEncoding (m : gmap string encoding)
| BFormat (m : gmap string string)
| BConformance (m : gmap string string)
| BCardinality (m : gmap string string)
| BUnit (m : gmap string string)
| BConditional (c : gmap string string) (d : gmap string (list string))
| BEntryCode (m : gmap string ecodes)
| BEntry (l : string) (m : gmap string entries)
| BLabel (l : string) (cats : list string) (m : gmap string string) (cl : gmap string string)
| BInformation (l : string) (m : gmap string string)
| BMeta (l : string) (m : gmap string string)
| BLink (t : string) (m : gmap string string)
| BFraming (meta : gmap string string) (m : gmap string framing)
| BMapping (m : gmap string string)
| BSubset (l : list string)
| BStandard (l : imap string)
| BEntryCodeMapping (m : gmap string (list string)).

(** overlay.rs 104-113 and the other overlay structs: the fields they share, and the rest. *)
Record overlay := Overlay {
  ov_said : option string;
  ov_cb : option string;
  ov_ver : string;
  ov_body : body }.

(** overlay.rs 55, 119-121 and its copies: the variant of [overlay_type()]. *)
Definition body_kind (b : body) : okind :=
  match b with
  | BEncoding _ => KCharacterEncoding | BFormat _ => KFormat | BConformance _ => KConformance
  | BCardinality _ => KCardinality | BUnit _ => KUnit | BConditional _ _ => KConditional
  | BEntryCode _ => KEntryCode | BEntry _ _ => KEntry | BLabel _ _ _ _ => KLabel
  | BInformation _ _ => KInformation | BMeta _ _ => KMeta | BLink _ _ => KLink
  | BFraming _ _ => KAttributeFraming | BMapping _ => KAttributeMapping | BSubset _ => KSubset
  | BStandard _ => KStandard | BEntryCodeMapping _ => KEntryCodeMapping
  end.
(** [overlay_type()] and [language()] of the Overlay trait (overlay.rs 50-74). *)
Definition ov_type (ov : overlay) : otype := OType (body_kind (ov_body ov)) (ov_ver ov).
(** overlay.rs 56-58, overridden in entry.rs 72-74, label.rs 105-107, information.rs 72-74, meta.rs. *)
Definition ov_lang (ov : overlay) : option string :=
  match ov_body ov with
  | BEntry l _ | BLabel l _ _ _ | BInformation l _ | BMeta l _ => Some l
  | _ => None
  end.
(** Model helper for the [&mut self] of overlay.rs 62. *)
Definition set_body (b : body) (ov : overlay) : overlay := Overlay (ov_said ov) (ov_cb ov) (ov_ver ov) b.

(** [Overlay::add]: overlay.rs 135-139 (macro), conditional.rs 152-165, entry.rs 79-86,
    label.rs 113-126, information.rs 79-86, meta.rs 90, link.rs 75-82,
    attribute_framing.rs 110-125, attribute_mapping.rs (no-op), subset.rs 39-41, standard.rs 59-65
    ([standard[0]] panics on an empty vector, which [add_standard] never makes; here: no-op),
    entry_code_mapping.rs.  [o] orders the scopes of a frame (their metadata is inserted in turn). *)
Definition add_field {V} (n : string) (v : option V) (m : gmap string V) : gmap string V :=
  match v with Some x => <[n := x]> m | None => m end.
(** label.rs 113-126 and its copies: the value of an attribute for the overlay's language or target, if any. *)
Definition lookup_opt {V} (k : string) (m : option (gmap string V)) : option V :=
  match m with Some m' => m' !! k | None => None end.
(** attribute_framing.rs 110-125: the scopes' metadata go into the overlay's metadata. *)
Definition frame_meta_of (o : order) (p : list string) (f : framing) (meta : gmap string string) : gmap string string :=
  fold_left (fun acc sc => fold_left (fun acc' kv => <[kv.1 := kv.2]> acc') (o (p ++ [sc.1]) _ (fs_meta sc.2)) acc)
            (o p _ f) meta.
(** overlay.rs 135-139 and the other [add]s listed above. *)
Definition body_add (o : order) (a : attribute) (b : body) : body :=
  let n := at_name a in
  match b with
  | BEncoding m => BEncoding (add_field n (at_enc a) m)
  | BFormat m => BFormat (add_field n (at_format a) m)
  | BConformance m => BConformance (add_field n (at_conf a) m)
  | BCardinality m => BCardinality (add_field n (at_card a) m)
  | BUnit m => BUnit (add_field n (at_unit a) m)
  | BConditional c d => BConditional (add_field n (at_cond a) c) (add_field n (at_deps a) d)
  | BEntryCode m => BEntryCode (add_field n (at_ecodes a) m)
  | BEntry l m => BEntry l (add_field n (lookup_opt l (at_entries a)) m)
  | BLabel l cats m cl => BLabel l cats (add_field n (lookup_opt l (at_labels a)) m)
                                       (add_field n (lookup_opt l (at_catlabels a)) cl)
  | BInformation l m => BInformation l (add_field n (lookup_opt l (at_infos a)) m)
  | BMeta l m => BMeta l m
  | BLink t m => BLink t (add_field n (lookup_opt t (at_links a)) m)
  | BFraming meta m =>
      match meta !! "frame_id" with
      | Some id =>
          match lookup_opt id (at_frames a) with
          | Some f => BFraming (frame_meta_of o [n; "frame"; id] f meta) (<[n := f]> m)
          | None => b
          end
      | None => b
      end
  | BMapping m => BMapping m
  | BSubset l => BSubset (l ++ [n])
  | BStandard l => match at_stds a with Some (s :: _) => BStandard (imap_insert n s l) | _ => b end
  | BEntryCodeMapping m => BEntryCodeMapping (add_field n (at_ecmap a) m)
  end.
(** overlay.rs 62 [Overlay::add]. *)
Definition ov_add (o : order) (a : attribute) (ov : overlay) : overlay := set_body (body_add o a (ov_body ov)) ov.

(** state/oca.rs 53-58 [OCABox].  A mapping is its [attribute_mapping]
    (AttributeMappingOverlay::new sets version 1.1 and no SAIDs). *)
Record obox := OBox {
  bx_attrs : gmap string attribute;
  bx_maps : option (list (gmap string string));
  bx_meta : option (gmap string (gmap string string));
  bx_class : option string }.
(** oca.rs 67-74 [OCABox::new]. *)
Definition box_new : obox := OBox ∅ None None None.

(** oca.rs 77-79. *)
Definition remove_attribute (n : string) (b : obox) : obox :=
  OBox (delete n (bx_attrs b)) (bx_maps b) (bx_meta b) (bx_class b).
(** oca.rs 84-90.  The name check of [merge] cannot fail here unless an attribute is stored
    under a key different from its name, which no modelled operation does (box_names_ok). *)
Definition add_attribute (a : attribute) (b : obox) : obox :=
  match bx_attrs b !! at_name a with
  | Some a0 => OBox (<[at_name a := merge_fields a0 a]> (bx_attrs b)) (bx_maps b) (bx_meta b) (bx_class b)
  | None => OBox (<[at_name a := a]> (bx_attrs b)) (bx_maps b) (bx_meta b) (bx_class b)
  end.
(** oca.rs 95-107. *)
Definition add_attribute_mapping (m : gmap string string) (b : obox) : obox :=
  OBox (bx_attrs b) (Some (match bx_maps b with Some l => l ++ [m] | None => [m] end)) (bx_meta b) (bx_class b).
(** oca.rs 101-103. *)
Definition add_classification (c : string) (b : obox) : obox :=
  OBox (bx_attrs b) (bx_maps b) (bx_meta b) (Some c).
(** oca.rs 105-107. *)
Definition remove_classification (b : obox) : obox :=
  OBox (bx_attrs b) (bx_maps b) (bx_meta b) None.
(** overlay/meta.rs 14-34. *)
Definition add_meta (l k v : string) (b : obox) : obox :=
  let meta := unwrap_or ∅ (bx_meta b) in
  OBox (bx_attrs b) (bx_maps b) (Some (<[l := <[k := v]> (unwrap_or ∅ (meta !! l))]> meta)) (bx_class b).

(** What an overlay is looked up by during generation (oca.rs 144-317). *)
Inductive gkey :=
| GEnc | GFormat | GConf | GCard | GCond | GUnit | GECode
| GEntry (l : string) | GLabel (l : string) | GInfo (l : string)
| GLink (t : string) | GFrame (f : string).

(** oca.rs 143: the version given to generated overlays. *)
Definition ver11 : string := "1.1".
(** The [find] closures of oca.rs 144-307. *)
Definition gkey_match (k : gkey) (ov : overlay) : bool :=
  match k, ov_body ov with
  | GEnc, BEncoding _ | GFormat, BFormat _ | GConf, BConformance _ | GCard, BCardinality _
  | GCond, BConditional _ _ | GUnit, BUnit _ | GECode, BEntryCode _ => String.eqb (ov_ver ov) ver11
  | GEntry l, BEntry l' _ | GLabel l, BLabel l' _ _ _ | GInfo l, BInformation l' _ =>
      String.eqb (ov_ver ov) ver11 && String.eqb l l'
  | GLink t, BLink t' _ => String.eqb t t'
  | GFrame f, BFraming meta _ => match meta !! "frame_id" with Some f' => String.eqb f f' | None => false end
  | _, _ => false
  end.
(** oca.rs 148-311: the constructors called when [find] fails. *)
Definition gkey_body (k : gkey) : body :=
  match k with
  | GEnc => BEncoding ∅ | GFormat => BFormat ∅ | GConf => BConformance ∅ | GCard => BCardinality ∅
  | GCond => BConditional ∅ ∅ | GUnit => BUnit ∅ | GECode => BEntryCode ∅
  | GEntry l => BEntry l ∅ | GLabel l => BLabel l [] ∅ ∅ | GInfo l => BInformation l ∅
  | GLink t => BLink t ∅ | GFrame f => BFraming {["frame_id" := f]} ∅
  end.
(** The overlay structs made by those constructors (overlay.rs 149-158 and copies): version 1.1, no SAIDs. *)
Definition gkey_new (k : gkey) : overlay := Overlay None None ver11 (gkey_body k).

(** find-or-push-then-add, oca.rs 145-155 and its repetitions. *)
Fixpoint upsert (o : order) (a : attribute) (k : gkey) (ovs : list overlay) : list overlay :=
  match ovs with
  | [] => [ov_add o a (gkey_new k)]
  | ov :: r => if gkey_match k ov then ov_add o a ov :: r else ov :: upsert o a k r
  end.

(** The overlays one attribute touches, in the order of oca.rs 144-317. *)
Definition opt_key {V} (x : option V) (k : gkey) : list gkey := match x with Some _ => [k] | None => [] end.
(** oca.rs 235-317: one overlay per language, target or frame. *)
Definition map_gkeys {V} (o : order) (p : list string) (m : option (gmap string V)) (k : string -> gkey) : list gkey :=
  match m with Some m' => map (fun kv => k kv.1) (o p _ m') | None => [] end.
(** oca.rs 144-317: all of them, in order. *)
Definition attr_keys (o : order) (a : attribute) : list gkey :=
  let n := at_name a in
  opt_key (at_enc a) GEnc ++ opt_key (at_format a) GFormat ++ opt_key (at_conf a) GConf
  ++ opt_key (at_card a) GCard ++ opt_key (at_cond a) GCond ++ opt_key (at_unit a) GUnit
  ++ opt_key (at_ecodes a) GECode
  ++ map_gkeys o [n; "entries"] (at_entries a) GEntry
  ++ map_gkeys o [n; "labels"] (at_labels a) GLabel
  ++ map_gkeys o [n; "informations"] (at_infos a) GInfo
  ++ map_gkeys o [n; "links"] (at_links a) GLink
  ++ map_gkeys o [n; "framings"] (at_frames a) GFrame.

(** oca.rs 128-321 [generate_overlays]. *)
Definition mapping_overlay (m : gmap string string) : overlay := Overlay None None ver11 (BMapping m).
(** oca.rs 135-140: one Meta overlay per language. *)
Definition meta_overlay (l : string) (m : gmap string string) : overlay := Overlay None None ver11 (BMeta l m).
(** oca.rs 130-140. *)
Definition initial_overlays (o : order) (b : obox) : list overlay :=
  map mapping_overlay (unwrap_or [] (bx_maps b))
  ++ match bx_meta b with
     | Some meta => map (fun kv => meta_overlay kv.1 kv.2) (o ["meta"] _ meta)
     | None => []
     end.
(** oca.rs 142-318: the body of the loop over attributes. *)
Definition add_attr_overlays (o : order) (ovs : list overlay) (a : attribute) : list overlay :=
  fold_left (fun acc k => upsert o a k acc) (attr_keys o a) ovs.
(** oca.rs 142, 327: [self.attributes.values()]. *)
Definition attr_values (o : order) (b : obox) : list attribute :=
  map snd (o ["attributes"] _ (bx_attrs b)).
(** oca.rs 128-321. *)
Definition generate_overlays (o : order) (b : obox) : list overlay :=
  fold_left (add_attr_overlays o) (attr_values o b) (initial_overlays o b).

(** capture_base.rs 41-53 [CaptureBase]. *)
Record capture_base := CaptureBase {
  cb_said : option string;
  cb_stype : string;
  cb_attrs : imap nattr;
  cb_class : string;
  cb_flagged : list string }.
(** capture_base.rs 61-70. *)
Definition cb_new : capture_base := CaptureBase None "spec/capture_base/1.1" [] "" [].
(** capture_base.rs 76-97 [add]; [None] = panic on a missing type. *)
Definition cb_add (cb : option capture_base) (a : attribute) : option capture_base :=
  match cb, at_type a with
  | Some cb, Some t => Some (CaptureBase (cb_said cb) (cb_stype cb) (imap_insert (at_name a) t (cb_attrs cb)) (cb_class cb)
                              (if at_flag a then cb_flagged cb ++ [at_name a] else cb_flagged cb))
  | _, _ => None
  end.
(** oca.rs 322-331. *)
Definition generate_capture_base (o : order) (b : obox) : option capture_base :=
  let cb0 := CaptureBase None "spec/capture_base/1.1" [] (unwrap_or "" (bx_class b)) [] in
  fold_left cb_add (attr_values o b) (Some cb0).

(** JSON forms. *)
(** serde of [Option<SelfAddressingIdentifier>] (overlay.rs 104-109). *)
Definition jopt (s : option string) : json := match s with Some x => JStr x | None => JNull end.
(** overlay.rs 89-101 [serialize_attributes]: a HashMap written in key order. *)
Definition jmap {V} (f : V -> json) (m : gmap string V) : json :=
  JObj (map (fun kv => (kv.1, f kv.2)) (sorted_pairs m)).
(** serde of [Vec<String>]. *)
Definition jstrs (l : list string) : json := JArr (map JStr l).

(** ast/mod.rs 164-227 [Serialize for OverlayType]. *)
Definition okind_path (k : okind) : string :=
  match k with
  | KLabel => "label" | KInformation => "information" | KEncoding => "encoding"
  | KCharacterEncoding => "character_encoding" | KFormat => "format" | KMeta => "meta"
  | KStandard => "standard" | KCardinality => "cardinality" | KConditional => "conditional"
  | KConformance => "conformance" | KEntryCode => "entry_code" | KEntry => "entry" | KUnit => "unit"
  | KAttributeMapping => "mapping" | KEntryCodeMapping => "entry_code_mapping" | KSubset => "subset"
  | KUnitMapping => "unit_mapping" | KLayout => "layout" | KSensitivity => "sensitivity"
  | KLink => "link" | KAttributeFraming => "attribute_framing"
  end.
(** ast/mod.rs 164-227: the text written, with the version. *)
Definition otype_text (t : otype) : string :=
  ("spec/overlays/" +:+ okind_path (ot_kind t) +:+ "/" +:+ ot_ver t)%string.

(** ast/mod.rs 287-313 [Display for OverlayType]. *)
Definition okind_name (k : okind) : string :=
  match k with
  | KLabel => "Label" | KInformation => "Information" | KEncoding => "Encoding"
  | KCharacterEncoding => "CharacterEncoding" | KFormat => "Format" | KMeta => "Meta"
  | KStandard => "Standard" | KCardinality => "Cardinality" | KConditional => "Conditional"
  | KConformance => "Conformance" | KEntryCode => "EntryCode" | KEntry => "Entry" | KUnit => "Unit"
  | KAttributeMapping => "AttributeMapping" | KEntryCodeMapping => "EntryCodeMapping" | KSubset => "Subset"
  | KUnitMapping => "UnitMapping" | KLayout => "Layout" | KSensitivity => "Sensitivity"
  | KLink => "Link" | KAttributeFraming => "AttributeFraming"
  end.
(** [overlay_type().to_string().to_case(Case::Snake)], oca.rs 581 (convert_case tabulated). *)
Definition okind_snake (k : okind) : string :=
  match k with
  | KLabel => "label" | KInformation => "information" | KEncoding => "encoding"
  | KCharacterEncoding => "character_encoding" | KFormat => "format" | KMeta => "meta"
  | KStandard => "standard" | KCardinality => "cardinality" | KConditional => "conditional"
  | KConformance => "conformance" | KEntryCode => "entry_code" | KEntry => "entry" | KUnit => "unit"
  | KAttributeMapping => "attribute_mapping" | KEntryCodeMapping => "entry_code_mapping" | KSubset => "subset"
  | KUnitMapping => "unit_mapping" | KLayout => "layout" | KSensitivity => "sensitivity"
  | KLink => "link" | KAttributeFraming => "attribute_framing"
  end.

(** ast/attributes.rs 12-51: serde(untagged) [NestedAttrType]; RefValue 468-482; AttributeType derives. *)
Definition attr_type_name (t : attr_type) : string :=
  match t with TBoolean => "Boolean" | TBinary => "Binary" | TText => "Text" | TNumeric => "Numeric" | TDateTime => "DateTime" end.
(** ast/mod.rs 468-482 [Serialize for RefValue]. *)
Definition ref_text (r : ref_value) : string :=
  match r with RSaid s => "refs:" +:+ s | RName s => "refn:" +:+ s end%string.
(** ast/attributes.rs 12-51. *)
Fixpoint nattr_json (a : nattr) : json :=
  match a with
  | NRef r => JStr (ref_text r)
  | NVal t => JStr (attr_type_name t)
  | NArr b => JArr [nattr_json b]
  | NNull => JNull
  end.

(** entry_codes.rs 7-33, entries.rs 4-23, attribute_framing.rs 12-18. *)
Definition ecodes_json (e : ecodes) : json :=
  match e with
  | ECSai s => JStr s
  | ECArr l => jstrs (sort_by id l)
  | ECObj l => JObj (map (fun kv => (kv.1, jstrs kv.2)) l)
  end.
(** state/entries.rs 4-23. *)
Definition entries_json (e : entries) : json :=
  match e with EnSai s => JStr s | EnObj m => jmap JStr m end.
(** overlay/attribute_framing.rs 12-18: serde fields of [FramingScope] (the metadata is skipped). *)
Definition fscope_json (s : fscope) : json :=
  JObj [("predicate_id", JStr (fs_pred s)); ("framing_justification", JStr (fs_just s))].

(** overlay.rs 104-113 and the other overlay structs: the serde fields of each overlay after d / capture_base / type, in declaration order. *)
Definition body_fields (b : body) : list (string * json) :=
  match b with
  | BEncoding m => [("attribute_character_encoding", jmap (fun e => JStr (encoding_str e)) m)]
  | BFormat m => [("attribute_formats", jmap JStr m)]
  | BConformance m => [("attribute_conformance", jmap JStr m)]
  | BCardinality m => [("attribute_cardinality", jmap JStr m)]
  | BUnit m => [("attribute_unit", jmap JStr m)]
  | BConditional c d => [("attribute_conditions", jmap JStr c); ("attribute_dependencies", jmap jstrs d)]
  | BEntryCode m => [("attribute_entry_codes", jmap ecodes_json m)]
  | BEntry l m => [("language", JStr l); ("attribute_entries", jmap entries_json m)]
  | BLabel l cats m cl => [("language", JStr l); ("attribute_categories", jstrs (sort_by id cats));
                           ("attribute_labels", jmap JStr m); ("category_labels", jmap JStr cl)]
  | BInformation l m => [("language", JStr l); ("attribute_information", jmap JStr m)]
  | BMeta l m => ("language", JStr l) :: map (fun kv => (kv.1, JStr kv.2)) (sorted_pairs m)
  | BLink t m => [("target_bundle", JStr t); ("attribute_mapping", jmap JStr m)]
  | BFraming meta m => [("framing_metadata", jmap JStr meta); ("attribute_framing", jmap (jmap fscope_json) m)]
  | BMapping m => [("attribute_mapping", jmap JStr m)]
  | BSubset l => [("attributes", jstrs l)]
  | BStandard l => [("attribute_standards", JObj (map (fun kv => (kv.1, JStr kv.2)) l))]
  | BEntryCodeMapping m => [("attribute_entry_codes_mapping", jmap jstrs m)]
  end.
(** overlay.rs 104-109: the JSON of an overlay with [d] given explicitly (attribute_mapping.rs declares type before
    capture_base, all others after). *)
Definition overlay_json_d (d : json) (ov : overlay) : json :=
  let hd := match ov_body ov with
            | BMapping _ => [("d", d); ("type", JStr (otype_text (ov_type ov))); ("capture_base", jopt (ov_cb ov))]
            | _ => [("d", d); ("capture_base", jopt (ov_cb ov)); ("type", JStr (otype_text (ov_type ov)))]
            end in
  JObj (hd ++ body_fields (ov_body ov)).
(** overlay.rs 103-113 and the other structs: derived Serialize. *)
Definition overlay_json (ov : overlay) : json := overlay_json_d (jopt (ov_said ov)) ov.

(** capture_base.rs 10-53. *)
Definition cb_json_d (d : json) (cb : capture_base) : json :=
  JObj [("d", d); ("type", JStr (cb_stype cb));
        ("attributes", JObj (map (fun kv => (kv.1, nattr_json kv.2)) (sort_by fst (cb_attrs cb))));
        ("classification", JStr (cb_class cb));
        ("flagged_attributes", jstrs (sort_by id (cb_flagged cb)))].
(** capture_base.rs 41-53: derived Serialize. *)
Definition cb_json (cb : capture_base) : json := cb_json_d (jopt (cb_said cb)) cb.

(** oca.rs 556-621 [serialize_overlays].  In the comparator overlays without a SAID compare Equal to
    everything; here a missing SAID sorts as the empty string (all signed overlays have one). *)
Inductive oval := OVArr (l : list overlay) | OVObj (ov : overlay).
(** oca.rs 570-577. *)
Definition overlays_many (k : okind) : bool :=
  match k with KMeta | KEntry | KLabel | KInformation | KLink | KAttributeFraming => true | _ => false end.
(** oca.rs 580-600: the body of the loop. *)
Definition group_step (m : gmap string oval) (ov : overlay) : gmap string oval :=
  let k := body_kind (ov_body ov) in
  let s := okind_snake k in
  if overlays_many k then
    match m !! s with
    | Some (OVArr l) => <[s := OVArr (l ++ [ov])]> m
    | _ => <[s := OVArr [ov]]> m
    end
  else <[s := OVObj ov]> m.
(** oca.rs 579-600. *)
Definition group_overlays (ovs : list overlay) : gmap string oval := fold_left group_step ovs ∅.
(** oca.rs 605-615: what the arrays are sorted by. *)
Definition said_key (ov : overlay) : string := unwrap_or "" (ov_said ov).
(** oca.rs 563-568 and 604-618. *)
Definition oval_json (v : oval) : json :=
  match v with
  | OVArr l => JArr (map overlay_json (sort_by said_key l))
  | OVObj ov => overlay_json ov
  end.
(** oca.rs 556-621. *)
Definition overlays_json (ovs : list overlay) : json := jmap oval_json (group_overlays ovs).

(** oca.rs 670-682 [OCABundle].  The "v" version field that the said crate adds when encoding is a
    function of the rest of the text and is left out here; it is added in Version.v (C61). *)
Record bundle := Bundle {
  b_said : option string;
  b_cb : capture_base;
  b_ovs : list overlay }.
(** oca.rs 670-682: derived Serialize, with [d] given explicitly. *)
Definition bundle_json_d (d : json) (b : bundle) : json :=
  JObj [("d", d); ("capture_base", cb_json (b_cb b)); ("overlays", overlays_json (b_ovs b))].
(** oca.rs 670-682: derived Serialize. *)
Definition bundle_json (b : bundle) : json := bundle_json_d (jopt (b_said b)) b.

(** oca.rs 670-675: the placeholder the said crate puts into the [#[said]] field before hashing. *)
Definition dummy_said : string := "############################################".

Section Digest.
(** Blake3-256 of the JSON text, CESR-encoded (said::sad::SAD::compute_digest). *)
Variable digest : json -> string.

(** capture_base.rs 99-107, overlay.rs 64-73, oca.rs 922-926. *)
Definition cb_fill (cb : capture_base) : capture_base :=
  CaptureBase (Some (digest (cb_json_d (JStr dummy_said) cb))) (cb_stype cb) (cb_attrs cb) (cb_class cb) (cb_flagged cb).
(** overlay.rs 64-68 [fill_said]. *)
Definition ov_fill (ov : overlay) : overlay :=
  Overlay (Some (digest (overlay_json_d (JStr dummy_said) ov))) (ov_cb ov) (ov_ver ov) (ov_body ov).
(** overlay.rs 70-73 [sign]. *)
Definition ov_sign (cbsaid : string) (ov : overlay) : overlay :=
  ov_fill (Overlay (ov_said ov) (Some cbsaid) (ov_ver ov) (ov_body ov)).
(** oca.rs 922-926 [fill_said]. *)
Definition bundle_fill (b : bundle) : bundle :=
  Bundle (Some (digest (bundle_json_d (JStr dummy_said) b))) (b_cb b) (b_ovs b).

(** oca.rs 109-126 [generate_bundle]; [None] = panic (attribute without a type). *)
Definition generate_bundle (o : order) (bx : obox) : option bundle :=
  match generate_capture_base o bx with
  | None => None
  | Some cb0 =>
      let cb := cb_fill cb0 in
      let ovs := map (ov_sign (unwrap_or "" (cb_said cb))) (generate_overlays o bx) in
      Some (bundle_fill (Bundle None cb ovs))
  end.
End Digest.

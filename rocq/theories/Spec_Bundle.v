(** Independent specification of what a generated bundle must contain, in terms of the facts an
    attribute carries.  A [slot] identifies an overlay: its kind plus language, link target or
    frame id where there is one.  A [datum] is the value an overlay gives to one attribute. *)
From Verif Require Export Bundle.

Inductive slot :=
| SPlain (k : okind)
| SLang (k : okind) (lang : string)
| SLink (target : string)
| SFrame (id : string).

Inductive datum :=
| DText (s : string)
| DEncoding (e : encoding)
| DCondition (c : string) (deps : option (list string))
| DCodes (e : ecodes)
| DEntries (e : entries)
| DLabel (s : string) (category : option string)
| DFraming (f : framing).

(** What attribute [a] says for slot [s]. *)
Definition attr_datum (a : attribute) (s : slot) : option datum :=
  match s with
  | SPlain KCharacterEncoding => DEncoding <$> at_enc a
  | SPlain KFormat => DText <$> at_format a
  | SPlain KConformance => DText <$> at_conf a
  | SPlain KCardinality => DText <$> at_card a
  | SPlain KUnit => DText <$> at_unit a
  | SPlain KConditional => (fun c => DCondition c (at_deps a)) <$> at_cond a
  | SPlain KEntryCode => DCodes <$> at_ecodes a
  | SLang KEntry l => DEntries <$> lookup_opt l (at_entries a)
  | SLang KLabel l => (fun v => DLabel v (lookup_opt l (at_catlabels a))) <$> lookup_opt l (at_labels a)
  | SLang KInformation l => DText <$> lookup_opt l (at_infos a)
  | SLink t => DText <$> lookup_opt t (at_links a)
  | SFrame f => DFraming <$> lookup_opt f (at_frames a)
  | _ => None
  end.

(** Which slot an overlay fills, and what it says about attribute (for meta: key) [n]. *)
Definition body_slot (b : body) : slot :=
  match b with
  | BEntry l _ | BLabel l _ _ _ | BInformation l _ | BMeta l _ => SLang (body_kind b) l
  | BLink t _ => SLink t
  | BFraming meta _ => match meta !! "frame_id" with Some f => SFrame f | None => SPlain KAttributeFraming end
  | _ => SPlain (body_kind b)
  end.
Definition body_datum (b : body) (n : string) : option datum :=
  match b with
  | BEncoding m => DEncoding <$> m !! n
  | BFormat m | BConformance m | BCardinality m | BUnit m | BInformation _ m | BMeta _ m | BLink _ m
  | BMapping m => DText <$> m !! n
  | BConditional c d => (fun x => DCondition x (d !! n)) <$> c !! n
  | BEntryCode m => DCodes <$> m !! n
  | BEntry _ m => DEntries <$> m !! n
  | BLabel _ _ m cl => (fun v => DLabel v (cl !! n)) <$> m !! n
  | BFraming _ m => DFraming <$> m !! n
  | BSubset _ | BStandard _ | BEntryCodeMapping _ => None
  end.
(** Nothing in the overlay besides what [body_datum] shows. *)
Definition body_tidy (b : body) : Prop :=
  match b with
  | BConditional c d => forall n, c !! n = None -> d !! n = None
  | BLabel _ cats m cl => cats = [] /\ (forall n, m !! n = None -> cl !! n = None)
  | BSubset _ | BStandard _ | BEntryCodeMapping _ => False
  | _ => True
  end.

(** The metadata scopes attach to a frame: [k] has value [v] in some scope of frame [f]. *)
Definition frame_meta_says (attrs : gmap string attribute) (f k v : string) : Prop :=
  exists n a fr sc s, attrs !! n = Some a /\ lookup_opt f (at_frames a) = Some fr /\ fr !! sc = Some s /\
    fs_meta s !! k = Some v.

(** Boxes the API can produce (Box_proofs.v): attributes are stored under their own name and typed, a
    language has a meta entry only if it has a key, no frame metadata key is the reserved "frame_id", and
    conditions are stored encoded. *)
Record box_ok (b : obox) : Prop := {
  ok_names : forall n a, bx_attrs b !! n = Some a -> at_name a = n;
  ok_types : forall n a, bx_attrs b !! n = Some a -> is_Some (at_type a);
  ok_meta : forall meta l m, bx_meta b = Some meta -> meta !! l = Some m -> m <> ∅;
  ok_frames : forall f v, ~ frame_meta_says (bx_attrs b) f "frame_id" v;
  ok_conds : forall n a, bx_attrs b !! n = Some a ->
    (at_cond a = None /\ at_deps a = None) \/
    exists c, at_cond a = Some (encode_condition c).1 /\ at_deps a = Some (encode_condition c).2 }.

(** One frame id never carries two values for one metadata key. *)
Definition frames_consistent (b : obox) : Prop :=
  forall f k v w, frame_meta_says (bx_attrs b) f k v -> frame_meta_says (bx_attrs b) f k w -> v = w.

(** The fact the box holds for slot [s] and attribute (meta: key) [n]. *)
Definition box_datum (b : obox) (s : slot) (n : string) : option datum :=
  match s with
  | SLang KMeta l => meta ← bx_meta b; m ← meta !! l; DText <$> m !! n
  | _ => a ← bx_attrs b !! n; attr_datum a s
  end.

Definition is_mapping (b : body) : bool := match b with BMapping _ => true | _ => false end.

(** A bundle says exactly what the box says. *)
Record bundle_right (b : obox) (B : bundle) : Prop := {
  (* at most one overlay per slot, besides the mappings, which are listed as they were added *)
  br_slots : NoDup (map body_slot (List.filter (fun x => negb (is_mapping x)) (map ov_body (b_ovs B))));
  br_maps : List.filter is_mapping (map ov_body (b_ovs B)) = map BMapping (unwrap_or [] (bx_maps b));
  (* an overlay exists iff there is a fact for it *)
  br_exists : forall s, s <> SPlain KAttributeMapping ->
    (exists ov, ov ∈ b_ovs B /\ body_slot (ov_body ov) = s) <-> (exists n d, box_datum b s n = Some d);
  (* an overlay states exactly the facts of its slot, nothing more *)
  br_facts : forall ov n d, ov ∈ b_ovs B -> body_slot (ov_body ov) <> SPlain KAttributeMapping ->
    body_datum (ov_body ov) n = Some d <-> box_datum b (body_slot (ov_body ov)) n = Some d;
  br_tidy : forall ov, ov ∈ b_ovs B -> body_tidy (ov_body ov);
  br_version : forall ov, ov ∈ b_ovs B -> ov_ver ov = "1.1";
  (* frame metadata: the frame id, and per key one of the values the scopes give *)
  br_frame : forall ov meta m, ov ∈ b_ovs B -> ov_body ov = BFraming meta m ->
    exists f, meta !! "frame_id" = Some f /\
      (forall k v, k <> "frame_id" -> meta !! k = Some v -> frame_meta_says (bx_attrs b) f k v) /\
      (forall k v, frame_meta_says (bx_attrs b) f k v -> is_Some (meta !! k));
  (* the capture base *)
  br_names : NoDup (map fst (cb_attrs (b_cb B)));
  br_types : forall n t, (n, t) ∈ cb_attrs (b_cb B) <-> exists a, bx_attrs b !! n = Some a /\ at_type a = Some t;
  br_class : cb_class (b_cb B) = unwrap_or "" (bx_class b);
  br_flag_nodup : NoDup (cb_flagged (b_cb B));
  br_flags : forall n, n ∈ cb_flagged (b_cb B) <-> exists a, bx_attrs b !! n = Some a /\ at_flag a = true }.

(** No two of these overlays have different hashed texts with equal digests. *)
Definition no_collision (digest : json -> string) (ovs : list overlay) : Prop :=
  forall x y, x ∈ ovs -> y ∈ ovs ->
    digest (overlay_json_d (JStr dummy_said) x) = digest (overlay_json_d (JStr dummy_said) y) ->
    overlay_json_d (JStr dummy_said) x = overlay_json_d (JStr dummy_said) y.

(** Frame metadata is kept inside each scope but written once per frame, and a flat list of entry codes is written
    sorted: [erase_*] forgets the copies and the order of such a list. *)
Definition erase_scope (s : fscope) : fscope := FScope (fs_pred s) (fs_just s) ∅.
Definition erase_frame (f : framing) : framing := fmap (M := gmap string) erase_scope f.
Definition erase_codes (c : ecodes) : ecodes := match c with ECArr l => ECArr (sort_by id l) | _ => c end.
Definition erase_datum (d : datum) : datum :=
  match d with DFraming f => DFraming (erase_frame f) | DCodes c => DCodes (erase_codes c) | _ => d end.
Definition body_erase (b : body) : body :=
  match b with BFraming meta m => BFraming meta (erase_frame <$> m) | BEntryCode m => BEntryCode (erase_codes <$> m) | _ => b end.
Definition ov_erase (ov : overlay) : overlay := Overlay (ov_said ov) (ov_cb ov) (ov_ver ov) (body_erase (ov_body ov)).

(** Two boxes that say the same: same facts, types, flags, classification, mappings, frame metadata. *)
Record box_equiv (b1 b2 : obox) : Prop := {
  be_facts : forall s n, erase_datum <$> box_datum b1 s n = erase_datum <$> box_datum b2 s n;
  be_types : forall n, (a ← bx_attrs b1 !! n; at_type a) = (a ← bx_attrs b2 !! n; at_type a);
  be_flags : forall n, at_flag <$> bx_attrs b1 !! n = at_flag <$> bx_attrs b2 !! n;
  be_class : unwrap_or "" (bx_class b1) = unwrap_or "" (bx_class b2);
  be_maps : unwrap_or [] (bx_maps b1) = unwrap_or [] (bx_maps b2);
  be_frames : forall f k v, frame_meta_says (bx_attrs b1) f k v <-> frame_meta_says (bx_attrs b2) f k v }.


Definition of_kind (k : okind) (ovs : list overlay) : list overlay :=
  List.filter (fun ov => bool_decide (body_kind (ov_body ov) = k)) ovs.
(** Entry codes and label categories are lists compared as multisets: they are sorted on output. *)
Definition ecodes_same (x y : ecodes) : Prop :=
  match x, y with ECArr l, ECArr l' => l ≡ₚ l' | _, _ => x = y end.
Definition map_same {V} (R : V -> V -> Prop) (m1 m2 : gmap string V) : Prop :=
  forall k, match m1 !! k, m2 !! k with Some x, Some y => R x y | None, None => True | _, _ => False end.
Definition body_same (b1 b2 : body) : Prop :=
  match b1, b2 with
  | BEntryCode m, BEntryCode m' => map_same ecodes_same m m'
  | BLabel l c m cl, BLabel l' c' m' cl' => l = l' /\ c ≡ₚ c' /\ m = m' /\ cl = cl'
  | BFraming meta m, BFraming meta' m' => meta = meta' /\ (erase_frame <$> m) = (erase_frame <$> m')
  | _, _ => b1 = b2
  end.
Definition overlay_same (x y : overlay) : Prop :=
  ov_said x = ov_said y /\ ov_cb x = ov_cb y /\ ov_ver x = ov_ver y /\ body_same (ov_body x) (ov_body y).

(** Overlays as the bundle lists them, by kind: all of them for the kinds serialised as arrays, the
    last one for the others. *)
Definition visible (k : okind) (ovs : list overlay) : list overlay :=
  let l := of_kind k ovs in
  if overlays_many k then l else match last l with Some x => [x] | None => [] end.
(** What two serialisations equal up to [d] have in common. *)
Definition bundle_same (B1 B2 : bundle) : Prop :=
  cb_said (b_cb B1) = cb_said (b_cb B2) /\ cb_stype (b_cb B1) = cb_stype (b_cb B2) /\
  cb_attrs (b_cb B1) ≡ₚ cb_attrs (b_cb B2) /\ cb_class (b_cb B1) = cb_class (b_cb B2) /\
  cb_flagged (b_cb B1) ≡ₚ cb_flagged (b_cb B2) /\
  forall k, exists l, l ≡ₚ visible k (b_ovs B2) /\ Forall2 overlay_same (visible k (b_ovs B1)) l.

(** Attributes and boxes a caller can make with the public operations of oca-bundle: create, set, get from
    a box, add, remove.  Restrictions: an attribute new to the box has a type (generation panics
    otherwise), and frame metadata does not use the reserved key "frame_id". *)
Inductive api_attr : attribute -> Prop :=
| aa_new n : api_attr (attr_new n)
| aa_get b n a : api_box b -> bx_attrs b !! n = Some a -> api_attr a
| aa_type t a : api_attr a -> api_attr (set_type t a)
| aa_flag a : api_attr a -> api_attr (set_flagged a)
| aa_label l s a : api_attr a -> api_attr (set_label l s a)
| aa_catlabel l s a : api_attr a -> api_attr (add_category_label l s a)
| aa_info l s a : api_attr a -> api_attr (set_info l s a)
| aa_ecodes e a : api_attr a -> api_attr (set_ecodes e a)
| aa_entry l e a : api_attr a -> api_attr (set_entry l e a)
| aa_enc e a : api_attr a -> api_attr (set_encoding e a)
| aa_format s a : api_attr a -> api_attr (set_format s a)
| aa_unit s a : api_attr a -> api_attr (set_unit s a)
| aa_cond c a : api_attr a -> api_attr (set_condition c a)
| aa_card s a : api_attr a -> api_attr (set_cardinality s a)
| aa_conf s a : api_attr a -> api_attr (set_conformance s a)
| aa_link t s a : api_attr a -> api_attr (set_link t s a)
| aa_framing id f a : (forall sc s, f !! sc = Some s -> fs_meta s !! "frame_id" = None) ->
    api_attr a -> api_attr (set_framing id f a)
with api_box : obox -> Prop :=
| ab_new : api_box box_new
| ab_add a b : api_attr a -> is_Some (at_type a) \/ is_Some (bx_attrs b !! at_name a) ->
    api_box b -> api_box (add_attribute a b)
| ab_remove n b : api_box b -> api_box (remove_attribute n b)
| ab_mapping m b : api_box b -> api_box (add_attribute_mapping m b)
| ab_class c b : api_box b -> api_box (add_classification c b)
| ab_unclass b : api_box b -> api_box (remove_classification b)
| ab_meta l k v b : api_box b -> api_box (add_meta l k v b).

(** ** Translations (C33) *)
(** The overlay gives texts of kind [k] (the four translated kinds) in language [l]; [says]: it has a text for [key]. *)
Definition speaks (ov : overlay) (k : okind) (l : string) : Prop :=
  match ov_body ov with
  | BMeta l' _ => k = KMeta /\ l = l'
  | BEntry l' _ => k = KEntry /\ l = l'
  | BInformation l' _ => k = KInformation /\ l = l'
  | BLabel l' _ _ _ => k = KLabel /\ l = l'
  | _ => False
  end.
Definition says (ov : overlay) (key : string) : Prop :=
  match ov_body ov with
  | BMeta _ m | BInformation _ m | BLabel _ _ m _ => is_Some (m !! key)
  | BEntry _ m => is_Some (m !! key)
  | _ => False
  end.

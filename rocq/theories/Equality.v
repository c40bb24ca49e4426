(** Comparing and hashing commands: the derived and hand-written [PartialEq] and [Hash] of semantics/oca-ast/src/ast/mod.rs,
    ast/attributes.rs and of [OCAObject] (oca/src/facade/explore.rs). *)
From Verif Require Import Base Ast Bundle Build Codec Storage Relations.
Local Open Scope list_scope.

(** ast/mod.rs 364-381, 392-399: [PartialEq for IndexMap] (crate indexmap), called by the derived implementations: the same length, and every pair of the left one has its key in the right one with
    an equal value; the order is not looked at. *)
Definition imap_eqb {V} (eq : V -> V -> bool) (l l' : imap V) : bool :=
  Nat.eqb (length l) (length l') && forallb (fun kv => match imap_get kv.1 l' with Some v => eq kv.2 v | None => false end) l.
(** ast/mod.rs 373, 398: [PartialEq for Vec]. *)
Fixpoint list_eqb {V} (eq : V -> V -> bool) (l l' : list V) : bool :=
  match l, l' with [], [] => true | x :: l, y :: l' => eq x y && list_eqb eq l l' | _, _ => false end.
(** ast/mod.rs 364-381: [PartialEq for Option]. *)
Definition option_eqb {V} (eq : V -> V -> bool) (a b : option V) : bool :=
  match a, b with Some x, Some y => eq x y | None, None => true | _, _ => false end.
(** ast/mod.rs 424-429: derived [PartialEq] of [RefValue]. *)
Definition ref_eqb (a b : ref_value) : bool :=
  match a, b with RSaid s, RSaid t | RName s, RName t => String.eqb s t | _, _ => false end.
(** ast/mod.rs 392-399: derived [PartialEq] of [NestedValue]; the loops of [imap_eqb] and [list_eqb] are written out for the guard
    checker (value_eqb_obj and value_eqb_arr show that they are those loops). *)
Fixpoint value_eqb (a b : nvalue) {struct a} : bool :=
  match a, b with
  | VRef r, VRef r' => ref_eqb r r'
  | VVal s, VVal s' => String.eqb s s'
  | VObj l, VObj l' =>
      Nat.eqb (length l) (length l') &&
      (fix all (m : list (string * nvalue)) : bool :=
         match m with [] => true | kv :: m => match imap_get kv.1 l' with Some v => value_eqb kv.2 v | None => false end && all m end) l
  | VArr l, VArr l' =>
      (fix all (m m' : list nvalue) : bool := match m, m' with [], [] => true | x :: m, y :: m' => value_eqb x y && all m m' | _, _ => false end) l l'
  | _, _ => false
  end.
(** attributes.rs 12-27: derived [PartialEq] of [NestedAttrType]. *)
Fixpoint type_eqb (a b : nattr) : bool :=
  match a, b with
  | NRef r, NRef r' => ref_eqb r r'
  | NVal t, NVal t' => bool_decide (t = t')
  | NArr x, NArr y => type_eqb x y
  | NNull, NNull => true
  | _, _ => false
  end.
(** ast/mod.rs 364-373: derived [PartialEq] of [CaptureContent]. *)
Definition capture_eqb (a b : cap_content) : bool :=
  option_eqb (imap_eqb type_eqb) (cc_attrs a) (cc_attrs b) && (option_eqb (imap_eqb value_eqb) (cc_props a) (cc_props b) &&
  option_eqb (list_eqb String.eqb) (cc_flagged a) (cc_flagged b)).
(** ast/mod.rs 375-381: derived [PartialEq] of [Content]. *)
Definition content_eqb (a b : content) : bool :=
  option_eqb (imap_eqb value_eqb) (ct_attrs a) (ct_attrs b) && option_eqb (imap_eqb value_eqb) (ct_props a) (ct_props b).
(** ast/mod.rs 140-163: derived [PartialEq] of [OverlayType]. *)
Definition otype_eqb (a b : otype) : bool := bool_decide (ot_kind a = ot_kind b) && String.eqb (ot_ver a) (ot_ver b).
(** ast/mod.rs 50-55: derived [PartialEq] of [ObjectKind]; 359-362, 383-390 for the reference of a bundle. *)
Definition object_eqb (a b : obj_kind) : bool :=
  match a, b with
  | OCaptureBase c, OCaptureBase c' => capture_eqb c c'
  | OBundle r, OBundle r' => ref_eqb (bc_said r) (bc_said r')
  | OOverlay t c, OOverlay t' c' => otype_eqb t t' && content_eqb c c'
  | _, _ => false
  end.
(** ast/mod.rs 42-48: derived [PartialEq] of [CommandType]. *)
Definition cmd_type_eqb (a b : cmd_type) : bool :=
  match a, b with CAdd, CAdd | CRemove, CRemove | CModify, CModify | CFrom, CFrom => true | _, _ => false end.
(** ast/mod.rs 28-34: derived [PartialEq] of [Command]. *)
Definition command_eqb (a b : command) : bool := cmd_type_eqb (cmd_kind a) (cmd_kind b) && object_eqb (cmd_obj a) (cmd_obj b).
(** ast/mod.rs 36-40: derived [PartialEq] of [CommandMeta]. *)
Definition cmeta_eqb (a b : cmd_meta) : bool := Nat.eqb (cm_line a) (cm_line b) && String.eqb (cm_raw a) (cm_raw b).
(** ast/mod.rs 20-26: derived [PartialEq] of [OCAAst]; [commands_meta] is an IndexMap and [meta] a HashMap. *)
Definition ast_eqb (a b : ast) : bool :=
  String.eqb (ast_version a) (ast_version b) && (list_eqb command_eqb (ast_commands a) (ast_commands b) &&
  ((Nat.eqb (length (ast_cmeta a)) (length (ast_cmeta b)) && forallb (fun im => match cmeta_get im.1 (ast_cmeta b) with Some m => cmeta_eqb im.2 m | None => false end) (ast_cmeta a)) &&
  bool_decide (ast_meta a = ast_meta b))).
(** explore.rs 204-208: derived [PartialEq] of [OCAObject]. *)
Definition oobject_eqb (a b : oobject) : bool := String.eqb (oo_said a) (oo_said b) && object_eqb (oo_kind a) (oo_kind b).

(** ast/mod.rs 57-85: what is fed to a [Hasher]: texts and numbers of enum variants. *)
Inductive fed := FText (s : string) | FVariant (n : nat).
(** ast/mod.rs 424-429: derived [Hash] of [RefValue]: the number of the variant and the text. *)
Definition ref_feed (r : ref_value) : list fed := match r with RSaid s => [FVariant 0; FText s] | RName s => [FVariant 1; FText s] end.
(** ast/mod.rs 110-121: derived [Hash] of [AttributeType]: the number of the variant. *)
Definition base_feed (t : attr_type) : list fed :=
  [FVariant (match t with TBoolean => 0 | TBinary => 1 | TText => 2 | TNumeric => 3 | TDateTime => 4 end)].
(** attributes.rs 53-70 [Hash for NestedAttrType]. *)
Fixpoint type_feed (t : nattr) : list fed :=
  match t with NRef r => ref_feed r | NVal t => base_feed t | NArr t => type_feed t | NNull => [FText "null"] end.
(** ast/mod.rs 400-422 [NestedValue::hash]. *)
Fixpoint value_feed (v : nvalue) : list fed :=
  match v with
  | VRef r => ref_feed r
  | VVal s => [FText s]
  | VObj l => (fix all (m : list (string * nvalue)) : list fed := match m with [] => [] | kv :: m => FText kv.1 :: value_feed kv.2 ++ all m end) l
  | VArr l => (fix all (m : list nvalue) : list fed := match m with [] => [] | x :: m => value_feed x ++ all m end) l
  end.
(** ast/mod.rs 75-85: a loop over a map in its order. *)
Definition map_feed {V} (feed : V -> list fed) (m : option (imap V)) : list fed :=
  match m with Some l => flat_map (fun kv => FText kv.1 :: feed kv.2) l | None => [] end.
(** ast/mod.rs 73-88 [Hash for CaptureContent]; the flagged attributes are not hashed. *)
Definition capture_feed (c : cap_content) : list fed := map_feed type_feed (cc_attrs c) ++ map_feed value_feed (cc_props c).
(** ast/mod.rs 140-163: the number of a variant of [OverlayType]. *)
Definition okind_number (k : okind) : nat :=
  match k with
  | KLabel => 0 | KInformation => 1 | KEncoding => 2 | KCharacterEncoding => 3 | KFormat => 4 | KMeta => 5 | KStandard => 6 | KCardinality => 7
  | KConditional => 8 | KConformance => 9 | KEntryCode => 10 | KEntry => 11 | KUnit => 12 | KAttributeMapping => 13 | KEntryCodeMapping => 14
  | KSubset => 15 | KUnitMapping => 16 | KLayout => 17 | KSensitivity => 18 | KLink => 19 | KAttributeFraming => 20
  end%nat.
(** ast/mod.rs 140-163: derived [Hash] of [OverlayType]: the number of the variant and the version. *)
Definition otype_feed (t : otype) : list fed := [FVariant (okind_number (ot_kind t)); FText (ot_ver t)].
(** ast/mod.rs 57-71 [Hash for ObjectKind]; 359-362, 383-390: a struct and an enum with one variant. *)
Definition object_feed (k : obj_kind) : list fed :=
  match k with
  | OCaptureBase c => capture_feed c
  | OBundle r => FVariant 0 :: ref_feed (bc_said r)
  | OOverlay t _ => otype_feed t
  end.
(** explore.rs 204-208: derived [Hash] of [OCAObject]. *)
Definition oobject_feed (o : oobject) : list fed := FText (oo_said o) :: object_feed (oo_kind o).

(** [HashSet::insert] (std, hashbrown): an element is kept out if one with the same hash compares equal to it; [H] is the hasher, on what
    it was fed.  Bound to explore.rs 150-152 [add_relation]. *)
Definition set_insert (H : list fed -> nat) (x : oobject) (l : list oobject) : list oobject :=
  if existsb (fun y => Nat.eqb (H (oobject_feed x)) (H (oobject_feed y)) && oobject_eqb x y) l then l else l ++ [x].

(** ast/mod.rs 229-253 [Serialize for ObjectKind]. *)
Definition object_kind_json (k : obj_kind) : json := JObj [("object_kind", JStr (obj_name k)); ("content", obj_content_json k)].
(** explore.rs 210-235 [Serialize for OCAObject]. *)
Definition oobject_json (o : oobject) : json :=
  match oo_kind o with
  | OBundle _ | OCaptureBase _ => JObj [("said", JStr (oo_said o)); ("object_type", object_kind_json (oo_kind o))]
  | OOverlay _ _ => JObj [("said", JStr (oo_said o)); ("object_type", JStr "Overlay"); ("metadata", JObj [("kind", object_kind_json (oo_kind o))])]
  end.

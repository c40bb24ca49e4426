(** Types of the semantics AST.  Models semantics/oca-ast/src/ast/mod.rs and attributes.rs. *)
From Verif Require Export Base.

(** ast/mod.rs 116-122 [AttributeType]. *)
Inductive attr_type := TBoolean | TBinary | TText | TNumeric | TDateTime.

(** ast/mod.rs 424-429 [RefValue]; a SAID is its text. *)
Inductive ref_value := RSaid (s : string) | RName (s : string).

(** ast/attributes.rs 20-27 [NestedAttrType]. *)
Inductive nattr :=
| NRef (r : ref_value)
| NVal (t : attr_type)
| NArr (a : nattr)
| NNull.

(** ast/mod.rs 392-399 [NestedValue]. *)
Inductive nvalue :=
| VRef (r : ref_value)
| VVal (s : string)
| VObj (l : list (string * nvalue))
| VArr (l : list nvalue).

(** ast/mod.rs 139-162 [OverlayType]; every Rust variant carries a version string, here the
    variant is [okind] and the version is kept beside it. *)
Inductive okind :=
| KLabel | KInformation | KEncoding | KCharacterEncoding | KFormat | KMeta | KStandard
| KCardinality | KConditional | KConformance | KEntryCode | KEntry | KUnit
| KAttributeMapping | KEntryCodeMapping | KSubset | KUnitMapping | KLayout
| KSensitivity | KLink | KAttributeFraming.
(** ast/mod.rs 139-162: the variant with the version string it carries. *)
Record otype := OType { ot_kind : okind; ot_ver : string }.

(** ast/mod.rs 42-48 [CommandType]. *)
Inductive cmd_type := CAdd | CRemove | CModify | CFrom.

(** ast/mod.rs 364-372 [CaptureContent], 375-381 [Content], 359-362 [BundleContent]. *)
Record cap_content := CapContent {
  cc_attrs : option (imap nattr);
  cc_props : option (imap nvalue);
  cc_flagged : option (list string) }.
(** ast/mod.rs 375-381 [Content]. *)
Record content := Content {
  ct_attrs : option (imap nvalue);
  ct_props : option (imap nvalue) }.
(** ast/mod.rs 359-362 [BundleContent]. *)
Record bundle_content := BundleContent { bc_said : ref_value }.

(** ast/mod.rs 50-55 [ObjectKind]. *)
Inductive obj_kind :=
| OCaptureBase (c : cap_content)
| OBundle (c : bundle_content)
| OOverlay (t : otype) (c : content).

(** ast/mod.rs 28-34 [Command]. *)
Record command := Command { cmd_kind : cmd_type; cmd_obj : obj_kind }.

(** ast/mod.rs 36-40 [CommandMeta]. *)
Record cmd_meta := CmdMeta { cm_line : nat; cm_raw : string }.

(** ast/mod.rs 20-26 [OCAAst]; [commands_meta] is an IndexMap<usize, CommandMeta>. *)
Record ast := Ast {
  ast_version : string;
  ast_commands : list command;
  ast_cmeta : list (nat * cmd_meta);
  ast_meta : gmap string string }.

(** ast/mod.rs 658-668 [OCAAst::new]. *)
Definition ast_new : ast := Ast "1.0.0" [] [] ∅.

(** derived [PartialEq, Eq] of ast/mod.rs 423-429. *)
Definition ref_value_eq_dec : forall a b : ref_value, {a = b} + {a <> b}.
Proof. decide equality; apply string_dec. Defined.
(** derived [PartialEq, Eq] of ast/attributes.rs 19-27. *)
Definition nattr_eq_dec : forall a b : nattr, {a = b} + {a <> b}.
Proof. decide equality; [apply ref_value_eq_dec | decide equality]. Defined.
#[global] Instance ref_value_dec : EqDecision ref_value := ref_value_eq_dec.
#[global] Instance nattr_dec : EqDecision nattr := nattr_eq_dec.
#[global] Instance attr_type_dec : EqDecision attr_type.
Proof. intros a b; unfold Decision; decide equality. Defined.
#[global] Instance okind_dec : EqDecision okind.
Proof. intros a b; unfold Decision; decide equality. Defined.
#[global] Instance otype_dec : EqDecision otype.
Proof. intros a b; unfold Decision; decide equality; [apply string_dec | apply okind_dec]. Defined.

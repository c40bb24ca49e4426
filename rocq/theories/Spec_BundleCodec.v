(** Independent specification for reading bundles back from JSON. *)
From Verif Require Export Spec_Codec BundleCodec.

(** Keys in strictly increasing byte order. *)
Definition increasing {V} (l : imap V) : Prop :=
  NoDup (map fst l) /\ forall pre k v mid k' v' post, l = pre ++ (k, v) :: mid ++ (k', v') :: post -> str_le k k'.
(** The grouped entry codes an overlay holds. *)
Definition has_groups (b : body) (l : imap (list string)) : Prop := exists m n, b = BEntryCode m /\ m !! n = Some (ECObj l).
Definition body_lang (b : body) : option string :=
  match b with BEntry l _ | BLabel l _ _ _ | BInformation l _ | BMeta l _ => Some l | _ => None end.

Section Readable.
Variables said_ok digits lang_ok : string -> bool.
(** Conditions on an overlay: identifiers, version and language are ones the program could have produced; the meta
    keys are no field names; no Standard overlay (none is ever generated). *)
Record overlay_readable (ov : overlay) : Prop := {
  or_said : forall s, ov_said ov = Some s \/ ov_cb ov = Some s -> said_ok s = true;
  or_version : exists a b, ov_ver ov = (a +:+ "." +:+ b)%string /\ digits a = true /\ digits b = true;
  or_lang : forall l, body_lang (ov_body ov) = Some l -> lang_ok l = true;
  or_meta : forall l m k, ov_body ov = BMeta l m -> k ∈ ["d"; "capture_base"; "type"; "language"] -> m !! k = None;
  or_groups : forall l, has_groups (ov_body ov) l -> NoDup (map fst l);
  or_standard : body_kind (ov_body ov) <> KStandard }.
Record bundle_readable (B : bundle) : Prop := {
  re_said : forall s, b_said B = Some s \/ cb_said (b_cb B) = Some s -> said_ok s = true;
  re_names : NoDup (map fst (cb_attrs (b_cb B)));
  re_types : forall n t, (n, t) ∈ cb_attrs (b_cb B) -> nattr_ok said_ok t;
  re_overlays : forall ov, ov ∈ b_ovs B -> overlay_readable ov }.
End Readable.
Definition groups_sorted (B : bundle) : Prop := forall ov l, ov ∈ b_ovs B -> has_groups (ov_body ov) l -> increasing l.

(** A box whose texts are ones a user can have: references in types have identifier texts, languages are known codes,
    meta keys are not overlay field names, entry-code groups have distinct names in increasing order, and there is at
    most one attribute mapping. *)
Record box_readable (said_ok lang_ok : string -> bool) (b : obox) : Prop := {
  bk_types : forall n a t, bx_attrs b !! n = Some a -> at_type a = Some t -> nattr_ok said_ok t;
  bk_langs : forall k l n d, box_datum b (SLang k l) n = Some d -> lang_ok l = true;
  bk_meta : forall l k, k ∈ ["d"; "capture_base"; "type"; "language"] -> box_datum b (SLang KMeta l) k = None;
  bk_groups : forall n a l, bx_attrs b !! n = Some a -> at_ecodes a = Some (ECObj l) -> increasing l;
  bk_maps : length (unwrap_or [] (bx_maps b)) <= 1 }.

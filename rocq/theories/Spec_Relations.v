(** Independent specification of the relation table (what [explore] shows after a history of [add_relations]). *)
From Verif Require Export Relations.

(** The role of an object in a bundle. *)
Inductive role := RBundle | RCapture | ROverlay (k : okind).
Definition has_role (B : bundle) (s : string) (r : role) : Prop :=
  (r = RBundle /\ b_said B = Some s) \/ (r = RCapture /\ cb_said (b_cb B) = Some s) \/
  (exists ov, ov ∈ b_ovs B /\ ov_said ov = Some s /\ r = ROverlay (ot_kind (ov_type ov))).
(** A bundle links its own SAID, its capture base and its overlays to each other, but no two overlays. *)
Inductive linked (B : bundle) (s t : string) : Prop :=
| lk_bundle_base : has_role B s RBundle -> has_role B t RCapture -> linked B s t
| lk_base_bundle : has_role B s RCapture -> has_role B t RBundle -> linked B s t
| lk_bundle_overlay k : has_role B s RBundle -> has_role B t (ROverlay k) -> linked B s t
| lk_overlay_bundle k : has_role B s (ROverlay k) -> has_role B t RBundle -> linked B s t
| lk_base_overlay k : has_role B s RCapture -> has_role B t (ROverlay k) -> linked B s t
| lk_overlay_base k : has_role B s (ROverlay k) -> has_role B t RCapture -> linked B s t.
(** Every object carries its SAID (as after generation). *)
Definition saids_present (B : bundle) : Prop :=
  is_Some (b_said B) /\ is_Some (cb_said (b_cb B)) /\ Forall (fun ov => is_Some (ov_said ov)) (b_ovs B).
(** In a history: identical SAIDs are identical objects, SAIDs fit a length byte and none is another one followed by
    ".metadata" (SAIDs are Base64 of 44 bytes). *)
Definition saids_sane (Bs : list bundle) : Prop :=
  (forall B B' s r r', B ∈ Bs -> B' ∈ Bs -> has_role B s r -> has_role B' s r' -> r = r') /\
  (forall B s r, B ∈ Bs -> has_role B s r -> (String.length s <= 255)%nat) /\
  (forall B B' s s' r r', B ∈ Bs -> B' ∈ Bs -> has_role B s r -> has_role B' s' r' -> s <> (s' +:+ ".metadata")%string).
(** What a listing shows for a role. *)
Definition shown (r : role) : obj_kind :=
  match r with RBundle => OBundle (BundleContent (RName "")) | RCapture => OCaptureBase (CapContent None None None)
             | ROverlay k => OOverlay (OType k "1.1") (Content None None) end.
(** A listing gives the elements of a set in some order. *)
Definition listing_ok (listing : string -> list oobject -> list oobject) : Prop := forall k l, listing k l ≡ₚ l.

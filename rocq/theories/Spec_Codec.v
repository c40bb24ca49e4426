(** Independent specification for the codecs. *)
From Verif Require Export Spec_Build Codec.

Inductive same_kind : obj_kind -> obj_kind -> Prop :=
| sk_capture c c' : same_kind (OCaptureBase c) (OCaptureBase c')
| sk_bundle c c' : same_kind (OBundle c) (OBundle c')
| sk_overlay k v v' c c' : same_kind (OOverlay (OType k v) c) (OOverlay (OType k v') c').

Section Spec.
Variable said_ok : string -> bool.
(** Values of the Rust type [SelfAddressingIdentifier] have valid texts. *)
Definition ref_ok (r : ref_value) : Prop := match r with RSaid s => said_ok s = true | RName _ => True end.
Fixpoint nattr_ok (a : nattr) : Prop := match a with NRef r => ref_ok r | NArr b => nattr_ok b | _ => True end.
(** A plain text that reads as a reference. *)
Definition looks_like_ref (s : string) : Prop :=
  exists r, s = ("refn:" +:+ r)%string \/ (s = ("refs:" +:+ r)%string /\ said_ok r = true).
(** The plain texts and the references inside a value. *)
Inductive text_in : nvalue -> string -> Prop :=
| ti_val s : text_in (VVal s) s
| ti_obj k v l s : (k, v) ∈ l -> text_in v s -> text_in (VObj l) s
| ti_arr v l s : v ∈ l -> text_in v s -> text_in (VArr l) s.
Inductive ref_in : nvalue -> ref_value -> Prop :=
| ri_ref r : ref_in (VRef r) r
| ri_obj k v l r : (k, v) ∈ l -> ref_in v r -> ref_in (VObj l) r
| ri_arr v l r : v ∈ l -> ref_in v r -> ref_in (VArr l) r.
(** The attribute and property values of a command. *)
Definition value_in (c : command) (v : nvalue) : Prop :=
  match cmd_obj c with
  | OCaptureBase cc => exists n, has (cc_props cc) n v
  | OBundle _ => False
  | OOverlay _ ct => exists n, has (ct_attrs ct) n v \/ has (ct_props ct) n v
  end.
Definition refs_valid (c : command) : Prop :=
  (forall v r, value_in c v -> ref_in v r -> ref_ok r) /\
  match cmd_obj c with
  | OCaptureBase cc => forall l n t, cc_attrs cc = Some l -> imap_get n l = Some t -> nattr_ok t
  | OBundle bc => ref_ok (bc_said bc)
  | OOverlay _ _ => True
  end.
(** Commands whose JSON says everything. *)
Definition json_faithful (c : command) : Prop :=
  (forall v s, value_in c v -> text_in v s -> ~ looks_like_ref s) /\
  (forall t ct, cmd_obj c = OOverlay t ct -> ot_ver t = "1.1" /\ ot_kind t <> KAttributeMapping).
(** A JSON array is read by its first element only. *)
Fixpoint first_only (j : json) : json := match j with JArr (x :: _) => JArr [first_only x] | _ => j end.
Fixpoint reaches_empty_array (j : json) : Prop := match j with JArr [] => True | JArr (x :: _) => reaches_empty_array x | _ => False end.
End Spec.

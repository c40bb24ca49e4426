(** Rewriting a file: reading a text, writing the commands again and reading the result.  Which commands survive it. *)
From Verif Require Export Spec_Read.
From Verif Require Import Peg OcaGrammar Spec_OcaFile.

(** The text contains a single quote. *)
Definition has_single_quote (s : string) : bool := negb (all_chars (fun c => negb (Ascii.eqb "'" c)) s).

(** A text or a name in the value cannot stand between double quotes. *)
Inductive bad_in : nvalue -> Prop :=
| bad_text s : quotable s = false -> bad_in (VVal s)
| bad_element l v : v ∈ l -> bad_in v -> bad_in (VArr l)
| bad_name m k v : (k, v) ∈ m -> quotable k = false -> bad_in (VObj m)
| bad_value m k v : (k, v) ∈ m -> bad_in v -> bad_in (VObj m).
(** The type refers to a bundle by name. *)
Fixpoint names_bundle (t : nattr) : bool := match t with NRef (RName _) => true | NArr t => names_bundle t | _ => false end.
(** An object whose values are objects whose values are texts. *)
Definition is_text (v : nvalue) : bool := match v with VVal _ => true | _ => false end.
Definition texts_object (v : nvalue) : bool := match v with VObj m => forallb (fun kv => is_text kv.2) m | _ => false end.
Definition two_levels (v : nvalue) : bool := match v with VObj m => forallb (fun kv => texts_object kv.2) m | _ => false end.

(** The kinds of commands that cannot be written. *)
Inductive unwritable_kind : command -> Prop :=
| uk_from o : unwritable_kind (Command CFrom o)
| uk_flagged l : unwritable_kind (add_capture_command None None (Some l))
| uk_remove_overlay t ct : unwritable_kind (Command CRemove (OOverlay t ct))
| uk_encoding_props ps : unwritable_kind (add_overlay_command KCharacterEncoding [] ps)
| uk_named_type l k t : (k, t) ∈ l -> names_bundle t = true -> unwritable_kind (add_capture_command (Some l) None None)
| uk_named_link ats ps n : imap_get "target" ps = Some (VRef (RName n)) -> unwritable_kind (add_overlay_command KLink ats ps)
| uk_no_link ats ps : imap_get "target" ps = None -> unwritable_kind (add_overlay_command KLink ats ps)
| uk_language ats ps l : imap_get "lang" ps = Some (VVal l) -> ~ lang_text_ok l -> unwritable_kind (add_overlay_command KMeta ats ps)
| uk_only_language ats v : unwritable_kind (add_overlay_command KMeta ats [("lang", v)])
| uk_frames ats ps k v : (k, v) ∈ ats -> two_levels v = false -> unwritable_kind (add_overlay_command KAttributeFraming ats ps)
| uk_unit ats ps k v : (k, v) ∈ ats -> bad_in v -> unwritable_kind (add_overlay_command KUnit ats ps).
(** A text that can only be said between single quotes.  (A classification between single quotes is written and read again; it
    is left out here only because the round trip of C41 does not cover it.) *)
Inductive unwritable_text : command -> Prop :=
| ut_classification w : unwritable_text (add_capture_command None (Some [("classification", VVal ("'" +:+ w +:+ "'"))]) None)
| ut_value k ats ps n v : (n, v) ∈ ats \/ (n, v) ∈ ps -> bad_in v -> unwritable_text (add_overlay_command k ats ps).
(** A comment, a blank line. *)
Definition noise (v : string) : Prop :=
  (exists t, v = ("#" +:+ t)%string) \/ exists b e, v = (b +:+ e)%string /\ all_chars ws_c b = true /\ e ∈ [String LF ""; String CR (String LF ""); String CR ""].
(** A name that is not one: what comes of comments and blank lines where a line is continued. *)
Inductive unwritable_name : command -> Prop :=
| un_classification v : noise v -> unwritable_name (add_capture_command None (Some [("classification", VVal v)]) None)
| un_attribute l k t : (k, t) ∈ l -> ~ name_ok k -> unwritable_name (add_capture_command (Some l) None None)
| un_overlay k ats ps n v : (n, v) ∈ ats \/ (n, v) ∈ ps -> ~ name_ok n -> unwritable_name (add_overlay_command k ats ps)
| un_removed l k t : (k, t) ∈ l -> ~ name_ok k -> unwritable_name (Command CRemove (OCaptureBase (CapContent (Some l) None None))).
Definition unwritable (c : command) : Prop := unwritable_kind c \/ unwritable_text c \/ unwritable_name c.

(** The same command, the properties of META in any order. *)
Definition same_command (c c' : command) : Prop :=
  c' = c \/ exists ats ps ps', c = add_overlay_command KMeta ats ps /\ c' = add_overlay_command KMeta ats ps' /\ Permutation ps ps'.

(** What reading an OCAfile can yield: the forms of the commands of any text that is read, whatever it contains. *)
From Verif Require Export Ast.
From Verif Require Import Peg OcaGrammar Spec_OcaFile.

(** The text contains a backslash (the character that continues a line, or escapes another one). *)
Definition has_backslash (s : string) : bool := negb (all_chars (fun c => negb (Ascii.eqb BSL c)) s).

(** Names are made of the characters of names; where a line is continued, a comment or a blank line between two names is
    taken for a pair with the empty name. *)
Definition key_form (cont : bool) (k : string) : Prop := name_ok k \/ (cont = true /\ k = "").
Definition frame_key_form (cont : bool) (k : string) : Prop := k ∈ ["id"; "label"; "location"; "version"] \/ (cont = true /\ k = "").
(** A map without repeated keys. *)
Definition map_form {V} (key : string -> Prop) (val : V -> Prop) (l : imap V) : Prop :=
  NoDup (map fst l) /\ Forall (fun kv => key kv.1 /\ val kv.2) l.

Definition plain_form (v : nvalue) : Prop := exists s, v = VVal s.
(** A text, a list of texts, named lists of texts. *)
Definition codes_form (v : nvalue) : Prop :=
  plain_form v \/ (exists l, v = VArr l /\ Forall plain_form l) \/
  (exists m, v = VObj m /\ map_form (fun _ => True) (fun w => exists l, w = VArr l /\ Forall plain_form l) m).
(** A text, named texts. *)
Definition entries_form (v : nvalue) : Prop := plain_form v \/ (exists m, v = VObj m /\ map_form (fun _ => True) plain_form m).
(** Nested objects of texts, under names without capital letters. *)
Definition capital (c : ascii) : bool := Nat.leb 65 (nat_of_ascii c) && Nat.leb (nat_of_ascii c) 90.
Definition no_capitals (s : string) : Prop := all_chars (fun c => negb (capital c)) s = true.
Inductive json_form : nvalue -> Prop :=
| jf_text s : json_form (VVal s)
| jf_object m : NoDup (map fst m) -> Forall (fun kv => no_capitals kv.1 /\ json_form kv.2) m -> json_form (VObj m).
(** Base types, references by name, references to well-formed SAIDs, arrays. *)
Inductive type_form (said_ok : string -> bool) : nattr -> Prop :=
| tf_base t : type_form said_ok (NVal t)
| tf_name n : type_form said_ok (NRef (RName n))
| tf_said s : said_ok s = true -> type_form said_ok (NRef (RSaid s))
| tf_array t : type_form said_ok t -> type_form said_ok (NArr t).
Definition ref_form (said_ok : string -> bool) (r : ref_value) : Prop := match r with RSaid s => said_ok s = true | RName _ => True end.

Definition add_capture_command (a : option (imap nattr)) (p : option (imap nvalue)) (f : option (list string)) : command :=
  Command CAdd (OCaptureBase (CapContent a p f)).
Definition add_overlay_command (k : okind) (ats ps : imap nvalue) : command :=
  Command CAdd (OOverlay (OType k "1.1") (Content (Some ats) (Some ps))).

(** [cont]: lines are continued. *)
Inductive readable (cont : bool) (said_ok : string -> bool) : command -> Prop :=
| rd_attributes l : map_form (key_form cont) (type_form said_ok) l -> readable cont said_ok (add_capture_command (Some l) None None)
| rd_classification v : readable cont said_ok (add_capture_command None (Some [("classification", VVal v)]) None)
| rd_flagged l : readable cont said_ok (add_capture_command None None (Some l))
| rd_meta ps l : map_form (key_form cont) plain_form ps -> imap_get "lang" ps = Some (VVal l) -> readable cont said_ok (add_overlay_command KMeta [] ps)
| rd_language k ats l : k = KLabel \/ k = KInformation -> map_form (key_form cont) plain_form ats -> lang_text_ok l ->
    readable cont said_ok (add_overlay_command k ats [("lang", VVal l)])
| rd_entry ats l : map_form (key_form cont) entries_form ats -> lang_text_ok l -> readable cont said_ok (add_overlay_command KEntry ats [("lang", VVal l)])
| rd_plain k ats : k ∈ [KCharacterEncoding; KFormat; KConformance; KConditional; KCardinality; KUnit] -> map_form (key_form cont) plain_form ats ->
    readable cont said_ok (add_overlay_command k ats [])
| rd_encoding_props ps : map_form (key_form cont) plain_form ps -> readable cont said_ok (add_overlay_command KCharacterEncoding [] ps)
| rd_codes ats : map_form (key_form cont) codes_form ats -> readable cont said_ok (add_overlay_command KEntryCode ats [])
| rd_link ats r : map_form (key_form cont) plain_form ats -> ref_form said_ok r -> readable cont said_ok (add_overlay_command KLink ats [("target", VRef r)])
| rd_link_invalid ats : map_form (key_form cont) plain_form ats -> readable cont said_ok (add_overlay_command KLink ats [])
| rd_framing ats ps : map_form (key_form cont) json_form ats -> map_form (frame_key_form cont) plain_form ps ->
    readable cont said_ok (add_overlay_command KAttributeFraming ats ps)
| rd_remove l : map_form (fun k => name_ok k \/ cont = true) (fun t => t = NNull) l -> readable cont said_ok (Command CRemove (OCaptureBase (CapContent (Some l) None None)))
| rd_unclassify : readable cont said_ok (Command CRemove (OCaptureBase (CapContent None (Some [("classification", VVal "")]) None)))
| rd_remove_meta : readable cont said_ok (Command CRemove (OOverlay (OType KMeta "1.1") (Content None (Some []))))
| rd_remove_label : readable cont said_ok (Command CRemove (OOverlay (OType KLabel "1.1") (Content (Some []) (Some []))))
| rd_from s : said_ok s = true -> readable cont said_ok (Command CFrom (OBundle (BundleContent (RSaid s)))).

(** The metadata of a file. *)
Definition metadata_form (m : gmap string string) : Prop :=
  forall k v, m !! k = Some v -> k ∈ ["name"; "version"; "precompiler"] /\ v <> "".

(** The commands that can abort a build: removals from overlays; texts in a language without a two-letter code known as such;
    links without a target, or ([named]) with one given by name; frames without an id. *)
Inductive aborting (from1 : string -> option string) (named : bool) : command -> Prop :=
| abt_remove t ct : aborting from1 named (Command CRemove (OOverlay t ct))
| abt_language k ats ps l : k ∈ [KMeta; KLabel; KInformation; KEntry] -> imap_get "lang" ps = Some (VVal l) -> from1 l = None ->
    aborting from1 named (add_overlay_command k ats ps)
| abt_no_target ats ps : imap_get "target" ps = None -> aborting from1 named (add_overlay_command KLink ats ps)
| abt_named_target ats ps n : named = true -> imap_get "target" ps = Some (VRef (RName n)) -> aborting from1 named (add_overlay_command KLink ats ps)
| abt_no_frame_id ats ps : imap_get "id" ps = None -> aborting from1 named (add_overlay_command KAttributeFraming ats ps).

(** A line is continued (or a character escaped) between braces. *)
Definition backslash_in_braces (s : string) : Prop :=
  exists pre body post, s = (pre +:+ "{" +:+ body +:+ "}" +:+ post)%string /\ has_backslash body = true.

(** Histories of texts: what may stand in a text so that what it builds can be stored and read back (C53). *)
From Verif Require Export Spec_Facade Spec_Codec Spec_TRead TFile Spec_Total Spec_Build.
From Verif Require Import OcaFile Props_Codec.

(** A command that can be stored: none of its texts reads as a reference, no META property has the name of a field of the
    overlay, the groups of entry codes are in increasing order, and no type or value nests too deep for the JSON reader. *)
Record storable_command (said_ok : string -> bool) (c : command) : Prop := {
  sc_texts : forall v s, value_in c v -> text_in v s -> ~ looks_like_ref said_ok s;
  sc_meta : forall ver ct k v, c = Command CAdd (OOverlay (OType KMeta ver) ct) -> k ∈ ["d"; "capture_base"; "type"; "language"] -> ~ has (ct_props ct) k v;
  sc_groups : forall ver ct n l, c = Command CAdd (OOverlay (OType KEntryCode ver) ct) -> has (ct_attrs ct) n (VObj l) -> increasing l;
  sc_depth : shallow (command_json c) }.
Definition storable_text (wide : ascii -> bool) (said_ok : string -> bool) (s : string) : Prop :=
  forall a, parse_ocafile wide said_ok s = Ok a -> Forall (storable_command said_ok) (ast_commands a).

Section Runs.
Variable wide : ascii -> bool.
Variable digest : json -> string.
Variables from1 to1 : string -> option string.
Variable listing : string -> list oobject -> list oobject.
Variables said_ok digits lang_ok : string -> bool.
Variable standard_read : string -> option string.
Variable to_text : json -> string.
Variable of_text : string -> option json.
Variable hash : string -> string.
Notation validate := (validate_ast digest from1 said_ok digits lang_ok standard_read of_text).
(** The facade after texts were validated and built, from an empty one, with the texts built, their bundles and their steps. *)
Inductive texts_run : list (string * (bundle * list bstep)) -> facade -> Prop :=
| tr_new : texts_run [] facade_new
| tr_validate h f os s a g r : texts_run h f -> (forall i, order_ok (os i)) -> storable_text wide said_ok s -> parse_ocafile wide said_ok s = Ok a ->
    validate os a f = Ok (g, r) -> texts_run h g
| tr_build h f os s a g B steps k B' : texts_run h f -> (forall i, order_ok (os i)) -> storable_text wide said_ok s -> parse_ocafile wide said_ok s = Ok a ->
    validate os a f = Ok (g, (B, steps)) -> build from1 to1 listing to_text hash B steps g = Ok (k, B') -> texts_run (h ++ [(s, (B, steps))]) k.
End Runs.
(** The bundles and steps of a history of texts. *)
Definition outputs (h : list (string * (bundle * list bstep))) : list (bundle * list bstep) := map snd h.
Definition steps_of (h : list (string * (bundle * list bstep))) : list bstep := concat (map snd (outputs h)).
(** What is asked of the services the library relies on: JSON texts read back, the digest gives identifiers of a fixed short form,
    and the language codes it reads are those it accepts. *)
Record services (digest : json -> string) (from1 : string -> option string) (said_ok digits lang_ok : string -> bool) (to_text : json -> string) (of_text : string -> option json) : Prop := {
  sv_text : text_ok to_text of_text;
  sv_digits : digits_class digits;
  sv_one : digits "1" = true;
  sv_digest : forall j, said_ok (digest j) = true;
  sv_plain : plain_digest digest;
  sv_empty : said_ok "" = false;
  sv_langs : forall c l, from1 c = Some l -> lang_ok l = true }.
(** What is asked of a history: no two objects of its bundles collide, and its commands agree on the metadata of a frame. *)
Record texts_fine (digest : json -> string) (h : list (string * (bundle * list bstep))) : Prop := {
  tf_clash : no_clash digest (map bs_result (steps_of h));
  tf_frames : framings_agree (map bs_cmd (steps_of h)) }.

(** Bundles as JSON text: writing a facade bundle and loading bundles from a text. *)
From Verif Require Export JsonText TFile Facade.

(** oca/src/facade/bundle.rs 73-82: the transformations, with a comma after each one that has another behind it. *)
Fixpoint joined (l : list string) : string :=
  match l with
  | [] => ""
  | s :: r => ((match r with [] => s | _ :: _ => s +:+ "," end) +:+ joined r)%string
  end.
(** A text in quotes, and a colon after it: the keys of the format string of bundle.rs 84-87. *)
Definition lit_key (k : string) : string := (QT +:+ k +:+ QT +:+ ":")%string.
(** oca/src/facade/bundle.rs 66-87 [encode], up to [make_me_sad]: without a structural part it panics.  The texts of the parts are those of
    serde_json (without the version field, as everywhere here). *)
Definition fb_text (b : fbundle) : outcome string :=
  match fb_structural b with
  | None => Panic
  | Some s => Ok ("{" +:+ lit_key "d" +:+ QT +:+ QT +:+ "," +:+ lit_key "m" +:+ write_json (bundle_json s) +:+ "," +:+ lit_key "t" +:+ "[" +:+
      joined (map (fun t => write_json (transformation_json t)) (fb_transformations b)) +:+ "]}")%string
  end.
Section Load.
Variables said_ok digits lang_ok : string -> bool.
Variable standard_read : string -> option string.
(** semantics/oca-bundle/src/controller.rs 8-12 [load_oca]; the message of serde_json is not modelled. *)
Definition load_oca (s : string) : outcome bundle := parse_text read_json (bundle_parse said_ok digits lang_ok standard_read) "invalid" s.
(** oca/src/facade/bundle.rs 11-14 [load_oca]. *)
Definition fb_load_oca (s : string) : outcome fbundle := parse_text read_json (fb_load said_ok digits lang_ok standard_read) "invalid" s.
End Load.

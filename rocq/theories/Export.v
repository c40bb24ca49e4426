(** Exporting OCAfiles.  Models oca/src/facade/fetch.rs 324-344 and 360-363.  Definitions only. *)
From Verif Require Import Ast Bundle Build Facade OcaFile ToAst.

Section Export.
Variables said_ok digits lang_ok : string -> bool.
Variable standard_read : string -> option string.
Variable of_text : string -> option json.

(** fetch.rs 332, 353 [OCAAst::new] with the commands pushed. *)
Definition commands_ast (cs : list command) : ast := Ast "1.0.0" cs [] ∅.
(** fetch.rs 326-344 [get_oca_bundle_ocafile], with the feature local-references; [None]: the loop of
    [get_oca_bundle_steps] does not end within [fuel] rounds. *)
Definition export_file (fuel : nat) (f : facade) (said : string) (dereference : bool) : option (outcome string) :=
  match get_ast said_ok digits lang_ok standard_read of_text fuel f said with
  | None => None
  | Some (Err e) => Some (Err e)
  | Some Panic => Some Panic
  | Some (Ok cs) => Some (
    let! cs' := (if dereference then resolve said_ok (find_ref (fa_db f)) cs else Ok cs) in
    generate_ocafile (commands_ast cs'))
  end.
End Export.

(** fetch.rs 360-363, build.rs 87-89 [parse_oca_bundle_to_ocafile]. *)
Definition export_bundle (to1 : string -> option string) (o : order) (B : bundle) : outcome string :=
  let! a := to_ast to1 o B in generate_ocafile a.

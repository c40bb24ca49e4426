(** The entry points of the facade that take a file: what a rejected build reports, references kept by the caller. *)
From Verif Require Export Facade.

Section Entry.
Variable digest : json -> string.
Variables from1 : string -> option string.
Variables said_ok digits lang_ok : string -> bool.
Variable standard_read : string -> option string.
Variable of_text : string -> option json.
Local Notation check_base := (check_base said_ok digits lang_ok standard_read of_text).

(** build.rs 156-243 [parse_and_check_base], [oca_ast_to_oca_build_with_references] up to line 229, from the AST: the build with
    its errors as reported, each with a line number, the text of the line and a message.  [Err] is a name that is not found. *)
Definition validate_report (find : string -> option string) (os : nat -> order) (a : ast) (f : facade) : outcome (ast * bresult) :=
  let! x := check_base (fa_cache f) a in
  let! cs := resolve said_ok find (ast_commands x.2) in
  let a1 := Ast (ast_version x.2) cs (ast_cmeta x.2) (ast_meta x.2) in
  Ok (a1, from_ast digest from1 os x.1 a1).

(** build.rs 106-113 [validate_ocafile_with_external_references], 219-243: the names are looked up and saved in the caller's table;
    the facade is only read.  The [References] of the caller is any implementation; here a table. *)
Definition validate_external (os : nat -> order) (a : ast) (refs : gmap string string) (f : facade) : outcome (gmap string string * (bundle * list bstep)) :=
  let! r := validate_report (fun n => refs !! n) os a f in
  match r.2 with
  | BuildOk B steps =>
    match ast_meta r.1 !! "name" with
    | Some n => let! s := unwrap_some (b_said B) in Ok (<[n := s]> refs, (B, steps))
    | None => Ok (refs, (B, steps))
    end
  | BuildErr es => Err (map be_msg es)
  | BuildPanic => Panic
  end.
End Entry.

(** Independent specification of the facade on file stores (C50). *)
From Verif Require Export Spec_Files Crash.

(** The characters an identifier or a hash is made of can stand in a file name, and it is not too long (Base64, 44 bytes). *)
Record id_text (s : string) : Prop := {
  id_some : s <> "";
  id_chars : forall i c, String.get i s = Some c -> c <> "/"%char /\ c <> "."%char /\ c <> zero;
  id_short : String.length s <= 200 }.
(** The file has no name, or one that can be the name of a file. *)
Definition name_fits (a : ast) : Prop := forall n, ast_meta a !! "name" = Some n -> file_name n.
(** The inserts of a build, carried out on a disk: those into the database in the directory [d1], those into the cache in [d2]
    (those into the SQLite tables are not part of it). *)
Definition insert_on_disk (cwd : list string) (d1 d2 : string) (w : Crash.write) (t : tree) : outcome tree :=
  match w with
  | WDb n k v => file_insert cwd (Some d1) n k v t
  | WCache n k v => file_insert cwd (Some d2) n k v t
  | _ => Ok t
  end.
Definition on_disk (cwd : list string) (d1 d2 : string) (ws : list Crash.write) (t : tree) : outcome tree :=
  fold_left (fun acc w => let! t := acc in insert_on_disk cwd d1 d2 w t) ws (Ok t).
(** The directory [d] of the disk [t] answers every request for a key that is a file name as [m] does. *)
Definition answers_as (cwd : list string) (d : string) (t : tree) (m : mem) : Prop :=
  forall n k, file_name k -> file_get cwd (Some d) n k t = mem_get n k m.

Section Written.
Variable digest : json -> string.
Variables from1 to1 : string -> option string.
Variable listing : string -> list oobject -> list oobject.
Variables said_ok digits lang_ok : string -> bool.
Variable standard_read : string -> option string.
Variable to_text : json -> string.
Variable of_text : string -> option json.
Variable hash : string -> string.
Notation validate := (validate_ast digest from1 said_ok digits lang_ok standard_read of_text).
Notation build_file := (build_ast digest from1 to1 listing said_ok digits lang_ok standard_read to_text of_text hash).
Notation validate_writes := (t_validate digest from1 said_ok digits lang_ok standard_read of_text).
Notation build_writes := (t_build_ast digest from1 to1 listing said_ok digits lang_ok standard_read to_text of_text hash).
(** The inserts made, in order, from an empty store on, by files whose names fit: validations and builds that succeed, and
    attempts to build that fail or are cut off after any number [i] of their writes. *)
Inductive written : list Crash.write -> facade -> Prop :=
| written_none : written [] facade_new
| written_validate ws f os a g r : written ws f -> name_fits a -> validate os a f = Ok (g, r) -> written (ws ++ (validate_writes os a f).1) g
| written_build ws f os a g B : written ws f -> name_fits a -> build_file os a f = Ok (g, B) -> written (ws ++ (build_writes os a f).1) g
| written_part ws f os a i : written ws f -> name_fits a ->
    written (ws ++ take i (build_writes os a f).1) (puts (take i (build_writes os a f).1) f).
End Written.

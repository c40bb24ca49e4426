(** Independent specification of stopping and repeating a build (C44). *)
From Verif Require Export Facade Spec_Facade Spec_Relations Crash.

(** What [explore] shows is the same, but for the order of the listed relations. *)
Definition same_explored (x y : outcome (option (oobject * list oobject))) : Prop :=
  match x, y with
  | Ok (Some (o, l)), Ok (Some (o', l')) => o = o' /\ l ≡ₚ l'
  | _, _ => x = y
  end.
(** The two stores hold the same, but for the relation records. *)
Record same_but_relations (g h : facade) : Prop := {
  sb_db : forall n k, n <> NsRelations -> entry (fa_db g) n k = entry (fa_db h) n k;
  sb_cache : forall n k, entry (fa_cache g) n k = entry (fa_cache h) n k;
  sb_bundles : fa_bundles g = fa_bundles h;
  sb_captures : fa_captures g = fa_captures h;
  sb_fts : fa_fts g = fa_fts h }.

Section Spec.
Variables from1 to1 : string -> option string.
Variable listing : string -> list oobject -> list oobject.
Variable to_text : json -> string.
Variable hash : string -> string.
(** The states reached from [f] by any number of attempts at one build, each stopped somewhere. *)
Inductive retried (B : bundle) (steps : list bstep) (f : facade) : facade -> Prop :=
| retried_start : retried B steps f f
| retried_stop g g' : retried B steps f g -> stopped (t_build from1 to1 listing to_text hash B steps) g g' -> retried B steps f g'.
(** The relation records of the store are those of the builds [Bs], completed one after another. *)
Definition relations_of (Bs : list bundle) (f : facade) : Prop :=
  exists d, fold_left (fun acc B => let! d := acc in add_relations listing B d) Bs (Ok ∅) = Ok d /\
  forall k, entry (fa_db f) NsRelations k = entry d NsRelations k.
End Spec.
Section SpecFile.
Variable digest : json -> string.
Variables from1 to1 : string -> option string.
Variable listing : string -> list oobject -> list oobject.
Variables said_ok digits lang_ok : string -> bool.
Variable standard_read : string -> option string.
Variable to_text : json -> string.
Variable of_text : string -> option json.
Variable hash : string -> string.
(** The same for a whole OCAfile: the name, if any, is registered before the first write of the build. *)
Inductive retried_file (os : nat -> order) (a : ast) (f : facade) : facade -> Prop :=
| rf_start : retried_file os a f f
| rf_stop g g' : retried_file os a f g ->
    stopped (t_build_ast digest from1 to1 listing said_ok digits lang_ok standard_read to_text of_text hash os a) g g' -> retried_file os a f g'.
End SpecFile.
(** The SAID of the bundle a file starts from. *)
Definition from_said (a : ast) : option string :=
  match ast_commands a with Command CFrom (OBundle (BundleContent (RSaid s))) :: _ => Some s | _ => None end.

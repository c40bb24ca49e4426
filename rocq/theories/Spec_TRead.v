(** What reading a transformation file, or a file of either kind, can yield. *)
From Verif Require Export TFile.
From Verif Require Import Spec_TFile Spec_Read Spec_Bundle Storage Facade.

(** Commands: a renaming or a linking of named attributes. *)
Inductive treadable : tcommand -> Prop :=
| trd_rename l : map_form tname_ok tname_ok l -> treadable (TCommand TRename (ORename (Some l)))
| trd_link l : map_form tname_ok tname_ok l -> treadable (TCommand TLink (OLink (Some l))).
Definition tmetadata_form (m : gmap string string) : Prop := forall k v, m !! k = Some v -> k ∈ meta_keys /\ v <> "".

(** The facade after validations and builds, from an empty one, with the bundles built and their steps. *)
Section Runs.
Variable digest : json -> string.
Variables from1 to1 : string -> option string.
Variable listing : string -> list oobject -> list oobject.
Variables said_ok digits lang_ok : string -> bool.
Variable standard_read : string -> option string.
Variable to_text : json -> string.
Variable of_text : string -> option json.
Variable hash : string -> string.
Notation validate := (validate_ast digest from1 said_ok digits lang_ok standard_read of_text).
Inductive used : list (bundle * list bstep) -> facade -> Prop :=
| us_new : used [] facade_new
| us_validate h f os a g r : used h f -> (forall i, order_ok (os i)) -> validate os a f = Ok (g, r) -> used h g
| us_build h f os a g B steps k B' : used h f -> (forall i, order_ok (os i)) -> validate os a f = Ok (g, (B, steps)) ->
    build from1 to1 listing to_text hash B steps g = Ok (k, B') -> used (h ++ [(B, steps)]) k.
End Runs.

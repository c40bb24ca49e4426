(** Independent specification for C47: what a run of builds put into the stores, step by step. *)
From Verif Require Export Spec_Facade Spec_Total Spec_Build Spec_Ast.

Section Run.
Variable digest : json -> string.
Variables from1 to1 : string -> option string.
Variable listing : string -> list oobject -> list oobject.
Variables said_ok digits lang_ok : string -> bool.
Variable standard_read : string -> option string.
Variable to_text : json -> string.
Variable of_text : string -> option json.
Variable hash : string -> string.
Notation validate := (validate_ast digest from1 said_ok digits lang_ok standard_read of_text).
Notation build_steps_into := (build from1 to1 listing to_text hash).
(** The facade after validations and builds of files, from an empty one, with all the steps that were built. *)
Inductive steps_run : list bstep -> facade -> Prop :=
| sr_new : steps_run [] facade_new
| sr_validate ss f os a g r : steps_run ss f -> validate os a f = Ok (g, r) -> steps_run ss g
| sr_build ss f os a g B steps h B' : steps_run ss f -> (forall i, order_ok (os i)) -> validate os a f = Ok (g, (B, steps)) ->
    build_steps_into B steps g = Ok (h, B') -> steps_run (ss ++ steps) h.

(** What the run asks for: the bundles and commands built can be stored and read, the digest does not collide on them, and
    the commands agree on the metadata of frames. *)
Record steps_fine (ss : list bstep) : Prop := {
  sf_storable : forall s, s ∈ ss -> step_storable said_ok digits lang_ok s;
  sf_clash : no_clash digest (map bs_result ss);
  sf_frames : framings_agree (map bs_cmd ss) }.
End Run.
(** The commands, one after the other, each acceptable to the parser after those before it. *)
Definition each_placed (cs : list command) : Prop := forall pre c post, cs = pre ++ c :: post -> well_placed pre c.

(** Independent specification of incremental AST validation: what is on the stack after a list of commands. *)
From Verif Require Export AstValidator.

(** A capture base command of kind [k] that names attribute (property) [n]. *)
Definition names_attr (k : cmd_type) (n : string) (c : command) : Prop :=
  exists cc l, c = Command k (OCaptureBase cc) /\ cc_attrs cc = Some l /\ n ∈ map fst l.
Definition names_prop (k : cmd_type) (n : string) (c : command) : Prop :=
  exists cc l, c = Command k (OCaptureBase cc) /\ cc_props cc = Some l /\ n ∈ map fst l.
(** Added at some point and not removed since. *)
Definition on_stack (names : cmd_type -> string -> command -> Prop) (cs : list command) (n : string) : Prop :=
  exists pre c post, cs = pre ++ c :: post /\ names CAdd n c /\ forall d, d ∈ post -> ~ names CRemove n d.
(** The rule for one command. *)
Definition well_placed (cs : list command) (c : command) : Prop :=
  (forall n, names_attr CAdd n c -> ~ on_stack names_attr cs n) /\
  (forall n, names_attr CRemove n c -> on_stack names_attr cs n) /\
  (forall n, names_prop CRemove n c -> on_stack names_prop cs n).

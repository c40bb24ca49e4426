(** Independent specification of what a condition text means: the text is read left to right;
    at each position either a placeholder [${name}] starts (the name is everything up to the first
    closing brace) or one plain character is taken.  Knows nothing of the model's scanner. *)
From Verif Require Export Base.

Inductive piece := PChar (c : ascii) | PName (n : string).

Definition starts_placeholder (s n rest : string) : Prop :=
  s = ("${" +:+ n +:+ "}" +:+ rest)%string /\ all_chars (fun c => negb (Ascii.eqb c "}"%char)) n = true.

Inductive reads : string -> list piece -> Prop :=
| reads_end : reads "" []
| reads_name s n rest ps : starts_placeholder s n rest -> reads rest ps -> reads s (PName n :: ps)
| reads_char c s ps : (forall n rest, ~ starts_placeholder (String c s) n rest) -> reads s ps ->
    reads (String c s) (PChar c :: ps).

(** The names a list of pieces uses, and the text with each name replaced by [f name]. *)
Fixpoint render (f : string -> string) (ps : list piece) : string :=
  match ps with
  | [] => ""
  | PChar c :: ps' => String c (render f ps')
  | PName n :: ps' => (f n +:+ render f ps')%string
  end.

(** Snippets of a full text search, in words: text with marked words, perhaps cut off at either end. *)
From Verif Require Export Scope Spec_Regex.

(** A snippet: whether the text is cut off before it and after it, and its words, marked or not. *)
Definition marked_text (ps : list (bool * string)) : string :=
  String.concat "" (map (fun p : bool * string => if p.1 then "<mark>" +:+ p.2 +:+ "</mark>" else p.2) ps).
Definition snippet_of (lead trail : bool) (ps : list (bool * string)) : string :=
  (if lead then "..." else "") +:+ marked_text ps +:+ (if trail then "..." else "").
(** The words without the marks. *)
Definition snippet_words (ps : list (bool * string)) : string := String.concat "" (map snd ps).

(** Characters that mean themselves in a pattern and begin no mark. *)
Definition ordinary (c : ascii) : bool := negb (existsb (Ascii.eqb c) ("<"%char :: newline :: special)).
Definition ordinary_text (s : string) : Prop := all_chars ordinary s = true.
(** Text on one line. *)
Definition one_line (s : string) : Prop := all_chars (fun c => negb (Ascii.eqb c newline)) s = true.

(** The snippet is taken from this text. *)
Definition taken_from (lead trail : bool) (t field : string) : Prop :=
  exists a b, field = a +:+ t +:+ b /\ (lead = false -> a = "") /\ (trail = false -> b = "").

(** What the names of standards are, in words of RFC 2648 (ietf) and RFC 5141 (iso), independent of patterns. *)
From Verif Require Export Standard Spec_Regex.

(** One or more decimal digits. *)
Definition number (s : string) : Prop := s <> "" /\ all_chars (fun c => in_ranges [("0", "9")]%char c) s = true.
(** One or more letters, digits or hyphens. *)
Definition word (s : string) : Prop :=
  s <> "" /\ all_chars (fun c => in_ranges [("0", "9"); ("A", "Z"); ("a", "z"); ("-", "-")]%char c) s = true.
(** Letters only. *)
Definition letters_only (s : string) : Prop := all_chars (fun c => in_ranges [("A", "Z"); ("a", "z")]%char c) s = true.

(** The ietf namespace: a numbered series, a draft or a meeting, or a single word; the series in any case of letters. *)
Definition ietf_name (s : string) : Prop :=
  word s \/ exists series n, s = series +:+ ":" +:+ n /\
    (lower_str series ∈ ["rfc"; "fyi"; "std"; "bcp"] /\ number n \/ lower_str series ∈ ["id"; "mtg"] /\ word n).

(** The organisations and kinds of document of the iso namespace. *)
Definition iso_publishers : list string := ["iso"; "iso-iec"; "iso-cie"; "iso-astm"; "iso-ieee"; "iec"].
Definition iso_kinds : list string := ["data"; "guide"; "isp"; "iwa"; "pas"; "r"; "tr"; "ts"; "tta"].
(** The beginning of a name in the iso namespace: std, a publisher, perhaps a kind of document, a number. *)
Definition iso_start (s : string) : Prop :=
  exists w p k n, s = w +:+ ":" +:+ p +:+ k +:+ ":" +:+ n /\ lower_str w = "std" /\ lower_str p ∈ iso_publishers /\
    (k = "" \/ exists t, k = ":" +:+ t /\ lower_str t ∈ iso_kinds) /\ number n.

(** ** The whole of a name in the iso namespace *)
(** Texts put together from pieces: a fixed text in any case of letters, one character out of some ranges, any one character
    within a line, one piece after another, one of two, a piece or nothing, a piece any number of times.
    Specification of what config/standards.yml 2 describes (matched at standard.rs 35). *)
Inductive shape :=
| SKey (k : string) | SClass (l : ranges) | SAny | SSeq (a b : shape) | SOr (a b : shape) | SOpt (a : shape) | SMany (a : shape).
(** Specification of the texts of a shape (what standard.rs 35 matches). *)
Inductive reads : shape -> string -> Prop :=
| rd_key k s : lower_str s = k -> reads (SKey k) s
| rd_class l c : in_ranges l c = true -> reads (SClass l) (String c "")
| rd_any c : c <> newline -> reads SAny (String c "")
| rd_seq a b x y : reads a x -> reads b y -> reads (SSeq a b) (x +:+ y)
| rd_left a b s : reads a s -> reads (SOr a b) s
| rd_right a b s : reads b s -> reads (SOr a b) s
| rd_none a : reads (SOpt a) ""
| rd_some a s : reads a s -> reads (SOpt a) s
| rd_stop a : reads (SMany a) ""
| rd_more a x y : reads a x -> reads (SMany a) y -> reads (SMany a) (x +:+ y).
(** Specification: a digit, digits, a letter, letters, digits and hyphens (config/standards.yml 2). *)
Definition s_digit : shape := SClass [("0", "9")]%char.
(** Specification, config/standards.yml 2. *)
Definition s_digits : shape := SSeq s_digit (SMany s_digit).
(** Specification, config/standards.yml 2. *)
Definition s_letter : shape := SClass [("A", "Z"); ("a", "z")]%char.
(** Specification, config/standards.yml 2. *)
Definition s_word : shape :=
  let c := SOr (SClass [("0", "9"); ("A", "Z"); ("a", "z")]%char) (SKey "-") in SSeq c (SMany c).
(** Specification: one of some texts (config/standards.yml 2). *)
Fixpoint s_one (k : string) (ks : list string) : shape :=
  match ks with [] => SKey k | k' :: ks' => SOr (SKey k) (s_one k' ks') end.
(** Specification: a version behind any one character, [.v2] (config/standards.yml 2). *)
Definition s_dot_version : shape := SOpt (SSeq SAny (SSeq (SKey "v") s_digits)).
(** Specification: the part of a standard, [:-7] (config/standards.yml 2). *)
Definition s_part : shape := SOpt (SSeq (SKey ":-") s_word).
(** Specification: the status and the edition, [:draft:ed-5] (config/standards.yml 2). *)
Definition s_edition : shape :=
  SOpt (SSeq (SOpt (SSeq (SKey ":") (SOr (s_one "draft" ["cancelled"])
    (SSeq (SKey "stage-") (SSeq s_digit (SSeq s_digit (SSeq SAny (SSeq s_digit (SSeq s_digit s_dot_version))))))))) (SSeq (SKey ":ed-") s_digits)).
(** Specification: the version, [:v2-amd1.v3] (config/standards.yml 2). *)
Definition s_version : shape :=
  SOpt (SSeq (SKey ":v") (SOr s_digits (SSeq s_digits (SMany (SSeq (SKey "-") (SSeq (s_one "amd" ["cor"; "add"]) (SSeq s_digits s_dot_version))))))).
(** Specification: the languages, [:en,fr] (config/standards.yml 2). *)
Definition s_langs : shape :=
  SOpt (SSeq (SKey ":") (SOr (s_one "en" ["fr"; "ru"; "es"; "ar"]) (SOr (s_one "en,fr" ["en,ru"; "fr,ru"]) (SKey "en,fr,ru")))).
(** Specification: the amendments, [:amd:2:v3:en] (config/standards.yml 2). *)
Definition s_amendments : shape :=
  SMany (SSeq (SKey ":") (SSeq (s_one "amd" ["cor"; "add"]) (SSeq (SKey ":") (SSeq s_digits (SSeq (SOpt (SSeq (SKey ":v") s_digits)) s_langs))))).
(** Specification: a place, [a.3.1] (config/standards.yml 2). *)
Definition s_place : shape := SSeq (SOr s_letter s_digits) (SMany (SSeq SAny s_digits)).
(** Specification: a place or a range of places (config/standards.yml 2). *)
Definition s_places : shape := SOr s_place (SSeq s_place (SSeq (SKey "-") s_place)).
(** Specification: the elements, [:clause:3.1,4-5] (config/standards.yml 2). *)
Definition s_elements : shape :=
  SMany (SSeq (SKey ":") (SSeq (s_one "clause" ["figure"; "table"; "term"]) (SSeq (SKey ":") (SSeq s_places (SMany (SSeq (SKey ",") s_places)))))).
(** Specification: a technical text, or letters (config/standards.yml 2). *)
Definition s_end : shape := SOpt (SOr (SSeq (SKey ":tech:") (SMany SAny)) (SMany s_letter)).
(** Specification: what may follow the number (config/standards.yml 2). *)
Definition iso_parts : shape := SSeq s_part (SSeq s_edition (SSeq s_version (SSeq s_langs (SSeq s_amendments (SSeq s_elements s_end))))).

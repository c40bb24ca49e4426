(** What the metadata of a file is, and what a transformation file says, without reference to the grammars. *)
From Verif Require Export Base.
From Verif Require Import Peg OcaGrammar OcaFile Spec_OcaFile TFile.

(** ** Texts without metadata *)
(** Reads a text from the left: a ["#"] starts a comment that ends at the end of the line; outside comments there must be no
    ["--"].  The result says whether the text ends within a comment; [None]: there is a ["--"] outside comments. *)
Fixpoint scan (comment : bool) (t : string) : option bool :=
  match t with
  | EmptyString => Some comment
  | String c r =>
    if comment then scan (not_nl_c c) r
    else if is_c "#" c then scan true r
    else if is_c "-" c && match r with String d _ => is_c "-" d | EmptyString => false end then None
    else scan false r
  end.
(** No metadata anywhere. *)
Definition no_meta (t : string) : Prop := scan false t <> None.
(** Metadata may follow: not within a comment, and no dash right before. *)
Definition open_end (t : string) : Prop := scan false (t +:+ "-") = Some false.

(** One metadata statement: [-- key = value]. *)
Record dmeta := DMeta { dm_sep : string; dm_key : string; dm_eq1 : string; dm_eq2 : string; dm_value : string }.
Definition dm_text (m : dmeta) : string := ("--" +:+ dm_sep m +:+ dm_key m +:+ dm_eq1 m +:+ "=" +:+ dm_eq2 m +:+ dm_value m)%string.
Definition meta_keys : list string := ["name"; "version"; "precompiler"; "source"; "target"].
Definition meta_value_ok (wide : ascii -> bool) (v : string) : Prop := word_ok wide v \/ exists w, v = (Q +:+ w +:+ Q)%string /\ quotable w = true.
Definition dm_ok (wide : ascii -> bool) (m : dmeta) : Prop :=
  all_chars ws_c (dm_sep m) = true /\ all_chars ws_c (dm_eq1 m) = true /\ all_chars ws_c (dm_eq2 m) = true /\
  dm_key m ∈ meta_keys /\ meta_value_ok wide (dm_value m).
(** A white space character or a line end. *)
Definition gap_c (c : ascii) : bool := ws_c c || is_c LF c || is_c CR c.
Definition starts_gap (t : string) : Prop := match t with String c _ => gap_c c = true | EmptyString => True end.

(** A file: text, then metadata statements each followed by text. *)
Fixpoint metas_text (l : list (dmeta * string)) : string :=
  match l with [] => "" | (m, t) :: l => (dm_text m +:+ t +:+ metas_text l)%string end.
Fixpoint metas_ok (wide : ascii -> bool) (l : list (dmeta * string)) : Prop :=
  match l with
  | [] => True
  | [(m, t)] => dm_ok wide m /\ starts_gap t /\ no_meta t
  | (m, t) :: l => dm_ok wide m /\ t <> "" /\ starts_gap t /\ open_end t /\ metas_ok wide l
  end.
Definition file_ok (wide : ascii -> bool) (t : string) (l : list (dmeta * string)) : Prop :=
  match l with [] => no_meta t | _ => open_end t /\ metas_ok wide l end.
(** The last value given to a key. *)
Definition last_value (k : string) (l : list (dmeta * string)) : option string :=
  last (omap (fun mt : dmeta * string => if String.eqb k (dm_key mt.1) then Some (dm_value mt.1) else None) l).

(** ** Transformations *)
(** The names in order of first appearance; the last value given to a name. *)
Fixpoint firsts (l : list string) : list string :=
  match l with [] => [] | x :: l => x :: filter (fun y => y <> x) (firsts l) end.
Definition final_value (k : string) (ps : list (string * string)) : option string :=
  last (omap (fun kv : string * string => if String.eqb k kv.1 then Some kv.2 else None) ps).
Definition table (ps : list (string * string)) : list (string * string) :=
  map (fun k => (k, unwrap_or "" (final_value k ps))) (firsts (map fst ps)).

(** [s] has no [pat] in it. *)
Definition free_of (pat s : string) : Prop := forall a b, s <> (a +:+ pat +:+ b)%string.

(** ** Transformation files *)
Record rpair := RPair { rp_sep : string; rp_name : string; rp_e1 : string; rp_e2 : string; rp_new : string }.
Inductive tline :=
| TLComment (pad text : string)
| TLBlank (pad : string)
| TLMeta (pad : string) (m : dmeta)
| TLRename (kw gap kw2 : string) (ps : list rpair)
| TLLink (kw gap kw2 : string) (ps : list rpair).
Definition rp_text (sep : string) (p : rpair) : string := (rp_sep p +:+ rp_name p +:+ rp_e1 p +:+ sep +:+ rp_e2 p +:+ rp_new p)%string.
Definition tl_text (l : tline) : string :=
  match l with
  | TLComment pad t => (pad +:+ "#" +:+ t)%string
  | TLBlank pad => pad
  | TLMeta pad m => (pad +:+ dm_text m)%string
  | TLRename kw gap kw2 ps => (kw +:+ gap +:+ kw2 +:+ cat_map (rp_text "=") ps)%string
  | TLLink kw gap kw2 ps => (kw +:+ gap +:+ kw2 +:+ cat_map (rp_text "->") ps)%string
  end.
(** Names: letters, digits, [-], [_]. *)
Definition tname_ok (s : string) : Prop := s <> "" /\ all_chars prop_key_c s = true.
Definition rp_ok (p : rpair) : Prop :=
  rp_sep p <> "" /\ all_chars ws_c (rp_sep p) = true /\ all_chars ws_c (rp_e1 p) = true /\ all_chars ws_c (rp_e2 p) = true /\
  tname_ok (rp_name p) /\ tname_ok (rp_new p).
Definition tl_ok (wide : ascii -> bool) (l : tline) : Prop :=
  match l with
  | TLComment pad t => all_chars ws_c pad = true /\ all_chars not_nl_c t = true
  | TLBlank pad => all_chars ws_c pad = true
  | TLMeta pad m => all_chars ws_c pad = true /\ dm_ok wide m
  | TLRename kw gap kw2 ps => lower_str kw = "rename" /\ all_chars ws_c gap = true /\ lower_str kw2 = "attribute" /\ ps <> [] /\ Forall rp_ok ps
  | TLLink kw gap kw2 ps => lower_str kw = "link" /\ all_chars ws_c gap = true /\ lower_str kw2 = "attribute" /\ ps <> [] /\ Forall rp_ok ps /\
      Forall (fun p => rp_e1 p <> "") ps
  end.
Definition rps_table (ps : list rpair) : list (string * string) := table (map (fun p => (rp_name p, rp_new p)) ps).
(** The commands of the file with their line numbers (from [n] + 1) and texts; the metadata. *)
Fixpoint tl_commands (n : nat) (l : list tline) : list (tcommand * cmd_meta) :=
  match l with
  | [] => []
  | TLRename kw gap kw2 ps :: r => (TCommand TRename (ORename (Some (rps_table ps))), CmdMeta (S n) (tl_text (TLRename kw gap kw2 ps))) :: tl_commands (S n) r
  | TLLink kw gap kw2 ps :: r => (TCommand TLink (OLink (Some (rps_table ps))), CmdMeta (S n) (tl_text (TLLink kw gap kw2 ps))) :: tl_commands (S n) r
  | _ :: r => tl_commands (S n) r
  end.
Definition tl_meta (l : list tline) : gmap string string :=
  fold_left (fun m f => match f with TLMeta _ d => <[dm_key d := dm_value d]> m | _ => m end) l ∅.

Definition tfile_text (ls : list tline) : string := cat_map (fun l => tl_text l +:+ NL)%string ls.

(** ** Built transformations *)
(** The attribute pairs a command states; a command whose kind and object differ states none. *)
Definition stated (c : tcommand) : list (string * string) :=
  match c with TCommand TRename (ORename (Some l)) | TCommand TLink (OLink (Some l)) => l | _ => [] end.
(** [removed pat s s']: [s'] is [s] without the occurrences of [pat], taken from the left. *)
Inductive removed (pat : string) : string -> string -> Prop :=
| removed_none s : free_of pat s -> removed pat s s
| removed_first a b b' : (forall x y, (a +:+ pat +:+ b)%string = (x +:+ pat +:+ y)%string -> String.length a <= String.length x) -> removed pat b b' ->
    removed pat (a +:+ pat +:+ b) (a +:+ b').
(** The elements of a facade bundle. *)
Definition structurals (es : list element) : list bundle := omap (fun e => match e with Structural b => Some b | Transforming _ => None end) es.
Definition transformings (es : list element) : list transformation := omap (fun e => match e with Transforming t => Some t | Structural _ => None end) es.

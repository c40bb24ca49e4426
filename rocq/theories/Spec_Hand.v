(** How a command of an OCAfile may be written by hand: key words in any letter case, words and pairs apart by blanks, tabs and
    continued lines, quotes of either kind or none.  [hand c t]: the text [t] says the command [c]. *)
From Verif Require Export OcaFile Spec_OcaFile.

(** [w], in any letter case. *)
Definition spelled (t w : string) : Prop := lower_str t = w.
(** The line breaks of ocafile.pest. *)
Definition breaks : list string := [String LF ""; String CR (String LF ""); String CR ""].
(** Blanks, tabs, and backslashes at the end of a line. *)
Inductive gap : string -> Prop :=
| gap_none : gap ""
| gap_blank c s : ws_c c = true -> gap s -> gap (String c s)
| gap_line pad nl s : all_chars ws_c pad = true -> nl ∈ breaks -> gap s -> gap (String BSL (pad +:+ nl +:+ s)).
(** specification (of arg_ws, semantics/oca-file/src/ocafile.pest:32) *)
Definition sep (s : string) : Prop := gap s /\ s <> "".
(** specification (no blanks around the sign, semantics/oca-file/src/ocafile.pest:222, 230) *)
Definition tight (s : string) : Prop := s = "".
(** specification (of ws, semantics/oca-file/src/ocafile.pest:5) *)
Definition blanks (s : string) : Prop := all_chars ws_c s = true.

(** A text between quotes. *)
Inductive w_quoted : string -> string -> Prop :=
| qt_double v : quotable v = true -> w_quoted v (Q +:+ v +:+ Q)
| qt_single v : all_chars sq_c v = true -> w_quoted v ("'" +:+ v +:+ "'").
Section Hand.
Variable wide : ascii -> bool.
Variable said_ok : string -> bool.
(** A text, or a bare word. *)
Inductive w_word : string -> string -> Prop :=
| wt_quoted v t : w_quoted v t -> w_word v t
| wt_bare w : word_ok wide w -> w_word w w.
(** Units: any characters up to the next blank, as in [m/s^2]. *)
(** specification (of unit_char, semantics/oca-file/src/ocafile.pest:211) *)
Definition unit_c (c : ascii) : bool := negb (ws_c c || is_c LF c || is_c CR c || is_c BSL c).
(** specification (of unit_char, semantics/oca-file/src/ocafile.pest:211-212) *)
Definition unit_start (c : ascii) : bool := unit_c c && negb (is_c DQ c || is_c "'" c || is_c "#" c).
(** specification (of unit_value, semantics/oca-file/src/ocafile.pest:212) *)
Definition unit_word (w : string) : Prop := exists c v, w = String c v /\ unit_start c = true /\ all_chars unit_c v = true.
(** specification (of key_value, semantics/oca-file/src/ocafile.pest:206) *)
Inductive w_value : nvalue -> string -> Prop := vt_word v t : w_word v t -> w_value (VVal v) t.
(** specification (of unit_value, semantics/oca-file/src/ocafile.pest:212) *)
Inductive w_unit : nvalue -> string -> Prop :=
| ut_quoted v t : w_quoted v t -> w_unit (VVal v) t
| ut_bare w : unit_word w -> w_unit (VVal w) w.
(** [a, b, c]: commas, and blanks behind them. *)
Definition spaces (s : string) : Prop := all_chars (is_c " ") s = true.
Inductive w_commas {A} (elt : A -> string -> Prop) : list A -> string -> Prop :=
| ct_last a t : elt a t -> w_commas elt [a] t
| ct_more a t s l u : elt a t -> spaces s -> w_commas elt l u -> w_commas elt (a :: l) (t +:+ "," +:+ s +:+ u).
(** specification (of entry_code_list, semantics/oca-file/src/ocafile.pest:216) *)
Inductive w_list : list nvalue -> string -> Prop :=
| lt_none : w_list [] "[]"
| lt_some l t : w_commas (fun v t => exists s, v = VVal s /\ w_quoted s t) l t -> w_list l ("[" +:+ t +:+ "]").
(** {"k": v, ...}: a quoted key, a colon, blanks, a value. *)
Inductive w_braces (elt : nvalue -> string -> Prop) : imap nvalue -> string -> Prop :=
| bt_none : w_braces elt [] "{}"
| bt_some l s t s' : spaces s -> spaces s' ->
    w_commas (fun kv t => exists q u w, w_quoted kv.1 q /\ spaces u /\ elt kv.2 w /\ t = (q +:+ ":" +:+ u +:+ w)%string) l t ->
    w_braces elt l ("{" +:+ s +:+ t +:+ s' +:+ "}").
(** specification (of entry_code_key_value, semantics/oca-file/src/ocafile.pest:221) *)
Inductive w_code : nvalue -> string -> Prop :=
| co_word v t : w_word v t -> w_code (VVal v) t
| co_list l t : w_list l t -> w_code (VArr l) t
| co_groups m t : NoDup (map fst m) -> w_braces (fun v t => exists l, v = VArr l /\ w_list l t) m t -> w_code (VObj m) t.
(** specification (of entry_key_value, semantics/oca-file/src/ocafile.pest:228) *)
Inductive w_entry : nvalue -> string -> Prop :=
| en_word v t : w_word v t -> w_entry (VVal v) t
| en_entries m t : NoDup (map fst m) -> w_braces (fun v t => exists s, v = VVal s /\ w_quoted s t) m t -> w_entry (VObj m) t.

(** Attribute types: names as they are, references in any case, elements of arrays with blanks around them. *)
Inductive w_type : nattr -> string -> Prop :=
| ty_base a : w_type (NVal a) (attr_type_name a)
| ty_said r s : spelled r "refs:" -> word_ok wide s -> said_ok s = true -> w_type (NRef (RSaid s)) (r +:+ s)
| ty_name r s : spelled r "refn:" -> word_ok wide s -> w_type (NRef (RName s)) (r +:+ s)
| ty_array u g t g' : gap g -> gap g' -> w_type u t -> w_type (NArr u) ("Array[" +:+ g +:+ t +:+ g' +:+ "]").

(** Pairs [name = value], each behind a separation. *)
Inductive w_pairs {V} (apart around : string -> Prop) (value : V -> string -> Prop) : imap V -> string -> Prop :=
| pt_none : w_pairs apart around value [] ""
| pt_pair s k e e' v w l t : apart s -> name_ok k -> around e -> around e' -> value v w -> w_pairs apart around value l t ->
    w_pairs apart around value ((k, v) :: l) (s +:+ k +:+ e +:+ "=" +:+ e' +:+ w +:+ t).
(** A bare unit runs on to the next space. *)
Definition space_first (s : string) : Prop := exists s', s = String " " s' /\ gap s'.
(** specification (of the key pairs of each overlay, semantics/oca-file/src/ocafile.pest:207-231) *)
Definition w_table (k : okind) : imap nvalue -> string -> Prop :=
  match k with
  | KUnit => w_pairs space_first gap w_unit
  | KEntryCode => w_pairs sep tight w_code
  | KEntry => w_pairs sep tight w_entry
  | _ => w_pairs sep gap w_value
  end.
(** What may follow the last pair of a line. *)
Definition line_rest (k : okind) (s : string) : Prop := blanks s /\ (k = KUnit -> s = "" \/ exists s', s = String " " s').

(** specification (of the overlays without a language, semantics/oca-file/src/ocafile.pest:167-175) *)
Definition plain_words : list (okind * string) :=
  [(KCharacterEncoding, "character_encoding"); (KFormat, "format"); (KConformance, "conformance"); (KConditional, "condition");
   (KCardinality, "cardinality"); (KUnit, "unit"); (KEntryCode, "entry_code")].
(** specification (of the overlays with a language, semantics/oca-file/src/ocafile.pest:164, 166, 174) *)
Definition lang_words : list (okind * string) := [(KLabel, "label"); (KInformation, "information"); (KEntry, "entry")].
(** specification (a name is given once) *)
Definition table_fine {V} (m : imap V) : Prop := m <> [] /\ NoDup (map fst m).
(** The target of a link. *)
Inductive w_target : ref_value -> string -> Prop :=
| tt_said r s : spelled r "refs:" -> word_ok wide s -> said_ok s = true -> w_target (RSaid s) (r +:+ s)
| tt_name r s : spelled r "refn:" -> word_ok wide s -> w_target (RName s) (r +:+ s).
(** specification (of remove_attribute, semantics/oca-file/src/ocafile.pest:200) *)
Inductive w_names : list string -> string -> Prop :=
| nt_none : w_names [] ""
| nt_name s k l t : sep s -> name_ok k -> w_names l t -> w_names (k :: l) (s +:+ k +:+ t).

(** specification (of the commands, semantics/oca-file/src/ocafile.pest:83-86, 118-160) *)
Inductive hand : command -> string -> Prop :=
| ha_attrs a s n l t : spelled a "add" -> sep s -> spelled n "attribute" -> table_fine l -> w_pairs sep gap w_type l t ->
    hand (Command CAdd (OCaptureBase (CapContent (Some l) None None))) (a +:+ s +:+ n +:+ t)
(* the value keeps its quotes *)
| ha_class a s n s' v t : spelled a "add" -> sep s -> spelled n "classification" -> sep s' -> w_word v t ->
    hand (Command CAdd (OCaptureBase (CapContent None (Some [("classification", VVal t)]) None))) (a +:+ s +:+ n +:+ s' +:+ t)
| ha_flagged a s n s' w : spelled a "add" -> sep s -> spelled n "flagged_attributes" -> sep s' -> word_ok wide w ->
    hand (Command CAdd (OCaptureBase (CapContent None None (Some [w])))) (a +:+ s +:+ n +:+ s' +:+ w)
| ha_plain k w a s n s' p m t r : (k, w) ∈ plain_words -> spelled a "add" -> sep s -> spelled n w -> sep s' -> spelled p "attrs" ->
    table_fine m -> w_table k m t -> line_rest k r ->
    hand (Command CAdd (OOverlay (OType k "1.1") (Content (Some m) (Some [])))) (a +:+ s +:+ n +:+ s' +:+ p +:+ t +:+ r)
| ha_encoding a s n s' p m t r : spelled a "add" -> sep s -> spelled n "character_encoding" -> sep s' -> spelled p "props" ->
    table_fine m -> w_pairs sep gap w_value m t -> blanks r ->
    hand (Command CAdd (OOverlay (OType KCharacterEncoding "1.1") (Content (Some []) (Some m)))) (a +:+ s +:+ n +:+ s' +:+ p +:+ t +:+ r)
| ha_lang k w a s n s' l s'' p m t r : (k, w) ∈ lang_words -> spelled a "add" -> sep s -> spelled n w -> sep s' -> lang_text_ok l -> sep s'' ->
    spelled p "attrs" -> table_fine m -> w_table k m t -> blanks r ->
    hand (Command CAdd (OOverlay (OType k "1.1") (Content (Some m) (Some [("lang", VVal l)])))) (a +:+ s +:+ n +:+ s' +:+ l +:+ s'' +:+ p +:+ t +:+ r)
| ha_meta a s n s' l s'' p m t r : spelled a "add" -> sep s -> spelled n "meta" -> sep s' -> lang_text_ok l -> sep s'' -> spelled p "props" ->
    table_fine (("lang", VVal l) :: m) -> m <> [] -> w_pairs sep gap w_value m t -> blanks r ->
    hand (Command CAdd (OOverlay (OType KMeta "1.1") (Content (Some []) (Some (("lang", VVal l) :: m))))) (a +:+ s +:+ n +:+ s' +:+ l +:+ s'' +:+ p +:+ t +:+ r)
| ha_link a s n s' o u s'' p m t r : spelled a "add" -> sep s -> spelled n "link" -> sep s' -> w_target o u -> sep s'' ->
    spelled p "attrs" -> table_fine m -> w_pairs sep gap w_value m t -> blanks r ->
    hand (Command CAdd (OOverlay (OType KLink "1.1") (Content (Some m) (Some [("target", VRef o)])))) (a +:+ s +:+ n +:+ s' +:+ u +:+ s'' +:+ p +:+ t +:+ r)
| ha_remove a s n l t : spelled a "remove" -> sep s -> spelled n "attribute" -> NoDup l -> w_names l t ->
    hand (Command CRemove (OCaptureBase (CapContent (Some (map (fun k => (k, NNull)) l)) None None))) (a +:+ s +:+ n +:+ t)
| ha_unclass a s n : spelled a "remove" -> sep s -> spelled n "classification" ->
    hand (Command CRemove (OCaptureBase (CapContent None (Some [("classification", VVal "")]) None))) (a +:+ s +:+ n)
| ha_from a s w : spelled a "from" -> blanks s -> word_ok wide w -> said_ok w = true ->
    hand (Command CFrom (OBundle (BundleContent (RSaid w)))) (a +:+ s +:+ w).

(** ** Files *)
(** specification (of the items of a file, semantics/oca-file/src/ocafile.pest:256-262) *)
Inductive hline := HComment (pad text : string) | HBlank (pad : string) | HMeta (key value : string) | HCmd (c : command).
(** specification *)
Definition hline_ok (f : hline) : Prop :=
  match f with
  | HComment pad t => blanks pad /\ all_chars not_nl_c t = true
  | HBlank pad => blanks pad
  | HMeta k v => k ∈ ["name"; "version"; "precompiler"] /\ word_ok wide v
  | HCmd _ => True
  end.
(** The text of a line, without its line break. *)
Definition is_hline (f : hline) (t : string) : Prop :=
  match f with
  | HComment pad s => t = (pad +:+ "#" +:+ s)%string
  | HBlank pad => t = pad
  | HMeta k v => exists pad s e e', blanks pad /\ blanks s /\ gap e /\ gap e' /\ t = (pad +:+ "--" +:+ s +:+ k +:+ e +:+ "=" +:+ e' +:+ v)%string
  | HCmd c => hand c t
  end.
(** A file of lines: any line break behind each - a carriage return alone is no break where a line feed follows -; behind the last
    one there may be none, unless it is blank. *)
Inductive hfile : list (hline * string) -> string -> Prop :=
| hf_none : hfile [] ""
| hf_last f t : is_hline f t -> (forall pad, f <> HBlank pad) -> hfile [(f, t)] t
| hf_line f t nl l s : is_hline f t -> nl ∈ breaks -> (nl = String CR "" -> forall u, s <> String LF u) -> hfile l s -> hfile ((f, t) :: l) (t +:+ nl +:+ s).
(** The commands with their texts and the number of the item (a continued command is one item). *)
Fixpoint hand_commands (n : nat) (l : list (hline * string)) : list (command * cmd_meta) :=
  match l with
  | [] => []
  | (HCmd c, t) :: l => (c, CmdMeta (S n) t) :: hand_commands (S n) l
  | _ :: l => hand_commands (S n) l
  end.
Definition hand_meta (l : list hline) (m : gmap string string) : gmap string string :=
  fold_left (fun m f => match f with HMeta k v => <[k := v]> m | _ => m end) l m.
End Hand.
(** The generator writes an ENTRY value in braces right behind the value before it; other values behind a blank. *)
Definition set_apart (c : command) : Prop :=
  match c with Command CAdd (OOverlay (OType KEntry _) (Content (Some (_ :: l)) _)) => Forall (fun kv => exists s, kv.2 = VVal s) l | _ => True end.

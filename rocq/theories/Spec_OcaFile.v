(** What an OCAfile can say: the commands whose text reads back, in terms of the characters of their names and values. *)
From Verif Require Export Ast.
From Verif Require Import Peg OcaGrammar OcaFile.

(** Names: letters, digits, [-], [_], [.]. *)
Definition name_ok (k : string) : Prop := k <> "" /\ all_chars attr_key_c k = true.
(** A text that can stand between double quotes: every double quote in it is preceded by a backslash, it does not end within
    such a pair, and it has no NUL and no 0x1F. *)
Fixpoint quotable (v : string) : bool :=
  match v with
  | EmptyString => true
  | String c r =>
    if is_c BSL c then match r with
      | EmptyString => false
      | String d r' => if is_c DQ d || is_c BSL d then quotable r' else quotable r
      end
    else dq_c c && quotable r
  end.
(** Bare words: letters, digits and [. - _ / :]. *)
Definition word_ok (wide : ascii -> bool) (s : string) : Prop := s <> "" /\ all_chars (char_c wide) s = true.
(** "en", "en-US". *)
Definition lang_text_ok (l : string) : Prop :=
  exists a b, alpha_c a = true /\ alpha_c b = true /\
  (l = String a (String b "") \/ exists c d, alpha_c c = true /\ alpha_c d = true /\ l = String a (String b (String "-" (String c (String d ""))))).

Inductive type_ok (wide : ascii -> bool) (said_ok : string -> bool) : nattr -> Prop :=
| to_val t : type_ok wide said_ok (NVal t)
| to_ref s : word_ok wide s -> said_ok s = true -> type_ok wide said_ok (NRef (RSaid s))
| to_arr t : type_ok wide said_ok t -> type_ok wide said_ok (NArr t).

Definition plain_ok (v : nvalue) : Prop := exists s, v = VVal s /\ quotable s = true.
Definition table_ok {V} (ok : V -> Prop) (l : imap V) : Prop := l <> [] /\ NoDup (map fst l) /\ Forall (fun kv => name_ok kv.1 /\ ok kv.2) l.
(** Entry codes: one text, a list, or groups of lists. *)
Definition codes_ok (v : nvalue) : Prop :=
  plain_ok v \/ (exists l, v = VArr l /\ Forall plain_ok l) \/
  (exists m, v = VObj m /\ NoDup (map fst m) /\ Forall (fun gv => quotable gv.1 = true /\ exists l, gv.2 = VArr l /\ Forall plain_ok l) m).
Definition entries_ok (v : nvalue) : Prop :=
  plain_ok v \/ (exists m, v = VObj m /\ NoDup (map fst m) /\ Forall (fun gv => quotable gv.1 = true /\ plain_ok gv.2) m).
(** No properties, or exactly the given ones. *)
Definition no_props (o : option (imap nvalue)) : Prop := o = None \/ o = Some [].

Inductive printable (wide : ascii -> bool) (said_ok : string -> bool) : command -> Prop :=
| pr_attrs l : table_ok (type_ok wide said_ok) l -> printable wide said_ok (Command CAdd (OCaptureBase (CapContent (Some l) None None)))
| pr_class v : word_ok wide v \/ (exists w, v = (Q +:+ w +:+ Q)%string /\ quotable w = true) ->
    printable wide said_ok (Command CAdd (OCaptureBase (CapContent None (Some [("classification", VVal v)]) None)))
| pr_meta ver l ps ats : lang_text_ok l -> ~ "lang" ∈ map fst ps -> table_ok plain_ok ps -> no_props ats ->
    printable wide said_ok (Command CAdd (OOverlay (OType KMeta ver) (Content ats (Some (("lang", VVal l) :: ps)))))
| pr_lang k ver l ats : k = KLabel \/ k = KInformation -> lang_text_ok l -> table_ok plain_ok ats ->
    printable wide said_ok (Command CAdd (OOverlay (OType k ver) (Content (Some ats) (Some [("lang", VVal l)]))))
| pr_plain k ver ats ps : k = KCharacterEncoding \/ k = KFormat \/ k = KConformance \/ k = KCardinality \/ k = KConditional \/ k = KUnit ->
    table_ok plain_ok ats -> no_props ps -> printable wide said_ok (Command CAdd (OOverlay (OType k ver) (Content (Some ats) ps)))
| pr_codes ver ats ps : table_ok codes_ok ats -> no_props ps -> printable wide said_ok (Command CAdd (OOverlay (OType KEntryCode ver) (Content (Some ats) ps)))
| pr_entry ver l ats : lang_text_ok l -> table_ok entries_ok ats ->
    printable wide said_ok (Command CAdd (OOverlay (OType KEntry ver) (Content (Some ats) (Some [("lang", VVal l)]))))
| pr_link ver s ats : word_ok wide s -> said_ok s = true -> table_ok plain_ok ats ->
    printable wide said_ok (Command CAdd (OOverlay (OType KLink ver) (Content (Some ats) (Some [("target", VRef (RSaid s))]))))
| pr_remove l : NoDup (map fst l) -> Forall (fun kv => name_ok kv.1) l ->
    printable wide said_ok (Command CRemove (OCaptureBase (CapContent (Some l) None None)))
| pr_unclass v : printable wide said_ok (Command CRemove (OCaptureBase (CapContent None (Some [("classification", v)]) None))).

(** The same command once written and read: overlays get version 1.1 and both tables, a removal keeps the names only, and the
    properties of META come back with the last one first. *)
Definition last_first {A} (l : list A) : list A := match rev l with [] => [] | x :: r => x :: rev r end.
Definition as_read (c : command) : command :=
  match c with
  | Command CAdd (OOverlay (OType KMeta _) (Content ats (Some (lang :: ps)))) =>
    Command CAdd (OOverlay (OType KMeta "1.1") (Content (Some (unwrap_or [] ats)) (Some (lang :: last_first ps))))
  | Command CAdd (OOverlay (OType k _) (Content ats ps)) => Command CAdd (OOverlay (OType k "1.1") (Content (Some (unwrap_or [] ats)) (Some (unwrap_or [] ps))))
  | Command CRemove (OCaptureBase (CapContent (Some l) ps fl)) => Command CRemove (OCaptureBase (CapContent (Some (map (fun kv => (kv.1, NNull)) l)) ps fl))
  | Command CRemove (OCaptureBase (CapContent ats (Some [(k, _)]) fl)) => Command CRemove (OCaptureBase (CapContent ats (Some [(k, VVal "")]) fl))
  | c => c
  end.

(** ** Whole files *)
(** A file laid out line by line: comments, blank lines, metadata lines, a base bundle, one flagged attribute, and the other commands. *)
Inductive fline := FComment (pad text : string) | FBlank (pad : string) | FMeta (key value : string) | FFrom (said : string) | FFlagged (name : string) | FCmd (c : command).
Definition fline_ok (wide : ascii -> bool) (said_ok : string -> bool) (f : fline) : Prop :=
  match f with
  | FComment pad t => all_chars ws_c pad = true /\ all_chars not_nl_c t = true
  | FBlank pad => all_chars ws_c pad = true
  | FMeta k v => k ∈ ["name"; "version"; "precompiler"] /\ word_ok wide v
  | FFrom s => word_ok wide s /\ said_ok s = true
  | FFlagged n => word_ok wide n
  | FCmd c => printable wide said_ok c
  end.
(** The text of a line; [t] is the text of the command. *)
Definition is_line (f : fline) (t : string) : Prop :=
  match f with
  | FComment pad s => t = (pad +:+ "#" +:+ s)%string
  | FBlank pad => t = pad
  | FMeta k v => t = ("--" +:+ k +:+ "=" +:+ v)%string
  | FFrom s => t = ("FROM " +:+ s)%string
  | FFlagged n => t = ("ADD FLAGGED_ATTRIBUTES " +:+ n)%string
  | FCmd c => command_text c = Some t
  end.
(** The command a line stands for, if any. *)
Definition line_command (f : fline) : option command :=
  match f with
  | FFrom s => Some (Command CFrom (OBundle (BundleContent (RSaid s))))
  | FFlagged n => Some (Command CAdd (OCaptureBase (CapContent None None (Some [n]))))
  | FCmd c => Some (as_read c)
  | FComment _ _ | FBlank _ | FMeta _ _ => None
  end.
Definition file_of (lines : list string) : string := cat_map (fun t => (t +:+ NL)%string) lines.
(** The commands of the file, as read, each with its line number (from [n] + 1) and text; the metadata. *)
Fixpoint file_commands (n : nat) (l : list (fline * string)) : list (command * cmd_meta) :=
  match l with
  | [] => []
  | (f, t) :: l => match line_command f with Some c => (c, CmdMeta (S n) t) :: file_commands (S n) l | None => file_commands (S n) l end
  end.
Definition file_meta (l : list fline) (m : gmap string string) : gmap string string :=
  fold_left (fun m f => match f with FMeta k v => <[k := v]> m | _ => m end) l m.
Definition with_file_meta (l : list fline) (a : ast) : ast := Ast (ast_version a) (ast_commands a) (ast_cmeta a) (file_meta l (ast_meta a)).

(** ATTR_FRAMING commands: the one command written on several lines.  Which of them a file can say, and what comes back. *)
From Verif Require Export Spec_OcaFile.
From Verif Require Import OcaFile.

(** One frame of an attribute: a scope and its texts. *)
Definition frame_ok (f : string * nvalue) : Prop :=
  quotable f.1 = true /\ exists m, f.2 = VObj m /\ m <> [] /\ NoDup (map (fun kv => lower_str kv.1) m) /\ Forall (fun kv => quotable kv.1 = true /\ plain_ok kv.2) m.
Definition frames_ok (v : nvalue) : Prop :=
  exists m, v = VObj m /\ m <> [] /\ NoDup (map (fun f => lower_str f.1) m) /\ Forall frame_ok m.
Definition frame_props : list string := ["id"; "label"; "location"; "version"].
(** The properties are written without "frame_"; what is left must be one of the four words. *)
Definition frame_prop_ok (kv : string * nvalue) : Prop := without "frame_" kv.1 ∈ frame_props /\ plain_ok kv.2.
Inductive framing_ok : command -> Prop :=
| fr_ok ver ats ps : table_ok frames_ok ats -> ps <> [] -> NoDup (map (fun kv => without "frame_" kv.1) ps) -> Forall frame_prop_ok ps ->
    framing_ok (Command CAdd (OOverlay (OType KAttributeFraming ver) (Content (Some ats) (Some ps)))).

(** What comes back: version 1.1, the properties without "frame_", and every name inside the braces in lower case. *)
Definition lower_keys (f : nvalue -> nvalue) (v : nvalue) : nvalue := match v with VObj m => VObj (map (fun kv => (lower_str kv.1, f kv.2)) m) | v => v end.
Definition framing_read (c : command) : command :=
  match c with
  | Command CAdd (OOverlay (OType KAttributeFraming _) (Content (Some ats) (Some ps))) =>
    Command CAdd (OOverlay (OType KAttributeFraming "1.1")
      (Content (Some (map (fun kv => (kv.1, lower_keys (lower_keys (fun v => v)) kv.2)) ats)) (Some (map (fun kv => (without "frame_" kv.1, kv.2)) ps))))
  | c => c
  end.

(** ** Files with such commands *)
Inductive gline := FOne (f : fline) | FFraming (c : command).
Definition gline_ok (wide : ascii -> bool) (said_ok : string -> bool) (g : gline) : Prop :=
  match g with FOne f => fline_ok wide said_ok f | FFraming c => framing_ok c end.
Definition is_gline (g : gline) (t : string) : Prop := match g with FOne f => is_line f t | FFraming c => command_text c = Some t end.
(** No empty line right after such a command. *)
Fixpoint no_blank_after (l : list gline) : Prop :=
  match l with
  | FFraming _ :: (FOne (FBlank "") :: _) => False
  | _ :: l => no_blank_after l
  | [] => True
  end.
(** The commands as read.  An ATTR_FRAMING command counts as one line, whatever it looks like, and its recorded text includes the end of its last line. *)
Fixpoint gline_commands (n : nat) (l : list (gline * string)) : list (command * cmd_meta) :=
  match l with
  | [] => []
  | (FFraming c, t) :: l => (framing_read c, CmdMeta (S n) (t +:+ NL)) :: gline_commands (S n) l
  | (FOne f, t) :: l => match line_command f with Some c => (c, CmdMeta (S n) t) :: gline_commands (S n) l | None => gline_commands (S n) l end
  end.
Definition gline_meta (l : list gline) (m : gmap string string) : gmap string string :=
  fold_left (fun m g => match g with FOne (FMeta k v) => <[k := v]> m | _ => m end) l m.
Definition with_gline_meta (l : list gline) (a : ast) : ast := Ast (ast_version a) (ast_commands a) (ast_cmeta a) (gline_meta l (ast_meta a)).

(** ** Commands that come back as they were (the version aside): names inside the braces in lower case, properties without "frame_" *)
Definition lower_case (s : string) : Prop := lower_str s = s.
Definition settled (c : command) : Prop :=
  forall ver ats ps, c = Command CAdd (OOverlay (OType KAttributeFraming ver) (Content (Some ats) (Some ps))) ->
  Forall (fun kv => kv.1 ∈ frame_props) ps /\
  Forall (fun kv => forall m, kv.2 = VObj m -> Forall (fun f => lower_case f.1 /\ forall k, f.2 = VObj k -> Forall (fun x => lower_case x.1) k) m) ats.
(** Everything a generated file can say. *)
Definition says (wide : ascii -> bool) (said_ok : string -> bool) (c : command) : Prop := printable wide said_ok c \/ framing_ok c.
Definition is_framing (c : command) : bool := match cmd_obj c with OOverlay (OType KAttributeFraming _) _ => true | _ => false end.
Definition gline_of (c : command) : gline := if is_framing c then FFraming c else FOne (FCmd c).
Definition read_back (c : command) : command := if is_framing c then framing_read c else as_read c.

(** From bundles to ASTs.  Models semantics/oca-bundle/src/state/oca.rs 928-1295 [OCABundle::to_ast].  Definitions only. *)
From Verif Require Export Build.

Section ToAst.
(** [isolang::Language::to_639_1]. *)
Variable to1 : string -> option string.
(** The iteration order of the hash maps. *)
Variable o : order.

(** The loops [for (k, v) in map.iter() { attributes.insert(k, value) }]: the keys of a map are distinct, so each insertion appends. *)
(** oca.rs 974-1290: the loops over the maps of an overlay. *)
Definition each_value {V} (p : list string) (f : string -> V -> nvalue) (m : gmap string V) : imap nvalue := map (fun kv => (kv.1, f kv.1 kv.2)) (o p _ m).
(** oca.rs 974-1290 [NestedValue::Value(v.clone())] *)
Definition text_value (n s : string) : nvalue := VVal s.
(** 1125-1165: entry codes. *)
Definition code_value (n : string) (e : ecodes) : nvalue :=
  match e with
  | ECSai s => VVal s
  | ECArr l => VArr (map VVal l)
  | ECObj l => VObj (map (fun kv => (kv.1, VArr (map VVal kv.2))) l)
  end.
(** 1192-1213: entries. *)
Definition entry_value (p : list string) (n : string) (e : entries) : nvalue :=
  match e with
  | EnSai s => VVal s
  | EnObj m => VObj (each_value (p ++ [n]) text_value m)
  end.
(** 1079-1097: the conditions with their dependencies put back; [None]: no dependencies (1085) or an index out of range (1088). *)
Fixpoint cond_values (d : gmap string (list string)) (l : list (string * string)) : option (imap nvalue) :=
  match l with
  | [] => Some []
  | (n, c) :: r =>
      match d !! n with
      | None => None
      | Some deps =>
          match decode_condition c deps, cond_values d r with
          | Some t, Some vs => Some ((n, VVal t) :: vs)
          | _, _ => None
          end
      end
  end.
(** 960-1290: one overlay; the kinds not listed give no command; [to_639_1().unwrap()] panics. *)
Definition overlay_command (i : nat) (ov : overlay) : outcome (option command) :=
  let p := ["ast"; dec_of_nat i] in
  let add attrs props := Ok (Some (Command CAdd (OOverlay (ov_type ov) (Content attrs props)))) in
  let lang l (k : imap nvalue -> outcome (option command)) := match to1 l with Some s => k [("lang", VVal s)] | None => Panic end in
  match ov_body ov with
  | BEncoding m => add (Some (each_value p (fun _ e => VVal (encoding_str e)) m)) None
  | BFormat m | BConformance m | BCardinality m | BUnit m => add (Some (each_value p text_value m)) None
  | BMeta l m => lang l (fun ps => add None (Some (fold_left (fun acc (kv : string * string) => imap_insert kv.1 (VVal kv.2) acc) (o p _ m) ps)))
  | BLabel l _ m _ | BInformation l m => lang l (fun ps => add (Some (each_value p text_value m)) (Some ps))
  | BConditional c d => match cond_values d (o p _ c) with Some vs => add (Some vs) None | None => Panic end
  | BEntryCode m => add (Some (each_value p code_value m)) None
  | BEntry l m => lang l (fun ps => add (Some (each_value p (entry_value p) m)) (Some ps))
  | _ => Ok None
  end.
(** oca.rs 958-1292: the loop over the overlays. *)
Fixpoint overlay_commands (l : list (nat * overlay)) : outcome (list command) :=
  match l with
  | [] => Ok []
  | (i, ov) :: r =>
      let! c := overlay_command i ov in
      let! cs := overlay_commands r in
      Ok (match c with Some c => c :: cs | None => cs end)
  end.
(** 929-957: the capture base with the classification; the flagged attributes are left out. *)
Definition base_command (cb : capture_base) : command :=
  Command CAdd (OCaptureBase (CapContent (Some (cb_attrs cb)) (if String.eqb (cb_class cb) "" then None else Some [("classification", VVal (cb_class cb))]) None)).
(** oca.rs 928-1295 *)
Definition to_ast (B : bundle) : outcome ast :=
  let! cs := overlay_commands (indexed (b_ovs B)) in
  Ok (Ast "1.0.0" (base_command (b_cb B) :: cs) [] ∅).
End ToAst.

(** Validation of each command against the AST so far.  Models semantics/oca-ast/src/validator.rs and the loop of
    semantics/oca-file/src/ocafile/mod.rs 62-127 that calls it. *)
From Verif Require Export Ast.

(** validator.rs 215-240 [extract_attributes]: [fields] is [cc_attrs]; 242-268 [extract_properties]: [cc_props]. *)
Definition stack_step {V} (fields : cap_content -> option (imap V)) (m : imap V) (c : command) : imap V :=
  match cmd_kind c, cmd_obj c with
  | CRemove, OCaptureBase cc => List.filter (fun kv => negb (imap_mem kv.1 (unwrap_or [] (fields cc)))) m
  | CAdd, OCaptureBase cc => imap_extend m (unwrap_or [] (fields cc))
  | _, _ => m
  end.
(** validator.rs 215-240. *)
Definition extract_attributes (cs : list command) : imap nattr := fold_left (stack_step cc_attrs) cs [].
(** validator.rs 242-268. *)
Definition extract_properties (cs : list command) : imap nvalue := fold_left (stack_step cc_props) cs [].

(** validator.rs 121-170 [rule_remove_attr_if_exist]; the nested [Error::Validation] vectors are flattened. *)
Definition rule_remove (a : ast) (cc : cap_content) : outcome bool :=
  let e1 := match cc_attrs cc with
            | Some l => if forallb (fun k => imap_mem k (extract_attributes (ast_commands a))) (imap_keys l) then [] else ["Cannot remove attribute if does not exists"]
            | None => []
            end in
  match cc_props cc with
  | Some l => if forallb (fun k => imap_mem k (extract_properties (ast_commands a))) (imap_keys l)
              then match e1 with [] => Ok true | _ => Err e1 end
              else Err (e1 ++ ["Cannot remove property if does not exists"])
  | None => match e1 with [] => Ok true | _ => Err e1 end
  end.
(** validator.rs 205-209: the text of [format!("{:?}", keys)]; only that a text is produced matters. *)
Definition debug_keys (l : list string) : string := ("[" +:+ String.concat ", " l +:+ "]")%string.
(** validator.rs 180-213 [rule_add_attr_if_not_exist] (the [None] arm is unreachable: the object is a capture base). *)
Definition rule_add (a : ast) (cc : cap_content) : outcome bool :=
  match List.filter (fun k => imap_mem k (extract_attributes (ast_commands a))) (imap_keys (unwrap_or [] (cc_attrs cc))) with
  | [] => Ok true
  | ks => Err [("Cannot add attribute if already exists: " +:+ debug_keys ks)%string]
  end.
(** validator.rs 53-110 [validate_1_0_0]. *)
Definition validate_1_0_0 (a : ast) (c : command) : outcome bool :=
  match cmd_kind c, cmd_obj c with
  | CAdd, OCaptureBase cc => rule_add a cc
  | CRemove, OCaptureBase cc => rule_remove a cc
  | _, _ => Ok true
  end.
(** validator.rs 24-51 [OCAValidator::validate]; [MissingVersion] displays as the empty text. *)
Definition ast_validate (a : ast) (c : command) : outcome bool :=
  if String.eqb (ast_version a) "1.0.0" then validate_1_0_0 a c
  else if String.eqb (ast_version a) "" then Err [""]
  else Err [ast_version a].

(** ocafile/mod.rs 100-124: one parsed command is validated against the AST so far and pushed with its line; the first
    rejection ends the parse. [line]: number and raw text. *)
Definition push_command (a : ast) (c : command) (line : cmd_meta) : ast :=
  Ast (ast_version a) (ast_commands a ++ [c]) (ast_cmeta a ++ [(length (ast_commands a), line)]) (ast_meta a).
(** ocafile/mod.rs 62-127: the loop over the parsed lines. *)
Fixpoint push_all (a : ast) (l : list (command * cmd_meta)) : outcome ast :=
  match l with
  | [] => Ok a
  | (c, m) :: r => let! _ := ast_validate a c in push_all (push_command a c m) r
  end.

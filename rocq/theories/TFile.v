(** Transformations and the dispatching parser.  Models transformation/ast/src/ast/mod.rs, transformation/ast/src/validator.rs,
    transformation/oca-file/src/ocafile/, transformation/transformation-file/src/, oca-file/src/ocafile/mod.rs,
    the function [build_from_ocafile] of oca/src/facade/build.rs 68-88 and oca/src/facade/bundle.rs. *)
From Verif Require Export TGrammar OcaFile Build BundleCodec Facade.

Notation tpair := (pair trule).

(** ** The AST: transformation/ast/src/ast/mod.rs 12-62, 274-284 *)
Inductive tcmd_type := TRename | TLink.
(** transformation/ast/src/ast/mod.rs 41-62 *)
Inductive tobj := ORename (attributes : option (imap string)) | OLink (attributes : option (imap string)).
(** transformation/ast/src/ast/mod.rs 21-27 *)
Record tcommand := TCommand { tc_kind : tcmd_type; tc_obj : tobj }.
(** transformation/ast/src/ast/mod.rs 13-19 *)
Record tast := TAst { ta_version : string; ta_commands : list tcommand; ta_cmeta : list (nat * cmd_meta); ta_meta : gmap string string }.
(** transformation/ast/src/ast/mod.rs 274-284 *)
Definition tast_new : tast := TAst "1.0.0" [] [] ∅.

(** ast/mod.rs 122-140, 20-27: [type], then the flattened object kind. *)
Definition strs_map_json (l : imap string) : json := JObj (map (fun kv => (kv.1, JStr kv.2)) l).
(** transformation/ast/src/ast/mod.rs 122-140 *)
Definition tobj_json (o : tobj) : list (string * json) :=
  let content ats := JObj (match ats with Some l => [("attributes", strs_map_json l)] | None => [] end) in
  match o with
  | ORename ats => [("object_kind", JStr "Rename"); ("content", content ats)]
  | OLink ats => [("object_kind", JStr "Link"); ("content", content ats)]
  end.
(** transformation/ast/src/ast/mod.rs 35-38 *)
Definition tkind_name (k : tcmd_type) : string := match k with TRename => "Rename" | TLink => "Link" end.
(** transformation/ast/src/ast/mod.rs 20-27 (derived Serialize, flattened object kind) *)
Definition tcommand_json (c : tcommand) : json := JObj (("type", JStr (tkind_name (tc_kind c))) :: tobj_json (tc_obj c)).
(** 199-239: the visitor.  After ["object_kind"] it takes the next entry, whatever its key, as the content; with an unknown kind
    it goes on (the next key "content" is then an unknown field). *)
Definition tkind_parse (j : json) : outcome tcmd_type :=
  match j with
  | JStr s => if String.eqb s "Rename" then Ok TRename else if String.eqb s "Link" then Ok TLink else Err ["unknown variant"]
  | _ => Err ["unknown variant"]
  end.
(** transformation/ast/src/ast/mod.rs 53-62 (derived Deserialize) *)
Definition tcontent_parse (j : json) : outcome (option (imap string)) :=
  match j with JObj l => optional "attributes" (imap_parse str_parse) l | _ => Err ["expected struct"] end.
(** transformation/ast/src/ast/mod.rs 219-262 *)
Fixpoint tcommand_fields (l : list (string * json)) (k : option tcmd_type) (o : option tobj) : outcome tcommand :=
  match l with
  | [] => match k, o with
          | Some k, Some o => Ok (TCommand k o)
          | None, _ => Err ["missing field type"]
          | _, None => Err ["missing field object_kind"]
          end
  | (key, v) :: l =>
    if String.eqb key "type" then
      match k with Some _ => Err ["duplicate field type"] | None => let! k' := tkind_parse v in tcommand_fields l (Some k') o end
    else if String.eqb key "object_kind" then
      match o with
      | Some _ => Err ["duplicate field object_kind"]
      | None =>
        let! s := str_parse v in
        let content (f : option (imap string) -> tobj) :=
          match l with
          | (_, c) :: l' => let! x := tcontent_parse c in tcommand_fields l' k (Some (f x))
          | [] => Err ["expected `:`"]
          end in
        if String.eqb s "Rename" then content ORename else if String.eqb s "Link" then content OLink else tcommand_fields l k o
      end
    else Err [("unknown field " +:+ key)%string]
  end.
(** transformation/ast/src/ast/mod.rs 170-272 *)
Definition tcommand_parse (j : json) : outcome tcommand := match j with JObj l => tcommand_fields l None None | _ => Err ["expected struct Command"] end.
(** ast/mod.rs 308-325: object kinds as bytes; other bytes panic. *)
Definition tobj_byte (o : tobj) : nat := match o with ORename _ => 0 | OLink _ => 1 end.
(** transformation/ast/src/ast/mod.rs 308-316 *)
Definition tobj_of_byte (n : nat) : outcome tobj := match n with 0 => Ok (ORename None) | 1 => Ok (OLink None) | _ => Panic end.

(** validator.rs 23-47: only the version is looked at. *)
Definition tvalidate (a : tast) (c : tcommand) : outcome unit :=
  if String.eqb (ta_version a) "1.0.0" then Ok tt
  else if String.eqb (ta_version a) "" then Err ["missing version"] else Err [ta_version a].

(** ** The parser *)
(** instructions/helpers.rs 4-49: the first key is the name, a later one the new name. *)
Fixpoint rename_items (l : list tpair) (name new : option string) : outcome (option string * option string) :=
  match l with
  | [] => Ok (name, new)
  | Pair Tattr_key t _ :: l => match name with None => rename_items l (Some t) new | Some _ => rename_items l name (Some t) end
  | _ :: _ => Err ["Unexpected pest rule"]
  end.
(** transformation/oca-file/src/ocafile/instructions/helpers.rs 4-49 *)
Definition extract_rename (p : tpair) : outcome (string * string) :=
  let! x := rename_items (p_inner p) None None in
  match x with
  | (Some a, Some b) => Ok (a, b)
  | (None, _) => Err ["Missing attribute name"]
  | (_, None) => Err ["Missing new attribute name"]
  end.
(** transformation/oca-file/src/ocafile/instructions/rename.rs, link.rs 9-62: the inner loop. *)
Fixpoint insert_renames (l : list tpair) (acc : imap string) : outcome (imap string) :=
  match l with [] => Ok acc | p :: l => let! kv := extract_rename p in insert_renames l (imap_insert kv.1 kv.2 acc) end.
(** transformation/oca-file/src/ocafile/instructions/rename.rs 9-62: the pairs that loop takes. *)
Definition is_rename_pairs (r : trule) : bool := match r with Trename_attr_pairs => true | _ => false end.
(** transformation/oca-file/src/ocafile/instructions/link.rs 9-62: the pairs that loop takes. *)
Definition is_link_pairs (r : trule) : bool := match r with Tlink_attr_pairs => true | _ => false end.
(** transformation/oca-file/src/ocafile/instructions/rename.rs, link.rs 9-62: the loop over the groups of pairs. *)
Fixpoint rename_pairs (ok : trule -> bool) (l : list tpair) (acc : imap string) : outcome (imap string) :=
  match l with
  | [] => Ok acc
  | p :: l => if ok (p_rule p) then let! acc' := insert_renames (p_inner p) acc in rename_pairs ok l acc' else Err ["Invalid attributes in ATTRIBUTE instruction"]
  end.
(** instructions/rename.rs 9-62, link.rs 9-62: the last object wins; none: [unwrap] panics. *)
Definition is_rename_attrs (r : trule) : bool := match r with Trename_attributes => true | _ => false end.
(** transformation/oca-file/src/ocafile/instructions/link.rs 9-62 *)
Definition is_link_attrs (r : trule) : bool := match r with Tlink_attributes => true | _ => false end.
(** transformation/oca-file/src/ocafile/instructions/rename.rs, link.rs 9-62 *)
Fixpoint rename_objects (ok pairs_ok : trule -> bool) (mk : option (imap string) -> tobj) (l : list tpair) (o : option tobj) : outcome tobj :=
  match l with
  | [] => match o with Some o => Ok o | None => Panic end
  | p :: l => if ok (p_rule p) then let! m := rename_pairs pairs_ok (p_inner p) [] in rename_objects ok pairs_ok mk l (Some (mk (Some m))) else Err ["Overlay: unexpected token"]
  end.
(** transformation/oca-file/src/ocafile/mod.rs 27-37 [try_from_pair] *)
Definition tinstruction (p : tpair) : outcome tcommand :=
  match p_rule p with
  | Trename => let! o := rename_objects is_rename_attrs is_rename_pairs ORename (p_inner p) None in Ok (TCommand TRename o)
  | Tlink => let! o := rename_objects is_link_attrs is_link_pairs OLink (p_inner p) None in Ok (TCommand TLink o)
  | _ => Err ["unexpected token"]
  end.
(** transformation ocafile/mod.rs 67-91, oca-file ocafile/mod.rs 52-76: the key and value of a metadata line. *)
Fixpoint tmeta_items (l : list tpair) (key value : string) : outcome (string * string) :=
  match l with
  | [] => Ok (key, value)
  | Pair Tmeta_attr_key t _ :: l => tmeta_items l t value
  | Pair Tmeta_attr_value t _ :: l => tmeta_items l key t
  | Pair _ t _ :: _ => Err [t]
  end.
(** transformation/oca-file/src/ocafile/mod.rs 67-91, oca-file/src/ocafile/mod.rs 52-76 *)
Definition tmeta_line (p : tpair) : outcome (string * string) :=
  let! kv := tmeta_items (p_inner p) "" "" in
  if String.eqb kv.1 "" then Err ["key is empty"] else if String.eqb kv.2 "" then Err ["value is empty"] else Ok kv.
(** transformation/oca-file/src/ocafile/mod.rs 99-106 *)
Definition tpush (a : tast) (c : tcommand) (m : cmd_meta) : tast :=
  TAst (ta_version a) (ta_commands a ++ [c]) (ta_cmeta a ++ [(length (ta_commands a), m)]) (ta_meta a).
(** transformation/oca-file/src/ocafile/mod.rs 60-119: the loop over the lines; [n] is the position of the line among them. *)
Fixpoint tread_lines (n : nat) (l : list tpair) (a : tast) : outcome tast :=
  match l with
  | [] => Ok a
  | p :: l =>
    match p_rule p with
    | TEOI | Tcomment | Tempty_line => tread_lines (S n) l a
    | Tmeta_comment => let! kv := tmeta_line p in tread_lines (S n) l (TAst (ta_version a) (ta_commands a) (ta_cmeta a) (<[kv.1 := kv.2]> (ta_meta a)))
    | _ =>
      let! c := tinstruction p in
      let! _ := tvalidate a c in
      tread_lines (S n) l (tpush a c (CmdMeta (S n) (p_text p)))
    end
  end.
Section TParse.
Variable wide : ascii -> bool.
(** transformation/oca-file/src/ocafile/mod.rs 39-121 *)
Definition parse_transformation (s : string) : outcome tast :=
  match tparse false wide Tfile s with
  | PDone _ (f :: _) _ => tread_lines 0 (p_inner f) tast_new
  | PDone _ [] _ => Panic
  | _ => Err ["grammar error"]
  end.
(** ocafile/mod.rs 123-138 [generate_from_ast]: [todo!()] for either kind. *)
Definition generate_transformation (a : tast) : outcome string := match ta_commands a with [] => Ok "" | _ => Panic end.

(** ** Dispatch: oca-file/src/ocafile/mod.rs 26-100 *)
Variable said_ok : string -> bool.
Inductive oca_ast := TransformationAst (a : tast) | SemanticsAst (a : ast).
(** oca-file/src/ocafile/mod.rs 45-83: the loop over the lines; other rules fall through to the next line. *)
Fixpoint dispatch_meta (l : list tpair) (m : gmap string string) : outcome (gmap string string) :=
  match l with
  | [] => Ok m
  | p :: l =>
    match p_rule p with
    | Tmeta_comment => let! kv := tmeta_line p in dispatch_meta l (<[kv.1 := kv.2]> m)
    | _ => dispatch_meta l m
    end
  end.
(** oca-file/src/ocafile/mod.rs 26-85 *)
Definition file_precompiler (s : string) : outcome (option string) :=
  match tparse true wide Tfile s with
  | PDone _ (f :: _) _ => let! m := dispatch_meta (p_inner f) ∅ in Ok (m !! "precompiler")
  | PDone _ [] _ => Panic
  | _ => Err ["grammar error"]
  end.
(** oca-file/src/ocafile/mod.rs 85-103 *)
Definition parse_any (s : string) : outcome oca_ast :=
  let! p := file_precompiler s in
  let semantics := let! a := parse_ocafile wide said_ok s in Ok (SemanticsAst a) in
  match p with
  | Some v =>
    if String.eqb v "transformation" then let! a := parse_transformation s in Ok (TransformationAst a)
    else if String.eqb v "semantics" then semantics
    else Err ["unknown precompiler"]
  | None => semantics
  end.
End TParse.

(** ** Building: transformation-file/src/state/mod.rs, build.rs *)
(** transformation-file/src/state/mod.rs 7-17 *)
Record transformation := Transformation { tr_said : option string; tr_source : option string; tr_target : option string; tr_attrs : imap string }.
(** transformation-file/src/state/mod.rs 26-33 *)
Definition transformation_new : transformation := Transformation None None None [].
(** [str::replace(pat, "")] for a non-empty pattern: every occurrence found from the left, without overlaps. *)
(** Called in transformation-file/src/build.rs 31, 33. *)
Fixpoint remove_all_from (fuel : nat) (pat s : string) : string :=
  match fuel with
  | O => s
  | S n => match strip Ascii.eqb pat s with
           | Some (_, r) => remove_all_from n pat r
           | None => match s with EmptyString => EmptyString | String c s => String c (remove_all_from n pat s) end
           end
  end.
(** transformation-file/src/build.rs 31, 33 *)
Definition remove_all (pat s : string) : string := remove_all_from (S (String.length s)) pat s.
(** state/mod.rs 42-52 [rename], [link]. *)
Definition tr_insert (l : imap string) (t : transformation) : transformation :=
  Transformation (tr_said t) (tr_source t) (tr_target t) (fold_left (fun m kv => imap_insert kv.1 kv.2 m) l (tr_attrs t)).
(** build.rs 72-99 [apply_command]: other combinations of command and object are ignored; no error is ever reported. *)
Definition tapply (base : option transformation) (c : tcommand) : transformation :=
  let t := unwrap_or transformation_new base in
  match c with
  | TCommand TRename (ORename (Some l)) => tr_insert l t
  | TCommand TLink (OLink (Some l)) => tr_insert l t
  | _ => t
  end.
(** The JSON without the version field the said crate adds. *)
(** transformation-file/src/state/mod.rs 7-17 (derived Serialize), with the text of the SAID field given. *)
Definition transformation_json_d (d : json) (t : transformation) : json :=
  JObj [("d", d); ("source", jopt (tr_source t)); ("target", jopt (tr_target t)); ("attributes", strs_map_json (tr_attrs t))].
(** transformation-file/src/state/mod.rs 7-17 (derived Serialize) *)
Definition transformation_json (t : transformation) : json := transformation_json_d (jopt (tr_said t)) t.
(** Derived [Deserialize]. *)
(** transformation-file/src/state/mod.rs 7-17 *)
Definition transformation_parse (said_ok : string -> bool) (j : json) : outcome transformation :=
  match j with
  | JObj l =>
    let! d := optional "d" (said_parse said_ok) l in let! s := optional "source" str_parse l in
    let! t := optional "target" str_parse l in let! a := required "attributes" (imap_parse str_parse) l in
    Ok (Transformation d s t a)
  | _ => Err ["expected struct Transformation"]
  end.

Section TBuild.
Variable digest : json -> string.
(** transformation-file/src/state/mod.rs 54-58 [fill_said] *)
Definition tr_fill (t : transformation) : transformation :=
  Transformation (Some (digest (transformation_json_d (JStr dummy_said) t))) (tr_source t) (tr_target t) (tr_attrs t).
(** build.rs 25-70 [from_ast]; the [expect]s and the [unwrap] of a missing base panic. *)
Definition transformation_from_ast (a : tast) : outcome transformation :=
  let! base :=
    if bool_decide (ta_meta a = ∅) then Ok None
    else match ta_meta a !! "source" with
         | None => Panic
         | Some s =>
           match ta_meta a !! "target" with
           | None => Panic
           | Some t => Ok (Some (Transformation None (Some (remove_all "refs:" s)) (Some (remove_all "refs:" t)) []))
           end
         end in
  match fold_left (fun b c => Some (tapply b c)) (ta_commands a) base with
  | Some t => Ok (tr_fill t)
  | None => Panic
  end.

(** ** Facade bundles: oca/src/facade/bundle.rs *)
(** oca/src/facade/bundle.rs 16-20 *)
Inductive element := Structural (b : bundle) | Transforming (t : transformation).
(** oca/src/facade/bundle.rs 22-32 *)
Record fbundle := FBundle { fb_said : option string; fb_structural : option bundle; fb_transformations : list transformation }.
(** oca/src/facade/bundle.rs 35-41 *)
Definition fbundle_new : fbundle := FBundle None None [].
(** 43-58 [add]. *)
Definition fb_add (b : fbundle) (e : element) : fbundle :=
  match e with
  | Structural s => FBundle (fb_said b) (Some s) (fb_transformations b)
  | Transforming t => FBundle (fb_said b) (fb_structural b) (fb_transformations b ++ [t])
  end.
(** 60-64 [fill_said]. *)
Definition fbundle_json_d (d : json) (b : fbundle) : json :=
  JObj [("d", d); ("m", match fb_structural b with Some s => bundle_json s | None => JNull end); ("t", JArr (map transformation_json (fb_transformations b)))].
(** oca/src/facade/bundle.rs 22-32 (derived Serialize) *)
Definition fbundle_json (b : fbundle) : json := fbundle_json_d (jopt (fb_said b)) b.
(** oca/src/facade/bundle.rs 60-64 *)
Definition fb_fill (b : fbundle) : fbundle :=
  FBundle (Some (digest (fbundle_json_d (JStr dummy_said) b))) (fb_structural b) (fb_transformations b).
(** 66-93 [encode]: the parts as they are, the SAID computed by [make_me_sad] over the text with the placeholder. *)
Definition fb_encode (b : fbundle) : outcome json :=
  match fb_structural b with
  | None => Panic
  | Some _ => Ok (fbundle_json_d (JStr (digest (fbundle_json_d (JStr dummy_said) b))) b)
  end.
(** 11-14 [load_oca] on the JSON tree. *)
Definition fb_load (said_ok digits lang_ok : string -> bool) (standard_read : string -> option string) (j : json) : outcome fbundle :=
  match j with
  | JObj l =>
    let! d := optional "d" (said_parse said_ok) l in
    let! m := optional "m" (bundle_parse said_ok digits lang_ok standard_read) l in
    let! t := required "t" (fun j => match j with JArr l => list_parse (transformation_parse said_ok) l | _ => Err ["expected a sequence"] end) l in
    Ok (FBundle d m t)
  | _ => Err ["expected struct Bundle"]
  end.
End TBuild.

(** oca/src/facade/build.rs 68-88 [build_from_ocafile], without a store. *)
Definition build_from_ocafile (wide : ascii -> bool) (said_ok : string -> bool) (digest : json -> string) (from1 : string -> option string) (os : nat -> order)
    (s : string) : outcome bundle :=
  match parse_any wide said_ok s with
  | Ok (TransformationAst _) => Err ["Deprecated"]
  | Ok (SemanticsAst a) => match from_ast digest from1 os None a with BuildOk B _ => Ok B | BuildErr es => Err (map be_msg es) | BuildPanic => Panic end
  | Err e => Err e
  | Panic => Panic
  end.
(** oca/src/facade/build.rs 141-154, the method: the text is parsed again by [validate_ocafile] (156-171) with the semantics parser. *)
Section BuildFile.
Variable wide : ascii -> bool.
Variable digest : json -> string.
Variables from1 to1 : string -> option string.
Variable listing : string -> list oobject -> list oobject.
Variables said_ok digits lang_ok : string -> bool.
Variable standard_read : string -> option string.
Variable to_text : json -> string.
Variable of_text : string -> option json.
Variable hash : string -> string.
(** oca/src/facade/build.rs 141-171 *)
Definition facade_build_file (os : nat -> order) (s : string) (f : facade) : outcome (facade * bundle) :=
  match parse_any wide said_ok s with
  | Ok (TransformationAst _) => Err ["Deprecated"]
  | Ok (SemanticsAst _) =>
    let! a := parse_ocafile wide said_ok s in
    build_ast digest from1 to1 listing said_ok digits lang_ok standard_read to_text of_text hash os a f
  | Err e => Err e
  | Panic => Panic
  end.
End BuildFile.

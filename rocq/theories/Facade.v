(** The facade: building into the stores, fetching, references.  Models oca/src/facade/build.rs, oca/src/facade/fetch.rs
    and oca/src/local_references.rs, with in-memory key-value stores (C27 shows the others behave the same once opened).
    Parsing OCAfile text is not modelled here: the functions take the AST. *)
From Verif Require Export Dag BundleCodec.

(** facade/mod.rs 36-40; the SQLite connection as its three tables. *)
Record facade := Facade { fa_db : mem; fa_cache : mem; fa_bundles : table; fa_captures : table; fa_fts : list fts_row }.
(** facade/mod.rs 43-67 [Facade::new] over empty stores and tables. *)
Definition facade_new : facade := Facade ∅ ∅ [] [] [].
(** Model helper for [self.db.insert] (data_storage.rs 30). *)
Definition with_db (d : mem) (f : facade) : facade := Facade d (fa_cache f) (fa_bundles f) (fa_captures f) (fa_fts f).
(** Model helper for [self.db_cache.insert] (data_storage.rs 30). *)
Definition with_cache (d : mem) (f : facade) : facade := Facade (fa_db f) d (fa_bundles f) (fa_captures f) (fa_fts f).

Section Facade.
Variable digest : json -> string.
Variables from1 to1 : string -> option string.
Variable listing : string -> list oobject -> list oobject.
Variables said_ok digits lang_ok : string -> bool.
Variable standard_read : string -> option string.
(** serde_json text of a tree and back. *)
Variable to_text : json -> string.
Variable of_text : string -> option json.
Variable hash : string -> string.

(** fetch.rs 238-241, 294-297, 378-379: [serde_json::from_str(..).map_err(..)]. *)
Definition parse_text {A} (f : json -> outcome A) (msg : string) (s : string) : outcome A :=
  match of_text s with
  | Some j => match f j with Err _ => Err [msg] | x => x end
  | None => Err [msg]
  end.
(** fetch.rs 374-379. *)
Definition read_bundle : string -> outcome bundle := parse_text (bundle_parse said_ok digits lang_ok standard_read) "Failed to parse oca bundle".

(** ** Fetching *)
(** fetch.rs 366-400 without dependencies. *)
Definition get_bundle (d : mem) (said : string) : outcome bundle :=
  match mem_get NsBundles said d with
  | Ok (Some text) => read_bundle text
  | Ok None => Err [("No OCA Bundle found for said: " +:+ said)%string]
  | Err e => Err e
  | Panic => Panic
  end.
(** fetch.rs 408-427 [retrive_all_references]. *)
Definition references (B : bundle) : list string :=
  omap (fun kv => match kv.2 with NRef (RSaid s) => Some s | NArr (NRef (RSaid s)) => Some s | _ => None end) (cb_attrs (b_cb B)).
(** fetch.rs 366-400 with dependencies; [fuel] bounds the depth of the recursion, [None]: not finished. *)
Fixpoint get_deps (fuel : nat) (d : mem) (said : string) : option (outcome (bundle * list bundle)) :=
  match fuel with
  | O => None
  | S n =>
    match get_bundle d said with
    | Ok B =>
      match (fix go (l : list string) : option (outcome (list bundle)) :=
               match l with
               | [] => Some (Ok [])
               | r :: l' =>
                 match get_deps n d r with
                 | Some (Ok (b, ds)) => match go l' with
                                        | Some (Ok rest) => Some (Ok (b :: ds ++ rest))
                                        | x => x
                                        end
                 | Some (Err e) => Some (Err e)
                 | Some Panic => Some Panic
                 | None => None
                 end
               end) (references B) with
      | Some (Ok deps) => Some (Ok (B, deps))
      | Some (Err e) => Some (Err e)
      | Some Panic => Some Panic
      | None => None
      end
    | Err e => Some (Err e)
    | Panic => Some Panic
    end
  end.

(** ** Operation records *)
(** build.rs 305, fetch.rs 282: [format!("oca.{}.operation", said)]. *)
Definition op_key (said : string) : string := ("oca." +:+ said +:+ ".operation")%string.
(** build.rs 288-300. *)
Definition op_encode (parent : option string) (c : command) : outcome bytes :=
  let! h := match parent with Some s => len_prefixed s | None => Ok (String zero EmptyString) end in
  Ok (h +:+ to_text (command_json c))%string.
(** fetch.rs 277-299 [extract_operation], on a record (indexing panics when it is too short). *)
Definition op_decode (r : bytes) : outcome (string * command) :=
  match r with
  | EmptyString => Panic
  | String len rest =>
    match split_at (nat_of_ascii len) rest with
    | None => Panic
    | Some (parent, op) => let! c := parse_text (command_parse said_ok) "Failed to parse command" op in Ok (parent, c)
    end
  end.
(** fetch.rs 277-292. *)
Definition get_op (d : mem) (said : string) : outcome (string * command) :=
  match mem_get NsOCA (op_key said) d with
  | Ok (Some r) => op_decode r
  | Ok None => Err [("No history found for said: " +:+ said)%string]
  | Err e => Err e
  | Panic => Panic
  end.
(** fetch.rs 271-322 [get_oca_bundle_steps]; the steps newest first ([history.reverse()] at the end).  [fuel] bounds
    the number of iterations of the loop. *)
Fixpoint steps_loop (fuel : nat) (f : facade) (said : string) : option (outcome (list bstep)) :=
  match fuel with
  | O => None
  | S n =>
    match get_op (fa_db f) said with
    | Err e => Some (Err e)
    | Panic => Some Panic
    | Ok (parent, c) =>
      if String.eqb parent said then Some (Err ["Malformed history"]) else
      if negb (said_ok said) then Some Panic else
      match get_bundle (fa_cache f) said with
      | Ok B =>
        let s := BStep (if said_ok parent then Some parent else None) c B in
        if String.eqb parent "" then Some (Ok [s]) else
        match steps_loop n f parent with
        | Some (Ok l) => Some (Ok (s :: l))
        | x => x
        end
      | _ => Some Panic
      end
    end
  end.
(** fetch.rs 271-322. *)
Definition get_steps (fuel : nat) (f : facade) (said : string) : option (outcome (list bstep)) :=
  match steps_loop fuel f said with Some (Ok l) => Some (Ok (rev l)) | x => x end.
(** fetch.rs 348-358 [get_oca_bundle_ast]. *)
Definition get_ast (fuel : nat) (f : facade) (said : string) : option (outcome (list command)) :=
  match get_steps fuel f said with
  | Some (Ok l) => Some (Ok (map bs_cmd l))
  | Some (Err e) => Some (Err e)
  | Some Panic => Some Panic
  | None => None
  end.

(** ** Building *)
(** build.rs 245-253 [build_cache]. *)
Definition build_cache (B : bundle) (f : facade) : outcome facade :=
  match b_said B, cb_said (b_cb B) with
  | Some s, Some c => Ok (Facade (fa_db f) (fa_cache f) (table_insert s (to_text (bundle_json B)) (fa_bundles f))
                            (table_insert c (to_text (cb_json (b_cb B))) (fa_captures f)) (fa_fts f))
  | _, _ => Panic
  end.
(** build.rs 255-285 [build_meta]. *)
Definition meta_row (said : string) (ov : overlay) : option fts_row :=
  match ov_body ov with BMeta l m => Some (FtsRow (unwrap_or "" (m !! "name")) (unwrap_or "" (m !! "description")) l said) | _ => None end.
(** build.rs 255-285. *)
Definition build_meta (B : bundle) (f : facade) : outcome facade :=
  match omap (meta_row (unwrap_or "" (b_said B))) (b_ovs B), b_said B with
  | [], _ => Ok f
  | _, None => Panic
  | rows, Some _ => Ok (Facade (fa_db f) (fa_cache f) (fa_bundles f) (fa_captures f) (fold_left (fun t r => fts_insert r t) rows (fa_fts f)))
  end.
(** build.rs 287-337 [build_step]. *)
Fixpoint store_overlays (ovs : list overlay) (d : mem) : outcome mem :=
  match ovs with
  | [] => Ok d
  | ov :: r => let! s := unwrap_some (ov_said ov) in let! d' := mem_insert NsObjects s (to_text (overlay_json ov)) d in store_overlays r d'
  end.
(** build.rs 287-337. *)
Definition build_step (s : bstep) (f : facade) : outcome facade :=
  let B := bs_result s in
  let! input := op_encode (bs_parent s) (bs_cmd s) in
  let! bs := unwrap_some (b_said B) in
  let! db := mem_insert NsOCA (op_key bs) input (fa_db f) in
  let! c1 := mem_insert NsBundles bs (to_text (bundle_json B)) (fa_cache f) in
  let! cs := unwrap_some (cb_said (b_cb B)) in
  let! c2 := mem_insert NsObjects cs (to_text (cb_json (b_cb B))) c1 in
  let! c3 := store_overlays (b_ovs B) c2 in
  Ok (with_cache c3 (with_db db f)).
(** build.rs 129-132. *)
Fixpoint build_steps (l : list bstep) (f : facade) : outcome facade :=
  match l with [] => Ok f | s :: r => let! f' := build_step s f in build_steps r f' end.
(** build.rs 339-450 [build_models]. *)
Definition model_key (said : string) : string := ("core_model." +:+ said)%string.
(** build.rs 353-362 and its copies. *)
Definition parent_bytes (p : option string) : outcome bytes := match p with Some s => len_prefixed s | None => Ok (String zero EmptyString) end.
(** build.rs 352-372, 383-403. *)
Definition node_bytes (n : node) : outcome bytes :=
  let! p := parent_bytes (nd_parent n) in let! d := len_prefixed (nd_digest n) in Ok (p +:+ d)%string.
(** build.rs 414-439. *)
Definition bnode_bytes (n : bnode) : outcome bytes :=
  let! p := parent_bytes (bn_parent n) in let! r := prefixed_all (bn_cb n :: bn_ovs n) in Ok (p +:+ r)%string.
(** build.rs 352-381, 383-412. *)
Definition store_node (n : option node) (d : mem) : outcome mem :=
  match n with None => Ok d | Some n => let! v := node_bytes n in mem_insert NsCore (model_key (nd_said n)) v d end.
(** build.rs 341-449: the loop body. *)
Definition store_model (d : mem) (m : rmodel) : outcome mem :=
  let! d1 := mem_insert NsCore (model_key (cmo_digest (rm_cmd m))) (cmo_json (rm_cmd m)) d in
  let! d2 := store_node (rm_cb m) d1 in
  let! d3 := store_node (rm_ov m) d2 in
  let! v := bnode_bytes (rm_bundle m) in
  mem_insert NsCore (model_key (bn_said (rm_bundle m))) v d3.
(** build.rs 339-450. *)
Definition build_models (steps : list bstep) (d : mem) : outcome mem :=
  let! ms := build_core_db_model from1 to1 to_text hash steps in
  fold_left (fun acc m => let! d := acc in store_model d m) ms (Ok d).
(** build.rs 124-139 [build]. *)
Definition build (B : bundle) (steps : list bstep) (f : facade) : outcome (facade * bundle) :=
  let! f1 := build_cache B f in
  let! f2 := build_meta B f1 in
  let! f3 := build_steps steps f2 in
  let! d4 := add_relations listing B (fa_db f3) in
  let! d5 := build_models steps d4 in
  Ok (with_db d5 f3, B).

(** ** References *)
(** local_references.rs 16-75. *)
Definition resolve_name (find : string -> option string) (n : string) : outcome ref_value :=
  match find n with
  | Some s => if said_ok s then Ok (RSaid s) else Panic
  | None => Err [("Reference " +:+ n +:+ " not found")%string]
  end.
(** local_references.rs 26-49. *)
Definition resolve_attr (find : string -> option string) (t : nattr) : outcome nattr :=
  match t with
  | NRef (RName n) => let! r := resolve_name find n in Ok (NRef r)
  | NArr (NRef (RName n)) => let! r := resolve_name find n in Ok (NArr (NRef r))
  | _ => Ok t
  end.
(** local_references.rs 25-50. *)
Fixpoint resolve_attrs (find : string -> option string) (l : imap nattr) : outcome (imap nattr) :=
  match l with
  | [] => Ok []
  | (n, t) :: r => let! t' := resolve_attr find t in let! r' := resolve_attrs find r in Ok ((n, t') :: r')
  end.
(** local_references.rs 21-72. *)
Definition resolve_cmd (find : string -> option string) (c : command) : outcome command :=
  match c with
  | Command CAdd (OCaptureBase (CapContent (Some attrs) p fl)) =>
    let! attrs' := resolve_attrs find attrs in Ok (Command CAdd (OCaptureBase (CapContent (Some attrs') p fl)))
  | Command CAdd (OOverlay (OType KLink v) (Content a (Some props))) =>
    match imap_get "target" props with
    | Some (VRef (RName n)) => let! r := resolve_name find n in
                               Ok (Command CAdd (OOverlay (OType KLink v) (Content a (Some (imap_insert "target" (VRef r) props)))))
    | _ => Ok c
    end
  | _ => Ok c
  end.
(** local_references.rs 16-75. *)
Fixpoint resolve (find : string -> option string) (l : list command) : outcome (list command) :=
  match l with [] => Ok [] | c :: r => let! c' := resolve_cmd find c in let! r' := resolve find r in Ok (c' :: r') end.
(** build.rs 55-65. *)
Definition find_ref (d : mem) (n : string) : option string := match mem_get NsReferences n d with Ok x => x | _ => None end.

(** ** Validating *)
(** build.rs 156-217 [parse_and_check_base]: the lookup error is collected in a list that is not returned. *)
Definition check_base (d : mem) (a : ast) : outcome (option bundle * ast) :=
  match ast_commands a with
  | Command CFrom (OBundle (BundleContent r)) :: rest =>
    let a' := Ast (ast_version a) rest (ast_cmeta a) (ast_meta a) in
    match r with
    | RSaid s => match get_bundle d s with Ok B => Ok (Some B, a') | Err _ => Ok (None, a') | Panic => Panic end
    | RName _ => Panic
    end
  | _ => Ok (None, a)
  end.
(** build.rs 219-243, 119-122 [validate_ocafile]; the errors as messages. *)
Definition validate_ast (os : nat -> order) (a : ast) (f : facade) : outcome (facade * (bundle * list bstep)) :=
  let! x := check_base (fa_cache f) a in
  let a1 := x.2 in
  let! cs := resolve (find_ref (fa_db f)) (ast_commands a1) in
  match from_ast digest from1 os x.1 (Ast (ast_version a1) cs (ast_cmeta a1) (ast_meta a1)) with
  | BuildOk B steps =>
    match ast_meta a1 !! "name" with
    | Some n => let! s := unwrap_some (b_said B) in let! d := mem_insert NsReferences n s (fa_db f) in Ok (with_db d f, (B, steps))
    | None => Ok (f, (B, steps))
    end
  | BuildErr es => Err (map be_msg es)
  | BuildPanic => Panic
  end.
(** build.rs 141-154 [build_from_ocafile], from the AST. *)
Definition build_ast (os : nat -> order) (a : ast) (f : facade) : outcome (facade * bundle) :=
  let! x := validate_ast os a f in build x.2.1 x.2.2 x.1.

(** fetch.rs 211-261 [get_oca_objects], for one SAID; an object that is a bundle yields nothing. *)
Inductive fetched := FCapture (cb : capture_base) | FOverlay (ov : overlay).
(** fetch.rs 215-258: the loop body. *)
Definition get_object (f : facade) (said : string) : outcome (list fetched) :=
  match mem_get NsObjects said (fa_cache f) with
  | Ok (Some text) =>
    let! k := object_type (fa_db f) said in
    match k with
    | OCaptureBase _ => let! cb := parse_text (cb_parse said_ok) "Failed to parse OCA object" text in Ok [FCapture cb]
    | OOverlay _ _ => let! ov := parse_text (overlay_parse said_ok digits lang_ok standard_read) "Failed to parse OCA object" text in Ok [FOverlay ov]
    | OBundle _ => Ok []
    end
  | Ok None => Err [("No OCA Object found for said: " +:+ said)%string]
  | Err e => Err e
  | Panic => Panic
  end.
(** fetch.rs 211-261. *)
Fixpoint get_objects (f : facade) (l : list string) : outcome (list fetched) :=
  match l with [] => Ok [] | s :: r => let! a := get_object f s in let! b := get_objects f r in Ok (a ++ b) end.
End Facade.

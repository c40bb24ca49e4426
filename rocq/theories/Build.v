(** Applying commands, loading a bundle into a box, building an AST.
    Models semantics/oca-bundle/src/build.rs and state/oca.rs 684-919.  Definitions only. *)
From Verif Require Export Bundle.

(** build.rs 186-536, oca.rs 724-913: one setter call on an attribute (the setters of Bundle.v as data). *)
Inductive upd :=
| UEnc (e : encoding) | UConf (s : string) | UCond (s : string) | UCard (s : string) | UFormat (s : string)
| UUnit (s : string) | UCodes (e : ecodes) | UEntry (l : string) (e : entries) | ULabel (l s : string)
| UInfo (l s : string) | ULink (t s : string) | UFrame (id : string) (f : framing).
(** The call itself: overlay.rs 83-87, label.rs 16-27 and the other setters cited in Bundle.v. *)
Definition upd_attr (u : upd) (a : attribute) : attribute :=
  match u with
  | UEnc e => set_encoding e a | UConf s => set_conformance s a | UCond s => set_condition s a
  | UCard s => set_cardinality s a | UFormat s => set_format s a | UUnit s => set_unit s a
  | UCodes e => set_ecodes e a | UEntry l e => set_entry l e a | ULabel l s => set_label l s a
  | UInfo l s => set_info l s a | ULink t s => set_link t s a | UFrame id f => set_framing id f a
  end.

(** ** Loading: oca.rs 684-919 [From<OCABundle> for OCABox] *)

(** What one overlay does to the attributes (the loop bodies of 714-913); [None] = panic: dependencies
    missing (752), dependency index out of range (756), no frame_id (892).  [i] is the overlay's
    position (it identifies the hash map being iterated). *)
Fixpoint load_conds (d : gmap string (list string)) (l : list (string * string)) : option (list (string * upd)) :=
  match l with
  | [] => Some []
  | (n, c) :: r =>
      match d !! n with
      | None => None
      | Some deps =>
          match decode_condition c deps, load_conds d r with
          | Some t, Some us => Some ((n, UCond t) :: us)
          | _, _ => None
          end
      end
  end.
(** oca.rs 892-913: each loaded scope gets the overlay's metadata (without the frame id). *)
Definition with_meta (m : gmap string string) (f : framing) : framing :=
  fmap (M := gmap string) (fun s => FScope (fs_pred s) (fs_just s) m) f.
(** oca.rs 714-913: the loop bodies. *)
Definition load_ops (o : order) (i : nat) (ov : overlay) : option (list (string * upd)) :=
  let p := ["load"; dec_of_nat i] in
  let each {V} (f : V -> upd) (m : gmap string V) := Some (map (fun kv => (kv.1, f kv.2)) (o p _ m)) in
  match ov_body ov with
  | BEncoding m => each UEnc m
  | BConformance m => each UConf m
  | BConditional c d => load_conds d (o p _ c)
  | BCardinality m => each UCard m
  | BFormat m => each UFormat m
  | BUnit m => each UUnit m
  | BEntryCode m => each UCodes m
  | BEntry l m => each (UEntry l) m
  | BLabel l _ m _ => each (ULabel l) m
  | BInformation l m => each (UInfo l) m
  | BLink t m => each (ULink t) m
  | BFraming meta m =>
      match meta !! "frame_id" with
      | None => None
      | Some id => each (fun f => UFrame id (with_meta (delete "frame_id" meta) f)) m
      end
  | _ => Some []
  end.
(** oca.rs 733-736 and repetitions: [attributes.get_mut(n).unwrap().set_...]. *)
Definition load_upd (attrs : option (gmap string attribute)) (nu : string * upd) : option (gmap string attribute) :=
  match attrs with
  | None => None
  | Some m => match m !! nu.1 with
              | None => None
              | Some a => Some (<[nu.1 := upd_attr nu.2 a]> m)
              end
  end.
(** oca.rs 724-913: one pass of a loop over the overlays of a kind. *)
Definition load_overlay (o : order) (attrs : option (gmap string attribute)) (iov : nat * overlay) : option (gmap string attribute) :=
  match load_ops o iov.1 iov.2 with
  | None => None
  | Some us => fold_left load_upd us attrs
  end.
(** oca.rs 724-913: the kinds in the order of the loops. *)
Definition load_kinds : list okind :=
  [KCharacterEncoding; KConformance; KConditional; KCardinality; KFormat; KUnit; KEntryCode; KEntry; KLabel;
   KInformation; KLink; KAttributeFraming].
(** Model helper: overlays with their position. *)
Definition indexed {A} (l : list A) : list (nat * A) := zip (seq 0 (length l)) l.
(** oca.rs 724-913: one of the loops. *)
Definition load_kind (o : order) (ovs : list overlay) (attrs : option (gmap string attribute)) (k : okind) : option (gmap string attribute) :=
  fold_left (load_overlay o) (List.filter (fun iov => bool_decide (body_kind (ov_body iov.2) = k)) (indexed ovs)) attrs.
(** 691-708: typed attributes, then the flags. *)
Definition load_flag (attrs : option (gmap string attribute)) (n : string) : option (gmap string attribute) :=
  match attrs with
  | None => None
  | Some m => match m !! n with None => None | Some a => Some (<[n := set_flagged a]> m) end
  end.
(** oca.rs 689-913: the attributes. *)
Definition load_attrs (o : order) (b : bundle) : option (gmap string attribute) :=
  let typed := fold_left (fun m (kv : string * nattr) => <[kv.1 := set_type kv.2 (attr_new kv.1)]> m) (cb_attrs (b_cb b)) ∅ in
  fold_left (load_kind o (b_ovs b)) load_kinds (fold_left load_flag (cb_flagged (b_cb b)) (Some typed)).
(** 710-723. *)
Definition load_meta (o : order) (bx : obox) (iov : nat * overlay) : obox :=
  match ov_body iov.2 with
  | BMeta l m => fold_left (fun acc kv => add_meta l kv.1 kv.2 acc) (o ["load"; dec_of_nat iov.1] _ m) bx
  | _ => bx
  end.
(** oca.rs 684-919. *)
Definition load (o : order) (b : bundle) : option obox :=
  match load_attrs o b with
  | None => None
  | Some attrs =>
      let bx := fold_left (load_meta o) (indexed (b_ovs b)) (add_classification (cb_class (b_cb b)) box_new) in
      Some (fold_left (fun acc kv => add_attribute kv.2 acc) (o ["load"] _ attrs) bx)
  end.

(** ** Commands: build.rs 123-569 [apply_command] *)
Section Apply.
(** [isolang::Language::from_639_1]: two-letter code to language (its 639-3 code). *)
Variable from1 : string -> option string.

(** The language of the command's properties (build.rs 163-165, 179-183 and repetitions). *)
Definition cmd_lang (props : option (imap nvalue)) : option string :=
  match props with
  | Some p => match imap_get "lang" p with Some (VVal s) => from1 s | _ => None end
  | None => None
  end.
(** build.rs 357-392. *)
Definition strings_of (l : list nvalue) : list string :=
  omap (fun v => match v with VVal s => Some s | _ => None end) l.
(** build.rs 370-392. *)
Definition groups_of (l : imap nvalue) : imap (list string) :=
  fold_left (fun acc kv => match kv.2 with VArr vs => imap_insert kv.1 (strings_of vs) acc | _ => acc end) l [].
(** build.rs 424-437. *)
Definition entries_of (l : imap nvalue) : gmap string string :=
  fold_left (fun acc kv => match kv.2 with VVal s => <[kv.1 := s]> acc | _ => acc end) l ∅.
(** build.rs 452-458. *)
Definition link_target (props : option (imap nvalue)) : option string :=
  match props with
  | Some p => match imap_get "target" p with Some (VRef (RSaid s)) => Some s | _ => None end
  | None => None
  end.
(** build.rs 483-497. *)
Definition frame_id_of (props : option (imap nvalue)) : option string :=
  fold_left (fun acc kv => match kv.2 with VVal s => if String.eqb kv.1 "id" then Some s else acc | _ => acc end)
            (unwrap_or [] props) None.
(** build.rs 483-497: the other properties, renamed. *)
Definition frame_meta_props (props : option (imap nvalue)) : gmap string string :=
  fold_left (fun acc kv => match kv.2 with
                           | VVal s => if String.eqb kv.1 "id" then acc else <[("frame_" +:+ kv.1)%string := s]> acc
                           | _ => acc end)
            (unwrap_or [] props) ∅.
(** build.rs 511-532. *)
Definition framing_of (meta : gmap string string) (l : imap nvalue) : framing :=
  fold_left (fun acc kv =>
    match kv.2 with
    | VObj f => match imap_get "predicate_id" f, imap_get "framing_justification" f with
                | Some (VVal p), Some (VVal j) => <[kv.1 := FScope p j meta]> acc
                | _, _ => acc
                end
    | _ => acc
    end) l ∅.

(** build.rs 174-538: the match on the attribute's value inside each overlay kind's loop: the setter call, if any. *)
(** build.rs 193, 219, 425 and the like: [lang_iso.unwrap()], [target.unwrap()], [frame_id.unwrap()]. *)
Definition need {A} (x : option A) (f : A -> upd) : outcome (option upd) :=
  match x with Some a => Ok (Some (f a)) | None => Panic end.
(** build.rs 174-538: the match on the value in each loop. *)
Definition value_upd (k : okind) (props : option (imap nvalue)) (v : nvalue) : outcome (option upd) :=
  match k, v with
  | KLabel, VVal s => need (cmd_lang props) (fun l => ULabel l s)
  | KInformation, VVal s => need (cmd_lang props) (fun l => UInfo l s)
  | KCharacterEncoding, VVal s =>
      match encoding_of_str s with Some e => Ok (Some (UEnc e)) | None => Err [("Unknown encoding: " +:+ s)%string] end
  | KConformance, VVal s => Ok (Some (UConf s))
  | KFormat, VVal s => Ok (Some (UFormat s))
  | KUnit, VVal s => Ok (Some (UUnit s))
  | KCardinality, VVal s => Ok (Some (UCard s))
  | KConditional, VVal s => Ok (Some (UCond s))
  | KEntryCode, VVal s => Ok (Some (UCodes (ECSai s)))
  | KEntryCode, VArr l => Ok (Some (UCodes (ECArr (strings_of l))))
  | KEntryCode, VObj l => Ok (Some (UCodes (ECObj (groups_of l))))
  | KEntry, VVal s => need (cmd_lang props) (fun l => UEntry l (EnSai s))
  | KEntry, VObj e => need (cmd_lang props) (fun l => UEntry l (EnObj (entries_of e)))
  | KLink, VVal s => need (link_target props) (fun t => ULink t s)
  | KAttributeFraming, VObj f => need (frame_id_of props) (fun id => UFrame id (framing_of (frame_meta_props props) f))
  | _, _ => Ok None
  end.
(** build.rs 174-541: kinds whose arm loops over the attributes (the others are [_ => ()], 539; Meta has its own arm). *)
Definition loops (k : okind) : bool :=
  match k with
  | KLabel | KInformation | KCharacterEncoding | KConformance | KFormat | KUnit | KCardinality | KConditional
  | KEntryCode | KEntry | KLink | KAttributeFraming => true
  | _ => false
  end.
(** The errors pushed before the loop (Link 459-461, AttributeFraming 498-500). *)
Definition pre_errors (k : okind) (props : option (imap nvalue)) : list string :=
  match k with
  | KLink => match link_target props with None => ["Undefined target bundle"] | Some _ => [] end
  | KAttributeFraming => match frame_id_of props with None => ["Undefined frame id"] | Some _ => [] end
  | _ => []
  end.
(** build.rs 184-198 and repetitions: the loop: undefined attribute and bad encoding return at once with the errors so far. *)
Fixpoint upd_attrs (errs : list string) (k : okind) (props : option (imap nvalue)) (l : imap nvalue) (b : obox) : outcome obox :=
  match l with
  | [] => match errs with [] => Ok b | _ => Err errs end
  | (n, v) :: r =>
      match bx_attrs b !! n with
      | None => Err (errs ++ [("Undefined attribute: " +:+ n)%string])
      | Some a =>
          match value_upd k props v with
          | Panic => Panic
          | Err es => Err (errs ++ es)
          | Ok None => upd_attrs errs k props r (add_attribute a b)
          | Ok (Some u) => upd_attrs errs k props r (add_attribute (upd_attr u a) b)
          end
      end
  end.
(** build.rs 159-173: [lang_iso.unwrap()] panics when a value needs it. *)
Fixpoint add_metas (lang : option string) (l : imap nvalue) (b : obox) : outcome obox :=
  match l with
  | [] => Ok b
  | (k, VVal s) :: r => match lang with Some x => add_metas lang r (add_meta x k s b) | None => Panic end
  | _ :: r => add_metas lang r b
  end.
(** build.rs 156-542. *)
Definition add_overlay (k : okind) (c : content) (b : obox) : outcome obox :=
  match k with
  | KMeta => match ct_props c with
             | Some p => add_metas (cmd_lang (ct_props c)) (imap_remove "lang" p) b
             | None => Ok b
             end
  | _ => if loops k then upd_attrs (pre_errors k (ct_props c)) k (ct_props c) (unwrap_or [] (ct_attrs c)) b else Ok b
  end.
(** build.rs 137-155. *)
Definition add_capture (c : cap_content) (b : obox) : obox :=
  let b1 := fold_left (fun acc (kv : string * nattr) => add_attribute (set_type kv.2 (attr_new kv.1)) acc) (unwrap_or [] (cc_attrs c)) b in
  fold_left (fun acc (kv : string * nvalue) => match kv.2 with
                            | VVal s => if String.eqb kv.1 "classification" then add_classification s acc else acc
                            | _ => acc end) (unwrap_or [] (cc_props c)) b1.
(** build.rs 543-556. *)
Definition remove_capture (c : cap_content) (b : obox) : obox :=
  let b1 := fold_left (fun acc (kv : string * nattr) => remove_attribute kv.1 acc) (unwrap_or [] (cc_attrs c)) b in
  fold_left (fun acc (kv : string * nvalue) => if String.eqb kv.1 "classification" then remove_classification acc else acc)
            (unwrap_or [] (cc_props c)) b1.

(** build.rs 123-569. *)
Definition apply_command (base : option obox) (c : command) : outcome obox :=
  let b := unwrap_or box_new base in
  match cmd_kind c, cmd_obj c with
  | CFrom, _ => Err ["Unsupported FROM command, it should be resolved before applying commands"]
  | CAdd, OCaptureBase cc => Ok (add_capture cc b)
  | CAdd, OOverlay t ct => add_overlay (ot_kind t) ct b
  | CRemove, OCaptureBase cc => Ok (remove_capture cc b)
  | _, _ => Panic
  end.
End Apply.

(** ** Building: build.rs 24-121 *)
(** build.rs 31-36 [OCABuildStep]. *)
Record bstep := BStep { bs_parent : option string; bs_cmd : command; bs_result : bundle }.
(** build.rs 45-57: the [FromASTError] of one command. *)
Record berr := BErr { be_line : nat; be_raw : string; be_msg : string }.
(** build.rs 25-29 [OCABuild] or the errors; [BuildPanic] models an unwrap. *)
Inductive bresult := BuildOk (b : bundle) (steps : list bstep) | BuildErr (es : list berr) | BuildPanic.

(** build.rs 80-82: [commands_meta.get(&command_index)]. *)
Fixpoint cmeta_get (i : nat) (l : list (nat * cmd_meta)) : option cmd_meta :=
  match l with
  | [] => None
  | (j, m) :: r => if (i =? j)%nat then Some m else cmeta_get i r
  end.
Section FromAst.
Variable digest : json -> string.
Variable from1 : string -> option string.
(** Every [generate_bundle] call iterates fresh clones: one order per step, one for the final call, one
    for loading the base. *)
Variable os : nat -> order.

(** The loop 73-110; state: index, base box, parent SAID, steps and errors so far. *)
Fixpoint build_loop (cm : nat -> cmd_meta) (i : nat) (cs : list command) (base : option obox) (parent : option string)
  (steps : list bstep) (errs : list berr) : option (option obox * list bstep * list berr) :=
  match cs with
  | [] => Some (base, steps, errs)
  | c :: r =>
      match apply_command from1 base c with
      | Panic => None
      | Err es => build_loop cm (S i) r base parent steps (errs ++ map (fun e => BErr (cm_line (cm i)) (cm_raw (cm i)) e) es)
      | Ok bx =>
          match generate_bundle digest (os i) bx with
          | None => None
          | Some B => build_loop cm (S i) r (Some bx) (b_said B) (steps ++ [BStep parent c B]) errs
          end
      end
  end.
(** build.rs 70-73, 83: [unwrap_or] of that lookup. *)
Definition default_meta : cmd_meta := CmdMeta 0 "unknown".
(** build.rs 65-121, with the base box already loaded. *)
Definition from_ast_base (base : option obox) (from : bool) (parent : option string) (a : ast) : bresult :=
  let cm i := unwrap_or default_meta (cmeta_get (if from then S i else i) (ast_cmeta a)) in
  match build_loop cm 0 (ast_commands a) base parent [] [] with
  | None => BuildPanic
  | Some (b, steps, []) =>
      match b with
      | None => BuildPanic
      | Some bx => match generate_bundle digest (os (length (ast_commands a))) bx with
                   | Some B => BuildOk B steps
                   | None => BuildPanic
                   end
      end
  | Some (_, _, es) => BuildErr es
  end.
(** build.rs 59-121. *)
Definition from_ast (from : option bundle) (a : ast) : bresult :=
  match from with
  | None => from_ast_base None false None a
  | Some B => match load (os (S (length (ast_commands a)))) B with
              | None => BuildPanic
              | Some bx => from_ast_base (Some bx) true (b_said B) a
              end
  end.
End FromAst.

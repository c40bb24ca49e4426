(** Independent specification of what commands mean for a box.  [says k props v s d]: in an ADD overlay
    command of kind [k] with properties [props], giving the value [v] to an attribute states datum [d] for
    slot [s]. *)
From Verif Require Export Spec_Bundle Build.

(** IndexMaps have unique keys, at every depth. *)
Fixpoint nvalue_ok (v : nvalue) : Prop :=
  match v with
  | VObj l => NoDup (map fst l) /\ (fix all l := match l with [] => True | kv :: r => nvalue_ok kv.2 /\ all r end) l
  | VArr l => (fix all l := match l with [] => True | x :: r => nvalue_ok x /\ all r end) l
  | _ => True
  end.
Definition values_ok (m : option (imap nvalue)) : Prop :=
  forall l, m = Some l -> NoDup (map fst l) /\ forall n v, imap_get n l = Some v -> nvalue_ok v.
Definition command_ok (c : command) : Prop :=
  match cmd_obj c with
  | OCaptureBase cc => (forall l, cc_attrs cc = Some l -> NoDup (map fst l)) /\ values_ok (cc_props cc)
  | OOverlay _ ct => values_ok (ct_attrs ct) /\ values_ok (ct_props ct)
  | OBundle _ => True
  end.

(** The value of a property or attribute named in the command. *)
Definition has (m : option (imap nvalue)) (k : string) (v : nvalue) : Prop :=
  exists l, m = Some l /\ imap_get k l = Some v.

Section Says.
Variable from1 : string -> option string.

Definition lang_is (props : option (imap nvalue)) (l : string) : Prop :=
  exists s, has props "lang" (VVal s) /\ from1 s = Some l.
Definition target_is (props : option (imap nvalue)) (t : string) : Prop := has props "target" (VRef (RSaid t)).
Definition frame_is (props : option (imap nvalue)) (id : string) : Prop := has props "id" (VVal id).

(** The texts of an array, the groups of an object of arrays, in order. *)
Definition texts (l : list nvalue) (r : list string) : Prop := r = omap (fun v => match v with VVal s => Some s | _ => None end) l.
Inductive groups : imap nvalue -> imap (list string) -> Prop :=
| g_nil : groups [] []
| g_arr k vs ts l r : texts vs ts -> groups l r -> groups ((k, VArr vs) :: l) ((k, ts) :: r)
| g_skip k v l r : (forall vs, v <> VArr vs) -> groups l r -> groups ((k, v) :: l) r.

Inductive says : okind -> option (imap nvalue) -> nvalue -> slot -> datum -> Prop :=
| says_label p l s : lang_is p l -> says KLabel p (VVal s) (SLang KLabel l) (DLabel s None)
| says_info p l s : lang_is p l -> says KInformation p (VVal s) (SLang KInformation l) (DText s)
| says_enc p e : says KCharacterEncoding p (VVal (encoding_str e)) (SPlain KCharacterEncoding) (DEncoding e)
| says_conf p s : says KConformance p (VVal s) (SPlain KConformance) (DText s)
| says_format p s : says KFormat p (VVal s) (SPlain KFormat) (DText s)
| says_unit p s : says KUnit p (VVal s) (SPlain KUnit) (DText s)
| says_card p s : says KCardinality p (VVal s) (SPlain KCardinality) (DText s)
| says_cond p s : says KConditional p (VVal s) (SPlain KConditional)
    (DCondition (encode_condition s).1 (Some (encode_condition s).2))
| says_code_sai p s : says KEntryCode p (VVal s) (SPlain KEntryCode) (DCodes (ECSai s))
| says_code_arr p l ts : texts l ts -> says KEntryCode p (VArr l) (SPlain KEntryCode) (DCodes (ECArr ts))
| says_code_obj p l gs : groups l gs -> says KEntryCode p (VObj l) (SPlain KEntryCode) (DCodes (ECObj gs))
| says_entry_sai p l s : lang_is p l -> says KEntry p (VVal s) (SLang KEntry l) (DEntries (EnSai s))
| says_entry_obj p l e (m : gmap string string) : lang_is p l ->
    (forall k t, m !! k = Some t <-> imap_get k e = Some (VVal t)) ->
    says KEntry p (VObj e) (SLang KEntry l) (DEntries (EnObj m))
| says_link p t s : target_is p t -> says KLink p (VVal s) (SLink t) (DText s)
| says_frame p id l (meta : gmap string string) (f : framing) : frame_is p id ->
    (forall k v, meta !! k = Some v <-> exists k', k = ("frame_" +:+ k')%string /\ k' <> "id" /\ has p k' (VVal v)) ->
    (forall sc x, f !! sc = Some x <-> exists o pr j, imap_get sc l = Some (VObj o) /\
        imap_get "predicate_id" o = Some (VVal pr) /\ imap_get "framing_justification" o = Some (VVal j) /\
        x = FScope pr j meta) ->
    says KAttributeFraming p (VObj l) (SFrame id) (DFraming f).

(** A value that needs a language, link target or frame id that the properties do not give. *)
Inductive lacks : okind -> option (imap nvalue) -> nvalue -> Prop :=
| lacks_lang k p s : k ∈ [KLabel; KInformation; KEntry] -> (forall l, ~ lang_is p l) -> lacks k p (VVal s)
| lacks_lang_obj p e : (forall l, ~ lang_is p l) -> lacks KEntry p (VObj e)
| lacks_target p s : (forall t, ~ target_is p t) -> lacks KLink p (VVal s)
| lacks_frame p l : (forall id, ~ frame_is p id) -> lacks KAttributeFraming p (VObj l).

(** The overlay kinds that are applied to attributes; the others (Meta apart) are ignored. *)
Definition attribute_kinds : list okind :=
  [KLabel; KInformation; KCharacterEncoding; KConformance; KFormat; KUnit; KCardinality; KConditional; KEntryCode;
   KEntry; KLink; KAttributeFraming].
End Says.

(** The datum in the box after [d] was stated for a slot that held [old]; [cat] is the attribute's category
    label in the slot's language. UNIT and ENTRY_CODE keep the first value; scopes of a frame accumulate. *)
Definition written (s : slot) (old : option datum) (cat : option string) (d : datum) : datum :=
  match s, old, d with
  | SPlain KUnit, Some x, _ | SPlain KEntryCode, Some x, _ => x
  | SFrame _, Some (DFraming g), DFraming f => DFraming (f ∪ g)
  | SLang KLabel _, _, DLabel t _ => DLabel t cat
  | _, _, _ => d
  end.
Definition category (b : obox) (s : slot) (n : string) : option string :=
  match s with SLang KLabel l => a ← bx_attrs b !! n; lookup_opt l (at_catlabels a) | _ => None end.

Section Verdict.
Variable from1 : string -> option string.
(** Entry [n -> v] of an overlay command of kind [k] can be applied to box [b]. *)
Definition acceptable (b : obox) (k : okind) (p : option (imap nvalue)) (n : string) (v : nvalue) : Prop :=
  is_Some (bx_attrs b !! n) /\ ~ lacks from1 k p v /\
  (k = KCharacterEncoding -> forall s, v = VVal s -> exists e, s = encoding_str e).
(** Link needs a target, attribute framing an id; noticed before any attribute is looked at. *)
Inductive header_errors : okind -> option (imap nvalue) -> list string -> Prop :=
| he_target p : (forall t, ~ target_is p t) -> header_errors KLink p ["Undefined target bundle"]
| he_frame p : (forall id, ~ frame_is p id) -> header_errors KAttributeFraming p ["Undefined frame id"]
| he_link p t : target_is p t -> header_errors KLink p []
| he_framing p id : frame_is p id -> header_errors KAttributeFraming p []
| he_other k p : k <> KLink -> k <> KAttributeFraming -> header_errors k p [].
(** [n -> v] is the first entry of [l] that is not acceptable. *)
Definition first_bad (b : obox) (k : okind) (p : option (imap nvalue)) (l : imap nvalue) (n : string) (v : nvalue) : Prop :=
  exists pre post, l = pre ++ (n, v) :: post /\ (forall n' v', (n', v') ∈ pre -> acceptable b k p n' v') /\
    ~ acceptable b k p n v.

(** The commands [apply_command] does not implement. *)
Definition unsupported (c : command) : Prop :=
  match cmd_kind c, cmd_obj c with
  | CFrom, _ => False
  | CAdd, OBundle _ => True
  | CAdd, _ => False
  | CRemove, OCaptureBase _ => False
  | _, _ => True
  end.
(** ADD META with a text but no language, or an attribute overlay whose first bad entry lacks its language,
    target or frame id. *)
Definition overlay_aborts (b : obox) (k : okind) (ct : content) : Prop :=
  (k = KMeta /\ (forall l, ~ lang_is from1 (ct_props ct) l) /\ exists key s, key <> "lang" /\ has (ct_props ct) key (VVal s)) \/
  (k ∈ attribute_kinds /\ exists l n v, ct_attrs ct = Some l /\ first_bad b k (ct_props ct) l n v /\
     is_Some (bx_attrs b !! n) /\ lacks from1 k (ct_props ct) v).
(** The error list of a rejected overlay command. *)
Definition overlay_rejects (b : obox) (k : okind) (ct : content) (es : list string) : Prop :=
  k ∈ attribute_kinds /\ exists hs, header_errors k (ct_props ct) hs /\
  ((exists l n v, ct_attrs ct = Some l /\ first_bad b k (ct_props ct) l n v /\
      ((bx_attrs b !! n = None /\ es = hs ++ [("Undefined attribute: " +:+ n)%string]) \/
       (is_Some (bx_attrs b !! n) /\ exists s, v = VVal s /\ k = KCharacterEncoding /\ es = hs ++ [("Unknown encoding: " +:+ s)%string]))) \/
   ((forall n v, has (ct_attrs ct) n v -> acceptable b k (ct_props ct) n v) /\ hs <> [] /\ es = hs)).
End Verdict.

(** ** Sequences of commands *)
(** What one command does to the table of attribute types and to the classification, independently of boxes. *)
Definition replay_types (m : gmap string nattr) (c : command) : gmap string nattr :=
  match cmd_kind c, cmd_obj c with
  | CAdd, OCaptureBase cc => list_to_map (unwrap_or [] (cc_attrs cc)) ∪ m
  | CRemove, OCaptureBase cc => filter (fun nt => nt.1 ∉ imap_keys (unwrap_or [] (cc_attrs cc))) m
  | _, _ => m
  end.
Definition replay_class (x : string) (c : command) : string :=
  match cmd_kind c, cmd_obj c with
  | CAdd, OCaptureBase cc => match imap_get "classification" (unwrap_or [] (cc_props cc)) with Some (VVal s) => s | _ => x end
  | CRemove, OCaptureBase cc => if imap_mem "classification" (unwrap_or [] (cc_props cc)) then "" else x
  | _, _ => x
  end.
Definition box_types (b : obox) (n : string) : option nattr := a ← bx_attrs b !! n; at_type a.
Definition box_flag (b : obox) (n : string) : option bool := at_flag <$> bx_attrs b !! n.

(** The working state: a rejected command leaves it as it was. *)
Definition after (st : option obox) (r : outcome obox) : option obox := match r with Ok b => Some b | _ => st end.
Section Runs.
Variable from1 : string -> option string.
Fixpoint outcomes (st : option obox) (cs : list command) : list (outcome obox) :=
  match cs with
  | [] => []
  | c :: r => let x := apply_command from1 st c in x :: outcomes (after st x) r
  end.
Definition state_after (st : option obox) (cs : list command) : option obox :=
  fold_left (fun st c => after st (apply_command from1 st c)) cs st.
End Runs.
(** The errors of a list of outcomes, each with the metadata recorded for its command; [i] numbers commands. *)
Fixpoint report (cm : nat -> cmd_meta) (i : nat) (l : list (outcome obox)) : list berr :=
  match l with
  | [] => []
  | r :: l' => match r with Err es => map (BErr (cm_line (cm i)) (cm_raw (cm i))) es | _ => [] end ++ report cm (S i) l'
  end.

(** A bundle states datum [d] about attribute (meta: key) [n] in slot [s]. *)
Definition bundle_says (B : bundle) (s : slot) (n : string) (d : datum) : Prop :=
  exists ov, ov ∈ b_ovs B /\ body_slot (ov_body ov) = s /\ body_datum (ov_body ov) n = Some d.

(** The working state a build starts from. *)
Inductive base_of (o : order) : option bundle -> option obox -> Prop :=
| bo_none : base_of o None None
| bo_some B b : load o B = Some b -> base_of o (Some B) (Some b).
(** The line recorded for command [i]; with FROM, entry 0 belongs to the FROM line. *)
Definition command_line (from : option bundle) (a : ast) (i : nat) : cmd_meta :=
  match cmeta_get (match from with Some _ => S i | None => i end) (ast_cmeta a) with
  | Some m => m
  | None => CmdMeta 0 "unknown"
  end.
(** A REMOVE ATTRIBUTE command naming [n]. *)
Definition removes (n : string) (c : command) : Prop :=
  exists cc l, c = Command CRemove (OCaptureBase cc) /\ cc_attrs cc = Some l /\ n ∈ imap_keys l.
Definition base_flags (from : option bundle) : list string :=
  match from with Some B => cb_flagged (b_cb B) | None => [] end.
(** The attribute types of the base. *)
Definition base_types (from : option bundle) : gmap string nattr :=
  match from with Some B => list_to_map (cb_attrs (b_cb B)) | None => ∅ end.

(** Slots merged in a special way: links and framings are replaced as whole tables, UNIT and ENTRY_CODE keep the
    first value, label text and category label are merged separately. *)
Definition whole_table (s : slot) : Prop := match s with SLink _ | SFrame _ => True | _ => False end.
Definition first_wins (s : slot) : Prop := s = SPlain KUnit \/ s = SPlain KEntryCode.
Definition is_label (s : slot) : Prop := exists l, s = SLang KLabel l.

(** Framing commands for the same frame id carry the same further properties. *)
Definition framing_command (c : command) (ct : content) : Prop :=
  exists v, c = Command CAdd (OOverlay (OType KAttributeFraming v) ct).
Definition framings_agree (cs : list command) : Prop :=
  forall c1 c2 ct1 ct2 id, c1 ∈ cs -> c2 ∈ cs -> framing_command c1 ct1 -> framing_command c2 ct2 ->
    frame_is (ct_props ct1) id -> frame_is (ct_props ct2) id ->
    forall k v, k <> "id" -> has (ct_props ct1) k (VVal v) <-> has (ct_props ct2) k (VVal v).

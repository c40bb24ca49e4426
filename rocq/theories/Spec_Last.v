(** Specification of what a whole list of commands says, read off the list alone: no box, no overlay and no merge
    appears here.  [command_says from1 c s n d]: command [c] states datum [d] about attribute (meta: key) [n] in
    slot [s]; [wipes c s n]: [c] removes attribute [n], and with it everything said about it. *)
From Verif Require Export Spec_Build.

Section Last.
Variable from1 : string -> option string.

(** specification (of the ADD branches for overlays, semantics/oca-bundle/src/build.rs:156-541) *)
Inductive command_says : command -> slot -> string -> datum -> Prop :=
| cs_attr t ct n v s d : ot_kind t ∈ attribute_kinds -> has (ct_attrs ct) n v ->
    says from1 (ot_kind t) (ct_props ct) v s d -> command_says (Command CAdd (OOverlay t ct)) s n d
| cs_meta t ct l key x : ot_kind t = KMeta -> lang_is from1 (ct_props ct) l -> key <> "lang" ->
    has (ct_props ct) key (VVal x) -> command_says (Command CAdd (OOverlay t ct)) (SLang KMeta l) key (DText x).
(** specification (meta texts belong to the bundle, not to an attribute, semantics/oca-bundle/src/build.rs:160-180) *)
Definition is_meta (s : slot) : Prop := exists l, s = SLang KMeta l.
(** specification (the slots of attribute framings, semantics/oca-bundle/src/build.rs:156-541) *)
Definition is_frame (s : slot) : Prop := exists f, s = SFrame f.
(** specification (of the REMOVE branch, semantics/oca-bundle/src/build.rs:543-556) *)
Definition wipes (c : command) (s : slot) (n : string) : Prop := removes n c /\ ~ is_meta s.

(** None of [cs] says anything about [n] in [s], or wipes it. *)
(** specification (of the command loop, semantics/oca-bundle/src/build.rs:59-121,123-569) *)
Definition silent (cs : list command) (s : slot) (n : string) : Prop :=
  forall c, c ∈ cs -> ~ wipes c s n /\ forall d, ~ command_says c s n d.
(** The last thing said. *)
(** specification (of the command loop, semantics/oca-bundle/src/build.rs:59-121,123-569) *)
Definition last_word (cs : list command) (s : slot) (n : string) (d : datum) : Prop :=
  exists before c later, cs = before ++ c :: later /\ command_says c s n d /\ silent later s n.
(** The first thing said since the last removal. *)
(** specification (of the merge of units and entry codes, semantics/oca-bundle/src/state/attribute.rs merge) *)
Definition first_word (cs : list command) (s : slot) (n : string) (d : datum) : Prop :=
  exists before quiet c later, cs = before ++ quiet ++ c :: later /\
    (before = [] \/ exists b r, before = b ++ [r] /\ wipes r s n) /\
    silent quiet s n /\ command_says c s n d /\ (forall c', c' ∈ later -> ~ wipes c' s n).
(** A frame is given to [n], with or without scopes. *)
(** specification (of the command loop, semantics/oca-bundle/src/build.rs:59-121,123-569) *)
Definition framed (cs : list command) (f n : string) : Prop :=
  exists before c later m, cs = before ++ c :: later /\ command_says c (SFrame f) n (DFraming m) /\
    (forall c', c' ∈ later -> ~ wipes c' (SFrame f) n).
(** The last thing said about scope [sc] of frame [f]: further scopes given later do not disturb it. *)
(** specification (of the merge of framing scopes, semantics/oca-bundle/src/state/attribute.rs) *)
Definition last_scope (cs : list command) (f n sc : string) (x : fscope) : Prop :=
  exists before c later m, cs = before ++ c :: later /\ command_says c (SFrame f) n (DFraming m) /\ m !! sc = Some x /\
    forall c', c' ∈ later -> ~ wipes c' (SFrame f) n /\
      forall m', command_says c' (SFrame f) n (DFraming m') -> m' !! sc = None.
End Last.

(** ADD ATTRIBUTE gives [n] the type [t]; the last declaration that no removal follows. *)
(** specification (of the ADD branch for the capture base, semantics/oca-bundle/src/build.rs:137-155) *)
Definition declares (n : string) (t : nattr) (c : command) : Prop :=
  exists cc l, c = Command CAdd (OCaptureBase cc) /\ cc_attrs cc = Some l /\ imap_get n l = Some t.
(** specification (of the command loop, semantics/oca-bundle/src/build.rs:59-121,123-569) *)
Definition last_type (cs : list command) (n : string) (t : nattr) : Prop :=
  exists before c later, cs = before ++ c :: later /\ declares n t c /\
    forall c', c' ∈ later -> ~ removes n c' /\ forall t', ~ declares n t' c'.
(** ADD CLASSIFICATION and REMOVE CLASSIFICATION. *)
(** specification (of the ADD branch for the capture base, semantics/oca-bundle/src/build.rs:137-155) *)
Definition classifies (x : string) (c : command) : Prop :=
  exists cc, c = Command CAdd (OCaptureBase cc) /\ has (cc_props cc) "classification" (VVal x).
(** specification (of the REMOVE branch, semantics/oca-bundle/src/build.rs:543-556) *)
Definition unclassifies (c : command) : Prop :=
  exists cc v, c = Command CRemove (OCaptureBase cc) /\ has (cc_props cc) "classification" v.
(** specification (of the command loop, semantics/oca-bundle/src/build.rs:59-121,123-569) *)
Definition last_class (cs : list command) (x : string) : Prop :=
  exists before c later, cs = before ++ c :: later /\ classifies x c /\
    forall c', c' ∈ later -> ~ unclassifies c' /\ forall x', ~ classifies x' c'.

(** Two lists of commands that say the same, whatever else they do and in whatever order. *)
(** specification (of the command loop, semantics/oca-bundle/src/build.rs:59-121,123-569) *)
Record same_words (from1 : string -> option string) (cs1 cs2 : list command) : Prop := {
  sw_last : forall s n d, ~ first_wins s -> ~ is_frame s -> last_word from1 cs1 s n d <-> last_word from1 cs2 s n d;
  sw_first : forall s n d, first_wins s -> first_word from1 cs1 s n d <-> first_word from1 cs2 s n d;
  sw_framed : forall f n, framed from1 cs1 f n <-> framed from1 cs2 f n;
  sw_scopes : forall f n sc x, last_scope from1 cs1 f n sc x <-> last_scope from1 cs2 f n sc x;
  sw_types : forall n t, last_type cs1 n t <-> last_type cs2 n t;
  sw_class : forall x, last_class cs1 x <-> last_class cs2 x }.

(** [B] can be read off [cs]: it says their words and nothing else. *)
(** specification (of the command loop, semantics/oca-bundle/src/build.rs:59-121,123-569) *)
Record reads_off (from1 : string -> option string) (cs : list command) (B : bundle) : Prop := {
  ro_last : forall s n d, ~ first_wins s -> ~ is_frame s -> bundle_says B s n d <-> last_word from1 cs s n d;
  ro_first : forall s n d, first_wins s -> bundle_says B s n d <-> first_word from1 cs s n d;
  ro_framed : forall f n, (exists d, bundle_says B (SFrame f) n d) <-> framed from1 cs f n;
  ro_scopes : forall f n d, bundle_says B (SFrame f) n d -> exists g, d = DFraming g /\
     forall sc x, g !! sc = Some x <-> last_scope from1 cs f n sc x;
  ro_slots : NoDup (map (fun ov => body_slot (ov_body ov)) (b_ovs B));
  ro_tidy : forall ov, ov ∈ b_ovs B -> body_tidy (ov_body ov) /\ exists n d, body_datum (ov_body ov) n = Some d;
  ro_names : NoDup (map fst (cb_attrs (b_cb B)));
  ro_types : forall n t, (n, t) ∈ cb_attrs (b_cb B) <-> last_type cs n t;
  ro_flags : cb_flagged (b_cb B) = [];
  ro_class : forall x, last_class cs x -> cb_class (b_cb B) = x;
  ro_unclassed : (forall x, ~ last_class cs x) -> cb_class (b_cb B) = "" }.
(** The commands behind a bundle: those of its own build, behind those of the bundle it was built from. *)
(** specification (of the command loop, semantics/oca-bundle/src/build.rs:59-121,123-569) *)
Inductive built_by (digest : json -> string) (from1 : string -> option string) : list command -> bundle -> Prop :=
| bb_scratch os a B steps : (forall i, order_ok (os i)) -> from_ast digest from1 os None a = BuildOk B steps ->
    built_by digest from1 (ast_commands a) B
| bb_from os a cs B0 B steps : (forall i, order_ok (os i)) -> built_by digest from1 cs B0 ->
    from_ast digest from1 os (Some B0) a = BuildOk B steps -> built_by digest from1 (cs ++ ast_commands a) B.

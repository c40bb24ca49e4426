(** C10-C14, C16, C38, C39: merging, commands, builds.  Statements; proofs elsewhere. *)
From Verif Require Import Validator Spec_Build Upd_proofs Effect_proofs Command_proofs Load_proofs Run_proofs Build_proofs Flags_proofs
  Bundle_proofs Box_proofs Determinism_proofs Inj_digest Props_Bundle.

(** ** C10 *)
(** Per slot (overlay kind and language / target / frame): what the newer attribute says is kept, except UNIT and
    ENTRY_CODE. *)
Theorem C10_newer_facts_kept : forall a a' m s d, api_attr a' -> merge a a' = Ok m -> ~ first_wins s -> ~ is_label s ->
  attr_datum a' s = Some d -> attr_datum m s = Some d.
Proof. intros a a' m s d Ha H. apply merge_ok in H as [_ ->]. apply merge_newer. by apply api_ok. Qed.
Print Assumptions C10_newer_facts_kept.
(** What the newer attribute does not mention stays, except in the link and framing tables. *)
Theorem C10_older_facts_kept : forall a a' m s, api_attr a' -> merge a a' = Ok m -> ~ whole_table s -> ~ is_label s ->
  attr_datum a' s = None -> attr_datum m s = attr_datum a s.
Proof. intros a a' m s Ha H. apply merge_ok in H as [_ ->]. apply merge_older. by apply api_ok. Qed.
Print Assumptions C10_older_facts_kept.
(** Labels and category labels are merged per language, independently of each other; the type is replaced when
    the newer attribute has one; the flag is the older one's. *)
Theorem C10_labels_type_flag : forall a a' m, merge a a' = Ok m ->
  (forall l, lookup_opt l (at_labels m) = match lookup_opt l (at_labels a') with Some v => Some v | None => lookup_opt l (at_labels a) end) /\
  (forall l, lookup_opt l (at_catlabels m) = match lookup_opt l (at_catlabels a') with Some v => Some v | None => lookup_opt l (at_catlabels a) end) /\
  at_type m = match at_type a' with Some t => Some t | None => at_type a end /\ at_flag m = at_flag a.
Proof.
  intros a a' m H. apply merge_ok in H as [_ ->]. split; [intros l; apply lookup_merge_map|].
  split; [intros l; apply lookup_merge_map|]. cbn. by destruct (at_type a').
Qed.
Print Assumptions C10_labels_type_flag.
(** UNIT and ENTRY_CODE: the older value stays whenever there is one. *)
Theorem C10_first_value_wins : forall a a' m s, merge a a' = Ok m -> first_wins s ->
  attr_datum m s = match attr_datum a s with Some d => Some d | None => attr_datum a' s end.
Proof.
  intros a a' m s H Hs. apply merge_ok in H as [_ ->]. destruct (attr_datum a s) as [d|] eqn:E; [by apply merge_first|by apply merge_first_new].
Qed.
Print Assumptions C10_first_value_wins.
Theorem C10_merge_self : forall a, merge a a = Ok a.
Proof. intros a. unfold merge. rewrite String.eqb_refl. f_equal. apply merge_self. Qed.
Print Assumptions C10_merge_self.
(** Merging into a merged attribute = merging the merge; panics exactly on different names. *)
Theorem C10_associative : forall a b c, api_attr b -> api_attr c ->
  (let! x := merge a b in merge x c) = (let! y := merge b c in merge a y).
Proof.
  intros a b c Hb Hc. unfold merge, obind. destruct (String.eqb_spec (at_name a) (at_name b)) as [E|E].
  - cbn. rewrite E. destruct (String.eqb_spec (at_name b) (at_name c)) as [E'|E']; [|done]. cbn.
    rewrite (proj2 (String.eqb_eq _ _) eq_refl). f_equal. apply merge_assoc; by apply api_ok.
  - destruct (String.eqb_spec (at_name b) (at_name c)) as [E'|E']; [|done]. cbn.
    by destruct (String.eqb_spec (at_name a) (at_name b)).
Qed.
Print Assumptions C10_associative.
Theorem C10_panics_iff_names_differ : forall a a', merge a a' = Panic <-> at_name a <> at_name a'.
Proof. intros a a'. unfold merge. by destruct (String.eqb_spec (at_name a) (at_name a')). Qed.
Print Assumptions C10_panics_iff_names_differ.
(** The documented rule (a new value overwrites, nothing is lost) fails for units and entry codes, for links to
    other targets, for other frames and for the flag. *)
Theorem C10_overwrite_rule_refuted : exists a a' m, api_attr a /\ api_attr a' /\ merge a a' = Ok m /\
  (attr_datum a' (SPlain KUnit) = Some (DText "kg") /\ attr_datum m (SPlain KUnit) = Some (DText "g")) /\
  (attr_datum a' (SPlain KEntryCode) = Some (DCodes (ECArr ["b"])) /\ attr_datum m (SPlain KEntryCode) = Some (DCodes (ECArr ["a"]))) /\
  (attr_datum a (SLink "T1") = Some (DText "x") /\ attr_datum a' (SLink "T1") = None /\ attr_datum m (SLink "T1") = None) /\
  (is_Some (attr_datum a (SFrame "f1")) /\ attr_datum a' (SFrame "f1") = None /\ attr_datum m (SFrame "f1") = None) /\
  (at_flag a' = true /\ at_flag m = false).
Proof.
  exists (set_framing "f1" ∅ (set_link "T1" "x" (set_ecodes (ECArr ["a"]) (set_unit "g" (attr_new "n"))))),
    (set_flagged (set_framing "f2" ∅ (set_link "T2" "y" (set_ecodes (ECArr ["b"]) (set_unit "kg" (attr_new "n")))))).
  eexists. split; [apply aa_framing, aa_link, aa_ecodes, aa_unit, aa_new; intros sc s H; by apply (lookup_empty_Some (M := gmap string) sc s) in H|].
  split; [apply aa_flag, aa_framing, aa_link, aa_ecodes, aa_unit, aa_new; intros sc s H; by apply (lookup_empty_Some (M := gmap string) sc s) in H|]. split; [reflexivity|].
  repeat split; try (vm_compute; reflexivity). by eexists.
Qed.
Print Assumptions C10_overwrite_rule_refuted.
Example C10_example : api_attr ex_a1 /\ exists m,
  merge ex_a1 (set_unit "g" (set_label "eng" "First name" (attr_new "name"))) = Ok m /\
  attr_datum m (SLang KLabel "eng") = Some (DLabel "First name" None) /\
  attr_datum m (SLang KLabel "pol") = Some (DLabel "Imie" None) /\
  attr_datum m (SPlain KUnit) = Some (DText "g") /\ attr_datum m (SPlain KCharacterEncoding) = Some (DEncoding EUtf8).
Proof.
  split; [apply aa_label, aa_label, aa_enc, aa_type, aa_new|]. eexists. split; [reflexivity|].
  repeat split; vm_compute; reflexivity.
Qed.

(** ** C11 *)
(** Types after a successful build = replaying ADD (last type wins) and REMOVE over the base's types. *)
Theorem C11_attribute_types : forall digest from1 os from a B steps,
  (forall i, order_ok (os i)) -> Forall command_ok (ast_commands a) ->
  (forall B0, from = Some B0 -> NoDup (map fst (cb_attrs (b_cb B0)))) ->
  from_ast digest from1 os from a = BuildOk B steps ->
  NoDup (map fst (cb_attrs (b_cb B))) /\
  forall n t, (n, t) ∈ cb_attrs (b_cb B) <-> fold_left replay_types (ast_commands a) (base_types from) !! n = Some t.
Proof. exact (fun digest from1 os from a B steps Ho => C11_types digest from1 os Ho from a B steps). Qed.
Print Assumptions C11_attribute_types.
(** Overlay commands never add, drop or retype an attribute. *)
Theorem C11_overlay_commands_keep_types : forall from1 b b' t ct, api_box b -> command_ok (Command CAdd (OOverlay t ct)) ->
  apply_command from1 (Some b) (Command CAdd (OOverlay t ct)) = Ok b' ->
  (forall n, box_types b' n = box_types b n) /\ (forall n, is_Some (bx_attrs b' !! n) <-> is_Some (bx_attrs b !! n)).
Proof.
  intros from1 b b' t ct Hb Hc H. assert (Hb' : api_box b') by (eapply apply_api in H; [done|done|by intros ? [= <-]]).
  assert (T : forall n, box_types b' n = box_types b n).
  { destruct Hc as [Ha Hp]. cbn in Ha, Hp. cbn in H. destruct (decide (ot_kind t = KMeta)) as [Hk|Hk].
    - rewrite Hk in H. apply meta_effect in H as (H & _); [|done]. intros n. unfold box_types. by rewrite H.
    - apply overlay_rest in H as (_ & _ & _ & H & _); [done|by apply api_box_ok|done..]. }
  split; [done|]. intros n. assert (G : forall x, api_box x -> is_Some (bx_attrs x !! n) <-> is_Some (box_types x n)).
  { intros x Hx. apply api_box_ok in Hx. unfold box_types. split; [|by destruct (bx_attrs x !! n); cbn; [eauto|intros [? ?]]].
    intros [y Hy]. rewrite Hy. cbn. by apply (ok_types x Hx n). }
  by rewrite (G b' Hb'), (G b Hb), T.
Qed.
Print Assumptions C11_overlay_commands_keep_types.

(** Example AST and base used below. *)
Definition ex_from1 (s : string) : option string := if String.eqb s "en" then Some "eng" else None.
Definition add_attrs (l : imap nattr) : command := Command CAdd (OCaptureBase (CapContent (Some l) None None)).
Definition rem_attrs (l : list string) : command := Command CRemove (OCaptureBase (CapContent (Some (map (fun n => (n, NNull)) l)) None None)).
Definition classify (s : string) : command := Command CAdd (OCaptureBase (CapContent None (Some [("classification", VVal s)]) None)).
Definition add_ov (k : okind) (attrs props : imap nvalue) : command :=
  Command CAdd (OOverlay (OType k "1.1") (Content (Some attrs) (Some props))).
Definition ex_cmds : list command :=
  [ add_attrs [("name", NVal TText); ("age", NVal TNumeric)];
    classify "GICS";
    add_ov KLabel [("name", VVal "Name"); ("age", VVal "Age")] [("lang", VVal "en")];
    rem_attrs ["age"];
    add_attrs [("name", NVal TBinary); ("x", NVal TDateTime)] ].
Definition mk_ast (l : list command) : ast := Ast "1.0.0" l [] ∅.
Definition ok_types_are (r : bresult) (l : list (string * nattr)) : bool :=
  match r with BuildOk B _ => bool_decide (Permutation (cb_attrs (b_cb B)) l) | _ => false end.
Lemma ex_cmds_ok : Forall command_ok ex_cmds.
Proof.
  assert (V : forall (l : imap nvalue), NoDup (map fst l) -> Forall (fun kv => exists s, kv.2 = VVal s) l -> values_ok (Some l)).
  { intros l H1 H2 l' [= <-]. split; [done|]. intros n v Hg. apply imap_get_elem in Hg. rewrite Forall_forall in H2.
    destruct (H2 _ Hg) as [s E]. cbn in E. by rewrite E. }
  assert (N : forall l : list string, bool_decide (NoDup l) = true -> NoDup l) by (intros l; apply bool_decide_eq_true_1).
  assert (O : forall P : imap nvalue -> Prop, forall l, None = Some l -> P l) by done.
  repeat apply Forall_cons_2; [..|constructor]; unfold command_ok, add_attrs, classify, rem_attrs, add_ov; cbn [cmd_obj cc_attrs cc_props ct_attrs ct_props].
  - split; [intros l [= <-]; by apply N|by intros l]. 
  - split; [done|]. apply V; [by apply N|]. repeat constructor; by eexists.
  - split; (apply V; [by apply N|]); repeat constructor; by eexists.
  - split; [intros l [= <-]; by apply N|by intros l]. 
  - split; [intros l [= <-]; by apply N|by intros l]. 
Qed.
Example C11_example : Forall command_ok ex_cmds /\
  ok_types_are (from_ast inj_digest ex_from1 (fun _ => ord1) None (mk_ast ex_cmds)) [("name", NVal TBinary); ("x", NVal TDateTime)] = true.
Proof. split; [apply ex_cmds_ok|]. vm_compute. reflexivity. Qed.

(** ** C12 *)
(** [outcomes] is the list of results of the commands, a rejected one leaving the working state unchanged
    (Spec_Build); [report] pairs each error message with its command's line. *)
Theorem C12_errors_exactly : forall digest from1 os from a st es, (forall i, order_ok (os i)) ->
  base_of (os (S (length (ast_commands a)))) from st -> Forall command_ok (ast_commands a) ->
  from_ast digest from1 os from a = BuildErr es <->
  (forall r, r ∈ outcomes from1 st (ast_commands a) -> is_panic r = false) /\ es <> [] /\
  es = report (command_line from a) 0 (outcomes from1 st (ast_commands a)).
Proof. exact (fun digest from1 os from a st es Ho => C12_err digest from1 os Ho from a st es). Qed.
Print Assumptions C12_errors_exactly.
Theorem C12_success_exactly : forall digest from1 os from a st, (forall i, order_ok (os i)) ->
  base_of (os (S (length (ast_commands a)))) from st -> Forall command_ok (ast_commands a) ->
  (exists B ss, from_ast digest from1 os from a = BuildOk B ss) <->
  (forall r, r ∈ outcomes from1 st (ast_commands a) -> is_ok r = true) /\ (is_Some from \/ ast_commands a <> []).
Proof. exact (fun digest from1 os from a st Ho => C12_ok digest from1 os Ho from a st). Qed.
Print Assumptions C12_success_exactly.
Theorem C12_error_lines : forall digest from1 os from a st es, (forall i, order_ok (os i)) ->
  base_of (os (S (length (ast_commands a)))) from st -> Forall command_ok (ast_commands a) ->
  from_ast digest from1 os from a = BuildErr es ->
  (forall e, e ∈ es <-> exists i ms m, outcomes from1 st (ast_commands a) !! i = Some (Err ms) /\ m ∈ ms /\
     e = BErr (cm_line (command_line from a i)) (cm_raw (command_line from a i)) m) /\
  (forall i ms, outcomes from1 st (ast_commands a) !! i = Some (Err ms) -> ms <> []).
Proof. exact (fun digest from1 os from a st es Ho => C12_lines digest from1 os Ho from a st es). Qed.
Print Assumptions C12_error_lines.
Example C12_example :
  let a := Ast "1.0.0" [ add_attrs [("a", NVal TText)]; add_ov KUnit [("a", VVal "g"); ("b", VVal "g")] [];
                         add_ov KUnit [("a", VVal "kg")] []; add_ov KUnit [("c", VVal "g")] [] ]
             [(0, CmdMeta 3 "l3"); (1, CmdMeta 4 "l4"); (2, CmdMeta 5 "l5"); (3, CmdMeta 6 "l6")] ∅ in
  from_ast inj_digest ex_from1 (fun _ => ord1) None a =
  BuildErr [BErr 4 "l4" "Undefined attribute: b"; BErr 6 "l6" "Undefined attribute: c"].
Proof. vm_compute. reflexivity. Qed.

(** ** C13 *)
(** One step per command; parents chain the SAIDs; step [i]'s bundle is generated from the state after commands
    0..i. *)
Theorem C13_step_chain : forall digest from1 os from a st B steps,
  base_of (os (S (length (ast_commands a)))) from st ->
  from_ast digest from1 os from a = BuildOk B steps ->
  length steps = length (ast_commands a) /\
  (forall i s, steps !! i = Some s ->
     ast_commands a !! i = Some (bs_cmd s) /\
     bs_parent s = match i with 0 => from ≫= b_said | S j => p ← steps !! j; b_said (bs_result p) end /\
     exists b, state_after from1 st (take (S i) (ast_commands a)) = Some b /\ generate_bundle digest (os i) b = Some (bs_result s)) /\
  exists b, state_after from1 st (ast_commands a) = Some b /\ generate_bundle digest (os (length (ast_commands a))) b = Some B.
Proof. exact C13_chain. Qed.
Print Assumptions C13_step_chain.
(** The last step's bundle is the result. *)
Theorem C13_last_step_is_result : forall digest from1 os from a st B steps s b, (forall i, order_ok (os i)) ->
  Forall command_ok (ast_commands a) -> base_of (os (S (length (ast_commands a)))) from st ->
  from_ast digest from1 os from a = BuildOk B steps -> last steps = Some s ->
  state_after from1 st (ast_commands a) = Some b -> frames_consistent b -> no_collision digest (b_ovs B) ->
  bundle_json (bs_result s) = bundle_json B /\ b_said (bs_result s) = b_said B.
Proof. exact (fun digest from1 os from a st B steps s b Ho => C13_last digest from1 os Ho from a st B steps s b). Qed.
Print Assumptions C13_last_step_is_result.
Example C13_example :
  match from_ast inj_digest ex_from1 (fun _ => ord1) None (mk_ast ex_cmds) with
  | BuildOk B steps => (length steps =? 5)%nat && bool_decide (b_said <$> (bs_result <$> last steps) = Some (b_said B))
  | _ => false
  end = true.
Proof. vm_compute. reflexivity. Qed.

(** ** C14 *)
Theorem C14_removed_is_gone : forall from1 digest o b b' cc n B', order_ok o -> api_box b ->
  apply_command from1 (Some b) (Command CRemove (OCaptureBase cc)) = Ok b' ->
  n ∈ imap_keys (unwrap_or [] (cc_attrs cc)) -> generate_bundle digest o b' = Some B' ->
  (forall s d, (forall l, s <> SLang KMeta l) -> s <> SPlain KAttributeMapping -> ~ bundle_says B' s n d) /\
  n ∉ map fst (cb_attrs (b_cb B')) /\ n ∉ cb_flagged (b_cb B').
Proof. exact (fun from1 digest o b b' cc n B' Ho Hb H => C14_gone from1 digest o Ho b b' cc Hb H n B'). Qed.
Print Assumptions C14_removed_is_gone.
Theorem C14_others_untouched : forall from1 digest o o' b b' cc B B', order_ok o -> order_ok o' -> api_box b ->
  apply_command from1 (Some b) (Command CRemove (OCaptureBase cc)) = Ok b' ->
  generate_bundle digest o b = Some B -> generate_bundle digest o' b' = Some B' ->
  forall n, n ∉ imap_keys (unwrap_or [] (cc_attrs cc)) ->
  (forall s d, s <> SPlain KAttributeMapping -> bundle_says B' s n d <-> bundle_says B s n d) /\
  (forall t, (n, t) ∈ cb_attrs (b_cb B') <-> (n, t) ∈ cb_attrs (b_cb B)) /\ (n ∈ cb_flagged (b_cb B') <-> n ∈ cb_flagged (b_cb B)).
Proof. exact (fun from1 digest o o' b b' cc B B' Ho Ho' Hb H => C14_rest from1 digest o o' Ho Ho' b b' cc Hb H B B'). Qed.
Print Assumptions C14_others_untouched.
Theorem C14_readd_is_fresh : forall from1 b b' cc n t b2,
  apply_command from1 (Some b) (Command CRemove (OCaptureBase cc)) = Ok b' ->
  n ∈ imap_keys (unwrap_or [] (cc_attrs cc)) ->
  apply_command from1 (Some b') (Command CAdd (OCaptureBase (CapContent (Some [(n, t)]) None None))) = Ok b2 ->
  bx_attrs b2 !! n = Some (set_type t (attr_new n)).
Proof. exact (fun from1 b b' cc n t b2 H => C14_readd from1 b b' cc H n t b2). Qed.
Print Assumptions C14_readd_is_fresh.
(** ex_box's attribute "age" has a condition on "name": removing "name" leaves it, and then validating the
    generated bundle panics. *)
Theorem C14_dangling_dependency_refuted : exists b', api_box ex_box /\
  apply_command ex_from1 (Some ex_box) (rem_attrs ["name"]) = Ok b' /\
  (exists c, box_datum b' (SPlain KConditional) "age" = Some (DCondition c (Some ["name"]))) /\
  bx_attrs b' !! "name" = None /\
  forall lua, exists B, generate_bundle inj_digest ord1 b' = Some B /\ validate inj_digest lua ord1 [] B = VPanic.
Proof.
  eexists. split; [apply ex_box_api|]. split; [reflexivity|]. split; [eexists; vm_compute; reflexivity|].
  split; [vm_compute; reflexivity|]. intros lua. eexists. split; [vm_compute; reflexivity|]. vm_compute. reflexivity.
Qed.
Print Assumptions C14_dangling_dependency_refuted.

(** ** C16 *)
(** The datum each named value states for its slot is in the box afterwards, as [written] says (overwriting,
    except UNIT and ENTRY_CODE; frame scopes accumulate); the attribute's other slots are unchanged. *)
Theorem C16_named_values_set : forall from1 b b' t ct n v s d, api_box b -> command_ok (Command CAdd (OOverlay t ct)) ->
  apply_command from1 (Some b) (Command CAdd (OOverlay t ct)) = Ok b' -> ot_kind t ∈ attribute_kinds ->
  has (ct_attrs ct) n v -> says from1 (ot_kind t) (ct_props ct) v s d ->
  box_datum b' s n = Some (written s (box_datum b s n) (category b s n) d) /\
  forall s', s' <> s -> box_datum b' s' n = box_datum b s' n.
Proof.
  exact (fun from1 b b' t ct n v s d Hb Hc H => overlay_given from1 b b' (ot_kind t) ct n v s d (api_box_ok b Hb) (proj1 Hc) (proj2 Hc) H).
Qed.
Print Assumptions C16_named_values_set.
(** Attributes for which the command states nothing are unchanged in every slot. *)
Theorem C16_other_attributes_unchanged : forall from1 b b' t ct n, api_box b -> command_ok (Command CAdd (OOverlay t ct)) ->
  apply_command from1 (Some b) (Command CAdd (OOverlay t ct)) = Ok b' -> ot_kind t <> KMeta ->
  (forall v s d, ot_kind t ∈ attribute_kinds -> has (ct_attrs ct) n v -> ~ says from1 (ot_kind t) (ct_props ct) v s d) ->
  forall s, box_datum b' s n = box_datum b s n.
Proof.
  exact (fun from1 b b' t ct n Hb Hc H Hk => overlay_other from1 b b' (ot_kind t) ct n (api_box_ok b Hb) (proj1 Hc) (proj2 Hc) Hk H).
Qed.
Print Assumptions C16_other_attributes_unchanged.
Theorem C16_frame : forall from1 b b' t ct, api_box b -> command_ok (Command CAdd (OOverlay t ct)) ->
  apply_command from1 (Some b) (Command CAdd (OOverlay t ct)) = Ok b' -> ot_kind t <> KMeta ->
  bx_maps b' = bx_maps b /\ bx_meta b' = bx_meta b /\ bx_class b' = bx_class b /\
  (forall n, box_types b' n = box_types b n) /\ (forall n, box_flag b' n = box_flag b n) /\
  (forall s n, category b' s n = category b s n).
Proof.
  exact (fun from1 b b' t ct Hb Hc H Hk => overlay_rest from1 b b' (ot_kind t) ct (api_box_ok b Hb) (proj1 Hc) (proj2 Hc) Hk H).
Qed.
Print Assumptions C16_frame.
Theorem C16_meta : forall from1 b b' t ct, command_ok (Command CAdd (OOverlay t ct)) -> ot_kind t = KMeta ->
  apply_command from1 (Some b) (Command CAdd (OOverlay t ct)) = Ok b' ->
  bx_attrs b' = bx_attrs b /\ bx_maps b' = bx_maps b /\ bx_class b' = bx_class b /\
  (forall l key s, lang_is from1 (ct_props ct) l -> key <> "lang" -> has (ct_props ct) key (VVal s) ->
     box_datum b' (SLang KMeta l) key = Some (DText s)) /\
  (forall l key, ~ (lang_is from1 (ct_props ct) l /\ key <> "lang" /\ exists s, has (ct_props ct) key (VVal s)) ->
     box_datum b' (SLang KMeta l) key = box_datum b (SLang KMeta l) key).
Proof.
  intros from1 b b' t ct Hc Hk H. cbn in H. rewrite Hk in H. exact (meta_effect from1 b b' ct (proj2 Hc) H).
Qed.
Print Assumptions C16_meta.
(** Exactly when it is rejected, and with which errors ([first_bad]: the first entry that cannot be applied). *)
Theorem C16_rejected_exactly : forall from1 b t ct es, api_box b -> command_ok (Command CAdd (OOverlay t ct)) ->
  apply_command from1 (Some b) (Command CAdd (OOverlay t ct)) = Err es <-> overlay_rejects from1 b (ot_kind t) ct es.
Proof.
  intros from1 b t ct es Hb Hc. rewrite (apply_errors from1 b _ es (box_ok_names b (api_box_ok b Hb)) Hc). split.
  - intros [[? _]|(t' & ct' & [= <- <-] & H)]; done.
  - intros H. right. eauto.
Qed.
Print Assumptions C16_rejected_exactly.
(** In particular when an attribute that is not in the capture base is named and nothing before it panics. *)
Theorem C16_accepted_only_known : forall from1 b b' t ct, api_box b -> command_ok (Command CAdd (OOverlay t ct)) ->
  apply_command from1 (Some b) (Command CAdd (OOverlay t ct)) = Ok b' -> ot_kind t ∈ attribute_kinds ->
  header_errors (ot_kind t) (ct_props ct) [] /\
  forall n v, has (ct_attrs ct) n v -> acceptable from1 b (ot_kind t) (ct_props ct) n v.
Proof.
  intros from1 b b' t ct Hb Hc H Hk. pose proof (loop_result from1 b (ot_kind t) ct (box_ok_names b (api_box_ok b Hb)) (proj1 Hc) (proj2 Hc) Hk) as R.
  cbn in H. by rewrite H in R.
Qed.
Print Assumptions C16_accepted_only_known.
(** Re-adding a unit is silently ignored. *)
Theorem C16_unit_readd_refuted : exists b b1 b2, api_box b /\
  apply_command ex_from1 (Some b) (add_ov KUnit [("age", VVal "g")] []) = Ok b1 /\
  apply_command ex_from1 (Some b1) (add_ov KUnit [("age", VVal "kg")] []) = Ok b2 /\
  box_datum b2 (SPlain KUnit) "age" = Some (DText "g").
Proof.
  exists ex_box. eexists _, _. split; [apply ex_box_api|]. split; [reflexivity|]. split; [reflexivity|]. vm_compute. reflexivity.
Qed.
Print Assumptions C16_unit_readd_refuted.
Example C16_example : command_ok (add_ov KLabel [("name", VVal "Name"); ("age", VVal "Age")] [("lang", VVal "en")]) /\
  says ex_from1 KLabel (Some [("lang", VVal "en")]) (VVal "Age") (SLang KLabel "eng") (DLabel "Age" None) /\
  match apply_command ex_from1 (Some ex_box) (add_ov KLabel [("name", VVal "Name"); ("age", VVal "Age")] [("lang", VVal "en")]) with
  | Ok b' => match box_datum b' (SLang KLabel "eng") "age" with Some (DLabel s None) => String.eqb s "Age" | _ => false end
  | _ => false
  end = true.
Proof.
  split; [pose proof ex_cmds_ok as H; rewrite Forall_forall in H; apply H; do 2 right; left|].
  split; [|vm_compute; reflexivity]. constructor. exists "en". split; [|done]. by eexists.
Qed.

(** ** C38 *)
Theorem C38_panics_exactly : forall from1 b c, api_box b -> command_ok c -> apply_command from1 (Some b) c = Panic <->
  unsupported c \/ exists t ct, c = Command CAdd (OOverlay t ct) /\ overlay_aborts from1 b (ot_kind t) ct.
Proof. exact (fun from1 b c Hb => apply_panics from1 b c (box_ok_names b (api_box_ok b Hb))). Qed.
Print Assumptions C38_panics_exactly.
(** Without a box so far the command is applied to an empty box. *)
Theorem C38_no_base : forall from1 c, apply_command from1 None c = apply_command from1 (Some box_new) c.
Proof. exact (fun from1 c => eq_refl). Qed.
Print Assumptions C38_no_base.
Example C38_example : api_box ex_box /\
  overlay_aborts ex_from1 ex_box KLabel (Content (Some [("name", VVal "x")]) (Some [("lang", VVal "xx")])) /\
  apply_command ex_from1 (Some ex_box) (add_ov KLabel [("name", VVal "x")] [("lang", VVal "xx")]) = Panic.
Proof.
  split; [apply ex_box_api|]. assert (G : forall s, ~ lang_is ex_from1 (Some [("lang", VVal "xx")]) s).
  { intros s (x & (l & [= <-] & [= <-]) & Hx). done. }
  split; [|done]. right. split; [by left|]. exists [("name", VVal "x")], "name", (VVal "x"). split; [done|].
  split; [|split; [by eexists|constructor; [by left|exact G]]]. exists [], []. split; [done|]. split; [intros n' v' H; by apply elem_of_nil in H|].
  intros (_ & H & _). apply H. constructor; [by left|exact G].
Qed.

(** ** C39 *)
Theorem C39_classification : forall digest from1 os from a B steps, (forall i, order_ok (os i)) ->
  Forall command_ok (ast_commands a) -> from_ast digest from1 os from a = BuildOk B steps ->
  cb_class (b_cb B) = fold_left replay_class (ast_commands a) (match from with Some B0 => cb_class (b_cb B0) | None => "" end).
Proof. exact (fun digest from1 os from a B steps Ho => C39_class digest from1 os Ho from a B steps). Qed.
Print Assumptions C39_classification.
(** Flagged in the result = flagged in the base and named by no REMOVE; in particular a build from scratch never
    flags anything (the flagged_attributes of ADD are ignored). *)
Theorem C39_flags_come_from_base : forall digest from1 os from a B steps, (forall i, order_ok (os i)) ->
  Forall command_ok (ast_commands a) -> from_ast digest from1 os from a = BuildOk B steps ->
  forall n, n ∈ cb_flagged (b_cb B) <-> n ∈ base_flags from /\ forall c, c ∈ ast_commands a -> ~ removes n c.
Proof. exact (fun digest from1 os from a B steps Ho => C39_flags from1 digest os Ho from a B steps). Qed.
Print Assumptions C39_flags_come_from_base.
Theorem C39_flagged_attributes_ignored_refuted :
  match from_ast inj_digest ex_from1 (fun _ => ord1) None
    (mk_ast [Command CAdd (OCaptureBase (CapContent (Some [("a", NVal TText)]) None (Some ["a"])))]) with
  | BuildOk B _ => bool_decide (cb_flagged (b_cb B) = [])
  | _ => false
  end = true.
Proof. vm_compute. reflexivity. Qed.
Print Assumptions C39_flagged_attributes_ignored_refuted.
Example C39_example : Forall command_ok ex_cmds /\
  match from_ast inj_digest ex_from1 (fun _ => ord1) None (mk_ast ex_cmds) with
  | BuildOk B _ => String.eqb (cb_class (b_cb B)) "GICS"
  | _ => false
  end = true.
Proof. split; [apply ex_cmds_ok|]. vm_compute. reflexivity. Qed.

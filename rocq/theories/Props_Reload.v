(** C05, C37: bundle -> box -> bundle, incremental builds.  Statements; proofs elsewhere. *)
From Verif Require Import Validator Spec_Build Upd_proofs Load_proofs Run_proofs Build_proofs Reload_proofs Incremental_proofs
  Bundle_proofs Box_proofs Determinism_proofs Inj_digest Props_Bundle Props_Build.

(** ** C05 *)
Definition no_mappings (b : obox) : Prop := unwrap_or [] (bx_maps b) = [].
Definition no_category_labels (b : obox) : Prop := forall n a l, bx_attrs b !! n = Some a -> lookup_opt l (at_catlabels a) = None.
(** Loading a generated bundle never panics, and the result can be generated again. *)
Theorem C05_never_panics : forall digest o1 o2 o3 b B,
  order_ok o1 -> order_ok o2 -> order_ok o3 -> api_box b -> generate_bundle digest o1 b = Some B ->
  exists b' B', load o2 B = Some b' /\ api_box b' /\ generate_bundle digest o3 b' = Some B'.
Proof.
  intros digest o1 o2 o3 b B O1 O2 O3 Hb G. pose proof (api_box_ok b Hb) as K.
  destruct (C02_proof o1 O1 digest b K) as (B0 & G0 & R). rewrite G in G0. injection G0 as <-.
  destruct (load_never_panics o2 O2 b B (right_loadable b B R) K) as [b' L]. assert (Hb' : api_box b') by exact (load_api o2 O2 B b' L).
  destruct (C02_proof o3 O3 digest b' (api_box_ok b' Hb')) as (B' & G' & _). by exists b', B'.
Qed.
Print Assumptions C05_never_panics.
(** Same JSON and same SAIDs after bundle -> box -> bundle. *)
Theorem C05_round_trip : forall digest o1 o2 o3 b B b' B',
  order_ok o1 -> order_ok o2 -> order_ok o3 -> api_box b -> no_mappings b -> no_category_labels b -> frames_consistent b ->
  generate_bundle digest o1 b = Some B -> load o2 B = Some b' -> generate_bundle digest o3 b' = Some B' ->
  no_collision digest (b_ovs B) ->
  bundle_json B = bundle_json B' /\ b_said B = b_said B' /\ cb_said (b_cb B) = cb_said (b_cb B') /\
  map overlay_json (b_ovs B) ≡ₚ map overlay_json (b_ovs B').
Proof.
  intros digest o1 o2 o3 b B b' B' O1 O2 O3 Hb Hm Hc Hf G L G'. pose proof (api_box_ok b Hb) as K.
  destruct (C02_proof o1 O1 digest b K) as (B0 & G0 & R). rewrite G in G0. injection G0 as <-.
  destruct (reload_equiv o2 O2 b B (right_loadable b B R) K Hc Hf Hm) as (b2 & L2 & E). rewrite L in L2. injection L2 as <-.
  apply (bundle_json_equiv digest o1 o3 b b' B B'); try done. exact (api_box_ok _ (load_api o2 O2 B b' L)).
Qed.
Print Assumptions C05_round_trip.
Definition said_after_reload (o : order) (b : obox) : option (option string * option string) :=
  B ← generate_bundle inj_digest o b; b' ← load o B; B' ← generate_bundle inj_digest o b'; Some (b_said B, b_said B').
Definition same_said (r : option (option string * option string)) : bool := match r with Some (Some x, Some y) => String.eqb x y | _ => false end.
Definition other_said (r : option (option string * option string)) : bool := match r with Some (Some x, Some y) => negb (String.eqb x y) | _ => false end.
Example C05_example : api_box ex_box /\ no_mappings ex_box /\ no_category_labels ex_box /\ frames_consistent ex_box /\
  order_ok ord1 /\ same_said (said_after_reload ord1 ex_box) = true.
Proof.
  split; [apply ex_box_api|]. split; [done|]. split; [|split; [apply ex_box_frames|split; [apply ord1_ok|vm_compute; reflexivity]]].
  intros n a l Ha. change (bx_attrs ex_box) with (<["age" := ex_a2]> (<["name" := ex_a1]> (∅ : gmap string attribute))) in Ha.
  apply lookup_insert_Some in Ha as [[_ <-]|[_ Ha]]; [done|].
  apply lookup_insert_Some in Ha as [[_ <-]|[_ Ha]]; [done|by rewrite lookup_empty in Ha].
Qed.
(** Mappings and category labels are lost. *)
Theorem C05_mappings_refuted : exists b, api_box b /\ frames_consistent b /\ no_category_labels b /\
  other_said (said_after_reload ord1 b) = true.
Proof.
  exists (add_attribute_mapping {["a" := "b"]} (add_attribute (set_type (NVal TText) (attr_new "a")) box_new)).
  assert (Ha' : forall n a, bx_attrs (add_attribute_mapping {["a" := "b"]} (add_attribute (set_type (NVal TText) (attr_new "a")) box_new)) !! n = Some a ->
     a = set_type (NVal TText) (attr_new "a")).
  { intros n a H. change ((<["a" := set_type (NVal TText) (attr_new "a")]> (∅ : gmap string attribute)) !! n = Some a) in H.
    apply lookup_insert_Some in H as [[_ <-]|[_ H]]; [done|by rewrite lookup_empty in H]. }
  split; [apply ab_mapping, ab_add; [apply aa_type, aa_new|left; by eexists|apply ab_new]|].
  split; [intros f k v w (n & a & fr & sc & s & Ha & Hf & _); apply Ha' in Ha as ->; done|].
  split; [intros n a l Ha; by apply Ha' in Ha as ->|]. vm_compute. reflexivity.
Qed.
Print Assumptions C05_mappings_refuted.
Theorem C05_category_labels_refuted : exists b, api_box b /\ frames_consistent b /\ no_mappings b /\
  other_said (said_after_reload ord1 b) = true.
Proof.
  set (x := add_category_label "eng" "cat" (set_label "eng" "A" (set_type (NVal TText) (attr_new "a")))).
  exists (add_attribute x box_new).
  split; [apply ab_add; [apply aa_catlabel, aa_label, aa_type, aa_new|left; by eexists|apply ab_new]|].
  split; [|split; [done|vm_compute; reflexivity]].
  intros f k v w (n & a & fr & sc & s & Ha & Hf & _). change ((<["a" := x]> (∅ : gmap string attribute)) !! n = Some a) in Ha.
  apply lookup_insert_Some in Ha as [[_ <-]|[_ Ha]]; [done|by rewrite lookup_empty in Ha].
Qed.
Print Assumptions C05_category_labels_refuted.

(** ** C37 *)
(** First building [a1], then [a2] FROM the result, against building both at once. *)
Theorem C37_incremental_build : forall digest from1 os1 os2 os3 a1 a2 a12 B1 steps1,
  (forall i, order_ok (os1 i)) -> (forall i, order_ok (os2 i)) -> (forall i, order_ok (os3 i)) ->
  ast_commands a12 = ast_commands a1 ++ ast_commands a2 -> Forall command_ok (ast_commands a12) -> framings_agree (ast_commands a12) ->
  from_ast digest from1 os1 None a1 = BuildOk B1 steps1 ->
  match from_ast digest from1 os2 (Some B1) a2, from_ast digest from1 os3 None a12 with
  | BuildOk B _, BuildOk B' _ => no_collision digest (b_ovs B) -> bundle_json B = bundle_json B' /\ b_said B = b_said B'
  | BuildErr es, BuildErr es' => map be_msg es = map be_msg es'
  | BuildPanic, BuildPanic => True
  | _, _ => False
  end.
Proof. exact C37_proof. Qed.
Print Assumptions C37_incremental_build.
Definition ex_more : list command :=
  [ add_ov KUnit [("name", VVal "kg")] []; add_ov KLink [("x", VVal "y")] [("target", VRef (RSaid "t"))];
    add_ov KAttributeFraming [("name", VObj [("s", VObj [("predicate_id", VVal "p"); ("framing_justification", VVal "j")])])] [("id", VVal "F"); ("version", VVal "1")];
    rem_attrs ["x"] ].
Lemma ex_more_ok : Forall command_ok (ex_cmds ++ ex_more).
Proof.
  apply Forall_app. split; [apply ex_cmds_ok|].
  assert (N : forall l : list string, bool_decide (NoDup l) = true -> NoDup l) by (intros l; apply bool_decide_eq_true_1).
  assert (V : forall (l : imap nvalue), NoDup (map fst l) -> Forall (fun kv => nvalue_ok kv.2) l -> values_ok (Some l)).
  { intros l H1 H2 l' [= <-]. split; [done|]. intros n v Hg. apply imap_get_elem in Hg. rewrite Forall_forall in H2. exact (H2 _ Hg). }
  repeat apply Forall_cons_2; [..|constructor]; unfold command_ok, rem_attrs, add_ov; cbn [cmd_obj cc_attrs cc_props ct_attrs ct_props].
  - split; (apply V; [by apply N|repeat constructor]).
  - split; (apply V; [by apply N|repeat constructor]).
  - split; (apply V; [by apply N|]); [|repeat constructor]. repeat constructor; cbn; try done; try (by apply N); try (repeat constructor; cbn; done);
      try (by apply not_elem_of_nil); try set_solver.
  - split; [intros l [= <-]; by apply N|by intros l].
Qed.
Lemma ex_more_frames : framings_agree (ex_cmds ++ ex_more).
Proof.
  intros c1 c2 ct1 ct2 id H1 H2 [v1 E1] [v2 E2] _ _ k v _.
  assert (U : forall c, c ∈ ex_cmds ++ ex_more -> (exists v ct, c = Command CAdd (OOverlay (OType KAttributeFraming v) ct)) -> c = nth 2 ex_more (rem_attrs [])).
  { intros c Hc (v0 & ct & ->). apply elem_of_list_In in Hc. cbn in Hc. repeat (destruct Hc as [Hc|Hc]; [first [discriminate Hc|symmetry; exact Hc]|]). done. }
  assert (X1 := U c1 H1 ltac:(eauto)). assert (X2 := U c2 H2 ltac:(eauto)). rewrite E1 in X1. rewrite E2 in X2. cbn in X1, X2.
  injection X1 as -> ->. injection X2 as -> ->. done.
Qed.
Example C37_example : Forall command_ok (ex_cmds ++ ex_more) /\ framings_agree (ex_cmds ++ ex_more) /\
  match from_ast inj_digest ex_from1 (fun _ => ord1) None (mk_ast ex_cmds) with
  | BuildOk B1 _ =>
      match from_ast inj_digest ex_from1 (fun _ => ord2) (Some B1) (mk_ast ex_more), from_ast inj_digest ex_from1 (fun _ => ord1) None (mk_ast (ex_cmds ++ ex_more)) with
      | BuildOk B2 _, BuildOk B3 _ => bool_decide (b_said B2 = b_said B3) && bool_decide (b_said B1 <> b_said B2)
      | _, _ => false
      end
  | _ => false
  end = true.
Proof. split; [apply ex_more_ok|]. split; [apply ex_more_frames|]. vm_compute. reflexivity. Qed.

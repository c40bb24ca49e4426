(** C15: validation of commands against the AST so far. *)
From Verif Require Import Spec_Build Spec_Ast AstValidator_proofs Props_Build.

(** The verdict on one command, for every AST and command. *)
Theorem C15_accepts : forall a c, ast_validate a c = Ok true <-> ast_version a = "1.0.0" /\ well_placed (ast_commands a) c.
Proof. exact validate_ok. Qed.
Print Assumptions C15_accepts.
Theorem C15_rejects : forall a c, (exists es, ast_validate a c = Err es) <-> ast_version a <> "1.0.0" \/ ~ well_placed (ast_commands a) c.
Proof.
  intros a c. pose proof (validate_ok a c) as H. destruct (validate_total a c) as [E|[es E]].
  - rewrite E. split; [by intros [es [=]]|]. apply H in E as [V W]. tauto.
  - split; [|by eauto]. intros _. assert (N : ~ (ast_version a = "1.0.0" /\ well_placed (ast_commands a) c)) by (rewrite <- H, E; discriminate).
    destruct (String.eqb (ast_version a) "1.0.0") eqn:V; [apply String.eqb_eq in V; right; tauto|]. left. intros E'. by rewrite E' in V.
Qed.
Print Assumptions C15_rejects.
(** Commands of other kinds are always accepted. *)
Theorem C15_other_kinds : forall a c, ast_version a = "1.0.0" ->
  (forall cc, c <> Command CAdd (OCaptureBase cc) /\ c <> Command CRemove (OCaptureBase cc)) -> ast_validate a c = Ok true.
Proof.
  intros a c V H. unfold ast_validate. rewrite V. cbn. destruct c as [[] [cc| |]]; try done.
  - by destruct (proj1 (H cc)).
  - by destruct (proj2 (H cc)).
Qed.
Print Assumptions C15_other_kinds.
(** Assembling an AST command by command, as the OCAfile parser does: accepted iff every command is well placed after
    its predecessors; the result lists the commands and, under their positions, their lines. *)
Theorem C15_assembly : forall l a, push_all ast_new l = Ok a <->
  (forall pre c m post, l = pre ++ (c, m) :: post -> well_placed (map fst pre) c) /\
  a = Ast "1.0.0" (map fst l) (zip (seq 0 (length l)) (map snd l)) ∅.
Proof. intros l a. rewrite push_all_ok. cbn. split; [tauto|]. intros [A B]. split; [by right|done]. Qed.
Print Assumptions C15_assembly.
(** The validator's stack is what building the AST from scratch puts in the capture base. *)
Lemma replay_stack cs n : is_Some (fold_left replay_types cs ∅ !! n) <-> on_stack names_attr cs n.
Proof.
  change (on_stack names_attr) with (stacked cc_attrs). induction cs as [|c cs IH] using rev_ind.
  - cbn. split; [intros [x Hx]; by rewrite lookup_empty in Hx|]. intros ([|x0 xs0] & c & post & E & _); done.
  - rewrite fold_left_app. cbn [fold_left]. rewrite stacked_snoc, <- IH, !names_iff. set (m := fold_left replay_types cs ∅). clearbody m.
    unfold replay_types. destruct c as [k [cc|bc|t ct]]; cbn [cmd_kind cmd_obj]; [|destruct k; tauto..].
    assert (CAdd <> CRemove /\ CRemove <> CAdd) as [D1 D2] by done. destruct k.
    + rewrite lookup_union_is_Some. assert (X : is_Some ((list_to_map (unwrap_or [] (cc_attrs cc)) : gmap string nattr) !! n) <-> n ∈ map fst (unwrap_or [] (cc_attrs cc))).
      { rewrite <- not_eq_None_Some, <- not_elem_of_list_to_map. split; [|tauto]. intros X. destruct (decide (n ∈ map fst (unwrap_or [] (cc_attrs cc)))); [done|]. by destruct X. }
      rewrite X. intuition congruence.
    + split.
      * intros [x Hx]. apply map_filter_lookup_Some in Hx as [Hx Hn]. right. split; [by eexists|]. intros [_ Hn']. by apply Hn.
      * intros [[? _]|[[x Hx] Hn]]; [done|]. exists x. apply map_filter_lookup_Some. split; [done|]. intros Hn'. by apply Hn.
    + split; [|intros [[? _]|[? _]]; done]. intros H. right. split; [done|]. by intros [? _].
    + split; [|intros [[? _]|[? _]]; done]. intros H. right. split; [done|]. by intros [? _].
Qed.
Theorem C15_stack_is_capture_base : forall digest from1 os a B steps,
  (forall i, order_ok (os i)) -> Forall command_ok (ast_commands a) ->
  from_ast digest from1 os None a = BuildOk B steps ->
  forall n, n ∈ map fst (cb_attrs (b_cb B)) <-> on_stack names_attr (ast_commands a) n.
Proof.
  intros digest from1 os a B steps Ho Hc H n. apply C11_attribute_types in H as [_ H]; [|done..]. rewrite elem_of_list_fmap, <- replay_stack.
  cbn [base_types] in H. split.
  - intros ([n' t] & -> & Hin). apply H in Hin. by eexists.
  - intros [t Ht]. apply H in Ht. by exists (n, t).
Qed.
Print Assumptions C15_stack_is_capture_base.
(** Finding: the validator does not know the attributes of the FROM base, so after FROM a REMOVE of an attribute that
    the base has is rejected (whatever the base), and an ADD of one is accepted. *)
Theorem C15_from_base_refuted : forall r n t,
  let from := Command CFrom (OBundle (BundleContent r)) in
  (exists es, push_all ast_new [(from, CmdMeta 1 "FROM"); (Command CRemove (OCaptureBase (CapContent (Some [(n, NNull)]) None None)), CmdMeta 2 "REMOVE")] = Err es) /\
  (exists a, push_all ast_new [(from, CmdMeta 1 "FROM"); (Command CAdd (OCaptureBase (CapContent (Some [(n, t)]) None None)), CmdMeta 2 "ADD")] = Ok a).
Proof. intros r n t from. split; eexists; cbn; reflexivity. Qed.
Example C15_example :
  let c1 := add_attrs [("a", NVal TText); ("b", NVal TNumeric)] in
  let c2 := rem_attrs ["a"] in
  well_placed [c1] c2 /\ well_placed [c1; c2] (add_attrs [("a", NVal TDateTime)]) /\ ~ well_placed [c1; c2] (add_attrs [("b", NVal TDateTime)]) /\ ~ well_placed [c1; c2] c2.
Proof.
  cbn. assert (V : forall cs c, ast_validate (Ast "1.0.0" cs [] ∅) c = Ok true <-> well_placed cs c) by (intros cs c; rewrite C15_accepts; cbn; tauto).
  rewrite <- !V. repeat split; done.
Qed.
Print Assumptions C15_from_base_refuted.

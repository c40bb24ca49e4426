From Coq Require Import Lia.
(** C49: reading any file of either kind, and building it into a store with any past. *)
From Verif Require Import Peg OcaGrammar OcaFile Spec_OcaFile Ast Bundle Spec_Bundle Build Spec_Build Spec_Read Facade Spec_Refs OcaShape OcaForms OcaBuilds TForms Spec_TFile
  BundleCodec Spec_BundleCodec BundleCodec_proofs Bundle_proofs Replay_proofs Bundle_proofs Determinism_proofs Facade_proofs Replay_proofs Spec_Facade Spec_Total Spec_Export Facade_proofs Load_proofs Run_proofs Box_proofs Build_proofs Reload_proofs Stored_proofs VBuild_proofs Props_Codec Props_Bundle Props_Build Props_Refs Props_From Props_Facade
  Props_OcaFile Props_History Props_Total Props_Reload Props_Transformation Inj_digest Props_Read.
From Verif Require Export Spec_TRead.

(** Reading a transformation file never aborts; every command is a renaming or a linking of names, and the metadata keys are
    the five known ones, with values. *)
Theorem C49_transformation_reads : forall wide s,
  (exists a, parse_transformation wide s = Ok a /\ Forall treadable (ta_commands a) /\ tmetadata_form (ta_meta a) /\ ta_version a = "1.0.0") \/
  (exists es, parse_transformation wide s = Err es).
Proof.
  intros wide s. destruct (parse_transformation wide s) as [a|es|] eqn:E; [left|right; by eexists|by apply tfile_panic in E]. exists a. split; [done|]. by apply tfile_form in E.
Qed.
Print Assumptions C49_transformation_reads.
(** Building what was read gives a transformation, unless there is metadata without a source or without a target, or nothing
    at all. *)
Theorem C49_transformation_builds : forall wide digest s a, parse_transformation wide s = Ok a ->
  (exists T, transformation_from_ast digest a = Ok T) \/
  (transformation_from_ast digest a = Panic /\
    ((ta_meta a = ∅ /\ ta_commands a = []) \/ (ta_meta a <> ∅ /\ (ta_meta a !! "source" = None \/ ta_meta a !! "target" = None)))).
Proof.
  intros wide dig s a _. pose proof (C34_build dig a) as H. destruct (ta_meta a !! "source") as [x|] eqn:Es; [destruct (ta_meta a !! "target") as [y|] eqn:Et|].
  - left. destruct H as (T & _ & _ & H & _). by exists T.
  - case_bool_decide as C; [destruct C as [C _]; rewrite C, lookup_empty in Es; done|]. right. split; [done|]. right. split; [|by right]. intros C'. rewrite C', lookup_empty in Es. done.
  - case_bool_decide as C; [left; destruct H as (T & H & _); by exists T|]. right. split; [done|]. destruct (decide (ta_meta a = ∅)) as [Em|Em]; [|right; split; [done|by left]].
    left. split; [done|]. destruct (ta_commands a) eqn:Ec; [done|]. exfalso. apply C. by split.
Qed.
Print Assumptions C49_transformation_builds.
(** A file of either kind is read, or is in error, or - as a schema with a backslash between braces - aborts the reader. *)
Theorem C49_any_file_reads : forall wide said_ok s,
  (exists a, parse_any wide said_ok s = Ok (TransformationAst a) /\ parse_transformation wide s = Ok a) \/
  (exists a, parse_any wide said_ok s = Ok (SemanticsAst a) /\ parse_ocafile wide said_ok s = Ok a) \/
  (exists es, parse_any wide said_ok s = Err es) \/
  (parse_any wide said_ok s = Panic /\ parse_ocafile wide said_ok s = Panic /\ backslash_in_braces s).
Proof.
  intros wide so s. unfold parse_any. destruct (file_precompiler wide s) as [p|es|] eqn:E; cbn [obind]; [|by eauto 6|by apply precompiler_panic in E].
  assert (Sem : forall X, X = (let! a := parse_ocafile wide so s in Ok (SemanticsAst a)) ->
    (exists a, X = Ok (TransformationAst a) /\ parse_transformation wide s = Ok a) \/ (exists a, X = Ok (SemanticsAst a) /\ parse_ocafile wide so s = Ok a) \/
    (exists es, X = Err es) \/ (X = Panic /\ parse_ocafile wide so s = Panic /\ backslash_in_braces s)).
  { intros X ->. destruct (C48_reading_ends wide so s) as [(a & ->)|[(es & ->)|[-> Hb]]]; cbn [obind]; [right; left; by eauto|right; right; left; by eauto|right; right; right; done]. }
  destruct p as [v|]; [|by apply Sem]. destruct (String.eqb v "transformation").
  - destruct (parse_transformation wide s) as [a|es|] eqn:Et; cbn [obind]; [left; by eauto|right; right; left; by eauto|by apply tfile_panic in Et].
  - destruct (String.eqb v "semantics"); [by apply Sem|right; right; left; by eauto].
Qed.
Print Assumptions C49_any_file_reads.
(** Building from a file, without a store. *)
Lemma build_from_eq wide so dig f1 os s : build_from_ocafile wide so dig f1 os s =
  match parse_any wide so s with
  | Ok (TransformationAst _) => Err ["Deprecated"]
  | Ok (SemanticsAst a) => match from_ast dig f1 os None a with BuildOk B _ => Ok B | BuildErr es => Err (map be_msg es) | BuildPanic => Panic end
  | Err e => Err e
  | Panic => Panic
  end.
Proof. reflexivity. Qed.
Theorem C49_file_builds : forall wide said_ok digest from1 os s, (forall i, order_ok (os i)) ->
  build_from_ocafile wide said_ok digest from1 os s = Panic ->
  backslash_in_braces s \/ exists a, parse_ocafile wide said_ok s = Ok a /\ (ast_commands a = [] \/ exists c, c ∈ ast_commands a /\ aborting from1 true c).
Proof.
  intros wide so dig f1 os s Ho E. rewrite build_from_eq in E. pose proof (C49_any_file_reads wide so s) as R. generalize dependent (parse_any wide so s). intros pa E R.
  destruct R as [(a & -> & _)|[(a & -> & Hp)|[(es & ->)|(-> & _ & Hb)]]]; [discriminate E| |discriminate E|by left].
  right. exists a. split; [done|]. destruct (from_ast dig f1 os None a) as [| |] eqn:Ef; try done. apply (C48_build_ends dig f1 os wide so s a None) in Ef; try done.
  destruct Ef as [[_ Ef]|Ef]; [by left|by right].
Qed.
Print Assumptions C49_file_builds.

(** ** After any history *)
Section History.
Variable digest : json -> string.
Variables from1 to1 : string -> option string.
Variable listing : string -> list oobject -> list oobject.
Variables said_ok digits lang_ok : string -> bool.
Variable standard_read : string -> option string.
Variable to_text : json -> string.
Variable of_text : string -> option json.
Variable hash : string -> string.
Notation run := (used digest from1 to1 listing said_ok digits lang_ok standard_read to_text of_text hash).
Notation fetch := (get_bundle said_ok digits lang_ok standard_read of_text).
Notation validate := (validate_ast digest from1 said_ok digits lang_ok standard_read of_text).

Lemma used_files h f : run h f -> files_run digest from1 to1 listing said_ok digits lang_ok standard_read to_text of_text hash (map fst h) f.
Proof.
  induction 1 as [|h f os a g r _ IH Ho Hv|h f os a g B steps k B' _ IH Ho Hv HB]; [constructor|by eapply after_validate|].
  rewrite map_app. cbn [map fst]. destruct (build_effect _ _ _ _ _ _ _ _ _ _ HB) as (-> & _). eapply after_build; [exact IH|]. unfold build_ast. rewrite Hv. cbn [obind fst snd]. exact HB.
Qed.
Lemma used_refs h f : run h f -> forall n v, find_ref (fa_db f) n = Some v -> exists j, v = digest j.
Proof.
  assert (Step : forall f g os a B steps, validate os a f = Ok (g, (B, steps)) -> (forall n v, entry (fa_db f) NsReferences n = Some v -> exists j, v = digest j) ->
    forall n v, entry (fa_db g) NsReferences n = Some v -> exists j, v = digest j).
  { intros f0 g os a B steps Hv IH n v E. destruct (validate_effect _ _ _ _ _ _ _ _ _ _ _ _ _ Hv) as (_ & (j & Hj) & _ & En). rewrite En in E.
    destruct (decide _); [|by eapply IH]. exists j. congruence. }
  intros R n v. unfold find_ref. rewrite get_entry. revert n v.
  induction R as [|h f os a g [B steps] _ IH Ho Hv|h f os a g B steps k B' _ IH Ho Hv HB].
  - intros n v E. unfold entry in E. cbn in E. rewrite lookup_empty in E. done.
  - by eapply Step.
  - intros n v E. destruct (build_effect _ _ _ _ _ _ _ _ _ _ HB) as (_ & _ & I & _). rewrite I in E. by eapply Step.
Qed.
(** Commands do not touch the attribute mappings, and loading gives none. *)
Lemma apply_maps st c b' : apply_command from1 st c = Ok b' -> bx_maps b' = bx_maps (unwrap_or box_new st).
Proof.
  unfold apply_command. generalize (unwrap_or box_new st) as b. intros b.
  assert (Fold : forall A (f : obox -> A -> obox) (l : list A) x, (forall x y, bx_maps (f x y) = bx_maps x) -> bx_maps (fold_left f l x) = bx_maps x).
  { intros A f l. induction l as [|y l IH]; intros x Hf; [done|]. cbn [fold_left]. by rewrite IH, Hf. }
  destruct c as [[] [cc|bc|t ct]]; cbn [cmd_kind cmd_obj]; try done.
  - intros [= <-]. unfold add_capture. rewrite !Fold; [done|intros x y; unfold add_attribute; by destruct (bx_attrs x !! _)|intros x [k v]; cbn [fst snd]; destruct v; try done; by destruct (String.eqb k _)].
  - assert (U : forall errs k props l b b', upd_attrs from1 errs k props l b = Ok b' -> bx_maps b' = bx_maps b).
    { intros errs k props l. induction l as [|[n v] l IH]; intros x y E; cbn [upd_attrs] in E; [destruct errs; [by injection E as <-|done]|].
      destruct (bx_attrs x !! n); [|done]. destruct (value_upd from1 k props v) as [[u|]|e|]; try done; apply IH in E; rewrite E; unfold add_attribute; by destruct (bx_attrs x !! _). }
    assert (N : forall lang l b b', add_metas lang l b = Ok b' -> bx_maps b' = bx_maps b).
    { intros lang l. induction l as [|[n v] l IH]; intros x y E; cbn [add_metas] in E; [by injection E as <-|].
      destruct v; try (by apply IH in E). destruct lang; [|done]. by apply IH in E. }
    unfold add_overlay. destruct (ot_kind t); cbn [loops]; try (by intros [= <-]); try (by apply U). destruct (ct_props ct); [by apply N|by intros [= <-]].
  - intros [= <-]. unfold remove_capture. rewrite !Fold; [done|done|intros x [k v]; cbn [fst snd]; by destruct (String.eqb k _)].
Qed.
Definition plain_box (b : obox) : Prop := api_box b /\ bx_maps b = None.
Lemma state_plain cs : forall st, Forall command_ok cs -> (forall b, st = Some b -> plain_box b) -> forall b, state_after from1 st cs = Some b -> plain_box b.
Proof.
  induction cs as [|c cs IH]; intros st Hc Hs b; [by apply Hs|]. apply Forall_cons in Hc as [H1 H2]. rewrite state_after_cons. apply IH; [done|]. intros b' E.
  destruct (apply_command from1 st c) as [x|e|] eqn:Ea; cbn in E; [|by apply Hs|by apply Hs]. injection E as <-. split.
  - eapply Command_proofs.apply_api; [exact H1| |exact Ea]. intros y Hy. by apply Hs.
  - rewrite (apply_maps _ _ _ Ea). destruct st as [y|]; [|done]. by destruct (Hs y eq_refl).
Qed.
(** A step generated from a box the commands can make. *)
Definition generated (s : bstep) : Prop := exists b o, plain_box b /\ order_ok o /\ generate_bundle digest o b = Some (bs_result s).
Lemma steps_generated os from a B steps : (forall i, order_ok (os i)) -> Forall command_ok (ast_commands a) -> from_ast digest from1 os from a = BuildOk B steps ->
  forall s, s ∈ steps -> generated s.
Proof.
  intros Ho Hc HA s Hs. destruct (base_of_some digest from1 os from a _ HA) as [st Hb]; [done|]. destruct (C13_step_chain _ _ _ _ _ _ _ _ Hb HA) as (_ & X & _).
  apply elem_of_list_lookup in Hs as [i Hi]. destruct (X i s Hi) as (_ & _ & b & Es & G). exists b, (os i). split; [|by split]. eapply state_plain; [|  |exact Es].
  - by apply Forall_take.
  - intros b' E. destruct Hb as [|B0 b0 L]; [done|]. injection E as <-. split; [by eapply load_api|]. by destruct (load_parts _ (Ho _) _ _ L) as (m & _ & _ & H & _).
Qed.
Lemma generated_loads s o : generated s -> groups_sorted (bs_result s) -> order_ok o -> is_Some (load o (bundle_read (bs_result s))).
Proof.
  intros (b & o' & [Ha Hm] & Ho' & G) Hg Ho. pose proof (api_box_ok b Ha) as K. destruct (C02_proof o' Ho' digest b K) as (B' & G' & R). rewrite G in G'. injection G' as <-.
  apply (load_never_panics o Ho (norm_box b)); [|by apply norm_ok]. apply stored_loadable; [done|done|]. rewrite Hm. cbn. lia.
Qed.
Hypothesis Ht : text_ok to_text of_text.
Hypothesis Hd : digits_class digits.
Notation storable := (step_storable said_ok digits lang_ok).
Definition all_steps (h : list (bundle * list bstep)) : list bstep := concat (map snd h).
Lemma used_cache h f : run h f -> (forall s, s ∈ all_steps h -> storable s) -> forall k t, entry (fa_cache f) NsBundles k = Some t ->
  exists s, generated s /\ storable s /\ t = to_text (bundle_json (bs_result s)).
Proof.
  induction 1 as [|h f os a g [B steps] _ IH Ho Hv|h f os a g B steps k B' _ IH Ho Hv HB]; intros Hall x t E.
  - unfold entry in E. cbn in E. rewrite lookup_empty in E. done.
  - destruct (validate_effect _ _ _ _ _ _ _ _ _ _ _ _ _ Hv) as (Ec & _). rewrite Ec in E. by apply (IH Hall x t).
  - unfold all_steps in Hall. rewrite map_app, concat_app in Hall. cbn [map concat snd] in Hall. rewrite app_nil_r in Hall.
    destruct (build_effect _ _ _ _ _ _ _ _ _ _ HB) as (_ & _ & _ & I & O). destruct (validate_effect _ _ _ _ _ _ _ _ _ _ _ _ _ Hv) as (Ec & _).
    destruct (step_of_or x steps) as [(s & Hs)|N].
    + destruct (I x s Hs) as (r & _ & _ & Ee). rewrite E in Ee. injection Ee as ->. apply step_of_elem in Hs as [Hin _]. exists s.
      split; [|split; [apply Hall, elem_of_app; by right|done]].
      unfold validate_ast in Hv. destruct (check_base _ _ _ _ _ (fa_cache f) a) as [[from a1]|e|] eqn:Eb; [|done|done]. cbn [obind fst snd] in Hv. inv_ok Hv.
      match type of Hv with context [from_ast _ _ _ _ ?x] => set (a' := x) in * end.
      destruct (from_ast digest from1 os from a') as [B0 st|es|] eqn:FA; [|done|done].
      assert (Est : st = steps). { destruct (ast_meta a1 !! "name"); [inv_ok Hv; inv_ok Hv; by injection Hv|by injection Hv]. } subst st.
      destruct (base_of_some digest from1 os from a' _ FA) as [st Hb]; [done|]. destruct (C13_step_chain _ _ _ _ _ _ _ _ Hb FA) as (Hl & X & _).
      eapply steps_generated; [exact Ho| |exact FA|exact Hin]. apply Forall_forall. intros c Hc. apply elem_of_list_lookup in Hc as [i Hi].
      destruct (steps !! i) as [y|] eqn:Ey.
      2:{ apply lookup_ge_None in Ey. apply lookup_lt_Some in Hi. rewrite <- Hl in Hi. lia. }
      destruct (X i y Ey) as [Hy _]. rewrite Hi in Hy. injection Hy as ->. destruct (Hall y) as [_ _ [? _]]; [|done]. apply elem_of_app. right. by eapply elem_of_list_lookup_2.
    + destruct (O x N) as [_ E']. rewrite E', Ec in E. apply (IH ltac:(intros s Hs; apply Hall, elem_of_app; by left) x t E).
Qed.
Lemma used_base h f (os : nat -> order) k n : run h f -> (forall s, s ∈ all_steps h -> storable s) -> (forall i, order_ok (os i)) ->
  match fetch (fa_cache f) k with Ok B => is_Some (load (os n) B) | Err _ => True | Panic => False end.
Proof.
  intros R Hall Ho. destruct (entry (fa_cache f) NsBundles k) as [t|] eqn:E; rewrite fetch_entry, E; [|done].
  destruct (used_cache h f R Hall k t E) as (s & Hg & Hs & ->). unfold read_bundle, parse_text.
  rewrite Ht by apply (ss_depth _ _ _ _ Hs). rewrite (bundle_round said_ok digits lang_ok standard_read Hd _ (ss_bundle _ _ _ _ Hs)). apply generated_loads; [done|apply Hs|done].
Qed.
End History.
Lemma build_file_eq wide dig f1 t1 ls so dg lo sr tt ot hs os s f : facade_build_file wide dig f1 t1 ls so dg lo sr tt ot hs os s f =
  match parse_any wide so s with
  | Ok (TransformationAst _) => Err ["Deprecated"]
  | Ok (SemanticsAst _) => let! a := parse_ocafile wide so s in build_ast dig f1 t1 ls so dg lo sr tt ot hs os a f
  | Err e => Err e
  | Panic => Panic
  end.
Proof. reflexivity. Qed.
(** Building any text into a facade with any history of validations and builds aborts only if the text has a backslash between
    braces, or no command (but a FROM), or a command of the aborting kinds. *)
Theorem C49_history_builds : forall wide digest from1 to1 listing said_ok digits lang_ok standard_read to_text of_text hash os s h f,
  listing_ok listing -> Spec_Dag.codes_ok from1 to1 -> (forall t, short (hash t)) -> plain_digest digest -> (forall s, said_ok s = true -> short s) ->
  (forall j, said_ok (digest j) = true) -> text_ok to_text of_text -> digits_class digits -> (forall i, order_ok (os i)) ->
  used digest from1 to1 listing said_ok digits lang_ok standard_read to_text of_text hash h f ->
  (forall x, x ∈ concat (map snd h) -> step_storable said_ok digits lang_ok x) ->
  (forall a g B steps, parse_ocafile wide said_ok s = Ok a -> validate_ast digest from1 said_ok digits lang_ok standard_read of_text os a f = Ok (g, (B, steps)) ->
     no_clash digest (map fst h ++ [B])) ->
  facade_build_file wide digest from1 to1 listing said_ok digits lang_ok standard_read to_text of_text hash os s f = Panic ->
  backslash_in_braces s \/ exists a, parse_ocafile wide said_ok s = Ok a /\
    (ast_commands a = [] \/ (exists k, ast_commands a = [from_cmd (RSaid k)]) \/ exists c, c ∈ ast_commands a /\ aborting from1 false c).
Proof.
  intros wide dig f1 t1 ls so dg lo sr tt ot hs os s h f Hl Hc Hh Hp Hk Hj Ht Hd Ho R Hall Hn E. rewrite build_file_eq in E.
  pose proof (C49_any_file_reads wide so s) as P. generalize dependent (parse_any wide so s). intros pa E P.
  destruct P as [(a & -> & _)|[(a & -> & Ha)|[(es & ->)|(-> & _ & Hb)]]]; [discriminate E| |discriminate E|by left].
  rewrite Ha in E. cbn [obind] in E. right. exists a. split; [done|].
  pose proof (C46_file_build_succeeds dig f1 t1 ls so dg lo sr tt ot hs (map fst h) f os a Hl Hc Hh Hp Hk (used_files _ _ _ _ _ _ _ _ _ _ _ _ _ R)) as T.
  destruct (validate_ast dig f1 so dg lo sr ot os a f) as [[g [B steps]]|e|] eqn:Ev.
  - destruct (T (Hn a g B steps Ha Ev)) as (g' & T'). rewrite T' in E. discriminate E.
  - rewrite T in E. discriminate E.
  - eapply (C48_validate_ends dig f1 dg lo sr ot os wide so s a f Ho Ha); [| |exact Ev].
    + intros n v Hv. destruct (used_refs _ _ _ _ _ _ _ _ _ _ _ _ _ R n v Hv) as [j ->]. apply Hj.
    + intros k _. apply (used_base dig f1 t1 ls so dg lo sr tt ot hs Ht Hd h f os k _ R Hall Ho).
Qed.
Print Assumptions C49_history_builds.

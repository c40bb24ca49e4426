(** C34, C35: transformation files, precompiler dispatch and facade bundles. *)
From Coq Require Import Lia.
From Verif Require Import Props_Bundle Props_Codec TFile Spec_TFile TDispatch TBuild_proofs TLayout Spec_OcaFile Spec_BundleCodec BundleCodec_proofs Props_BundleCodec Inj_digest Props_OcaFile Spec_Bundle.

(** ** C34: transformation files *)
(** Any file of comments, blank lines, metadata lines and RENAME or LINK commands, with any number of attribute pairs, any
    spelling of the keywords' case and any white space, is read as its commands in order - each with the table of its pairs,
    its line number and text - and its metadata. *)
Theorem C34_file : forall wide ls, Forall (tl_ok wide) ls ->
  parse_transformation wide (tfile_text ls) =
    Ok (TAst "1.0.0" (map fst (tl_commands 0 ls)) (zip (seq 0 (length (map snd (tl_commands 0 ls)))) (map snd (tl_commands 0 ls))) (tl_meta ls)).
Proof. exact parse_layout. Qed.
Print Assumptions C34_file.
(** The table of a list of pairs: its names are the names given, each once, in order of first appearance; each has the value
    given last. *)
Theorem C34_table : forall ps, map fst (table ps) = firsts (map fst ps) /\ NoDup (map fst (table ps)) /\ (forall k, imap_get k (table ps) = final_value k ps).
Proof. intros ps. split; [apply table_keys|]. split; [rewrite table_keys; apply firsts_nodup|]. apply table_get. Qed.
Print Assumptions C34_table.
Definition ex_tfile : list tline :=
  [TLComment "" " a mapping"; TLMeta "" (DMeta "" "precompiler" "" "" "transformation"); TLMeta "" (DMeta " " "source" "" " " "refs:EA"); TLMeta "" (DMeta "" "target" "" "" "EB");
   TLBlank " "; TLRename "RENAME" " " "ATTRIBUTE" [RPair " " "a" "" "" "b"; RPair " " "c" " " " " "d"; RPair "  " "a" "" "" "e"]; TLLink "Link" " " "attribute" [RPair " " "x-1" " " "" "y"]].
Lemma ex_tfile_ok : Forall (tl_ok no_wide) ex_tfile.
Proof.
  assert (W : forall v, v <> "" -> all_chars (char_c no_wide) v = true -> meta_value_ok no_wide v) by (intros; left; by split).
  repeat (apply Forall_cons; split); try apply Forall_nil; try done; cbn [tl_ok].
  - split; [done|]. repeat (split; [done|]). split; [by apply (bool_decide_unpack _)|by apply W].
  - split; [done|]. repeat (split; [done|]). split; [by apply (bool_decide_unpack _)|by apply W].
  - split; [done|]. repeat (split; [done|]). split; [by apply (bool_decide_unpack _)|by apply W].
  - repeat (split; [done|]). repeat (apply Forall_cons; split); try apply Forall_nil; (repeat (split; [done|])); by repeat split.
  - repeat (split; [done|]). split; repeat (apply Forall_cons; split); try apply Forall_nil; try done.
Qed.
Example C34_file_example : Forall (tl_ok no_wide) ex_tfile /\ map fst (tl_commands 0 ex_tfile) =
  [TCommand TRename (ORename (Some [("a", "e"); ("c", "d")])); TCommand TLink (OLink (Some [("x-1", "y")]))].
Proof. split; [exact ex_tfile_ok|]. vm_compute. reflexivity. Qed.

(** ** C34: the build *)
(** With no metadata and some command, or with [source] and [target] in the metadata, the build gives the table of all pairs
    stated by all commands together, the source and target without their ["refs:"] tags, and a SAID over exactly that; in
    every other case it panics.  It never returns an error. *)
Theorem C34_build : forall digest a,
  match ta_meta a !! "source", ta_meta a !! "target" with
  | Some s, Some t => exists T s' t', transformation_from_ast digest a = Ok T /\ tr_source T = Some s' /\ tr_target T = Some t' /\
      removed "refs:" s s' /\ removed "refs:" t t' /\
      tr_attrs T = table (concat (map stated (ta_commands a))) /\ tr_said T = Some (digest (transformation_json_d (JStr dummy_said) T))
  | _, _ =>
      if bool_decide (ta_meta a = ∅ /\ ta_commands a <> []) then
        exists T, transformation_from_ast digest a = Ok T /\ tr_source T = None /\ tr_target T = None /\
          tr_attrs T = table (concat (map stated (ta_commands a))) /\ tr_said T = Some (digest (transformation_json_d (JStr dummy_said) T))
      else transformation_from_ast digest a = Panic
  end.
Proof.
  intros digest a. unfold transformation_from_ast. assert (P : "refs:" <> "") by done.
  assert (N : ta_meta a = ∅ -> ta_meta a !! "source" = None) by (intros ->; apply lookup_empty).
  assert (R : forall s, removed "refs:" s (remove_all "refs:" s)) by (intros s; apply removed_n; [done|lia]).
  destruct (ta_meta a !! "source") as [s|] eqn:Es.
  - rewrite bool_decide_false by (intros X; apply N in X; discriminate X). destruct (ta_meta a !! "target") as [t|] eqn:Et.
    + cbn [obind]. rewrite tapply_loop. cbn [tr_said tr_source tr_target tr_attrs]. rewrite table_fold. eexists _, _, _. split; [reflexivity|]. cbn [tr_fill tr_source tr_target tr_attrs tr_said]. split_and!; done.
    + rewrite bool_decide_false by (intros [X _]; apply N in X; discriminate X). done.
  - destruct (decide (ta_meta a = ∅)) as [E|E].
    + rewrite (bool_decide_true (ta_meta a = ∅)) by done. cbn [obind]. destruct (ta_commands a) as [|c cs] eqn:Ec.
      * rewrite bool_decide_false by tauto. done.
      * rewrite bool_decide_true by done. rewrite tapply_none by done. rewrite tapply_loop. cbn [tr_said tr_source tr_target tr_attrs transformation_new]. rewrite table_fold.
        eexists. split; [reflexivity|]. cbn [tr_fill tr_source tr_target tr_attrs tr_said]. split_and!; done.
    + rewrite (bool_decide_false (ta_meta a = ∅)) by done. rewrite bool_decide_false by tauto. done.
Qed.
Print Assumptions C34_build.
(** What is left of a text after removal is determined. *)
Theorem C34_removed_unique : forall pat s u v, removed pat s u -> removed pat s v -> u = v.
Proof. exact removed_fun. Qed.
Print Assumptions C34_removed_unique.
Example C34_build_example : exists a, parse_transformation no_wide (tfile_text ex_tfile) = Ok a /\
  exists T, transformation_from_ast inj_digest a = Ok T /\ tr_source T = Some "EA" /\ tr_target T = Some "EB" /\ tr_attrs T = [("a", "e"); ("c", "d"); ("x-1", "y")].
Proof.
  eexists. split; [apply C34_file, ex_tfile_ok|]. eexists. split; [vm_compute; reflexivity|]. split_and!; vm_compute; reflexivity.
Qed.
(** Where a text names no tag it is taken as it is, and a leading tag is dropped. *)
Theorem C34_tag_dropped : forall s, free_of "refs:" s -> removed "refs:" s s /\ removed "refs:" ("refs:" +:+ s) s.
Proof.
  intros s H. split; [by apply removed_none|]. apply (removed_first "refs:" "" s s); [intros; cbn; lia|by apply removed_none].
Qed.
Print Assumptions C34_tag_dropped.
(** The SAID of a transformation covers everything in it, unless the texts hashed for these two collide. *)
Theorem C34_said_covers : forall digest a b A B,
  transformation_from_ast digest a = Ok A -> transformation_from_ast digest b = Ok B ->
  (let x := transformation_json_d (JStr dummy_said) A in let y := transformation_json_d (JStr dummy_said) B in digest x = digest y -> x = y) ->
  tr_said A = tr_said B -> A = B.
Proof.
  intros digest a b A B HA HB Hd E. cbv zeta in Hd.
  assert (S : forall a A, transformation_from_ast digest a = Ok A -> tr_said A = Some (digest (transformation_json_d (JStr dummy_said) A))).
  { intros x X HX. pose proof (C34_build digest x) as H. rewrite HX in H. destruct (ta_meta x !! "source"); [destruct (ta_meta x !! "target")|].
    - destruct H as (T & s' & t' & HT & _ & _ & _ & _ & _ & Hs). injection HT as <-. exact Hs.
    - destruct (bool_decide _); [|discriminate H]. destruct H as (T & HT & _ & _ & _ & Hs). injection HT as <-. exact Hs.
    - destruct (bool_decide _); [|discriminate H]. destruct H as (T & HT & _ & _ & _ & Hs). injection HT as <-. exact Hs. }
  pose proof E as E'. rewrite (S _ _ HA), (S _ _ HB) in E'. injection E' as E'. apply Hd in E'. apply transformation_json_inj in E' as (_ & E1 & E2 & E3).
  destruct A, B; cbn in *; by subst.
Qed.
Print Assumptions C34_said_covers.
(** Equal metadata and tables: equal results; nothing else of the file, such as line numbers or the way pairs are split over
    commands, matters. *)
Theorem C34_only_content_counts : forall digest a b, ta_meta a = ta_meta b -> (ta_commands a = [] <-> ta_commands b = []) ->
  table (concat (map stated (ta_commands a))) = table (concat (map stated (ta_commands b))) -> transformation_from_ast digest a = transformation_from_ast digest b.
Proof.
  intros digest a b Hm Hc Ht. unfold transformation_from_ast. rewrite <- Hm.
  set (base := if bool_decide (ta_meta a = ∅) then _ else _). destruct base as [[T|]| |] eqn:E; [| |done|done].
  - assert (X : tr_attrs T = []). { unfold base in E. destruct (bool_decide _); [done|]. destruct (ta_meta a !! "source"); [|done]. destruct (ta_meta a !! "target"); [|done]. by injection E as <-. }
    cbn [obind]. rewrite !tapply_loop, X, !table_fold. by rewrite Ht.
  - cbn [obind]. destruct (ta_commands a) as [|c cs] eqn:Ea.
    + by rewrite (proj1 Hc eq_refl).
    + assert (Hb : ta_commands b <> []) by (intros Hb; by apply Hc in Hb). rewrite !tapply_none by done. rewrite !tapply_loop. cbn [transformation_new tr_attrs]. rewrite !table_fold. by rewrite Ht.
Qed.
Print Assumptions C34_only_content_counts.
(** Finding: a LINK and a RENAME with the same pairs build the same transformation, with the same SAID. *)
Theorem C34_link_is_rename_refuted : forall digest v m l, l <> [] ->
  transformation_from_ast digest (TAst v [TCommand TLink (OLink (Some l))] [] m) = transformation_from_ast digest (TAst v [TCommand TRename (ORename (Some l))] [] m).
Proof. intros digest v m l _. by apply C34_only_content_counts. Qed.
Print Assumptions C34_link_is_rename_refuted.
(** Finding: a tag anywhere in the text is removed, not only at its start. *)
Theorem C34_tag_inside_refuted : exists T, transformation_from_ast inj_digest (TAst "1.0.0" [] [] {[ "source" := "EArefs:B"; "target" := "refs:ErefsX" ]}) = Ok T /\
  tr_source T = Some "EAB" /\ tr_target T = Some "ErefsX".
Proof. eexists. split; [vm_compute; reflexivity|]. split; vm_compute; reflexivity. Qed.
Print Assumptions C34_tag_inside_refuted.

(** JSON of built transformations and of commands is read back as it was. *)
Theorem C34_json_round_trip : forall digest said_ok a T, transformation_from_ast digest a = Ok T -> (forall s, tr_said T = Some s -> said_ok s = true) ->
  transformation_parse said_ok (transformation_json T) = Ok T.
Proof.
  intros digest so a T H Hs. apply transformation_round; [done|]. pose proof (C34_build digest a) as X. rewrite H in X.
  assert (E : tr_attrs T = table (concat (map stated (ta_commands a)))).
  { destruct (ta_meta a !! "source"); [destruct (ta_meta a !! "target")|].
    - destruct X as (T' & s' & t' & HT & _ & _ & _ & _ & Hs' & _). injection HT as <-. exact Hs'.
    - destruct (bool_decide _); [|discriminate X]. destruct X as (T' & HT & _ & _ & Hs' & _). injection HT as <-. exact Hs'.
    - destruct (bool_decide _); [|discriminate X]. destruct X as (T' & HT & _ & _ & Hs' & _). injection HT as <-. exact Hs'. }
  rewrite E, table_keys. apply firsts_nodup.
Qed.
Print Assumptions C34_json_round_trip.
Definition obj_attrs (o : tobj) : option (imap string) := match o with ORename l => l | OLink l => l end.
Theorem C34_command_json_round_trip : forall c, (forall l, obj_attrs (tc_obj c) = Some l -> NoDup (map fst l)) -> tcommand_parse (tcommand_json c) = Ok c.
Proof.
  intros [k o] H. unfold tcommand_json, tcommand_parse. cbn [tc_kind tc_obj].
  destruct o as [[l|]|[l|]]; cbn [tobj_json tcommand_fields]; cbn [String.eqb Ascii.eqb Bool.eqb];
    (assert (K : tkind_parse (JStr (tkind_name k)) = Ok k) by (by destruct k)); rewrite K; cbn [obind str_parse tcommand_fields String.eqb Ascii.eqb Bool.eqb]; try reflexivity.
  - rewrite tcontent_round by (by apply H). reflexivity.
  - rewrite tcontent_round by (by apply H). reflexivity.
Qed.
Print Assumptions C34_command_json_round_trip.
Theorem C34_byte_codec : forall o n, (tobj_of_byte (tobj_byte o) = Ok (match o with ORename _ => ORename None | OLink _ => OLink None end)) /\
  (1 < n -> tobj_of_byte n = Panic) /\ tobj_byte o < 2.
Proof. intros o n. split; [by destruct o|]. split; [|destruct o; cbn; lia]. intros H. destruct n as [|[|n]]; [lia|lia|done]. Qed.
Print Assumptions C34_byte_codec.
(** Findings about the files: FROM is in the grammar but not understood; without white space before the arrow the name takes
    the dash; a comment within a continued command is an error; no text can be generated. *)
Theorem C34_from_refuted : parse_transformation no_wide ("FROM EA" +:+ NL) = Err ["unexpected token"].
Proof. vm_compute. reflexivity. Qed.
Print Assumptions C34_from_refuted.
Theorem C34_arrow_refuted : is_err (parse_transformation no_wide ("LINK ATTRIBUTE a->b" +:+ NL)) = true /\ is_ok (parse_transformation no_wide ("LINK ATTRIBUTE a ->b" +:+ NL)) = true.
Proof. vm_compute. split; reflexivity. Qed.
Print Assumptions C34_arrow_refuted.
Theorem C34_comment_in_continuation_refuted : parse_transformation no_wide (cont "RENAME ATTRIBUTE a=b " (" # note" +:+ NL +:+ " c=d" +:+ NL)) = Err ["Missing attribute name"].
Proof. vm_compute. reflexivity. Qed.
Print Assumptions C34_comment_in_continuation_refuted.
Theorem C34_generate_refuted : forall a, ta_commands a <> [] -> generate_transformation a = Panic.
Proof. intros a H. unfold generate_transformation. by destruct (ta_commands a). Qed.
Print Assumptions C34_generate_refuted.

(** ** C35: which parser reads a file *)
(** The metadata of a file decides: the value given last to [precompiler].  Only ["transformation"] selects the transformation
    parser; without one, or with ["semantics"], the file is read by the semantics parser; anything else is an error. *)
Theorem C35_dispatch : forall wide said_ok t l, file_ok wide t l ->
  let text := (t +:+ metas_text l)%string in
  match last_value "precompiler" l with
  | None => parse_any wide said_ok text = (let! a := parse_ocafile wide said_ok text in Ok (SemanticsAst a))
  | Some v =>
    if String.eqb v "semantics" then parse_any wide said_ok text = (let! a := parse_ocafile wide said_ok text in Ok (SemanticsAst a))
    else if String.eqb v "transformation" then parse_any wide said_ok text = (let! a := parse_transformation wide text in Ok (TransformationAst a))
    else parse_any wide said_ok text = Err ["unknown precompiler"]
  end.
Proof.
  intros wide so t l H text. destruct (last_value "precompiler" l) as [v|] eqn:E.
  - destruct (String.eqb v "semantics") eqn:E1; [apply String.eqb_eq in E1 as ->|destruct (String.eqb v "transformation") eqn:E2; [apply String.eqb_eq in E2 as ->|]].
    + unfold parse_any. unfold text at 1. rewrite (dispatch_file wide t l H), E. reflexivity.
    + unfold parse_any. unfold text at 1. rewrite (dispatch_file wide t l H), E. reflexivity.
    + unfold parse_any. unfold text at 1. rewrite (dispatch_file wide t l H), E. cbn [obind]. by rewrite E1, E2.
  - unfold parse_any. unfold text at 1. rewrite (dispatch_file wide t l H), E. reflexivity.
Qed.
Print Assumptions C35_dispatch.
(** A text with no ["--"] outside comments goes to the semantics parser, whatever it holds. *)
Theorem C35_plain_text : forall wide said_ok t, no_meta t -> parse_any wide said_ok t = (let! a := parse_ocafile wide said_ok t in Ok (SemanticsAst a)).
Proof. intros wide so t H. pose proof (C35_dispatch wide so t [] H) as D. cbn [metas_text] in D. by rewrite Condition_proofs.append_nil_r in D. Qed.
Print Assumptions C35_plain_text.
Definition pre (v : string) : dmeta := DMeta "" "precompiler" "" "" v.
Example C35_dispatch_example : file_ok no_wide ("# a -- b" +:+ NL) [(pre "semantics", NL); (DMeta " " "name" " " " " "x", NL); (pre "transformation", (NL +:+ "RENAME ATTRIBUTE a=b" +:+ NL)%string)] /\
  no_meta ("ADD ATTRIBUTE a=Text # --x" +:+ NL +:+ "ADD LABEL en ATTRS a=" +:+ Q +:+ "a-b" +:+ Q +:+ NL) /\ is_ok (parse_any no_wide any_said ("# a -- b" +:+ NL +:+ "--precompiler=transformation" +:+ NL +:+ "RENAME ATTRIBUTE a=b" +:+ NL)) = true.
Proof.
  assert (W : forall m, dm_key m ∈ meta_keys -> all_chars ws_c (dm_sep m) = true -> all_chars ws_c (dm_eq1 m) = true -> all_chars ws_c (dm_eq2 m) = true -> word_ok no_wide (dm_value m) -> dm_ok no_wide m)
    by (intros m H1 H2 H3 H4 H5; repeat (split; [done|]); by left).
  split; [|split].
  - split; [vm_compute; reflexivity|]. split; [apply W; try done; by apply (bool_decide_unpack _)|]. split; [done|]. split; [done|]. split; [vm_compute; reflexivity|].
    split; [apply W; try done; by apply (bool_decide_unpack _)|]. split; [done|]. split; [done|]. split; [vm_compute; reflexivity|].
    split; [apply W; try done; by apply (bool_decide_unpack _)|]. split; [done|]. vm_compute. discriminate.
  - vm_compute. discriminate.
  - vm_compute. reflexivity.
Qed.
(** What the facade builds: the semantics files, exactly as their AST; a transformation file and a file with an unknown
    precompiler never. *)
Theorem C35_build_from_text : forall wide said_ok digest from1 os t l, file_ok wide t l ->
  let text := (t +:+ metas_text l)%string in
  match last_value "precompiler" l with
  | None | Some "semantics" => build_from_ocafile wide said_ok digest from1 os text =
      match parse_ocafile wide said_ok text with
      | Ok a => match from_ast digest from1 os None a with BuildOk B _ => Ok B | BuildErr es => Err (map be_msg es) | BuildPanic => Panic end
      | Err e => Err e
      | Panic => Panic
      end
  | Some _ => is_ok (build_from_ocafile wide said_ok digest from1 os text) = false
  end.
Proof.
  intros wide so digest from1 os t l H text. pose proof (C35_dispatch wide so t l H) as D. fold text in D. unfold build_from_ocafile.
  assert (S : parse_any wide so text = (let! a := parse_ocafile wide so text in Ok (SemanticsAst a)) -> match parse_any wide so text with
    | Ok (TransformationAst _) => Err ["Deprecated"]
    | Ok (SemanticsAst a) => match from_ast digest from1 os None a with BuildOk B _ => Ok B | BuildErr es => Err (map be_msg es) | BuildPanic => Panic end
    | Err e => Err e | Panic => Panic end = match parse_ocafile wide so text with
      | Ok a => match from_ast digest from1 os None a with BuildOk B _ => Ok B | BuildErr es => Err (map be_msg es) | BuildPanic => Panic end
      | Err e => Err e
      | Panic => Panic
      end) by (intros ->; by destruct (parse_ocafile wide so text)).
  destruct (last_value "precompiler" l) as [v|]; [|by apply S].
  destruct (String.eqb v "semantics") eqn:E1; [apply String.eqb_eq in E1 as ->; by apply S|].
  assert (N : is_ok match parse_any wide so text with
    | Ok (TransformationAst _) => Err ["Deprecated"]
    | Ok (SemanticsAst a) => match from_ast digest from1 os None a with BuildOk B _ => Ok B | BuildErr es => Err (map be_msg es) | BuildPanic => Panic end
    | Err e => Err e | Panic => Panic end = false).
  { destruct (String.eqb v "transformation"); rewrite D; [|done]. by destruct (parse_transformation wide text). }
  clear -E1 N. repeat (match goal with |- match ?x with _ => _ end => is_var x; destruct x end; try exact N). cbn in E1. discriminate E1.
Qed.
Print Assumptions C35_build_from_text.
(** The facade's method: the semantics files are built and stored from their AST; nothing is built or stored from the others. *)
Theorem C35_facade_build : forall wide digest from1 to1 listing said_ok digits lang_ok standard_read to_text of_text hash os t l f, file_ok wide t l ->
  let text := (t +:+ metas_text l)%string in
  let build := facade_build_file wide digest from1 to1 listing said_ok digits lang_ok standard_read to_text of_text hash os text f in
  if bool_decide (last_value "precompiler" l = None \/ last_value "precompiler" l = Some "semantics") then
    build = (let! a := parse_ocafile wide said_ok text in build_ast digest from1 to1 listing said_ok digits lang_ok standard_read to_text of_text hash os a f)
  else is_ok build = false.
Proof.
  intros wide digest from1 to1 listing so digits lang_ok sr to_text of_text hash os t l f H text build.
  pose proof (C35_dispatch wide so t l H) as D. fold text in D. unfold build, facade_build_file. clear build.
  destruct (last_value "precompiler" l) as [v|].
  - destruct (String.eqb v "semantics") eqn:E1.
    + apply String.eqb_eq in E1 as ->. rewrite bool_decide_true by auto. rewrite D. by destruct (parse_ocafile wide so text).
    + rewrite bool_decide_false by (intros [X|[= ->]]; [discriminate X|discriminate E1]). destruct (String.eqb v "transformation"); rewrite D; [|done]. by destruct (parse_transformation wide text).
  - rewrite bool_decide_true by auto. rewrite D. by destruct (parse_ocafile wide so text).
Qed.
Print Assumptions C35_facade_build.
(** Findings. A value with ["--"] in it - in a label, or in an identifier - stops the file from being read, although the
    semantics parser takes it; and a value can switch the parser; and a quoted precompiler is unknown. *)
Theorem C35_dashes_refuted : let text := ("ADD ATTRIBUTE a=Text" +:+ NL +:+ "ADD LABEL en ATTRS a=" +:+ dq "x -- y" +:+ NL)%string in
  is_ok (parse_ocafile no_wide any_said text) = true /\ parse_any no_wide any_said text = Err ["key is empty"].
Proof. vm_compute. split; reflexivity. Qed.
Print Assumptions C35_dashes_refuted.
Theorem C35_said_dashes_refuted : let text := ("ADD ATTRIBUTE a=refs:EAb--cd" +:+ NL)%string in
  is_ok (parse_ocafile no_wide any_said text) = true /\ parse_any no_wide any_said text = Err ["key is empty"].
Proof. vm_compute. split; reflexivity. Qed.
Print Assumptions C35_said_dashes_refuted.
Theorem C35_value_switches_parser_refuted : let text := ("ADD ATTRIBUTE a=Text" +:+ NL +:+ "ADD LABEL en ATTRS a=" +:+ dq "set --precompiler=none here" +:+ NL)%string in
  is_ok (parse_ocafile no_wide any_said text) = true /\ parse_any no_wide any_said text = Err ["unknown precompiler"].
Proof. vm_compute. split; reflexivity. Qed.
Print Assumptions C35_value_switches_parser_refuted.
Theorem C35_quoted_precompiler_refuted : parse_any no_wide any_said ("--precompiler=" +:+ dq "transformation" +:+ NL) = Err ["unknown precompiler"].
Proof. vm_compute. reflexivity. Qed.
Print Assumptions C35_quoted_precompiler_refuted.

(** ** C35: facade bundles *)
(** Whatever is added in whatever order, the bundle holds the structural part added last and all transformations in order. *)
Theorem C35_collect : forall es, fold_left fb_add es fbundle_new = FBundle None (last (structurals es)) (transformings es).
Proof.
  intros es. unfold structurals, transformings. induction es as [|e es IH] using rev_ind; [done|]. rewrite fold_left_app, IH, !omap_app. destruct e; cbn [fold_left fb_add fb_said fb_structural fb_transformations omap list_omap].
  - by rewrite last_snoc, app_nil_r.
  - by rewrite app_nil_r.
Qed.
Print Assumptions C35_collect.
(** Only a bundle with a structural part can be written; the text carries the SAID [fill_said] computes. *)
Theorem C35_encode : forall digest b,
  match fb_structural b with
  | None => fb_encode digest b = Panic
  | Some _ => fb_encode digest b = Ok (fbundle_json (fb_fill digest b)) /\ fb_said (fb_fill digest b) = Some (digest (fbundle_json_d (JStr dummy_said) (fb_fill digest b)))
  end.
Proof. intros digest b. unfold fb_encode. destruct (fb_structural b) as [s|] eqn:E; [|done]. split; reflexivity. Qed.
Print Assumptions C35_encode.
(** The SAID covers the structural part's JSON and every transformation, unless the texts hashed for these two collide. *)
Theorem C35_said_covers : forall digest b c,
  (let x := fbundle_json_d (JStr dummy_said) b in let y := fbundle_json_d (JStr dummy_said) c in digest x = digest y -> x = y) ->
  fb_said (fb_fill digest b) = fb_said (fb_fill digest c) ->
  fb_transformations b = fb_transformations c /\
  (fb_structural b = None /\ fb_structural c = None \/ exists B C, fb_structural b = Some B /\ fb_structural c = Some C /\ bundle_json B = bundle_json C).
Proof.
  intros digest b c Hd E. cbv zeta in Hd. cbn in E. injection E as E. apply Hd in E. unfold fbundle_json_d in E.
  apply (f_equal (fun j => match j with JObj l => l | _ => [] end)) in E. apply cons_inj in E as [_ E]. apply cons_inj in E as [E1 E]. apply cons_inj in E as [E2 _].
  apply pair_inj in E1 as [_ E1]. apply pair_inj in E2 as [_ E2]. split.
  - apply (f_equal (fun j => match j with JArr l => l | _ => [] end)) in E2. revert E2. generalize (fb_transformations b) (fb_transformations c). induction l as [|x l IH]; intros [|y l'] E; try done.
    cbn [map] in E. apply cons_inj in E as [E0 E]. f_equal; [by apply transformation_eq|by apply IH].
  - destruct (fb_structural b) as [B|], (fb_structural c) as [C|]; [|discriminate E1|discriminate E1|by left]. right. eauto.
Qed.
Print Assumptions C35_said_covers.
(** Writing and loading: the same SAID, the same transformations, the same structural part. *)
Theorem C35_round_trip : forall said_ok digits lang_ok standard_read b, digits_class digits ->
  (forall s, fb_said b = Some s -> said_ok s = true) -> (forall B, fb_structural b = Some B -> bundle_readable said_ok digits lang_ok B /\ groups_sorted B) ->
  (forall t, t ∈ fb_transformations b -> NoDup (map fst (tr_attrs t)) /\ forall s, tr_said t = Some s -> said_ok s = true) ->
  exists b', fb_load said_ok digits lang_ok standard_read (fbundle_json b) = Ok b' /\ fbundle_json b' = fbundle_json b /\
    fb_said b' = fb_said b /\ fb_transformations b' = fb_transformations b.
Proof.
  intros so dg lo sr [d m ts] Hd Hs Hm Ht. cbn [fb_said fb_structural fb_transformations] in *.
  assert (T : list_parse (transformation_parse so) (map transformation_json ts) = Ok ts).
  { clear -Ht. induction ts as [|t ts IH]; [done|]. cbn [map list_parse]. destruct (Ht t) as [H1 H2]; [left|]. rewrite transformation_round by done. cbn [obind]. rewrite IH; [done|]. intros x Hx. apply Ht. by right. }
  assert (M : exists m', opt_parse (bundle_parse so dg lo sr) (Some (match m with Some s => bundle_json s | None => JNull end)) = Ok m' /\
    match m' with Some s => bundle_json s | None => JNull end = match m with Some s => bundle_json s | None => JNull end).
  { destruct m as [B|]; [|by exists None]. destruct (Hm B eq_refl) as [H1 H2]. destruct (C06_round_trip so dg lo sr B Hd H1 H2) as (B' & P & J & _). exists (Some B'). split; [|done].
    change (opt_parse (bundle_parse so dg lo sr) (Some (bundle_json B))) with (let! a := bundle_parse so dg lo sr (bundle_json B) in Ok (Some a)). by rewrite P. }
  destruct M as (m' & M1 & M2). exists (FBundle d m' ts). split; [|split; [|done]].
  - unfold fb_load, fbundle_json, fbundle_json_d, optional, required. cbn [fb_said fb_structural fb_transformations].
    assert (F : forall x y z : json, field "d" [("d", x); ("m", y); ("t", z)] = Ok (Some x) /\ field "m" [("d", x); ("m", y); ("t", z)] = Ok (Some y) /\
      field "t" [("d", x); ("m", y); ("t", z)] = Ok (Some z)) by done.
    destruct (F (jopt d) (match m with Some s => bundle_json s | None => JNull end) (JArr (map transformation_json ts))) as (F1 & F2 & F3). rewrite F1, F2, F3. cbn [obind].
    rewrite (jopt_round so d) by done. cbn [obind]. rewrite M1. cbn [obind]. rewrite T. reflexivity.
  - unfold fbundle_json, fbundle_json_d. cbn [fb_said fb_structural fb_transformations]. by rewrite M2.
Qed.
Print Assumptions C35_round_trip.
(** A bundle collected from the generated bundle of [C06_example] and the transformation of [C34_build_example]. *)
Example C35_bundle_example :
  match generate_bundle inj_digest ord1 (ex_read_box sorted_groups), transformation_from_ast inj_digest (TAst "1.0.0" (map fst (tl_commands 0 ex_tfile)) [] (tl_meta ex_tfile)) with
  | Some B, Ok T =>
    let b := fb_fill inj_digest (fold_left fb_add [Transforming T; Structural B; Transforming T] fbundle_new) in
    match fb_load ex_said_ok ascii_digits ex_lang_ok (fun _ => None) (fbundle_json b) with
    | Ok b' => String.eqb (inj_digest (fbundle_json b')) (inj_digest (fbundle_json b)) && (length (fb_transformations b') =? 2)%nat && (2 =? length (tr_attrs T) - 1)%nat
    | _ => false
    end
  | _, _ => false
  end = true.
Proof. vm_compute. reflexivity. Qed.

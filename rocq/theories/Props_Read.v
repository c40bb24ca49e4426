(** C48: reading any text, and building what was read. *)
From Verif Require Import Peg OcaGrammar OcaFile Spec_OcaFile Ast Bundle Spec_Bundle Build Spec_Build Spec_Read Facade Spec_Refs OcaShape OcaNoPanic OcaForms OcaBuilds
  Facade_proofs Load_proofs Run_proofs Props_Bundle Props_Build Props_Refs Props_From Props_OcaFile Props_History Inj_digest.

(** Whatever the text, reading it ends: with an AST, or with an error, or - only if the text has a backslash between braces -
    with a panic. *)
Theorem C48_reading_ends : forall wide said_ok s,
  (exists a, parse_ocafile wide said_ok s = Ok a) \/ (exists es, parse_ocafile wide said_ok s = Err es) \/ (parse_ocafile wide said_ok s = Panic /\ backslash_in_braces s).
Proof.
  intros wide so s. destruct (parse_ocafile wide so s) as [a|es|] eqn:E; [left; by eexists|right; left; by eexists|]. right. right. split; [done|].
  apply file_panic in E as (pre & body & post & -> & H). exists pre, body, post. split; [done|]. destruct (has_backslash body) eqn:Eb; [done|]. by apply has_backslash_clean in Eb.
Qed.
Print Assumptions C48_reading_ends.
Theorem C48_no_panic : forall wide said_ok s, has_backslash s = false -> parse_ocafile wide said_ok s <> Panic.
Proof.
  intros wide so s H E. apply file_panic in E as (pre & body & post & -> & Hb). apply Hb. apply has_backslash_clean in H. unfold PegShape.clean in *.
  rewrite !PegShape.all_chars_app, !andb_true_iff in H. tauto.
Qed.
Print Assumptions C48_no_panic.

(** Every command of a text that is read has one of the forms listed in Spec_Read; the metadata keys are the three known ones. *)
Theorem C48_commands : forall wide said_ok s a, parse_ocafile wide said_ok s = Ok a ->
  Forall (readable (has_backslash s) said_ok) (ast_commands a) /\ metadata_form (ast_meta a).
Proof. exact file_form. Qed.
Print Assumptions C48_commands.

(** Building it ends with a bundle or errors, unless there is no command or one of the aborting kinds. *)
Theorem C48_build_ends : forall digest from1 os wide said_ok s a from, (forall i, order_ok (os i)) -> parse_ocafile wide said_ok s = Ok a ->
  (forall B, from = Some B -> is_Some (load (os (S (length (ast_commands a)))) B)) -> from_ast digest from1 os from a = BuildPanic ->
  (from = None /\ ast_commands a = []) \/ exists c, c ∈ ast_commands a /\ aborting from1 true c.
Proof.
  intros dig f1 os wide so s a from Ho Hp Hf E. apply file_form in Hp as [Hr _].
  destruct (from_ast_aborts dig f1 os from a Ho) as [H|(c & b & Hin & Hb & Hc)]; [eapply Forall_impl; [exact Hr|intros c; apply readable_ok]|done|done|by left|].
  right. exists c. split; [done|]. rewrite Forall_forall in Hr. by eapply readable_aborts; [exact Hb|apply Hr|].
Qed.
Print Assumptions C48_build_ends.

(** The same for the facade, where names are resolved first: the names must lead to SAIDs (C25), the base to a bundle that loads. *)
Theorem C48_validate_ends : forall digest from1 digits lang_ok standard_read of_text os wide said_ok s a f, (forall i, order_ok (os i)) -> parse_ocafile wide said_ok s = Ok a ->
  (forall n v, find_ref (fa_db f) n = Some v -> said_ok v = true) ->
  (forall k, ast_commands a !! 0 = Some (from_cmd (RSaid k)) ->
     match get_bundle said_ok digits lang_ok standard_read of_text (fa_cache f) k with Ok B => is_Some (load (os (length (ast_commands a))) B) | Err _ => True | Panic => False end) ->
  validate_ast digest from1 said_ok digits lang_ok standard_read of_text os a f = Panic ->
  ast_commands a = [] \/ (exists k, ast_commands a = [from_cmd (RSaid k)]) \/ exists c, c ∈ ast_commands a /\ aborting from1 false c.
Proof.
  intros dig f1 dg lo sr ot os wide so s a f Ho Hp Hn Hb E. apply file_form in Hp as [Hr _].
  assert (Rest : forall from a1, Forall (readable (has_backslash s) so) (ast_commands a1) -> (forall B, from = Some B -> is_Some (load (os (S (length (ast_commands a1)))) B)) ->
    match resolve so (find_ref (fa_db f)) (ast_commands a1) with
    | Ok cs => match from_ast dig f1 os from (Ast (ast_version a1) cs (ast_cmeta a1) (ast_meta a1)) with
      | BuildOk B steps => match ast_meta a1 !! "name" with
        | Some n => let! s := unwrap_some (b_said B) in let! d := Storage.mem_insert Storage.NsReferences n s (fa_db f) in Ok (with_db d f, (B, steps))
        | None => Ok (f, (B, steps))
        end
      | BuildErr es => Err (map be_msg es)
      | BuildPanic => Panic
      end
    | Err es => Err es
    | Panic => Panic
    end = Panic -> ast_commands a1 = [] \/ exists c, c ∈ ast_commands a1 /\ aborting f1 false c).
  { clear E Hr Hb. intros from a1 Hr Hf E. destruct (resolve so (find_ref (fa_db f)) (ast_commands a1)) as [cs|es|] eqn:Er; [|done|].
    - destruct (resolve_list f1 so _ _ _ Hr cs Er) as (H1 & H2 & H3).
      destruct (from_ast dig f1 os from _) as [B steps|es|] eqn:Ef; [|done|].
      + exfalso. destruct (from_ast_said _ _ _ _ _ _ _ Ef) as [j Hj]. destruct (ast_meta a1 !! "name") as [n|]; [|done]. rewrite Hj in E. cbn [unwrap_some obind] in E.
        unfold Storage.mem_insert in E. done.
      + apply from_ast_aborts in Ef; [|done|exact H2|].
        * destruct Ef as [[_ Ef]|(c' & b & Hin & Hbn & Hp)]; [left; by apply H1|right]. by eapply H3.
        * cbn [ast_commands]. assert (L : length cs = length (ast_commands a1)); [|by rewrite L].
          clear -Er. revert cs Er. generalize (ast_commands a1). intros l. induction l as [|c l IH]; intros cs Er; cbn [resolve] in Er; [by injection Er as <-|].
          destruct (resolve_cmd _ _ c); cbn [obind] in Er; [|done|done]. destruct (resolve _ _ l) as [r| |]; cbn [obind] in Er; [|done|done]. injection Er as <-. cbn. f_equal. by apply IH.
    - exfalso. destruct (list_cases so (find_ref (fa_db f)) Hn (ast_commands a1)) as [(cs & Er' & _)|L]; [rewrite Er' in Er; done|].
      destruct L as (n & L). repeat match goal with L : exists _, _ |- _ => destruct L as [? L] end. repeat match goal with L : _ /\ _ |- _ => destruct L as [? L] end. congruence. }
  unfold validate_ast in E. destruct (check_base so dg lo sr ot (fa_cache f) a) as [[from a1]| |] eqn:Ec; cbn [obind fst snd] in E; [|done|].
  - assert (Same : from = None -> a1 = a -> ast_commands a = [] \/ (exists k, ast_commands a = [from_cmd (RSaid k)]) \/ exists c, c ∈ ast_commands a /\ aborting f1 false c).
    { intros -> ->. destruct (Rest None a Hr ltac:(done) E) as [H|H]; [by left|right; by right]. }
    unfold check_base in Ec. destruct (ast_commands a) as [|c rest] eqn:Ea; [by left|].
    destruct c as [[] ob]; try (injection Ec as <- <-; by apply Same). destruct ob as [cc|[r]|t ct]; try (injection Ec as <- <-; by apply Same).
    destruct r as [k|n]; [|done]. specialize (Hb k eq_refl). inversion Hr as [|? ? _ Hr']; subst.
    assert (Tail : forall fr, (forall B, fr = Some B -> is_Some (load (os (S (length rest))) B)) -> from = fr -> a1 = Ast (ast_version a) rest (ast_cmeta a) (ast_meta a) ->
      Command CFrom (OBundle (BundleContent (RSaid k))) :: rest = [] \/ (exists k0, Command CFrom (OBundle (BundleContent (RSaid k))) :: rest = [from_cmd (RSaid k0)]) \/
      exists c, c ∈ Command CFrom (OBundle (BundleContent (RSaid k))) :: rest /\ aborting f1 false c).
    { intros fr Hl Hfr Ha1. rewrite Hfr, Ha1 in E. destruct (Rest fr (Ast (ast_version a) rest (ast_cmeta a) (ast_meta a)) Hr' Hl E) as [H|(c & Hc & H)]; cbn [ast_commands] in *.
      - right. left. exists k. by rewrite H.
      - right. right. exists c. split; [by apply elem_of_list_further|done]. }
    destruct (get_bundle so dg lo sr ot (fa_cache f) k) as [B|es|]; [| |done]; injection Ec as <- <-; (eapply Tail; [|done|done]).
    + intros B' [= <-]. exact Hb.
    + done.
  - exfalso. unfold check_base in Ec. destruct (ast_commands a) as [|c rest] eqn:Ea; [done|]. destruct c as [[] ob]; try done. destruct ob as [cc|[r]|t ct]; try done.
    destruct r as [k|n].
    + specialize (Hb k eq_refl). destruct (get_bundle so dg lo sr ot (fa_cache f) k); done.
    + inversion Hr as [|? ? Hr' _]; subst. inversion Hr'.
Qed.
Print Assumptions C48_validate_ends.

(** Removals from overlays always abort the build, wherever they stand. *)
Theorem C48_overlay_removal_aborts : forall digest from1 os from a t ct, Command CRemove (OOverlay t ct) ∈ ast_commands a -> from_ast digest from1 os from a = BuildPanic.
Proof.
  intros dig f1 os from a t ct Hin.
  assert (G : forall st fr p, from_ast_base dig f1 os st fr p a = BuildPanic).
  { intros st fr p. unfold from_ast_base. destruct (build_loop _ _ _ _ _ _ _ _ _ _) as [x|] eqn:E; [|done]. exfalso. apply loop_spec in E as [H _].
    clear -Hin H. revert st H. induction (ast_commands a) as [|c cs IH]; intros st H; [by apply elem_of_nil in Hin|]. cbn [outcomes] in H. inversion H as [|? ? H1 H2]; subst.
    apply elem_of_cons in Hin as [<-|Hin]; [discriminate H1|]. by eapply IH. }
  destruct from as [B|]; cbn [from_ast]; [|apply G]. destruct (load _ B); [apply G|done].
Qed.
Print Assumptions C48_overlay_removal_aborts.

(** ** Concrete cases *)
(** A file with most forms of commands is read and builds. *)
Definition ex_read_text : string :=
  ("--name=person" +:+ NL +:+ "ADD ATTRIBUTE name=Text age=Numeric list=Array[Text]" +:+ NL +:+ "ADD CLASSIFICATION GICS:35102020" +:+ NL
   +:+ "ADD LABEL en ATTRS name=" +:+ dq "Name" +:+ NL +:+ "ADD META en PROPS title=" +:+ dq "Person" +:+ NL +:+ "ADD UNIT ATTRS age=years" +:+ NL +:+ "REMOVE ATTRIBUTE list" +:+ NL)%string.
Example C48_example : has_backslash ex_read_text = false /\ reads ex_read_text (fun a => length (ast_commands a) = 6) /\
  match parse_ocafile no_wide any_said ex_read_text with
  | Ok a => match from_ast ex_digest ex_from1 (fun _ => ord1) None a with BuildOk _ steps => length steps = 6 | _ => False end
  | _ => False
  end.
Proof. vm_compute. repeat split; reflexivity. Qed.
(** Findings: files that are read, and abort the build (or the reader itself). *)
Definition build_aborts (s : string) : Prop :=
  match parse_ocafile no_wide any_said s with Ok a => from_ast ex_digest ex_from1 (fun _ => ord1) None a = BuildPanic | _ => False end.
(** A region in the language tag, which the grammar allows. *)
Theorem C48_language_region_refuted : build_aborts ("ADD ATTRIBUTE a=Text" +:+ NL +:+ "ADD LABEL en-US ATTRS a=" +:+ dq "A" +:+ NL).
Proof. vm_compute. reflexivity. Qed.
Print Assumptions C48_language_region_refuted.
(** Only comments. *)
Theorem C48_empty_file_refuted : build_aborts ("# nothing yet" +:+ NL) /\ build_aborts "".
Proof. vm_compute. split; reflexivity. Qed.
Print Assumptions C48_empty_file_refuted.
(** REMOVE LABEL and REMOVE META. *)
Theorem C48_remove_label_refuted : build_aborts ("ADD ATTRIBUTE a=Text" +:+ NL +:+ "ADD LABEL en ATTRS a=" +:+ dq "A" +:+ NL +:+ "REMOVE LABEL en ATTRS a" +:+ NL).
Proof. vm_compute. reflexivity. Qed.
Print Assumptions C48_remove_label_refuted.
(** A link to a SAID that is not one: the target is dropped, and the build aborts. *)
Theorem C48_bad_link_refuted : match parse_ocafile no_wide (fun _ => false) ("ADD ATTRIBUTE a=Text" +:+ NL +:+ "ADD LINK refs:abc ATTRS a=" +:+ dq "b" +:+ NL) with
  | Ok a => from_ast ex_digest ex_from1 (fun _ => ord1) None a = BuildPanic | _ => False end.
Proof. vm_compute. reflexivity. Qed.
Print Assumptions C48_bad_link_refuted.
(** A property called lang replaces the language of the command. *)
Theorem C48_lang_property_refuted : reads ("ADD META en PROPS lang=" +:+ dq "de" +:+ " title=" +:+ dq "T" +:+ NL) (fun a =>
  exists ps, ast_commands a = [add_overlay_command KMeta [] ps] /\ imap_get "lang" ps = Some (VVal "de")).
Proof. vm_compute. eexists. split; reflexivity. Qed.
Print Assumptions C48_lang_property_refuted.
(** A comment between the frames of an attribute panics the reader. *)
Theorem C48_comment_in_frame_refuted : parse_ocafile no_wide any_said
  (cont "ADD ATTR_FRAMING " (cont ("id=" +:+ dq "f" +:+ " ") (cont "ATTRS " (cont "a={" ("# frames" +:+ NL +:+ dq "x" +:+ ": " +:+ dq "y" +:+ "}" +:+ NL))))) = Panic.
Proof. vm_compute. reflexivity. Qed.
Print Assumptions C48_comment_in_frame_refuted.
(** The hypotheses of C48_validate_ends hold of an empty facade and this file, whose validation aborts. *)
Example C48_validate_example : exists a, parse_ocafile no_wide any_said ("ADD ATTRIBUTE a=Text" +:+ NL +:+ "ADD LABEL en-US ATTRS a=" +:+ dq "A" +:+ NL) = Ok a /\
  (forall n v, find_ref (fa_db facade_new) n = Some v -> any_said v = true) /\ (forall k, ast_commands a !! 0 <> Some (from_cmd (RSaid k))) /\
  ex_validate (fun _ => ord1) a facade_new = Panic.
Proof.
  eexists. split; [vm_compute; reflexivity|]. split; [done|]. split; [intros k; vm_compute; intros H; discriminate H|vm_compute; reflexivity].
Qed.

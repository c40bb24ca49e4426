(** C36, C41, C42: the OCAfile language: attribute types, generated files, layout. *)
From Verif Require Import Spec_OcaFile OcaLayout AsRead Spec_Ast AstValidator_proofs Props_Ast Condition_proofs.

(** ** C36: attribute types *)
(** The text of a type alone: the grammar reads all of it, and it means the same type. *)
Theorem C36_type_rule : forall wide said_ok t s, type_ok wide said_ok t -> type_text t = Some s ->
  exists p, sparse wide R_attr_type s = PDone s [Pair R_attr_type s [p]] "" /\ extract_attr_type said_ok p = Ok t.
Proof.
  intros wide said_ok t s Ht E. rewrite (type_text_ty wide said_ok t Ht) in E. injection E as <-. exists (ty_tok t).
  split; [|by apply (extract_type wide)]. pose proof (t_type wide said_ok false t "" Ht I) as T. unfold Takes.takes in T. rewrite append_nil_r in T.
  exact (sparse_is wide R_attr_type _ _ T).
Qed.
Print Assumptions C36_type_rule.
(** In a command. *)
Theorem C36_type_in_command : forall wide said_ok n t s, name_ok n -> type_ok wide said_ok t -> type_text t = Some s ->
  parse_ocafile wide said_ok ("ADD ATTRIBUTE " +:+ n +:+ "=" +:+ s +:+ NL) =
  Ok (Ast "1.0.0" [Command CAdd (OCaptureBase (CapContent (Some [(n, t)]) None None))] [(0, CmdMeta 1 ("ADD ATTRIBUTE " +:+ n +:+ "=" +:+ s))] ∅).
Proof.
  intros wide said_ok n t s Hn Ht E. set (c := Command CAdd (OCaptureBase (CapContent (Some [(n, t)]) None None))).
  assert (Hc : printable wide said_ok c). { constructor. split; [done|]. split; [apply NoDup_singleton|]. by constructor. }
  assert (Et : command_text c = Some ("ADD ATTRIBUTE " +:+ n +:+ "=" +:+ s)%string).
  { cbn [command_text cmd_kind cmd_obj cc_attrs cc_props c types_text]. rewrite E. cbn [option_map opt_text]. by rewrite !append_nil_r. }
  pose proof (layout wide said_ok [FCmd c] [("ADD ATTRIBUTE " +:+ n +:+ "=" +:+ s)%string]) as H. unfold file_of, cat_map in H. cbn [map String.concat] in H.
  rewrite !append_assoc in H. rewrite H; [reflexivity|by constructor|by constructor].
Qed.
Print Assumptions C36_type_in_command.
(** Two types with the same text are the same. *)
Theorem C36_type_text_injective : forall wide said_ok t u s, type_ok wide said_ok t -> type_ok wide said_ok u ->
  type_text t = Some s -> type_text u = Some s -> t = u.
Proof.
  intros wide said_ok t u s Ht Hu E1 E2. destruct (C36_type_rule wide said_ok t s Ht E1) as (p & Ep & Et). destruct (C36_type_rule wide said_ok u s Hu E2) as (q & Eq & Eu).
  rewrite Ep in Eq. injection Eq as <-. rewrite Et in Eu. by injection Eu.
Qed.
Print Assumptions C36_type_text_injective.
Definition no_wide (c : ascii) : bool := false.
Definition any_said (s : string) : bool := true.
Definition deep : nattr := NArr (NArr (NRef (RSaid "EPMaG1h2hVxKCZ5_3KoNNwgAyd4Eq8zrxK3xgaaRsz2M"))).
Example C36_example : type_ok no_wide any_said deep /\ type_text deep = Some "Array[Array[refs:EPMaG1h2hVxKCZ5_3KoNNwgAyd4Eq8zrxK3xgaaRsz2M]]".
Proof. split; [|reflexivity]. repeat constructor. all: vm_compute; done. Qed.
(** Finding: a reference by name reads, but cannot be written ([format_reference], todo). *)
Theorem C36_reference_by_name_refuted : exists a, parse_ocafile no_wide any_said ("ADD ATTRIBUTE owner=refn:person" +:+ NL) = Ok a /\ generate_ocafile a = Panic.
Proof. eexists. split; [vm_compute; reflexivity|]. reflexivity. Qed.
Print Assumptions C36_reference_by_name_refuted.

(** ** C41: generating and reading back *)
(** The generated file has one line per command; reading it validates and pushes the commands, each once written and read,
    with its line number and text. *)
Theorem C41_round_trip : forall wide said_ok a, Forall (printable wide said_ok) (ast_commands a) -> exists lines,
  Forall2 (fun c t => command_text c = Some t) (ast_commands a) lines /\
  generate_ocafile a = Ok (file_of lines) /\
  parse_ocafile wide said_ok (file_of lines) = push_all ast_new (file_commands 0 (zip (map FCmd (ast_commands a)) lines)).
Proof.
  intros wide said_ok a H. destruct (printed wide said_ok _ H) as (ts & H2 & E). exists ts. split; [|split].
  - exact (proj1 (Forall2_fmap_l FCmd is_line (ast_commands a) ts) H2).
  - unfold generate_ocafile. by rewrite E.
  - rewrite (layout wide said_ok (map FCmd (ast_commands a)) ts); [|by apply Forall_map|done].
    destruct (push_all ast_new (file_commands 0 (zip (map FCmd (ast_commands a)) ts))) as [b| |]; [|done|done]. cbn [obind]. f_equal. unfold with_file_meta.
    assert (M : forall cs m, file_meta (map FCmd cs) m = m) by (induction cs as [|c cs IH]; intros m; [done|apply IH]). rewrite M. by destruct b.
Qed.
Print Assumptions C41_round_trip.
Lemma file_commands_fst cs : forall ts n, length cs = length ts -> map fst (file_commands n (zip (map FCmd cs) ts)) = map as_read cs.
Proof. induction cs as [|c cs IH]; intros [|t ts] n H; [done|done|done|]. cbn. f_equal. apply IH. by injection H. Qed.
(** An AST accepted by the validator stays accepted: same commands once written and read, and the same build. *)
Theorem C41_accepted_again : forall wide said_ok l a, push_all ast_new l = Ok a -> Forall (printable wide said_ok) (ast_commands a) ->
  exists s b, generate_ocafile a = Ok s /\ parse_ocafile wide said_ok s = Ok b /\ ast_commands b = map as_read (ast_commands a) /\ ast_meta b = ∅ /\
  forall digest from1 os from, same_build (from_ast digest from1 os from b) (from_ast digest from1 os from a).
Proof.
  intros wide said_ok l a Hl H. destruct (C41_round_trip wide said_ok a H) as (ts & H2 & Eg & Ep). exists (file_of ts). apply C15_assembly in Hl as [Hw ->]. cbn [ast_commands] in *.
  pose proof (Forall2_length _ _ _ H2) as Hlen. set (fc := file_commands 0 (zip (map FCmd (map fst l)) ts)) in *.
  assert (Efst : map fst fc = map as_read (map fst l)) by (by apply file_commands_fst).
  exists (Ast "1.0.0" (map fst fc) (zip (seq 0 (length fc)) (map snd fc)) ∅).
  assert (Pb : push_all ast_new fc = Ok (Ast "1.0.0" (map fst fc) (zip (seq 0 (length fc)) (map snd fc)) ∅)).
  { apply C15_assembly. split; [|done]. intros pre c m post E. assert (E' : map as_read (map fst l) = map fst pre ++ c :: map fst post) by (by rewrite <- Efst, E, map_app).
    apply map_eq_app in E' as (p' & rest & E1 & <- & E2). destruct rest as [|d rest]; [done|]. injection E2 as <- _.
    apply map_eq_app in E1 as (p1 & r1 & -> & <- & E1). destruct r1 as [|[d' m'] r1]; [done|]. injection E1 as -> _.
    apply as_read_placed. by apply (Hw p1 d m' r1). }
  split; [done|]. split; [by rewrite Ep|]. split; [exact Efst|]. split; [done|]. intros digest from1 os from. by eapply build_as_read.
Qed.
Print Assumptions C41_accepted_again.
Theorem C41_same_said : forall wide said_ok l a digest from1 os from B steps, push_all ast_new l = Ok a -> Forall (printable wide said_ok) (ast_commands a) ->
  from_ast digest from1 os from a = BuildOk B steps -> exists s b steps', generate_ocafile a = Ok s /\ parse_ocafile wide said_ok s = Ok b /\
  from_ast digest from1 os from b = BuildOk B steps'.
Proof.
  intros wide said_ok l a digest from1 os from B steps Hl Hp Hb. destruct (C41_accepted_again wide said_ok l a Hl Hp) as (s & b & Eg & Ep & _ & _ & Hs).
  specialize (Hs digest from1 os from). rewrite Hb in Hs. exists s, b. destruct (from_ast digest from1 os from b) as [B' ss| |]; [|done|done]. destruct Hs as [-> _]. eauto.
Qed.
Print Assumptions C41_same_said.
(** A file with every kind of printable command. *)
Definition dq (s : string) : string := (Q +:+ s +:+ Q)%string.
Definition ex_text : string := file_of [
  "ADD ATTRIBUTE name=Text age=Numeric tags=Array[Array[Text]] home=refs:EPMaG1h2hVxKCZ5_3KoNNwgAyd4Eq8zrxK3xgaaRsz2M";
  "ADD CLASSIFICATION GICS:35102020";
  "ADD META en PROPS  description=" +:+ dq "A \""test\"" form";
  "ADD LABEL en-GB ATTRS name=" +:+ dq "Name" +:+ " age=" +:+ dq "Age";
  "ADD CHARACTER_ENCODING ATTRS name=" +:+ dq "utf-8";
  "ADD UNIT ATTRS age=" +:+ dq "years";
  "ADD ENTRY_CODE ATTRS name=[" +:+ dq "o1" +:+ ", " +:+ dq "o2" +:+ "] age={" +:+ dq "g1" +:+ ": [" +:+ dq "a" +:+ "], " +:+ dq "g2" +:+ ": []}";
  "ADD ENTRY en ATTRS name={" +:+ dq "o1" +:+ ": " +:+ dq "One" +:+ ", " +:+ dq "o2" +:+ ": " +:+ dq "Two" +:+ "} age=" +:+ dq "x";
  "ADD LINK refs:EPMaG1h2hVxKCZ5_3KoNNwgAyd4Eq8zrxK3xgaaRsz2M ATTRS name=" +:+ dq "n";
  "REMOVE ATTRIBUTE age tags";
  "REMOVE CLASSIFICATION"]%string.
Example C41_example : match parse_ocafile no_wide any_said ex_text with
  | Ok a => generate_ocafile a = Ok ex_text /\ length (ast_commands a) = 11 | _ => False end.
Proof. vm_compute. split; reflexivity. Qed.
Example C41_example_printable : Forall (printable no_wide any_said)
  [Command CAdd (OCaptureBase (CapContent (Some [("name", NVal TText); ("tags", NArr (NVal TText))]) None None));
   Command CAdd (OOverlay (OType KMeta "1.1") (Content None (Some [("lang", VVal "en"); ("name", VVal "Form"); ("description", VVal "A test")])));
   Command CAdd (OOverlay (OType KEntryCode "1.1") (Content (Some [("name", VObj [("g", VArr [VVal "a"; VVal "b"])])]) None));
   Command CRemove (OCaptureBase (CapContent (Some [("tags", NNull)]) None None))].
Proof.
  assert (P : forall v, quotable v = true -> plain_ok (VVal v)) by (intros v Hv; by exists v).
  apply Forall_cons; split; [|apply Forall_cons; split; [|apply Forall_cons; split; [|apply Forall_cons; split; [|by apply Forall_nil]]]].
  - apply pr_attrs. split; [done|]. split; [by apply (bool_decide_unpack _)|]. repeat (apply Forall_cons; split); [| |by apply Forall_nil]; (split; [by split|]); repeat constructor.
  - apply pr_meta; [exists "e"%char, "n"%char; repeat split; by left|by apply (bool_decide_unpack _)| |by left].
    split; [done|]. split; [by apply (bool_decide_unpack _)|]. repeat (apply Forall_cons; split); [| |by apply Forall_nil]; (split; [by split|]); by apply P.
  - apply pr_codes; [|by left]. split; [done|]. split; [by apply (bool_decide_unpack _)|]. apply Forall_cons; split; [|by apply Forall_nil]. split; [by split|].
    right. right. eexists. split; [reflexivity|]. split; [by apply (bool_decide_unpack _)|]. apply Forall_cons; split; [|by apply Forall_nil]. split; [done|].
    eexists. split; [reflexivity|]. repeat (apply Forall_cons; split); [by apply P|by apply P|by apply Forall_nil].
  - apply pr_remove; [by apply (bool_decide_unpack _)|]. apply Forall_cons; split; [by split|by apply Forall_nil].
Qed.

(** Findings: accepted files whose AST is not written back faithfully. *)
Definition reads (s : string) (f : ast -> Prop) : Prop := match parse_ocafile no_wide any_said s with Ok a => f a | _ => False end.
(** A FROM line loses its SAID, and the result does not parse. *)
Theorem C41_from_refuted : reads ("FROM EPMaG1h2hVxKCZ5_3KoNNwgAyd4Eq8zrxK3xgaaRsz2M" +:+ NL) (fun a =>
  generate_ocafile a = Ok ("FROM " +:+ NL)%string /\ is_err (parse_ocafile no_wide any_said ("FROM " +:+ NL)) = true).
Proof. vm_compute. split; reflexivity. Qed.
Print Assumptions C41_from_refuted.
(** A single-quoted text with double quotes is written without escapes. *)
Theorem C41_quotes_refuted : reads ("ADD ATTRIBUTE a=Text" +:+ NL +:+ "ADD LABEL en ATTRS a='say " +:+ dq "hi" +:+ "'" +:+ NL) (fun a =>
  match generate_ocafile a with Ok s => is_err (parse_ocafile no_wide any_said s) = true | _ => False end).
Proof. vm_compute. reflexivity. Qed.
Print Assumptions C41_quotes_refuted.
(** Flagged attributes are not written. *)
Theorem C41_flagged_refuted : reads ("ADD FLAGGED_ATTRIBUTES name" +:+ NL) (fun a => generate_ocafile a = Ok ("ADD " +:+ NL)%string).
Proof. vm_compute. reflexivity. Qed.
Print Assumptions C41_flagged_refuted.
(** Removing overlay parts reads, but writing it panics. *)
Theorem C41_remove_overlay_refuted : reads ("REMOVE META en PROPS name" +:+ NL) (fun a => generate_ocafile a = Panic).
Proof. vm_compute. reflexivity. Qed.
Print Assumptions C41_remove_overlay_refuted.
(** The properties of META come back rotated, so writing what was read gives another text. *)
Theorem C41_meta_order_refuted : reads ("ADD META en PROPS  name=" +:+ dq "F" +:+ " description=" +:+ dq "D" +:+ NL) (fun a =>
  generate_ocafile a = Ok ("ADD META en PROPS  description=" +:+ dq "D" +:+ " name=" +:+ dq "F" +:+ NL)%string).
Proof. vm_compute. reflexivity. Qed.
Print Assumptions C41_meta_order_refuted.
(** Metadata lines are not written. *)
Theorem C41_metadata_refuted : reads ("--name=person" +:+ NL +:+ "ADD ATTRIBUTE a=Text" +:+ NL) (fun a =>
  ast_meta a !! "name" = Some "person" /\ match generate_ocafile a with Ok s => reads s (fun b => ast_meta b = ∅) | _ => False end).
Proof. vm_compute. split; reflexivity. Qed.
Print Assumptions C41_metadata_refuted.
(** A capture base command with attributes and a classification (what [to_ast] produces) is written as one word. *)
Theorem C41_attributes_and_classification_refuted : exists s,
  command_text (Command CAdd (OCaptureBase (CapContent (Some [("a", NVal TText)]) (Some [("classification", VVal "GICS:1")]) None))) = Some s /\
  s = "ADD ATTRIBUTE a=TextCLASSIFICATION GICS:1" /\ is_err (parse_ocafile no_wide any_said (s +:+ NL)) = true.
Proof. eexists. split; [reflexivity|]. split; [reflexivity|]. vm_compute. reflexivity. Qed.
Print Assumptions C41_attributes_and_classification_refuted.

(** ** C42: layout *)
(** A file laid out line by line - comments, blank lines, metadata lines and commands in any order and number - is read as its
    commands, each validated against those before it and recorded with the number of its line, and its metadata. *)
Theorem C42_layout : forall wide said_ok fs lines, Forall (fline_ok wide said_ok) fs -> Forall2 is_line fs lines ->
  parse_ocafile wide said_ok (file_of lines) = (let! a := push_all ast_new (file_commands 0 (zip fs lines)) in Ok (with_file_meta fs a)).
Proof. exact layout. Qed.
Print Assumptions C42_layout.
Lemma commands_of fs : forall ts n, length fs = length ts -> map fst (file_commands n (zip fs ts)) = omap line_command fs.
Proof.
  induction fs as [|f fs IH]; intros [|t ts] n H; [done|done|done|]. injection H as H. destruct f; cbn; try (by apply IH); f_equal; by apply IH.
Qed.
(** Comments and blank lines change nothing: two files with the same commands in the same order are both rejected or give the same commands. *)
Theorem C42_comments_do_not_matter : forall wide said_ok fs lines fs' lines' a, Forall (fline_ok wide said_ok) fs -> Forall2 is_line fs lines ->
  Forall (fline_ok wide said_ok) fs' -> Forall2 is_line fs' lines' ->
  omap line_command fs = omap line_command fs' ->
  parse_ocafile wide said_ok (file_of lines) = Ok a ->
  exists b, parse_ocafile wide said_ok (file_of lines') = Ok b /\ ast_commands b = ast_commands a.
Proof.
  intros wide said_ok fs lines fs' lines' a H1 H2 H1' H2' E Hp. rewrite (layout wide said_ok fs lines) in Hp by done. rewrite (layout wide said_ok fs' lines') by done.
  set (l := file_commands 0 (zip fs lines)) in *. set (l' := file_commands 0 (zip fs' lines')).
  assert (El : map fst l = map fst l') by (unfold l, l'; by rewrite !commands_of, E by (by eapply Forall2_length)).
  destruct (push_all ast_new l) as [x| |] eqn:Ex; [|discriminate Hp|discriminate Hp]. injection Hp as <-. apply C15_assembly in Ex as [Hw ->].
  assert (P : push_all ast_new l' = Ok (Ast "1.0.0" (map fst l') (zip (seq 0 (length l')) (map snd l')) ∅)).
  { apply C15_assembly. split; [|done]. intros pre c m post E'. assert (E2 : map fst l = map fst pre ++ c :: map fst post) by (by rewrite El, E', map_app).
    apply map_eq_app in E2 as (p1 & r1 & E3 & E4 & E5). destruct r1 as [|[d m'] r1]; [done|]. injection E5 as -> _. rewrite <- E4. by apply (Hw p1 c m' r1). }
  rewrite P. eexists. split; [reflexivity|]. cbn. by rewrite El.
Qed.
Print Assumptions C42_comments_do_not_matter.
Example C42_example : reads ("# a form" +:+ NL +:+ "--version=1.0.0" +:+ NL +:+ NL +:+ "  " +:+ NL +:+ "ADD ATTRIBUTE a=Text" +:+ NL +:+ " # end" +:+ NL) (fun a =>
  ast_commands a = [Command CAdd (OCaptureBase (CapContent (Some [("a", NVal TText)]) None None))] /\ ast_cmeta a = [(0, CmdMeta 5 "ADD ATTRIBUTE a=Text")] /\
  ast_meta a !! "version" = Some "1.0.0").
Proof. vm_compute. repeat split. Qed.
Example C42_base_and_flags_example : Forall (fline_ok no_wide any_said) [FComment "" " v2"; FFrom "EPMaG1h2hVxKCZ5_3KoNNwgAyd4Eq8zrxK3xgaaRsz2M"; FFlagged "name"] /\
  reads (file_of ["# v2"; "FROM EPMaG1h2hVxKCZ5_3KoNNwgAyd4Eq8zrxK3xgaaRsz2M"; "ADD FLAGGED_ATTRIBUTES name"]) (fun a =>
    ast_commands a = [Command CFrom (OBundle (BundleContent (RSaid "EPMaG1h2hVxKCZ5_3KoNNwgAyd4Eq8zrxK3xgaaRsz2M"))); Command CAdd (OCaptureBase (CapContent None None (Some ["name"])))] /\
    map fst (ast_cmeta a) = [0; 1] /\ map (fun m => cm_line m.2) (ast_cmeta a) = [2; 3]).
Proof. split; [repeat (apply Forall_cons; split); [| | |by apply Forall_nil]; vm_compute; repeat split; done|]. vm_compute. repeat split. Qed.
(** Findings. A comment after a line continuation adds an attribute without a name. *)
Definition cont (a b : string) : string := (a +:+ String BSL NL +:+ b)%string.
Theorem C42_comment_in_continuation_refuted : reads (cont "ADD ATTRIBUTE a=Text " (" # the age" +:+ NL +:+ " age=Numeric" +:+ NL)) (fun a =>
  ast_commands a = [Command CAdd (OCaptureBase (CapContent (Some [("a", NVal TText); ("", NVal TText); ("age", NVal TNumeric)]) None None))]).
Proof. vm_compute. reflexivity. Qed.
Print Assumptions C42_comment_in_continuation_refuted.
(** The recorded line number counts statements: after a continued command it is not the line. *)
Theorem C42_line_number_refuted : reads (cont "ADD ATTRIBUTE a=Text " (" b=Text" +:+ NL +:+ "ADD ATTRIBUTE c=Text" +:+ NL)) (fun a =>
  exists m, ast_cmeta a = [(0, m); (1, CmdMeta 2 "ADD ATTRIBUTE c=Text")]).
Proof. vm_compute. eexists. reflexivity. Qed.
Print Assumptions C42_line_number_refuted.
(** Two flagged attributes become one name with a blank. *)
Theorem C42_flagged_names_refuted : reads ("ADD FLAGGED_ATTRIBUTES name age" +:+ NL) (fun a =>
  ast_commands a = [Command CAdd (OCaptureBase (CapContent None None (Some ["name age"])))]).
Proof. vm_compute. reflexivity. Qed.
Print Assumptions C42_flagged_names_refuted.
(** The properties named in REMOVE META are not read. *)
Theorem C42_remove_meta_refuted : reads ("REMOVE META en PROPS name" +:+ NL) (fun a => ast_commands a = [Command CRemove (OOverlay (OType KMeta "1.1") (Content None (Some [])))]).
Proof. vm_compute. reflexivity. Qed.
Print Assumptions C42_remove_meta_refuted.
(** Quotes stay in a metadata value; of several pairs on a line the last one counts. *)
Theorem C42_metadata_value_refuted : reads ("--name=" +:+ dq "person" +:+ NL) (fun a => ast_meta a !! "name" = Some (dq "person")) /\
  reads ("--name=" +:+ dq "person" +:+ "version=1.0" +:+ NL) (fun a => ast_meta a = {[ "version" := "1.0" ]}).
Proof. vm_compute. split; reflexivity. Qed.
Print Assumptions C42_metadata_value_refuted.

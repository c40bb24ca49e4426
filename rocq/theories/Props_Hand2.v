(** C62, continued: files the generator writes, edited by hand; a file as people write them; what hand-written text does not mean. *)
From Verif Require Import Spec_OcaFile OcaLayout AsRead Spec_Ast AstValidator_proofs Props_Ast Condition_proofs Props_OcaFile.
From Verif Require Import Spec_Hand HandLayout HandPrinted Props_Hand.

(** What the generator writes for a printable command is one of the ways to write it by hand. *)
Theorem C62_printed : forall wide said_ok c t, printable wide said_ok c -> set_apart c -> command_text c = Some t -> hand wide said_ok (as_read c) t.
Proof. exact hand_printed. Qed.
Print Assumptions C62_printed.
(** So a generated file is a hand-written file of its commands. *)
Theorem C62_generated : forall wide said_ok a, Forall (printable wide said_ok) (ast_commands a) -> Forall set_apart (ast_commands a) ->
  exists s lines, generate_ocafile a = Ok s /\ hfile wide said_ok lines s /\ Forall (fun ft => hline_ok wide ft.1) lines /\
    map fst lines = map (fun c => HCmd (as_read c)) (ast_commands a).
Proof.
  intros wide said_ok a H Hs. destruct (C41_round_trip wide said_ok a H) as (ts & H2 & Eg & _).
  exists (file_of ts), (zip (map (fun c => HCmd (as_read c)) (ast_commands a)) ts). split; [exact Eg|]. clear Eg.
  induction H2 as [|c t cs ts Hc H2 IH]; [split; [apply hf_none|split; [by constructor|done]]|]. inversion H as [|? ? H3 H4]; inversion Hs as [|? ? H5 H6]; subst.
  destruct (IH H4 H6) as (I1 & I2 & I3). cbn [map zip_with fst]. split; [|split].
  - unfold file_of. rewrite cat_cons, append_assoc. apply hf_line; [by apply hand_printed|by apply elem_of_list_In; left|done|exact I1].
  - by constructor.
  - by rewrite I3.
Qed.
Print Assumptions C62_generated.
(** A file the generator wrote may be edited by hand - its spelling, spacing, quotes, line breaks, comments -: as long as it says the
    same commands, it is read as those commands and builds the same. *)
Theorem C62_edited : forall wide said_ok l a lines text, push_all ast_new l = Ok a -> Forall (printable wide said_ok) (ast_commands a) ->
  Forall (fun ft => hline_ok wide ft.1) lines -> hfile wide said_ok lines text -> omap hline_command (map fst lines) = map as_read (ast_commands a) ->
  exists b, parse_ocafile wide said_ok text = Ok b /\ ast_commands b = map as_read (ast_commands a) /\
    forall digest from1 os from, same_build (from_ast digest from1 os from b) (from_ast digest from1 os from a).
Proof.
  intros wide said_ok l a lines text Hl H Hok Hf E. rewrite (C62_reads wide said_ok lines text Hok Hf). apply C15_assembly in Hl as [Hw ->]. cbn [ast_commands] in *.
  set (fc := hand_commands 0 lines). assert (Efst : map fst fc = map as_read (map fst l)) by (unfold fc; by rewrite hand_commands_fst, E).
  assert (Pb : push_all ast_new fc = Ok (Ast "1.0.0" (map fst fc) (zip (seq 0 (length fc)) (map snd fc)) ∅)).
  { apply C15_assembly. split; [|done]. intros pre c m post E1. assert (E' : map as_read (map fst l) = map fst pre ++ c :: map fst post) by (by rewrite <- Efst, E1, map_app).
    apply map_eq_app in E' as (p' & rest & E2 & <- & E3). destruct rest as [|d rest]; [done|]. injection E3 as <- _.
    apply map_eq_app in E2 as (p1 & r1 & -> & <- & E2). destruct r1 as [|[d' m'] r1]; [done|]. injection E2 as -> _.
    apply as_read_placed. by apply (Hw p1 d m' r1). }
  rewrite Pb. eexists. split; [reflexivity|]. cbn [ast_commands]. split; [exact Efst|]. intros digest from1 os from. by eapply build_as_read.
Qed.
Print Assumptions C62_edited.

(** ** A file as people write them *)
(** example *)
Definition CRLF : string := String CR (String LF "").
(** example *)
Definition TB : string := String TAB "".
(** example *)
Definition hx_attrs : string := ("add Attribute name=Text" +:+ TB +:+ "age = Numeric \" +:+ TB +:+ CRLF +:+ "  tags=Array[ Text ]")%string.
(** example *)
Definition hx_label : string := ("Add LABEL en attrs name='Full ""legal"" name' \" +:+ NL +:+ TB +:+ "age=years ")%string.
(** example *)
Definition hx_codes : string := "ADD entry_code ATTRS tags=['a',  ""b""]".
(** example *)
Definition hx_unit : string := "add unit attrs age=m/s^2 name='-'".
(** example *)
Definition hx_lines : list (hline * string) := [
  (HMeta "name" "person", "-- name = person");
  (HComment " " " attributes", " # attributes");
  (HCmd (Command CAdd (OCaptureBase (CapContent (Some [("name", NVal TText); ("age", NVal TNumeric); ("tags", NArr (NVal TText))]) None None))), hx_attrs);
  (HBlank TB, TB);
  (HCmd (Command CAdd (OOverlay (OType KLabel "1.1") (Content (Some [("name", VVal "Full ""legal"" name"); ("age", VVal "years")]) (Some [("lang", VVal "en")])))), hx_label);
  (HCmd (Command CAdd (OOverlay (OType KEntryCode "1.1") (Content (Some [("tags", VArr [VVal "a"; VVal "b"])]) (Some [])))), hx_codes);
  (HCmd (Command CAdd (OOverlay (OType KUnit "1.1") (Content (Some [("age", VVal "m/s^2"); ("name", VVal "-")]) (Some [])))), hx_unit)].
(** example *)
Definition hx_text : string :=
  ("-- name = person" +:+ CRLF +:+ " # attributes" +:+ String CR "" +:+ hx_attrs +:+ NL +:+ TB +:+ NL +:+ hx_label +:+ CRLF +:+ hx_codes +:+ NL +:+ hx_unit)%string.
Ltac blanks := repeat first [apply gap_none | apply gap_blank; [reflexivity|]].
Ltac apart := split; [blanks|discriminate].
Ltac pair s k e e' v w := apply (pt_pair _ _ _ s k e e' v w); [try apart|split; [discriminate|reflexivity]|blanks|blanks| |].
Lemma hx_attrs_hand : hand no_wide any_said (Command CAdd (OCaptureBase (CapContent (Some [("name", NVal TText); ("age", NVal TNumeric); ("tags", NArr (NVal TText))]) None None))) hx_attrs.
Proof.
  apply (ha_attrs no_wide any_said "add" " " "Attribute" _ (" name=Text" +:+ TB +:+ "age = Numeric \" +:+ TB +:+ CRLF +:+ "  tags=Array[ Text ]")%string); [reflexivity|apart|reflexivity|split; [done|by apply (bool_decide_unpack _)]|].
  apply (pt_pair _ _ _ " " "name" "" "" (NVal TText) "Text" _ (TB +:+ "age = Numeric \" +:+ TB +:+ CRLF +:+ "  tags=Array[ Text ]")%string); [apart|split; [discriminate|reflexivity]|blanks|blanks|apply ty_base|].
  apply (pt_pair _ _ _ TB "age" " " " " (NVal TNumeric) "Numeric" _ (" \" +:+ TB +:+ CRLF +:+ "  tags=Array[ Text ]")%string); [apart|split; [discriminate|reflexivity]|blanks|blanks|apply ty_base|].
  apply (pt_pair _ _ _ (" \" +:+ TB +:+ CRLF +:+ "  ")%string "tags" "" "" (NArr (NVal TText)) "Array[ Text ]" [] ""); [|split; [discriminate|reflexivity]|blanks|blanks| |apply pt_none].
  - split; [|discriminate]. apply gap_blank; [reflexivity|]. apply (gap_line TB CRLF "  "); [reflexivity|by apply (bool_decide_unpack _)|blanks].
  - apply (ty_array _ _ (NVal TText) " " "Text" " "); [blanks|blanks|apply ty_base].
Qed.
Ltac fine := split; [discriminate|by apply (bool_decide_unpack _)].
Ltac name := split; [discriminate|reflexivity].
Lemma hx_label_hand : hand no_wide any_said (Command CAdd (OOverlay (OType KLabel "1.1") (Content (Some [("name", VVal "Full ""legal"" name"); ("age", VVal "years")]) (Some [("lang", VVal "en")])))) hx_label.
Proof.
  apply (ha_lang no_wide any_said KLabel "label" "Add" " " "LABEL" " " "en" " " "attrs" _ (" name='Full ""legal"" name' \" +:+ NL +:+ TB +:+ "age=years")%string " ");
    [apply elem_of_list_In; cbn; auto|reflexivity|apart|reflexivity|apart|exists "e"%char, "n"%char; split; [reflexivity|split; [reflexivity|by left]]|apart|reflexivity|fine| |reflexivity].
  apply (pt_pair _ _ _ " " "name" "" "" (VVal "Full ""legal"" name") "'Full ""legal"" name'" _ (" \" +:+ NL +:+ TB +:+ "age=years")%string); [apart|name|blanks|blanks| |].
  - apply vt_word, wt_quoted. apply (qt_single "Full ""legal"" name"). reflexivity.
  - apply (pt_pair _ _ _ (" \" +:+ NL +:+ TB)%string "age" "" "" (VVal "years") "years" [] ""); [|name|blanks|blanks| |apply pt_none].
    + split; [|discriminate]. apply gap_blank; [reflexivity|]. apply (gap_line "" NL TB); [reflexivity|by apply (bool_decide_unpack _)|blanks].
    + apply vt_word, wt_bare. name.
Qed.
Lemma hx_codes_hand : hand no_wide any_said (Command CAdd (OOverlay (OType KEntryCode "1.1") (Content (Some [("tags", VArr [VVal "a"; VVal "b"])]) (Some [])))) hx_codes.
Proof.
  apply (ha_plain no_wide any_said KEntryCode "entry_code" "ADD" " " "entry_code" " " "ATTRS" _ " tags=['a',  ""b""]" "");
    [apply elem_of_list_In; cbn; auto 10|reflexivity|apart|reflexivity|apart|reflexivity|fine| |by split].
  apply (pt_pair _ _ _ " " "tags" "" "" (VArr [VVal "a"; VVal "b"]) "['a',  ""b""]" [] ""); [apart|name|done|done| |apply pt_none].
  apply co_list. apply (lt_some _ "'a',  ""b"""). apply (ct_more _ (VVal "a") "'a'" "  " [VVal "b"] """b"""); [exists "a"; split; [done|by apply (qt_single "a")]|reflexivity|].
  apply ct_last. exists "b". split; [done|]. by apply (qt_double "b").
Qed.
Lemma hx_unit_hand : hand no_wide any_said (Command CAdd (OOverlay (OType KUnit "1.1") (Content (Some [("age", VVal "m/s^2"); ("name", VVal "-")]) (Some [])))) hx_unit.
Proof.
  apply (ha_plain no_wide any_said KUnit "unit" "add" " " "unit" " " "attrs" _ " age=m/s^2 name='-'" "");
    [apply elem_of_list_In; cbn; auto 10|reflexivity|apart|reflexivity|apart|reflexivity|fine| |split; [reflexivity|by left]].
  apply (pt_pair _ _ _ " " "age" "" "" (VVal "m/s^2") "m/s^2" _ " name='-'"); [exists ""; split; [done|blanks]|name|blanks|blanks| |].
  - apply ut_bare. exists "m"%char, "/s^2". done.
  - apply (pt_pair _ _ _ " " "name" "" "" (VVal "-") "'-'" [] ""); [exists ""; split; [done|blanks]|name|blanks|blanks| |apply pt_none]. apply ut_quoted. by apply (qt_single "-").
Qed.
(** The file meets the conditions, says four commands, and is read as them. *)
Theorem C62_hypotheses_met : Forall (fun ft => hline_ok no_wide ft.1) hx_lines /\ hfile no_wide any_said hx_lines hx_text /\
  length (omap hline_command (map fst hx_lines)) = 4 /\ reads hx_text (fun a => ast_commands a = omap hline_command (map fst hx_lines) /\ map cm_line (map snd (ast_cmeta a)) = [3; 5; 6; 7] /\ ast_meta a !! "name" = Some "person").
Proof.
  split; [|split; [|split; [reflexivity|vm_compute; by repeat split]]].
  - unfold hx_lines. repeat apply Forall_cons_2; try apply Forall_nil_2; cbn [fst hline_ok]; try done. split; [by apply (bool_decide_unpack _)|name].
  - unfold hx_text.
    apply (hf_line _ _ (HMeta "name" "person") "-- name = person" CRLF); [exists "", " ", " ", " "; split; [done|]; split; [done|]; split; [blanks|]; split; [blanks|reflexivity]|by apply (bool_decide_unpack _)|done|].
    apply (hf_line _ _ (HComment " " " attributes") " # attributes" (String CR "")); [reflexivity|by apply (bool_decide_unpack _)|intros _ u; discriminate|].
    apply (hf_line _ _ _ hx_attrs NL); [exact hx_attrs_hand|by apply (bool_decide_unpack _)|done|].
    apply (hf_line _ _ (HBlank TB) TB NL); [reflexivity|by apply (bool_decide_unpack _)|done|].
    apply (hf_line _ _ _ hx_label CRLF); [exact hx_label_hand|by apply (bool_decide_unpack _)|done|].
    apply (hf_line _ _ _ hx_codes NL); [exact hx_codes_hand|by apply (bool_decide_unpack _)|done|].
    apply hf_last; [exact hx_unit_hand|done].
Qed.
Print Assumptions C62_hypotheses_met.
(** A base bundle, a flagged attribute and an encoding, by hand. *)
Theorem C62_hypotheses_met_rest :
  hand no_wide any_said (Command CFrom (OBundle (BundleContent (RSaid "EPMaG1h2")))) ("From " +:+ TB +:+ "EPMaG1h2") /\
  hand no_wide any_said (Command CAdd (OCaptureBase (CapContent None None (Some ["age"])))) ("add Flagged_Attributes  age") /\
  hand no_wide any_said (Command CAdd (OOverlay (OType KCharacterEncoding "1.1") (Content (Some []) (Some [("default", VVal "utf-8")])))) ("Add CHARACTER_encoding Props default = utf-8").
Proof.
  split; [|split].
  - apply (ha_from no_wide any_said "From" (" " +:+ TB)%string "EPMaG1h2"); [reflexivity|reflexivity|name|reflexivity].
  - apply (ha_flagged no_wide any_said "add" " " "Flagged_Attributes" "  " "age"); [reflexivity|apart|reflexivity|apart|name].
  - apply (ha_encoding no_wide any_said "Add" " " "CHARACTER_encoding" " " "Props" _ " default = utf-8" ""); [reflexivity|apart|reflexivity|apart|reflexivity|fine| |reflexivity].
    apply (pt_pair _ _ _ " " "default" " " " " (VVal "utf-8") "utf-8" [] ""); [apart|name|blanks|blanks| |apply pt_none]. apply vt_word, wt_bare. name.
Qed.
(** An edit: two commands as the generator writes them, and as somebody rewrites them. *)
(** example *)
Definition he_commands : list command := [
  Command CAdd (OCaptureBase (CapContent (Some [("name", NVal TText); ("age", NVal TNumeric); ("tags", NArr (NVal TText))]) None None));
  Command CAdd (OOverlay (OType KUnit "1.1") (Content (Some [("age", VVal "m/s^2"); ("name", VVal "-")]) (Some [])))].
(** example *)
Definition he_lines : list (hline * string) := map (fun ct => (HCmd ct.1, ct.2)) (zip he_commands [hx_attrs; hx_unit]).
Theorem C62_edited_hypotheses_met : exists l a text, push_all ast_new l = Ok a /\ ast_commands a = he_commands /\ Forall (printable no_wide any_said) (ast_commands a) /\
  Forall (fun ft => hline_ok no_wide ft.1) he_lines /\ hfile no_wide any_said he_lines text /\ omap hline_command (map fst he_lines) = map as_read (ast_commands a) /\
  generate_ocafile a = Ok (("ADD ATTRIBUTE name=Text age=Numeric tags=Array[Text]" +:+ NL +:+ "ADD UNIT ATTRS age=" +:+ dq "m/s^2" +:+ " name=" +:+ dq "-" +:+ NL)%string).
Proof.
  exists [(nth 0 he_commands (Command CFrom (OBundle (BundleContent (RSaid "")))), CmdMeta 1 ""); (nth 1 he_commands (Command CFrom (OBundle (BundleContent (RSaid "")))), CmdMeta 2 "")].
  eexists _, (hx_attrs +:+ CRLF +:+ hx_unit)%string. split; [vm_compute; reflexivity|]. cbn [ast_commands]. split; [reflexivity|]. split; [|split; [|split; [|split; [reflexivity|vm_compute; reflexivity]]]].
  - repeat apply Forall_cons_2; try apply Forall_nil_2.
    + apply pr_attrs. split; [discriminate|]. split; [by apply (bool_decide_unpack _)|]. repeat apply Forall_cons_2; try apply Forall_nil_2; (split; [name|repeat constructor]).
    + apply pr_plain; [by do 5 right|split; [discriminate|]|by right]. split; [by apply (bool_decide_unpack _)|]. repeat apply Forall_cons_2; try apply Forall_nil_2; (split; [name|by eexists]).
  - repeat apply Forall_cons_2; try apply Forall_nil_2; done.
  - apply (hf_line _ _ _ hx_attrs CRLF); [exact hx_attrs_hand|by apply (bool_decide_unpack _)|done|]. apply hf_last; [exact hx_unit_hand|done].
Qed.
Print Assumptions C62_edited_hypotheses_met.

(** ** What hand-written text does not mean *)
(** example *)
Definition refused (s : string) : Prop := parse_ocafile no_wide any_said s = Err ["grammar error"].
(** A bare unit runs on over tabs: the second unit becomes part of the first. *)
Theorem C62_unit_tab_refuted : reads ("ADD UNIT ATTRS a=m" +:+ TB +:+ "b=s" +:+ NL) (fun a =>
  ast_commands a = [Command CAdd (OOverlay (OType KUnit "1.1") (Content (Some [("a", VVal ("m" +:+ TB +:+ "b=s")%string)]) (Some [])))]) /\
  reads ("ADD FORMAT ATTRS a=m" +:+ TB +:+ "b=s" +:+ NL) (fun a =>
  ast_commands a = [Command CAdd (OOverlay (OType KFormat "1.1") (Content (Some [("a", VVal "m"); ("b", VVal "s")]) (Some [])))]).
Proof. split; vm_compute; reflexivity. Qed.
Print Assumptions C62_unit_tab_refuted.
(** Blanks around the equals sign are refused in ENTRY_CODE, where every other command takes them. *)
Theorem C62_code_blanks_refuted : refused ("ADD ENTRY_CODE ATTRS a = ['x']" +:+ NL) /\ reads ("ADD ENTRY_CODE ATTRS a=['x']" +:+ NL) (fun a =>
  ast_commands a = [Command CAdd (OOverlay (OType KEntryCode "1.1") (Content (Some [("a", VArr [VVal "x"])]) (Some [])))]) /\
  reads ("ADD LABEL en ATTRS a = 'x'" +:+ NL) (fun a =>
  ast_commands a = [Command CAdd (OOverlay (OType KLabel "1.1") (Content (Some [("a", VVal "x")]) (Some [("lang", VVal "en")])))]).
Proof. split; [|split]; vm_compute; reflexivity. Qed.
Print Assumptions C62_code_blanks_refuted.
(** An indented command is refused, as are the blanks of an unended last line. *)
Theorem C62_indented_refuted : refused (" ADD CLASSIFICATION a" +:+ NL) /\ refused ("ADD CLASSIFICATION a" +:+ NL +:+ "  ") /\
  reads ("ADD CLASSIFICATION a" +:+ NL +:+ "  " +:+ NL) (fun a => length (ast_commands a) = 1).
Proof. split; [|split]; vm_compute; reflexivity. Qed.
Print Assumptions C62_indented_refuted.
(** A classification keeps its quotes, where every other value loses them. *)
Theorem C62_class_quotes_refuted : reads ("ADD CLASSIFICATION 'x'" +:+ NL) (fun a =>
  ast_commands a = [Command CAdd (OCaptureBase (CapContent None (Some [("classification", VVal "'x'")]) None))]).
Proof. vm_compute. reflexivity. Qed.
Print Assumptions C62_class_quotes_refuted.
(** Key words may be written in any letter case, attribute types not. *)
Theorem C62_type_case_refuted : refused ("ADD ATTRIBUTE a=text" +:+ NL) /\ reads ("aDD aTTRIBUTE a=Text" +:+ NL) (fun a =>
  ast_commands a = [Command CAdd (OCaptureBase (CapContent (Some [("a", NVal TText)]) None None))]).
Proof. split; vm_compute; reflexivity. Qed.
Print Assumptions C62_type_case_refuted.

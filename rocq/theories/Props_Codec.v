(** C17-C20: the text, byte and JSON codecs of the AST.  Statements here; longer proofs in Codec_proofs. *)
From Verif Require Import Spec_Codec Codec_proofs Props_Build.
From Coq Require Import Lia.

(** ** C17 overlay type text *)
(** [digits] stands for the regex [\d+]; all that is used of it is that no such text contains a dot. *)
Definition digits_class (digits : string -> bool) : Prop :=
  forall s, digits s = true -> all_chars (fun c => negb (Ascii.eqb "." c)) s = true.
Definition version_like (digits : string -> bool) (v : string) : Prop :=
  exists a b, v = (a +:+ "." +:+ b)%string /\ digits a = true /\ digits b = true.
(** A text is accepted with result [t] iff it is the text of [t] and the version of [t] is digits.digits. *)
Theorem C17_parse : forall digits s t, digits_class digits ->
  otype_parse digits s = Some t <-> s = otype_text t /\ version_like digits (ot_ver t).
Proof.
  intros digits s t Hd. rewrite otype_parse_spec. split.
  - intros (E & a & b & Hv & _ & Ha & Hb). split; [done|]. by exists a, b.
  - intros (E & a & b & Hv & Ha & Hb). split; [done|]. exists a, b. repeat split; try done. by apply Hd.
Qed.
Print Assumptions C17_parse.
Theorem C17_round_trip : forall digits t, digits_class digits ->
  (version_like digits (ot_ver t) -> otype_parse digits (otype_text t) = Some t) /\
  (~ version_like digits (ot_ver t) -> otype_parse digits (otype_text t) = None).
Proof.
  intros digits t Hd. split.
  - intros Hv. by apply C17_parse.
  - intros Hv. destruct (otype_parse digits (otype_text t)) as [t'|] eqn:E; [|done].
    exfalso. apply C17_parse in E as [E Hv']; [|done]. apply otype_text_inj in E as ->. done.
Qed.
Print Assumptions C17_round_trip.
Theorem C17_injective : forall t t', otype_text t = otype_text t' -> t = t'.
Proof. exact otype_text_inj. Qed.
Print Assumptions C17_injective.
(** The texts, spelled out: prefix, path name of the kind, version. *)
Theorem C17_text : forall k v, exists p, otype_text (OType k v) = ("spec/overlays/" +:+ p +:+ "/" +:+ v)%string /\
  In (k, p) [(KLabel, "label"); (KInformation, "information"); (KEncoding, "encoding"); (KCharacterEncoding, "character_encoding");
    (KFormat, "format"); (KMeta, "meta"); (KStandard, "standard"); (KCardinality, "cardinality"); (KConditional, "conditional");
    (KConformance, "conformance"); (KEntryCode, "entry_code"); (KEntry, "entry"); (KUnit, "unit"); (KAttributeMapping, "mapping");
    (KEntryCodeMapping, "entry_code_mapping"); (KSubset, "subset"); (KUnitMapping, "unit_mapping"); (KLayout, "layout");
    (KSensitivity, "sensitivity"); (KLink, "link"); (KAttributeFraming, "attribute_framing")].
Proof. intros k v. exists (okind_path k). split; [by destruct k|]. destruct k; cbn; tauto. Qed.
Print Assumptions C17_text.
Definition ascii_digits (s : string) : bool := negb (String.eqb s "") && all_chars is_digit s.
Lemma ascii_digits_class : digits_class ascii_digits.
Proof.
  intros s H. apply andb_prop in H as [_ H]. revert H. induction s as [|c s IH]; [done|]. cbn [all_chars]. intros H. apply andb_prop in H as [Hc H].
  apply andb_true_intro. split; [|by apply IH]. destruct (Ascii.eqb "." c) eqn:E; [|reflexivity]. apply Ascii.eqb_eq in E. subst c. vm_compute in Hc. discriminate.
Qed.
Example C17_example : otype_parse ascii_digits "spec/overlays/label/2.0" = Some (OType KLabel "2.0") /\
  otype_parse ascii_digits "spec/overlays/label/2.0.1" = None /\ otype_parse ascii_digits "spec/overlays/labels/2.0" = None.
Proof. repeat split; vm_compute; reflexivity. Qed.

(** ** C18 object kind bytes *)
Theorem C18_decode_encode : forall o, exists o', obj_of_byte (obj_byte o) = Ok o' /\ same_kind o o'.
Proof. exact byte_kind. Qed.
Print Assumptions C18_decode_encode.
Theorem C18_encode_decode : forall n, ((exists o, obj_of_byte n = Ok o) <-> (n <= 22)%nat) /\ (forall o, obj_of_byte n = Ok o -> obj_byte o = n) /\
  ((22 < n)%nat -> obj_of_byte n = Panic).
Proof.
  intros n. split; [apply byte_range|split; [apply kind_byte|]]. intros H.
  do 23 (destruct n as [|n]; [lia|]). done.
Qed.
Print Assumptions C18_encode_decode.
Theorem C18_injective : forall o o', obj_byte o = obj_byte o' <-> same_kind o o'.
Proof. exact byte_same. Qed.
Print Assumptions C18_injective.
Example C18_example : obj_byte (OOverlay (OType KLink "2.0") (Content (Some [("a", VVal "b")]) None)) = 21 /\
  obj_of_byte 21 = Ok (OOverlay (OType KLink "1.1") (Content None None)) /\ obj_of_byte 23 = Panic.
Proof. done. Qed.

(** ** C19 command JSON *)
(** Exactly the faithful commands come back. *)
Theorem C19_round_trip : forall said_ok c, command_ok c -> refs_valid said_ok c ->
  (command_parse said_ok (command_json c) = Ok c <-> json_faithful said_ok c).
Proof. intros. by apply command_faithful. Qed.
Print Assumptions C19_round_trip.
(** No command makes the reader of its own JSON panic, and the JSON of two faithful commands differs. *)
Theorem C19_injective : forall said_ok c c', command_ok c -> refs_valid said_ok c -> json_faithful said_ok c ->
  command_ok c' -> refs_valid said_ok c' -> json_faithful said_ok c' -> command_json c = command_json c' -> c = c'.
Proof.
  intros said_ok c c' Hc Hr Hf Hc' Hr' Hf' E. apply (C19_round_trip said_ok) in Hf, Hf'; try done. congruence.
Qed.
Print Assumptions C19_injective.
Theorem C19_no_panic : forall said_ok c, command_ok c -> refs_valid said_ok c -> command_parse said_ok (command_json c) <> Panic.
Proof. intros said_ok c Hc Hr. rewrite command_round by done. unfold read_back. destruct (cmd_obj c); [done|done|]. by destruct (otype_of_name _). Qed.
Print Assumptions C19_no_panic.
(** The command kind and (but for attribute mappings) the object kind always come back; what is lost is the version
    and the difference between a reference and a text that looks like one. *)
Theorem C19_kind : forall said_ok c c', command_ok c -> refs_valid said_ok c ->
  command_parse said_ok (command_json c) = Ok c' -> cmd_kind c' = cmd_kind c /\ same_kind (cmd_obj c) (cmd_obj c').
Proof.
  intros said_ok c c' Hc Hr. rewrite command_round by done. unfold read_back. destruct c as [k [cc|bc|[ok v] ct]]; cbn.
  - intros [= <-]. split; [done|constructor].
  - intros [= <-]. split; [done|constructor].
  - destruct (otype_of_name (okind_name ok)) as [t|] eqn:E; [|done]. intros [= <-]. split; [done|]. cbn.
    unfold otype_of_name in E. destruct ok; cbn in E; inversion E; subst; constructor.
Qed.
Print Assumptions C19_kind.
(** Refuted: a version other than 1.1 comes back as 1.1; an attribute mapping does not come back at all; a plain text
    "refn:x" comes back as a reference. *)
Definition lab (v : string) (s : string) : command := Command CAdd (OOverlay (OType KLabel v) (Content (Some [("a", VVal s)]) (Some [("lang", VVal "en")]))).
Theorem C19_version_refuted : forall said_ok, command_parse said_ok (command_json (lab "2.0" "Name")) = Ok (lab "1.1" "Name").
Proof. intros. vm_compute. reflexivity. Qed.
Theorem C19_mapping_refuted : forall said_ok ct, exists e,
  command_parse said_ok (command_json (Command CAdd (OOverlay (OType KAttributeMapping "1.1") ct))) = Err e.
Proof. intros. eexists. cbn [command_parse command_json cmd_kind cmd_obj obj_name obj_content_json]. cbn -[content_parse content_json]. reflexivity. Qed.
Theorem C19_text_refuted : forall said_ok, command_parse said_ok (command_json (lab "1.1" "refn:x")) =
  Ok (Command CAdd (OOverlay (OType KLabel "1.1") (Content (Some [("a", VRef (RName "x"))]) (Some [("lang", VVal "en")])))).
Proof. intros. vm_compute. reflexivity. Qed.
Definition C19_cmd : command := Command CAdd (OCaptureBase (CapContent (Some [("a", NArr (NRef (RSaid "EABC"))); ("b", NVal TText)])
  (Some [("classification", VVal "GICS:1"); ("x", VObj [("k", VArr [VVal "1"; VRef (RName "p")])])]) (Some ["b"]))).
Lemma C19_cmd_ok : command_ok C19_cmd /\ refs_valid (fun _ => true) C19_cmd /\ json_faithful (fun _ => true) C19_cmd.
Proof.
  assert (F : json_faithful (fun _ => true) C19_cmd).
  { split; [|intros t ct [=]]. intros v s (n & l & E & Hg) Ht. injection E as <-. cbn in Hg.
    repeat case_match; simplify_eq.
    - inversion Ht; subst. intros (r & [[=]|[[=] _]]).
    - inversion Ht as [|k v l s' Hin Hin'|]; subst. apply elem_of_list_In in Hin. cbn in Hin. destruct Hin as [[= <- <-]|[]].
      inversion Hin' as [| |v l s' Hin2 Hv]; subst. apply elem_of_list_In in Hin2. cbn in Hin2. destruct Hin2 as [<-|[<-|[]]]; inversion Hv; subst.
      intros (r & [[=]|[[=] _]]). }
  split; [|split]; [| |exact F].
  - split.
    + intros l [= <-]. cbn. repeat constructor; set_solver.
    + intros l [= <-]. split; [cbn; repeat constructor; set_solver|]. intros n v Hg. cbn in Hg. repeat case_match; simplify_eq; cbn; repeat constructor; set_solver.
  - split; [by intros v [s|s] _ _|]. intros l n t [= <-] Hg. cbn in Hg. repeat case_match; simplify_eq; done.
Qed.
Example C19_example : command_parse (fun _ => true) (command_json C19_cmd) = Ok C19_cmd.
Proof. destruct C19_cmd_ok as (A & B & C). by apply C19_round_trip. Qed.

(** ** C20 attribute types and references *)
Theorem C20_attr_round_trip : forall said_ok a, nattr_ok said_ok a -> nattr_parse said_ok (nattr_json a) = Ok a.
Proof. intros. by apply nattr_round. Qed.
Print Assumptions C20_attr_round_trip.
(** A decoded JSON is the JSON of its value, but for array elements after the first, which are ignored. *)
Theorem C20_attr_back : forall said_ok j a, nattr_parse said_ok j = Ok a -> nattr_json a = first_only j /\ nattr_ok said_ok a.
Proof. intros said_ok. exact (nattr_back said_ok). Qed.
Print Assumptions C20_attr_back.
(** Finding: an empty array panics the reader (and nothing else does). *)
Theorem C20_attr_panic : forall said_ok j, nattr_parse said_ok j = Panic <-> reaches_empty_array j.
Proof. intros said_ok. exact (nattr_panic said_ok). Qed.
Print Assumptions C20_attr_panic.
Theorem C20_ref : forall said_ok s r, ref_parse said_ok s = Some r <-> s = ref_text r /\ ref_ok said_ok r.
Proof. intros. split; [apply ref_parse_text|]. intros [-> H]. by apply ref_text_parse. Qed.
Print Assumptions C20_ref.
Theorem C20_ref_injective : forall r r', ref_text r = ref_text r' -> r = r'.
Proof. exact ref_text_inj. Qed.
Print Assumptions C20_ref_injective.
Theorem C20_ref_text : forall s, ref_text (RSaid s) = ("refs:" +:+ s)%string /\ ref_text (RName s) = ("refn:" +:+ s)%string.
Proof. done. Qed.
Theorem C20_type : forall s t, attr_type_parse s = Some t <-> s = attr_type_name t.
Proof. intros. split; [apply text_type|]. intros ->. apply type_text. Qed.
Print Assumptions C20_type.
Theorem C20_type_names : map attr_type_name [TBoolean; TBinary; TText; TNumeric; TDateTime] = ["Boolean"; "Binary"; "Text"; "Numeric"; "DateTime"].
Proof. done. Qed.
Example C20_example : nattr_parse (fun _ => true) (JArr [JArr [JStr "refs:EABC"]]) = Ok (NArr (NArr (NRef (RSaid "EABC")))) /\
  ref_parse (fun _ => true) "refn:a:b" = Some (RName "a:b") /\ ref_parse (fun _ => true) "refx:a" = None.
Proof. done. Qed.
Print Assumptions C19_version_refuted.
Print Assumptions C19_mapping_refuted.
Print Assumptions C19_text_refuted.

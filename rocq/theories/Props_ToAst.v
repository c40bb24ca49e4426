(** C07: bundle -> AST -> bundle.  Statements; proofs elsewhere. *)
From Verif Require Import ToAst ToAst_proofs Validator Spec_Build Upd_proofs Effect_proofs Command_proofs Run_proofs Build_proofs
  Bundle_proofs Box_proofs Determinism_proofs Inj_digest Props_Bundle Props_Build Props_Reload.

(** ** C07 *)
(** What an AST made from a bundle can express: no links, no framings, no flagged attributes. *)
Definition no_links (b : obox) : Prop := forall n a t, bx_attrs b !! n = Some a -> lookup_opt t (at_links a) = None.
Definition no_framings (b : obox) : Prop := forall n a f, bx_attrs b !! n = Some a -> lookup_opt f (at_frames a) = None.
Definition no_flags (b : obox) : Prop := forall n a, bx_attrs b !! n = Some a -> at_flag a = false.
(** The box uses language [l] somewhere. *)
Definition speaks (b : obox) (l : string) : Prop := exists k n d, box_datum b (SLang k l) n = Some d.
Definition two_letter (to1 from1 : string -> option string) (b : obox) : Prop :=
  forall l, speaks b l -> exists s, to1 l = Some s /\ from1 s = Some l.
Definition no_lang_key (b : obox) : Prop := forall l, box_datum b (SLang KMeta l) "lang" = None.
(** Groups of entry codes are an IndexMap: no group is named twice. *)
Definition groups_distinct (b : obox) : Prop := forall n a g, bx_attrs b !! n = Some a -> at_ecodes a = Some (ECObj g) -> NoDup (map fst g).
Lemma spoken_facts b : no_links b -> no_framings b -> forall s n d, box_datum b s n = Some d -> spoken s.
Proof.
  intros Hl Hf s n d Hd. destruct s as [k|k l|t|f]; [done|done| |]; rewrite box_datum_attr in Hd by done;
    (destruct (bx_attrs b !! n) as [a|] eqn:Ha; [|done]); cbn in Hd; [rewrite (Hl n a t Ha) in Hd|rewrite (Hf n a f Ha) in Hd]; done.
Qed.
(** The AST of a bundle builds, from scratch, into a bundle with the same JSON and SAIDs. *)
Theorem C07_round_trip : forall digest from1 to1 o1 o2 os b B,
  order_ok o1 -> order_ok o2 -> (forall i, order_ok (os i)) ->
  api_box b -> no_links b -> no_framings b -> no_flags b -> no_mappings b -> no_category_labels b -> groups_distinct b ->
  two_letter to1 from1 b -> no_lang_key b ->
  generate_bundle digest o1 b = Some B -> no_collision digest (b_ovs B) ->
  exists a B' steps, to_ast to1 o2 B = Ok a /\ from_ast digest from1 os None a = BuildOk B' steps /\
    bundle_json B' = bundle_json B /\ b_said B' = b_said B /\ cb_said (b_cb B') = cb_said (b_cb B) /\
    map overlay_json (b_ovs B') ≡ₚ map overlay_json (b_ovs B).
Proof.
  intros digest from1 to1 o1 o2 os b B O1 O2 Os Hb Hl Hf Hfl Hm Hc Hg H2 Hk G Hcol. pose proof (api_box_ok b Hb) as K.
  destruct (C02_proof o1 O1 digest b K) as (B0 & G0 & R). rewrite G in G0. injection G0 as <-.
  destruct (to_ast_runs from1 to1 o2 O2 b B R K) as (a & x & E & Hne & Hco & Hok & Hst & Hx & He); [done| |done| |done|by apply spoken_facts|done|].
  { intros k l n d Hd. apply H2. by exists k, n, d. }
  { intros n l Hd. rewrite box_datum_attr in Hd by done. destruct (bx_attrs b !! n) as [at0|] eqn:Ha; [|done]. cbn in Hd.
    destruct (at_ecodes at0) as [e|] eqn:Ee; [|done]. injection Hd as ->. by apply (Hg n at0). }
  destruct (proj2 (C12_ok digest from1 os Os None a None (bo_none _) Hco)) as (B' & steps & EB).
  { split; [|by right]. rewrite Forall_forall in Hok. done. }
  exists a, B', steps. split; [done|]. split; [done|].
  assert (G' : generate_bundle digest (os (length (ast_commands a))) x = Some B').
  { unfold from_ast in EB. apply base_ok in EB as (_ & _ & y & Hy & G'). rewrite Hst in Hy. by injection Hy as <-. }
  assert (Hfc : frames_consistent b). { intros f k v w (n & a0 & fr & sc & s & Ha & Hfr & _). by rewrite (Hf n a0 f Ha) in Hfr. }
  destruct (bundle_json_equiv digest o1 (os (length (ast_commands a))) b x B B' O1 (Os _) K (api_box_ok x Hx) He Hfc G G' Hcol) as (J1 & J2 & J3 & J4). done.
Qed.
Print Assumptions C07_round_trip.
(** An example with every expressible kind of overlay. *)
Definition ex_to1 (l : string) : option string := if String.eqb l "eng" then Some "en" else if String.eqb l "pol" then Some "pl" else None.
Definition ex_from2 (s : string) : option string := if String.eqb s "en" then Some "eng" else if String.eqb s "pl" then Some "pol" else None.
Definition ex_t1 : attribute :=
  set_label "eng" "Name" (set_label "pol" "Imie" (set_encoding EUtf8 (set_info "eng" "i" (set_cardinality "1-2" (set_ecodes (ECObj [("g", ["a"; "b"]); ("h", ["c"])])
    (set_entry "eng" (EnObj {["a" := "A"; "b" := "B"]}) (set_type (NArr (NVal TText)) (attr_new "name")))))))).
Definition ex_t2 : attribute :=
  set_condition "${name} ~= '' and ${age} > 1" (set_unit "kg" (set_format "f" (set_conformance "M" (set_ecodes (ECArr ["z"; "y"])
    (set_entry "pol" (EnSai "s") (set_type (NRef (RSaid "r")) (attr_new "age"))))))).
Definition ex_tbox : obox :=
  add_meta "eng" "name" "Test" (add_meta "pol" "name" "Proba" (add_classification "GICS" (add_attribute ex_t2 (add_attribute ex_t1 box_new)))).
Lemma ex_tbox_attrs n a : bx_attrs ex_tbox !! n = Some a -> a = ex_t1 \/ a = ex_t2.
Proof.
  change (bx_attrs ex_tbox) with (<["age" := ex_t2]> (<["name" := ex_t1]> (∅ : gmap string attribute))). intros Ha.
  apply lookup_insert_Some in Ha as [[_ <-]|[_ Ha]]; [by right|]. apply lookup_insert_Some in Ha as [[_ <-]|[_ Ha]]; [by left|by rewrite lookup_empty in Ha].
Qed.
Lemma ex_tbox_langs l : speaks ex_tbox l -> l = "eng" \/ l = "pol".
Proof.
  intros (k & n & d & Hd). destruct (decide (k = KMeta)) as [->|Hk].
  - cbn [box_datum] in Hd. change (bx_meta ex_tbox) with (Some (<["eng" := <["name" := "Test"]> (∅ : gmap string string)]> (<["pol" := <["name" := "Proba"]> (∅ : gmap string string)]> (∅ : gmap string (gmap string string))))) in Hd.
    cbn [mbind option_bind] in Hd. destruct (decide (l = "eng")) as [->|H1]; [by left|]. destruct (decide (l = "pol")) as [->|H2]; [by right|].
    rewrite !lookup_insert_ne, lookup_empty in Hd by done. done.
  - rewrite box_datum_attr in Hd by (intros ? [= ? _]; done). destruct (bx_attrs ex_tbox !! n) as [a|] eqn:Ha; [|done]. cbn [mbind option_bind] in Hd.
    destruct (decide (l = "eng")) as [->|H1]; [by left|]. destruct (decide (l = "pol")) as [->|H2]; [by right|]. exfalso.
    apply ex_tbox_attrs in Ha as [-> | ->]; destruct k; try done;
      cbn [attr_datum ex_t1 ex_t2 set_label set_encoding set_info set_cardinality set_ecodes set_entry set_type set_condition set_unit set_format set_conformance attr_new
           at_labels at_catlabels at_infos at_entries lookup_opt insert_opt unwrap_or] in Hd;
      rewrite ?lookup_insert_ne, ?lookup_empty in Hd by done; done.
Qed.
Example C07_example : api_box ex_tbox /\ no_links ex_tbox /\ no_framings ex_tbox /\ no_flags ex_tbox /\ no_mappings ex_tbox /\ no_category_labels ex_tbox /\
  groups_distinct ex_tbox /\ two_letter ex_to1 ex_from2 ex_tbox /\ no_lang_key ex_tbox /\
  match generate_bundle inj_digest ord1 ex_tbox with
  | Some B => match to_ast ex_to1 ord2 B with
              | Ok a => match from_ast inj_digest ex_from2 (fun _ => ord2) None a with
                        | BuildOk B' _ => bool_decide (b_said B = b_said B') && bool_decide (length (ast_commands a) = 15%nat)
                        | _ => false end
              | _ => false end
  | None => false
  end = true.
Proof.
  split; [|split; [|split; [|split; [|split; [done|split; [|split; [|split; [|split; [|vm_compute; reflexivity]]]]]]]]].
  - apply ab_meta, ab_meta, ab_class, ab_add; [|left; by eexists|apply ab_add; [|left; by eexists|apply ab_new]].
    + apply aa_cond, aa_unit, aa_format, aa_conf, aa_ecodes, aa_entry, aa_type, aa_new.
    + apply aa_label, aa_label, aa_enc, aa_info, aa_card, aa_ecodes, aa_entry, aa_type, aa_new.
  - intros n a t Ha. by apply ex_tbox_attrs in Ha as [-> | ->].
  - intros n a t Ha. by apply ex_tbox_attrs in Ha as [-> | ->].
  - intros n a Ha. by apply ex_tbox_attrs in Ha as [-> | ->].
  - intros n a l Ha. by apply ex_tbox_attrs in Ha as [-> | ->].
  - intros n a g Ha E. apply ex_tbox_attrs in Ha as [-> | ->]; [|done]. injection E as <-. by apply (bool_decide_unpack _).
  - intros l Hs. apply ex_tbox_langs in Hs as [-> | ->]; [by exists "en"|by exists "pl"].
  - intros l. destruct (box_datum ex_tbox (SLang KMeta l) "lang") as [d|] eqn:E; [|done]. exfalso.
    assert (Hs : speaks ex_tbox l) by (by exists KMeta, "lang", d). apply ex_tbox_langs in Hs as [-> | ->]; vm_compute in E; done.
Qed.
(** Findings.  [said_after_ast]: SAID of the bundle, and of the bundle built from its AST. *)
Definition said_after_ast (o : order) (b : obox) : option (option string * option string) :=
  B ← generate_bundle inj_digest o b;
  match to_ast ex_to1 o B with
  | Ok a => match from_ast inj_digest ex_from2 (fun _ => o) None a with BuildOk B' _ => Some (b_said B, b_said B') | _ => None end
  | _ => None
  end.
Definition one_attr (a : attribute) : obox := add_attribute a box_new.
Lemma one_attr_api a : api_attr a -> is_Some (at_type a) -> api_box (one_attr a).
Proof. intros Ha Ht. apply ab_add; [done|by left|apply ab_new]. Qed.
(** Links, framings and flags are lost by the conversion. *)
Theorem C07_links_refuted : exists b, api_box b /\ no_framings b /\ no_flags b /\ no_mappings b /\ no_category_labels b /\
  other_said (said_after_ast ord1 b) = true.
Proof.
  set (x := set_link "EX" "x" (set_type (NVal TText) (attr_new "a"))). exists (one_attr x).
  assert (Hx : forall n a, bx_attrs (one_attr x) !! n = Some a -> a = x).
  { intros n a Ha. change ((<["a" := x]> (∅ : gmap string attribute)) !! n = Some a) in Ha. apply lookup_insert_Some in Ha as [[_ <-]|[_ Ha]]; [done|by rewrite lookup_empty in Ha]. }
  split; [apply one_attr_api; [apply aa_link, aa_type, aa_new|by eexists]|].
  split; [intros n a f Ha; by apply Hx in Ha as ->|]. split; [intros n a Ha; by apply Hx in Ha as ->|]. split; [done|].
  split; [intros n a f Ha; by apply Hx in Ha as ->|]. vm_compute. reflexivity.
Qed.
Print Assumptions C07_links_refuted.
Theorem C07_framings_refuted : exists b, api_box b /\ no_links b /\ no_flags b /\ no_mappings b /\ no_category_labels b /\
  other_said (said_after_ast ord1 b) = true.
Proof.
  set (x := set_framing "fr" {["s" := FScope "p" "j" ∅]} (set_type (NVal TText) (attr_new "a"))). exists (one_attr x).
  assert (Hx : forall n a, bx_attrs (one_attr x) !! n = Some a -> a = x).
  { intros n a Ha. change ((<["a" := x]> (∅ : gmap string attribute)) !! n = Some a) in Ha. apply lookup_insert_Some in Ha as [[_ <-]|[_ Ha]]; [done|by rewrite lookup_empty in Ha]. }
  split; [apply one_attr_api; [apply aa_framing; [|apply aa_type, aa_new]|by eexists]|].
  { intros sc s Hs. apply lookup_singleton_Some in Hs as [_ <-]. apply lookup_empty. }
  split; [intros n a f Ha; by apply Hx in Ha as ->|]. split; [intros n a Ha; by apply Hx in Ha as ->|]. split; [done|].
  split; [intros n a f Ha; by apply Hx in Ha as ->|]. vm_compute. reflexivity.
Qed.
Print Assumptions C07_framings_refuted.
Theorem C07_flags_refuted : exists b, api_box b /\ no_links b /\ no_framings b /\ no_mappings b /\ no_category_labels b /\
  other_said (said_after_ast ord1 b) = true.
Proof.
  set (x := set_flagged (set_type (NVal TText) (attr_new "a"))). exists (one_attr x).
  assert (Hx : forall n a, bx_attrs (one_attr x) !! n = Some a -> a = x).
  { intros n a Ha. change ((<["a" := x]> (∅ : gmap string attribute)) !! n = Some a) in Ha. apply lookup_insert_Some in Ha as [[_ <-]|[_ Ha]]; [done|by rewrite lookup_empty in Ha]. }
  split; [apply one_attr_api; [apply aa_flag, aa_type, aa_new|by eexists]|].
  split; [intros n a f Ha; by apply Hx in Ha as ->|]. split; [intros n a f Ha; by apply Hx in Ha as ->|]. split; [done|].
  split; [intros n a f Ha; by apply Hx in Ha as ->|]. vm_compute. reflexivity.
Qed.
Print Assumptions C07_flags_refuted.
(** A meta entry called "lang" takes the place of the language: the text moves to another language. *)
Theorem C07_lang_key_refuted : exists b, api_box b /\ bx_attrs b = ∅ /\ other_said (said_after_ast ord1 b) = true.
Proof.
  exists (add_meta "eng" "lang" "pl" (add_meta "eng" "name" "Test" box_new)). split; [apply ab_meta, ab_meta, ab_new|]. split; [done|]. vm_compute. reflexivity.
Qed.
Print Assumptions C07_lang_key_refuted.
(** A language without a two-letter code: the conversion panics. *)
Theorem C07_language_panics : forall to1 o1 o2 digest l, to1 l = None -> order_ok o1 -> order_ok o2 -> forall B,
  generate_bundle digest o1 (add_meta l "name" "Test" box_new) = Some B -> to_ast to1 o2 B = Panic.
Proof.
  intros to1 o1 o2 digest l Hl O1 O2 B G. set (b := add_meta l "name" "Test" box_new) in *.
  assert (Hb : api_box b) by apply ab_meta, ab_new. destruct (C02_proof o1 O1 digest b (api_box_ok b Hb)) as (B0 & G0 & R). rewrite G in G0. injection G0 as <-.
  assert (Hm : forall l' k d, box_datum b (SLang KMeta l') k = Some d -> l' = l).
  { intros l' k d Hd. rewrite box_datum_meta in Hd. cbn in Hd. destruct (decide (l' = l)) as [->|Hne]; [done|].
    rewrite lookup_insert_ne, lookup_empty in Hd by done. done. }
  assert (Hov : forall ov, ov ∈ b_ovs B -> exists m, ov_body ov = BMeta l m).
  { intros ov Hin. pose proof (br_tidy b B R ov Hin) as T. destruct (decide (is_mapping (ov_body ov) = true)) as [Hmap|Hmap].
    { exfalso. assert (E : List.filter is_mapping (map ov_body (b_ovs B)) = []) by (rewrite (br_maps b B R); done).
      assert (H : ov_body ov ∈ List.filter is_mapping (map ov_body (b_ovs B))).
      { apply elem_of_list_In, filter_In. split; [|done]. apply in_map, elem_of_list_In, Hin. }
      rewrite E in H. by apply elem_of_nil in H. }
    assert (Hs : body_slot (ov_body ov) <> SPlain KAttributeMapping).
    { intros E. destruct (ov_body ov) as [| | | | | | | | | | | |meta m| | | |]; try done. cbn in E. by destruct (meta !! "frame_id"). }
    destruct (proj1 (br_exists b B R _ Hs)) as (n & d & Hd); [by exists ov|].
    destruct (ov_body ov) as [m|m|m|m|m|c dd|m|l' m|l' cats m cl|l' m|l' m|t m|meta m|m|x|x|m] eqn:Eb; try (by exfalso; cbn in Hd; rewrite lookup_empty in Hd); try done.
    - cbn [body_slot body_kind] in Hd. apply Hm in Hd as ->. by exists m.
    - exfalso. cbn in Hd. destruct (meta !! "frame_id"); cbn in Hd; by rewrite lookup_empty in Hd. }
  assert (Hne : b_ovs B <> []).
  { destruct (proj2 (br_exists b B R (SLang KMeta l) ltac:(done))) as (ov & Hin & _).
    - exists "name", (DText "Test"). rewrite box_datum_meta. cbn. rewrite lookup_insert. cbn. by rewrite lookup_insert.
    - intros E. rewrite E in Hin. by apply elem_of_nil in Hin. }
  unfold to_ast. destruct (b_ovs B) as [|ov ovs]; [done|]. destruct (Hov ov) as [m Em]; [left|].
  unfold indexed. cbn [length seq zip zip_with overlay_commands]. unfold overlay_command. rewrite Em, Hl. done.
Qed.
Print Assumptions C07_language_panics.
Example C07_language_example : ex_to1 "deu" = None /\ order_ok ord1 /\ match generate_bundle inj_digest ord1 (add_meta "deu" "name" "Test" box_new) with
  | Some B => is_panic (to_ast ex_to1 ord2 B) | None => false end = true.
Proof. split; [done|]. split; [apply ord1_ok|]. vm_compute. reflexivity. Qed.

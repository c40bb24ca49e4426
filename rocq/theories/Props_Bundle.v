(** C01-C04, C33: generation, verification and tamper evidence.  Statements; proofs elsewhere. *)
From Verif Require Import Validator Spec_Bundle Spec_Condition Bundle_proofs Box_proofs Determinism_proofs
  Validator_proofs Translation_proofs Tamper_proofs Inj_digest.

(** ** Example data *)
Definition ex_a1 : attribute :=
  set_label "eng" "Name" (set_label "pol" "Imie" (set_encoding EUtf8 (set_type (NVal TText) (attr_new "name")))).
Definition ex_a2 : attribute :=
  set_condition "${name} ~= ''" (set_flagged (set_link "EX" "x"
    (set_framing "fr" {["s1" := FScope "p" "j" {["frame_k" := "v"]}; "s2" := FScope "q" "j" {["frame_k" := "v"]}]}
      (set_type (NVal TNumeric) (attr_new "age"))))).
Definition ex_box : obox :=
  add_meta "eng" "name" "Test" (add_classification "GICS" (add_attribute ex_a2 (add_attribute ex_a1 box_new))).
Definition ord1 : order := fun _ _ m => map_to_list m.
Definition ord2 : order := fun _ _ m => rev (map_to_list m).
Lemma ord1_ok : order_ok ord1. Proof. intros p V m. done. Qed.
Lemma ord2_ok : order_ok ord2. Proof. intros p V m. unfold ord2. by rewrite <- Permutation_rev. Qed.
Lemma ex_box_api : api_box ex_box.
Proof.
  apply ab_meta, ab_class, ab_add; [|left; by eexists|apply ab_add; [|left; by eexists|apply ab_new]].
  - apply aa_cond, aa_flag, aa_link, aa_framing, aa_type, aa_new.
    intros sc s H. apply lookup_insert_Some in H as [[_ <-]|[_ H]]; [done|].
    apply lookup_singleton_Some in H as [_ <-]; done.
  - apply aa_label, aa_label, aa_enc, aa_type, aa_new.
Qed.
Lemma ex_box_frames : frames_consistent ex_box.
Proof.
  assert (H : forall f k v, frame_meta_says (bx_attrs ex_box) f k v -> v = "v").
  { intros f k v (n & a & fr & sc & s & Ha & Hf & Hs & Hk).
    assert (Ha' : a = ex_a1 \/ a = ex_a2).
    { change (bx_attrs ex_box) with (<["age" := ex_a2]> (<["name" := ex_a1]> (∅ : gmap string attribute))) in Ha.
      apply lookup_insert_Some in Ha as [[_ <-]|[_ Ha]]; [by right|].
      apply lookup_insert_Some in Ha as [[_ <-]|[_ Ha]]; [by left|]. by rewrite lookup_empty in Ha. }
    destruct Ha' as [ -> | -> ]; [done|]. 
    change (lookup_opt f (at_frames ex_a2)) with ((<["fr" := {["s1" := FScope "p" "j" {["frame_k" := "v"]}; "s2" := FScope "q" "j" {["frame_k" := "v"]}]}]> (∅ : gmap string framing)) !! f) in Hf.
    apply lookup_insert_Some in Hf as [[_ <-]|[_ Hf]]; [|by rewrite lookup_empty in Hf].
    apply lookup_insert_Some in Hs as [[_ <-]|[_ Hs]].
    - simpl in Hk. apply lookup_singleton_Some in Hk as [_ <-]; done.
    - apply lookup_singleton_Some in Hs as [_ <-].
      simpl in Hk. apply lookup_singleton_Some in Hk as [_ <-]; done. }
  intros f k v w H1 H2. apply H in H1, H2. congruence.
Qed.

(** ** C01 *)
(** The same box under any two iteration orders gives the same JSON and the same SAIDs. *)
Theorem C01_said_determinism : forall digest o1 o2 b B1 B2,
  order_ok o1 -> order_ok o2 -> api_box b -> frames_consistent b ->
  generate_bundle digest o1 b = Some B1 -> generate_bundle digest o2 b = Some B2 ->
  no_collision digest (b_ovs B1) ->
  bundle_json B1 = bundle_json B2 /\ b_said B1 = b_said B2 /\ cb_said (b_cb B1) = cb_said (b_cb B2) /\
  map overlay_json (b_ovs B1) ≡ₚ map overlay_json (b_ovs B2).
Proof.
  exact (fun digest o1 o2 b B1 B2 H1 H2 Hb Hf => bundle_json_equiv digest o1 o2 b b B1 B2 H1 H2
    (api_box_ok b Hb) (api_box_ok b Hb) (box_equiv_refl b) Hf).
Qed.
Print Assumptions C01_said_determinism.
(** Also for two different boxes that say the same (Spec_Bundle.box_equiv). *)
Theorem C01_said_depends_on_content_only : forall digest o1 o2 b1 b2 B1 B2,
  order_ok o1 -> order_ok o2 -> api_box b1 -> api_box b2 -> box_equiv b1 b2 -> frames_consistent b1 ->
  generate_bundle digest o1 b1 = Some B1 -> generate_bundle digest o2 b2 = Some B2 ->
  no_collision digest (b_ovs B1) ->
  bundle_json B1 = bundle_json B2 /\ b_said B1 = b_said B2 /\ cb_said (b_cb B1) = cb_said (b_cb B2) /\
  map overlay_json (b_ovs B1) ≡ₚ map overlay_json (b_ovs B2).
Proof.
  exact (fun digest o1 o2 b1 b2 B1 B2 H1 H2 Hb1 Hb2 => bundle_json_equiv digest o1 o2 b1 b2 B1 B2 H1 H2
    (api_box_ok b1 Hb1) (api_box_ok b2 Hb2)).
Qed.
Print Assumptions C01_said_depends_on_content_only.
Lemma no_collision_inj ovs : no_collision inj_digest ovs.
Proof. intros x y _ _ H. by apply inj_digest_inj. Qed.
Definition kinds (B : bundle) : list okind := map (fun ov => body_kind (ov_body ov)) (b_ovs B).
Example C01_example :
  order_ok ord1 /\ order_ok ord2 /\ api_box ex_box /\ frames_consistent ex_box /\
  (forall ovs, no_collision inj_digest ovs) /\
  match generate_bundle inj_digest ord1 ex_box, generate_bundle inj_digest ord2 ex_box with
  | Some B1, Some B2 => (length (b_ovs B1) =? 7)%nat && negb (bool_decide (kinds B1 = kinds B2))
  | _, _ => false
  end = true.
Proof.
  split; [apply ord1_ok|]. split; [apply ord2_ok|]. split; [apply ex_box_api|]. split; [apply ex_box_frames|].
  split; [apply no_collision_inj|]. vm_compute. reflexivity.
Qed.

(** The exception: one frame id with two values for one metadata key. *)
Definition clash_box : obox :=
  add_attribute (set_framing "fr" {["s1" := FScope "p" "j" {["frame_k" := "v"]}; "s2" := FScope "q" "j" {["frame_k" := "w"]}]}
    (set_type (NVal TNumeric) (attr_new "age"))) box_new.
Definition frame_k (ov : overlay) : option string :=
  match ov_body ov with BFraming meta _ => meta !! "frame_k" | _ => None end.
Lemma clash_list1 : map frame_k (of_kind KAttributeFraming (generate_overlays ord1 clash_box)) = [Some "v"].
Proof. vm_compute. reflexivity. Qed.
Lemma clash_list2 : map frame_k (of_kind KAttributeFraming (generate_overlays ord2 clash_box)) = [Some "w"].
Proof. vm_compute. reflexivity. Qed.
Lemma single_same (g1 g2 : overlay -> overlay) l1 l2 l : 
  forall x y, map frame_k l1 = [x] -> l ≡ₚ map g2 l2 -> map frame_k l2 = [y] ->
  (forall z, ov_body (g1 z) = ov_body z) -> (forall z, ov_body (g2 z) = ov_body z) ->
  Forall2 overlay_same (map g1 l1) l -> x = y.
Proof.
  intros x y H1 Hp H2 G1 G2 HF.
  destruct l1 as [|z1 [|? ?]]; try done. destruct l2 as [|z2 [|? ?]]; try done. simpl in *.
  apply Permutation_singleton_r in Hp as ->. inversion HF as [|? ? ? ? Hs _]; subst.
  destruct Hs as (_ & _ & _ & Hs). rewrite G1, G2 in Hs. injection H1 as <-. injection H2 as <-. unfold frame_k.
  destruct (ov_body z1), (ov_body z2); simpl in Hs; try done. by destruct Hs as [-> _].
Qed.
Theorem C01_conflicting_frames_refuted :
  api_box clash_box /\ order_ok ord1 /\ order_ok ord2 /\
  forall digest, (forall x y, digest x = digest y -> x = y) ->
  exists B1 B2, generate_bundle digest ord1 clash_box = Some B1 /\ generate_bundle digest ord2 clash_box = Some B2 /\
    b_said B1 <> b_said B2.
Proof.
  split.
  { apply ab_add; [|left; by eexists|apply ab_new]. apply aa_framing, aa_type, aa_new.
    intros sc s H. apply lookup_insert_Some in H as [[_ <-]|[_ H]]; [done|].
    apply lookup_singleton_Some in H as [_ <-]; done. }
  split; [apply ord1_ok|]. split; [apply ord2_ok|].
  intros digest Hinj. eexists _, _. split; [reflexivity|]. split; [reflexivity|]. cbn [bundle_fill b_said].
  intros [= H]. apply Hinj in H. apply bundle_json_same in H as [_ (_ & _ & _ & _ & _ & H)].
  destruct (H KAttributeFraming) as (l & Hp & Hl). clear H. cbn [b_ovs] in Hp, Hl.
  unfold visible in Hp, Hl. cbn [overlays_many] in Hp, Hl. rewrite of_kind_map in Hp by done. rewrite of_kind_map in Hl by done.
  eapply single_same in Hl; [|exact clash_list1|exact Hp|exact clash_list2|done|done].
  discriminate Hl.
Qed.
Print Assumptions C01_conflicting_frames_refuted.

(** ** C02 *)
(** Generation never panics on a box made through the API and its result says exactly what the box says
    (Spec_Bundle.bundle_right). *)
Theorem C02_bundle_is_box_content : forall digest o b, order_ok o -> api_box b ->
  exists B, generate_bundle digest o b = Some B /\ bundle_right b B.
Proof. exact (fun digest o b Ho Hb => C02_proof o Ho digest b (api_box_ok b Hb)). Qed.
Print Assumptions C02_bundle_is_box_content.

(** ** C03 *)
Theorem C03_generated_saids_verify : forall digest o b B, generate_bundle digest o b = Some B ->
  b_said B = Some (digest (bundle_json_d (JStr dummy_said) B)) /\
  cb_said (b_cb B) = Some (digest (cb_json_d (JStr dummy_said) (b_cb B))) /\
  forall ov, ov ∈ b_ovs B ->
    ov_said ov = Some (digest (overlay_json_d (JStr dummy_said) ov)) /\ ov_cb ov = cb_said (b_cb B).
Proof.
  exact (fun digest o b B H => proj1 (said_errors_nil digest B) (generated_said_errors digest o b B H)).
Qed.
Print Assumptions C03_generated_saids_verify.
(** The validator never complains about SAIDs or capture base references of a generated bundle. *)
Theorem C03_validator_reports_no_said_error : forall digest lua o o' langs b B es e,
  generate_bundle digest o b = Some B -> validate digest lua o' langs B = VInvalid es -> e ∈ es ->
  match e with VBundleSaid | VCaptureSaid | VOverlaySaid _ _ | VOverlayBase _ _ => False | _ => True end.
Proof.
  exact (fun digest lua o o' langs b B es e H1 H2 H3 =>
    match e as e return ~ said_related e -> match e with VBundleSaid | VCaptureSaid | VOverlaySaid _ _ | VOverlayBase _ _ => False | _ => True end with
    | VBundleSaid | VCaptureSaid | VOverlaySaid _ _ | VOverlayBase _ _ => fun H => H I
    | _ => fun _ => I end (C03_no_said_error digest lua o o' langs b B es e H1 H2 H3)).
Qed.
Print Assumptions C03_validator_reports_no_said_error.
(** With no enforced language the verdict is that of the conditions: [mock_of] is the sample value of
    an attribute's type, [ps] the reading of the condition text (Spec_Condition). *)
Theorem C03_verdict_is_conditions : forall digest lua o o' b B,
  order_ok o -> order_ok o' -> api_box b -> generate_bundle digest o b = Some B ->
  validate digest lua o' [] B = VValid <->
  (forall n a c ps, bx_attrs b !! n = Some a -> at_cond a = Some (encode_condition c).1 ->
     at_deps a = Some (encode_condition c).2 -> reads c ps ->
     PName n ∉ ps /\ (forall d, PName d ∈ ps -> is_Some (mock_of b d)) /\
     exists bo, lua ("return " +:+ render (fun d => unwrap_or "" (mock_of b d)) ps)%string = inl bo).
Proof. exact (fun digest lua o o' b B H1 H2 Hb => C03_verdict digest lua o o' b B H1 H2 (api_box_ok b Hb)). Qed.
Print Assumptions C03_verdict_is_conditions.
Example C03_example :
  match generate_bundle inj_digest ord1 ex_box with
  | Some B => validate inj_digest (fun s => if String.eqb s "return 'test' ~= ''" then inl true else inr "bad") ord2 [] B
  | None => VPanic
  end = VValid.
Proof. vm_compute. reflexivity. Qed.
(** Finding: a condition error hides every SAID error (validator.rs 131-137). *)
Definition bad_bundle : bundle :=
  Bundle (Some "wrong") (CaptureBase (Some "wrong") "spec/capture_base/1.1" [("a", NVal TText)] "" [])
    [Overlay (Some "wrong") (Some "other") "1.1" (BConditional {["a" := "${0}"]} {["a" := ["a"]]})].
Theorem C03_condition_error_hides_said_errors_refuted :
  said_errors inj_digest bad_bundle <> [] /\
  validate inj_digest (fun _ => inl true) ord1 [] bad_bundle = VInvalid [VCondSelf "a"].
Proof. split; [vm_compute; discriminate|reflexivity]. Qed.

(** ** C04 *)
(** Two accepted bundles with one SAID have the same serialisation and the same content
    (Spec_Bundle.bundle_same), or their two hashed texts are a collision of the digest. *)
Theorem C04_tamper_evidence : forall digest lua o1 o2 ls1 ls2 B1 B2,
  validate digest lua o1 ls1 B1 = VValid -> validate digest lua o2 ls2 B2 = VValid -> b_said B1 = b_said B2 ->
  (bundle_json B1 = bundle_json B2 /\ bundle_same B1 B2) \/
  (bundle_json_d (JStr dummy_said) B1 <> bundle_json_d (JStr dummy_said) B2 /\
   digest (bundle_json_d (JStr dummy_said) B1) = digest (bundle_json_d (JStr dummy_said) B2)).
Proof. exact C04_bundle. Qed.
Print Assumptions C04_tamper_evidence.
Theorem C04_tamper_evidence_capture_base : forall digest lua o1 o2 ls1 ls2 B1 B2,
  validate digest lua o1 ls1 B1 = VValid -> validate digest lua o2 ls2 B2 = VValid ->
  cb_said (b_cb B1) = cb_said (b_cb B2) ->
  (cb_json (b_cb B1) = cb_json (b_cb B2) /\ cb_stype (b_cb B1) = cb_stype (b_cb B2) /\
   cb_attrs (b_cb B1) ≡ₚ cb_attrs (b_cb B2) /\ cb_class (b_cb B1) = cb_class (b_cb B2) /\
   cb_flagged (b_cb B1) ≡ₚ cb_flagged (b_cb B2)) \/
  (cb_json_d (JStr dummy_said) (b_cb B1) <> cb_json_d (JStr dummy_said) (b_cb B2) /\
   digest (cb_json_d (JStr dummy_said) (b_cb B1)) = digest (cb_json_d (JStr dummy_said) (b_cb B2))).
Proof. exact C04_capture_base. Qed.
Print Assumptions C04_tamper_evidence_capture_base.
Theorem C04_tamper_evidence_overlay : forall digest lua o1 o2 ls1 ls2 B1 B2 x y,
  validate digest lua o1 ls1 B1 = VValid -> validate digest lua o2 ls2 B2 = VValid ->
  x ∈ b_ovs B1 -> y ∈ b_ovs B2 -> ov_said x = ov_said y ->
  (overlay_json x = overlay_json y /\ overlay_same x y) \/
  (overlay_json_d (JStr dummy_said) x <> overlay_json_d (JStr dummy_said) y /\
   digest (overlay_json_d (JStr dummy_said) x) = digest (overlay_json_d (JStr dummy_said) y)).
Proof. exact C04_overlay. Qed.
Print Assumptions C04_tamper_evidence_overlay.
Example C04_example :
  match generate_bundle inj_digest ord1 ex_box, generate_bundle inj_digest ord2 ex_box with
  | Some B1, Some B2 =>
      match validate inj_digest (fun _ => inl true) ord1 [] B1, validate inj_digest (fun _ => inl true) ord2 [] B2 with
      | VValid, VValid => bool_decide (b_said B1 = b_said B2) && negb (bool_decide (kinds B1 = kinds B2))
      | _, _ => false
      end
  | _, _ => false
  end = true.
Proof. vm_compute. reflexivity. Qed.

(** ** C33 *)
Theorem C33_accepts_iff_translated : forall langs ovs, langs <> [] ->
  translation_errors langs ovs = [] <->
  forall ov k l, ov ∈ ovs -> speaks ov k l ->
    l ∈ langs /\
    (forall l', l' ∈ langs -> exists ov', ov' ∈ ovs /\ speaks ov' k l') /\
    (forall ov' l' key, ov' ∈ ovs -> speaks ov' k l' -> says ov' key -> says ov key).
Proof. exact tr_none'. Qed.
Print Assumptions C33_accepts_iff_translated.
(** The validator accepts only if the translation check found nothing, and for a bundle without SAID or
    condition errors exactly then. *)
Theorem C33_validator_uses_it : forall digest lua o langs B,
  validate digest lua o langs B = VValid -> translation_errors langs (b_ovs B) = [].
Proof. exact (fun digest lua o langs B H => proj1 (proj2 (validate_valid_said digest lua o langs B H))). Qed.
Print Assumptions C33_validator_uses_it.
Theorem C33_validator_adds_nothing : forall digest lua o langs B,
  validate digest lua o [] B = VValid ->
  validate digest lua o langs B = match translation_errors langs (b_ovs B) with [] => VValid | es => VInvalid es end.
Proof. exact validate_langs. Qed.
Print Assumptions C33_validator_adds_nothing.
Theorem C33_unexpected_exact : forall langs ovs k l, langs <> [] ->
  VUnexpected k l ∈ translation_errors langs ovs <-> l ∉ langs /\ exists ov, ov ∈ ovs /\ speaks ov k l.
Proof. exact tr_unexpected'. Qed.
Print Assumptions C33_unexpected_exact.
Theorem C33_missing_exact : forall langs ovs k l, langs <> [] ->
  VMissing k l ∈ translation_errors langs ovs <->
  l ∈ langs /\ (exists ov l', ov ∈ ovs /\ speaks ov k l') /\ ~ exists ov, ov ∈ ovs /\ speaks ov k l.
Proof. exact tr_missing'. Qed.
Print Assumptions C33_missing_exact.
Theorem C33_missing_key_exact : forall langs ovs k l key, langs <> [] ->
  VMissingKey k l key ∈ translation_errors langs ovs <->
  (exists ov, ov ∈ ovs /\ speaks ov k l /\ ~ says ov key) /\ (exists ov l', ov ∈ ovs /\ speaks ov k l' /\ says ov key).
Proof. exact tr_missing_key'. Qed.
Print Assumptions C33_missing_key_exact.
(** Without enforced languages nothing is checked. *)
Theorem C33_no_languages : forall ovs, translation_errors [] ovs = [].
Proof. exact (fun _ => eq_refl). Qed.
Example C33_example :
  match generate_bundle inj_digest ord1 ex_box with
  | Some B => translation_errors ["eng"; "deu"] (b_ovs B)
  | None => []
  end = [VMissing KMeta "deu"; VUnexpected KLabel "pol"; VMissing KLabel "deu"].
Proof. vm_compute. reflexivity. Qed.
Print Assumptions C03_condition_error_hides_said_errors_refuted.
Print Assumptions C33_no_languages.

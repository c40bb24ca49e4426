(** C61: published bytes and the version field. *)
From Verif Require Import Base Bundle Spec_Bundle Spec_JsonText JsonText JsonText_proofs TFile Nesting Text Spec_Version Version Version_proofs Validator Validator_proofs Tamper_proofs Box_proofs Bundle_proofs Build Spec_Build Facade Spec_Facade Facade_proofs
  BundleCodec Spec_BundleCodec Nesting_proofs BundleText Props_Bundle Props_Build Props_Facade Props_Total Props_JsonText Props_Transformation Props_Codec Props_BundleCodec Spec_TFile Props_History Props_Dag.
From Verif Require Condition_proofs.
Local Open Scope string_scope.

(** ** What is written and what is hashed *)
Lemma preimage_bundle d B : preimage (bundle_json_d d B) = derivation_text oca_proto (bundle_fields B).
Proof. unfold preimage, bundle_json_d. rewrite bool_decide_eq_true_2 by reflexivity. reflexivity. Qed.
Lemma preimage_tr d T : preimage (transformation_json_d d T) = derivation_text tr_proto (tr_fields T).
Proof. unfold preimage, transformation_json_d. rewrite bool_decide_eq_false_2 by done. rewrite bool_decide_eq_true_2 by reflexivity. reflexivity. Qed.
Lemma preimage_cb d cb : preimage (cb_json_d d cb) = write_json (cb_json_d d cb).
Proof. unfold preimage, cb_json_d. rewrite !bool_decide_eq_false_2 by done. reflexivity. Qed.
Lemma preimage_ov d ov : preimage (overlay_json_d d ov) = write_json (overlay_json_d d ov).
Proof.
  assert (H : exists l a b r, overlay_json_d d ov = JObj l /\ l = ("d", d) :: a :: b :: r /\ (a.1 = "type" \/ b.1 = "type")).
  { unfold overlay_json_d. destruct (ov_body ov); eexists _, _, _, _; (split; [reflexivity|]); (split; [reflexivity|]); cbn [fst]; auto. }
  destruct H as (l & a & b & r & -> & -> & H). unfold preimage. rewrite !bool_decide_eq_false_2; [done| |]; intros E; cbn [map fst] in E; injection E as E1 E2; destruct H as [H|H]; rewrite H in *; discriminate.
Qed.
Lemma store_bundle B : store_write (bundle_json B) = bundle_encode B.
Proof. unfold store_write, bundle_json, bundle_json_d. cbn [versionable]. change (String.eqb "d" "v") with false. cbv iota. rewrite bool_decide_eq_true_2 by reflexivity. reflexivity. Qed.
Lemma bundle_first B d : bundle_fields B d = ("d", d) :: [("capture_base", cb_json (b_cb B)); ("overlays", overlays_json (b_ovs B))].
Proof. reflexivity. Qed.
Lemma tr_first T d : tr_fields T d = ("d", d) :: [("source", jopt (tr_source T)); ("target", jopt (tr_target T)); ("attributes", strs_map_json (tr_attrs T))].
Proof. reflexivity. Qed.

(** What the words of the specification pin down: one version per text, one reading per version string. *)
Lemma quote_split v v' a b : all_chars as_is v = true -> all_chars as_is v' = true -> v +:+ QT +:+ a = v' +:+ QT +:+ b -> v = v' /\ a = b.
Proof.
  revert v'. induction v as [|c v IH]; intros [|c' v'] H H' E.
  - cbn in E. by injection E as E.
  - exfalso. cbn in E. injection E as E _. subst c'. cbn in H'. discriminate.
  - exfalso. cbn in E. injection E as E _. subst c. cbn in H. discriminate.
  - cbn [append] in E. injection E as E1 E2. subst c'. cbn [all_chars] in H, H'. apply andb_true_iff in H as [_ H], H' as [_ H']. destruct (IH _ H H' E2) as [-> ->]. done.
Qed.
Lemma opening_split v v' a b : all_chars as_is v = true -> all_chars as_is v' = true -> opening v +:+ a = opening v' +:+ b -> v = v' /\ a = b.
Proof.
  intros H H' E. unfold opening in E. rewrite !sassoc in E. do 6 apply app_inj_l in E. apply quote_split in E as [-> E]; [|done..]. split; [done|]. by do 6 apply app_inj_l in E.
Qed.
Theorem C61_one_version : forall t v v', stated_version t v -> stated_version t v' -> v = v'.
Proof. intros t v v' [H [r E]] [H' [r' E']]. subst t. do 6 apply app_inj_l in E'. by apply quote_split in E' as [-> _]. Qed.
Print Assumptions C61_one_version.
Theorem C61_one_reading : forall v p a b n a' b' n', states v p a b n -> states v p a' b' n' -> a = a' /\ b = b' /\ n = n'.
Proof.
  intros v p a b n a' b' n' (x & y & h & E & Ha & Hb & Hn & _) (x' & y' & h' & E' & Ha' & Hb' & Hn' & _). rewrite E in E'. apply app_inj_l in E'. injection E' as E1 E2 E3. subst x' y'. apply app_inj_r in E3. subst h'.
  split; [by eapply hex_digit_fun|]. split; [by eapply hex_digit_fun|]. by eapply hex_number_fun.
Qed.
Print Assumptions C61_one_reading.

(** ** The version field *)
Section Encoded.
Variables (p : proto) (f : json -> list (string * json)) (r : list (string * json)).
Hypothesis Hp : proto_ok p.
Hypothesis Hf : forall d, f d = ("d", d) :: r.
Lemma encode_states s : said_text s -> (size_of (encode_text p f (JStr s)) < six_digits)%N ->
  exists v, stated_version (encode_text p f (JStr s)) v /\ states v (pr_code p) (N.of_nat (pr_major p)) (N.of_nat (pr_minor p)) (size_of (encode_text p f (JStr s))).
Proof.
  intros Hs L. destruct (encode_small p f r Hp Hf s Hs) as [H1 H2]. change (size_of (encode_text p f (JStr s))) with (text_size (encode_text p f (JStr s))) in *.
  pose proof (proj1 H1 L) as L0. destruct (H2 L0) as [-> E]. exists (version_text p (text_size (derivation_text p f))). split.
  - split; [by apply version_as_is|]. rewrite (encode_is p f r Hp Hf s) by apply Hs. generalize (version_text p (text_size (derivation_text p f))). intros v.
    exists ("," +:+ QT +:+ "d" +:+ QT +:+ ":" +:+ QT +:+ s +:+ QT +:+ tail_of r). unfold opening. rewrite !sassoc. reflexivity.
  - rewrite E. by apply version_states.
Qed.
Lemma encode_self blake s : said_text s -> (size_of (encode_text p f (JStr s)) < six_digits)%N -> s = blake (derivation_text p f) -> self_addressing blake (encode_text p f (JStr s)) s.
Proof.
  intros Hs L E. destruct (encode_small p f r Hp Hf s Hs) as [H1 H2]. pose proof (proj1 H1 L) as L0. destruct (H2 L0) as [_ V]. exists (version_text p (base_size p f)), (tail_of r).
  split; [by apply version_as_is|]. split; [rewrite (encode_is p f r Hp Hf s) by apply Hs; by rewrite V|]. by rewrite <- (derivation_is p f r Hp Hf).
Qed.
Lemma encode_big s v rest : said_text s -> (six_digits <= size_of (encode_text p f (JStr s)))%N -> all_chars as_is v = true ->
  encode_text p f (JStr s) = opening v +:+ s +:+ QT +:+ rest -> opening v +:+ placeholder +:+ QT +:+ rest <> derivation_text p f.
Proof.
  intros Hs L Hv E E'. destruct (encode_small p f r Hp Hf s Hs) as [H1 _]. rewrite (encode_is p f r Hp Hf s) in E by apply Hs. apply opening_split in E as [E _]; [|by apply version_as_is|done].
  rewrite (derivation_is p f r Hp Hf) in E'. apply opening_split in E' as [E' _]; [|done|by apply version_as_is]. rewrite <- E in E'. apply version_inj in E'.
  assert (B : ~ (base_size p f < six_digits)%N). { intros B. pose proof (proj2 H1 B) as B0; clear B; rename B0 into B. unfold size_of in L. unfold text_size in B. lia. }
  rewrite (derivation_len p f r Hp Hf) in E'. destruct (hex06_spec (base_size p f)) as (_ & _ & _ & _ & K). assert (6 < len (hex06 (base_size p f))) by (apply K; lia). lia.
Qed.
End Encoded.

(** A published bundle states its protocol, its version and its exact number of bytes. *)
Theorem C61_bundle_states_size : forall B s, b_said B = Some s -> said_text s -> (size_of (bundle_encode B) < six_digits)%N ->
  exists v, stated_version (bundle_encode B) v /\ states v "OCAS" 1 1 (size_of (bundle_encode B)).
Proof.
  intros B s E Hs L. unfold bundle_encode in *. rewrite E in *. cbn [jopt] in *. exact (encode_states _ _ _ oca_proto_ok (bundle_first B) s Hs L).
Qed.
Print Assumptions C61_bundle_states_size.
Theorem C61_transformation_states_size : forall T s, tr_said T = Some s -> said_text s -> (size_of (tr_encode T) < six_digits)%N ->
  exists v, stated_version (tr_encode T) v /\ states v "OCAT" 1 0 (size_of (tr_encode T)).
Proof.
  intros T s E Hs L. unfold tr_encode in *. rewrite E in *. cbn [jopt] in *. exact (encode_states _ _ _ tr_proto_ok (tr_first T) s Hs L).
Qed.
Print Assumptions C61_transformation_states_size.
(** It is JSON: the object with the version in front. *)
Theorem C61_bundle_text : forall B, exists v l, bundle_json B = JObj l /\ json_text (JObj (("v", JStr v) :: l)) (bundle_encode B).
Proof. intros B. eexists _, _. split; [reflexivity|]. apply write_text. Qed.
Print Assumptions C61_bundle_text.

(** ** The SAID is the digest of the published bytes *)
Definition blake_ok (blake : string -> string) : Prop := forall t, said_text (blake t).
Lemma saids_self blake B : blake_ok blake -> b_said B = Some (byte_digest blake (bundle_json_d (JStr dummy_said) B)) -> (size_of (bundle_encode B) < six_digits)%N ->
  exists s, b_said B = Some s /\ self_addressing blake (bundle_encode B) s.
Proof.
  intros Hb E L. eexists. split; [exact E|]. unfold bundle_encode in *. rewrite E in *. cbn [jopt] in *. refine (encode_self _ _ _ oca_proto_ok (bundle_first B) blake _ _ L _).
  - apply Hb.
  - unfold byte_digest. by rewrite preimage_bundle.
Qed.
Lemma plain_self blake f r s : (forall d, f d = JObj (("d", d) :: r)) -> s = blake (write_json (f (JStr dummy_said))) -> said_text s -> plain_self_addressing blake (write_json (f (JStr s))) s.
Proof.
  intros Hf E Hs. exists (tail_of r). split; [rewrite Hf; apply plain_text, Hs|]. rewrite E at 1. f_equal. rewrite Hf. by apply plain_text.
Qed.
Lemma overlay_first ov : exists r, forall d, overlay_json_d d ov = JObj (("d", d) :: r).
Proof. unfold overlay_json_d. destruct (ov_body ov); eexists; intros e; cbn [app]; reflexivity. Qed.
Lemma parts_self blake B : blake_ok blake -> said_errors (byte_digest blake) B = [] ->
  (exists s, cb_said (b_cb B) = Some s /\ plain_self_addressing blake (write_json (cb_json (b_cb B))) s) /\
  forall ov, ov ∈ b_ovs B -> exists s, ov_said ov = Some s /\ plain_self_addressing blake (write_json (overlay_json ov)) s.
Proof.
  intros Hb H. apply said_errors_nil in H as (_ & E & H). split.
  - eexists. split; [exact E|]. unfold cb_json. rewrite E. cbn [jopt]. refine (plain_self blake (fun d => cb_json_d d (b_cb B)) _ _ _ _ _); [intros; reflexivity| |apply Hb].
    unfold byte_digest. by rewrite preimage_cb.
  - intros ov Hov. destruct (H ov Hov) as [E' _]. eexists. split; [exact E'|]. unfold overlay_json. rewrite E'. cbn [jopt]. destruct (overlay_first ov) as [r Hr].
    refine (plain_self blake (fun d => overlay_json_d d ov) r _ Hr _ _); [|apply Hb]. unfold byte_digest. by rewrite preimage_ov.
Qed.
Theorem C61_bundle_verifies : forall blake o b B, blake_ok blake -> generate_bundle (byte_digest blake) o b = Some B ->
  ((size_of (bundle_encode B) < six_digits)%N -> exists s, b_said B = Some s /\ self_addressing blake (bundle_encode B) s) /\
  (exists s, cb_said (b_cb B) = Some s /\ plain_self_addressing blake (write_json (cb_json (b_cb B))) s) /\
  forall ov, ov ∈ b_ovs B -> exists s, ov_said ov = Some s /\ plain_self_addressing blake (write_json (overlay_json ov)) s.
Proof.
  intros blake o b B Hb G. split; [|apply parts_self; [done|by eapply generated_said_errors]]. apply saids_self; [done|]. by destruct (C03_generated_saids_verify _ _ _ _ G).
Qed.
Print Assumptions C61_bundle_verifies.
(** The same for any bundle the validator accepts, wherever it comes from. *)
Theorem C61_accepted_verifies : forall blake lua o langs B, blake_ok blake -> validate (byte_digest blake) lua o langs B = VValid ->
  ((size_of (bundle_encode B) < six_digits)%N -> exists s, b_said B = Some s /\ self_addressing blake (bundle_encode B) s) /\
  (exists s, cb_said (b_cb B) = Some s /\ plain_self_addressing blake (write_json (cb_json (b_cb B))) s) /\
  forall ov, ov ∈ b_ovs B -> exists s, ov_said ov = Some s /\ plain_self_addressing blake (write_json (overlay_json ov)) s.
Proof.
  intros blake lua o langs B Hb V. destruct (validate_valid_said _ _ _ _ _ V) as [V1 _]. split; [|by apply parts_self]. apply saids_self; [done|]. by apply said_errors_nil in V1 as [? _].
Qed.
Print Assumptions C61_accepted_verifies.
Theorem C61_transformation_verifies : forall blake a T, blake_ok blake -> transformation_from_ast (byte_digest blake) a = Ok T -> (size_of (tr_encode T) < six_digits)%N ->
  exists s, tr_said T = Some s /\ self_addressing blake (tr_encode T) s.
Proof.
  intros blake a T Hb H L. assert (E : tr_said T = Some (byte_digest blake (transformation_json_d (JStr dummy_said) T))).
  { unfold transformation_from_ast in H. destruct (if bool_decide _ then _ else _) as [base| |]; [|done..]. cbn [obind] in H. destruct (fold_left _ _ _); [|done]. by injection H as <-. }
  eexists. split; [exact E|]. unfold tr_encode in *. rewrite E in *. cbn [jopt] in *. refine (encode_self _ _ _ tr_proto_ok (tr_first T) blake _ _ L _).
  - apply Hb.
  - unfold byte_digest. by rewrite preimage_tr.
Qed.
Print Assumptions C61_transformation_verifies.

(** ** Tampering with the bytes *)
(** Whoever publishes them: two texts that carry the same SAID and verify are the same bytes, or a collision of the hash. *)
Theorem C61_tampered_text : forall blake t t' s, self_addressing blake t s -> self_addressing blake t' s -> t = t' \/ exists a b, collision blake a b.
Proof.
  intros blake t t' s (v & r & Hv & Ht & E) (v' & r' & Hv' & Ht' & E'). destruct (string_dec (opening v +:+ placeholder +:+ QT +:+ r) (opening v' +:+ placeholder +:+ QT +:+ r')) as [X|X].
  - left. apply opening_split in X as [-> X]; [|done..]. do 2 apply app_inj_l in X. by subst.
  - right. exists (opening v +:+ placeholder +:+ QT +:+ r), (opening v' +:+ placeholder +:+ QT +:+ r'). split; [done|]. by rewrite <- E, <- E'.
Qed.
Print Assumptions C61_tampered_text.
Lemma fields_inj (v v' d d' x x' y y' : json) : JObj [("v", v); ("d", d); ("capture_base", x); ("overlays", y)] = JObj [("v", v'); ("d", d'); ("capture_base", x'); ("overlays", y')] -> d = d' /\ x = x' /\ y = y'.
Proof. intros E. by injection E as -> -> -> ->. Qed.
Lemma fields2_inj (d d' x x' y y' e : json) : JObj [("d", d); ("capture_base", x); ("overlays", y)] = JObj [("d", d'); ("capture_base", x'); ("overlays", y')] ->
  JObj [("d", e); ("capture_base", x); ("overlays", y)] = JObj [("d", e); ("capture_base", x'); ("overlays", y')].
Proof. intros E. by injection E as -> -> ->. Qed.
Lemma preimage_inj B1 B2 : derivation_text oca_proto (bundle_fields B1) = derivation_text oca_proto (bundle_fields B2) -> bundle_json_d (JStr dummy_said) B1 = bundle_json_d (JStr dummy_said) B2.
Proof. unfold derivation_text, versioned. intros E. apply C56_injective in E. rewrite !bundle_first in E. apply fields_inj in E as (_ & E1 & E2). unfold bundle_json_d. by rewrite E1, E2. Qed.
(** Two accepted bundles with one SAID are published as the same bytes and say the same, or the hash collides. *)
Theorem C61_tampered_bundle : forall blake lua o1 o2 ls1 ls2 B1 B2,
  validate (byte_digest blake) lua o1 ls1 B1 = VValid -> validate (byte_digest blake) lua o2 ls2 B2 = VValid -> b_said B1 = b_said B2 ->
  (bundle_encode B1 = bundle_encode B2 /\ bundle_same B1 B2) \/ exists a b, collision blake a b.
Proof.
  intros blake lua o1 o2 ls1 ls2 B1 B2 V1 V2 E. destruct (C04_tamper_evidence _ _ _ _ _ _ _ _ V1 V2 E) as [[J S]|[N D]].
  - left. split; [|done]. by rewrite <- !store_bundle, J.
  - right. unfold byte_digest in D. rewrite !preimage_bundle in D. eexists _, _. split; [|exact D]. intros X. by apply N, preimage_inj.
Qed.
Print Assumptions C61_tampered_bundle.

(** ** Stores of published texts *)
(** Texts with a version serve every theorem about stores. *)
Theorem C61_serves : text_ok store_write store_read.
Proof. exact store_ok. Qed.
Print Assumptions C61_serves.
Lemma field_v k x l : String.eqb k "v" = false -> Codec.field k (("v", x) :: l) = Codec.field k l.
Proof. intros H. unfold Codec.field. cbn [List.filter fst]. by rewrite H. Qed.
Lemma parse_v said_ok digits lang_ok standard_read x l : bundle_parse said_ok digits lang_ok standard_read (JObj (("v", x) :: l)) = bundle_parse said_ok digits lang_ok standard_read (JObj l).
Proof. unfold bundle_parse, optional, required. rewrite !field_v by reflexivity. reflexivity. Qed.
(** The code reads the text as it is and passes over the version: that is the reader above, whatever the text. *)
Theorem C61_reader : forall said_ok digits lang_ok standard_read t,
  read_bundle said_ok digits lang_ok standard_read store_read t = read_bundle said_ok digits lang_ok standard_read read_json t.
Proof.
  intros so dg lo sr t. unfold read_bundle, parse_text, store_read. destruct (read_json t) as [[| | | | |[|[k x] l]]|]; try done. destruct (String.eqb_spec k "v") as [->|N]; [|done].
  cbn [andb]. destruct (versionable l); [|done]. by rewrite parse_v.
Qed.
Print Assumptions C61_reader.
(** What is published is loaded as the bundle it was made from. *)
Theorem C61_published_loads : forall said_ok digits lang_ok standard_read B, digits_class digits -> bundle_readable said_ok digits lang_ok B -> groups_sorted B ->
  (forall n t, (n, t) ∈ cb_attrs (b_cb B) -> (nesting (nattr_json t) <= 124)%nat) ->
  exists B', load_oca said_ok digits lang_ok standard_read (bundle_encode B) = Ok B' /\ bundle_json B' = bundle_json B /\ b_said B' = b_said B.
Proof.
  intros so dg lo sr B Hd Hr Hg Hn. destruct (C56_load so dg lo sr B (write_json (bundle_json B)) Hd Hr Hg Hn (write_text _)) as (B' & L & X). exists B'. split; [|done].
  assert (Hsh : shallow (bundle_json B)) by (by apply bundle_shallow). unfold load_oca, parse_text in *. rewrite (proj1 (C56_round_trip (bundle_json B)) Hsh) in L.
  unfold bundle_encode, encode_text. rewrite versioned_round by exact Hsh. change (bundle_fields B (jopt (b_said B))) with (match bundle_json B with JObj l => l | _ => [] end).
  change (bundle_json B) with (JObj (match bundle_json B with JObj l => l | _ => [] end)) in L. by rewrite parse_v.
Qed.
Print Assumptions C61_published_loads.
Lemma encode_json B B' : bundle_encode B = bundle_encode B' -> bundle_json B = bundle_json B'.
Proof. unfold bundle_encode, encode_text, versioned. intros E. apply C56_injective in E. rewrite !bundle_first in E. apply fields_inj in E as (E0 & E1 & E2). unfold bundle_json, bundle_json_d. by rewrite E0, E1, E2. Qed.
Theorem C61_different_bundles : forall B B', bundle_encode B = bundle_encode B' <-> bundle_json B = bundle_json B'.
Proof. intros B B'. split; [apply encode_json|]. intros E. by rewrite <- !store_bundle, E. Qed.
Print Assumptions C61_different_bundles.

(** After a build every bundle of it is stored under its SAID as a text that verifies against that SAID and states its own size. *)
Theorem C61_stored_texts_verify : forall blake from1 to1 listing hash os from a st B steps f f' B', blake_ok blake ->
  base_of (os (S (length (ast_commands a)))) from st -> from_ast (byte_digest blake) from1 os from a = BuildOk B steps ->
  build from1 to1 listing store_write hash B steps f = Ok (f', B') ->
  forall s k, s ∈ steps -> b_said (bs_result s) = Some k -> exists t, entry (fa_cache f') NsBundles k = Some t /\
    ((size_of t < six_digits)%N -> self_addressing blake t k /\ exists v, stated_version t v /\ states v "OCAS" 1 1 (size_of t)) /\
    ((forall x y, ~ collision blake x y) -> t = bundle_encode (bs_result s)).
Proof.
  intros blake f1 t1 ls hs os from a st B steps f f' B' Hb Hst H Hbd s k Hs Hk. destruct (C13_step_chain _ _ _ _ _ _ _ _ Hst H) as (_ & X & _).
  assert (G : forall s, s ∈ steps -> b_said (bs_result s) = Some (byte_digest blake (bundle_json_d (JStr dummy_said) (bs_result s)))).
  { intros s' Hs'. apply elem_of_list_lookup in Hs' as [i Hi]. destruct (X i s' Hi) as (_ & _ & b & _ & Hg). by destruct (C03_generated_saids_verify _ _ _ _ Hg) as [? _]. }
  destruct (build_effect _ _ _ _ _ _ _ _ _ _ Hbd) as (_ & _ & _ & I & _). destruct (step_of_or k steps) as [[s' Hs']|N]; [|by destruct (N s Hs)].
  destruct (I k s' Hs') as (r & _ & _ & E). rewrite store_bundle in E. apply step_of_elem in Hs' as [Hi Hk']. exists (bundle_encode (bs_result s')). split; [exact E|].
  pose proof (G s' Hi) as G'. split.
  - intros L. destruct (saids_self blake _ Hb G' L) as (k' & E1 & E2). rewrite Hk' in E1. injection E1 as <-. split; [exact E2|]. apply (C61_bundle_states_size _ k Hk'); [|done].
    rewrite Hk' in G'. injection G' as ->. apply Hb.
  - intros NC. apply C61_different_bundles. assert (D : bundle_json_d (JStr dummy_said) (bs_result s') = bundle_json_d (JStr dummy_said) (bs_result s)).
    { rewrite (G s Hs) in Hk. rewrite G' in Hk'. rewrite <- Hk' in Hk. injection Hk as Hk. unfold byte_digest in Hk. rewrite !preimage_bundle in Hk.
      destruct (string_dec (derivation_text oca_proto (bundle_fields (bs_result s'))) (derivation_text oca_proto (bundle_fields (bs_result s)))) as [Y|Y]; [by apply preimage_inj|].
      destruct (NC _ _ (conj Y (eq_sym Hk))). }
    unfold bundle_json. rewrite Hk, Hk'. unfold bundle_json_d in *. by eapply fields2_inj in D.
Qed.
Print Assumptions C61_stored_texts_verify.

(** The same with what a fetch gives (C23 for texts with a version). *)
Theorem C61_fetch : forall from1 to1 listing said_ok digits lang_ok standard_read hash B steps f f' B', digits_class digits ->
  build from1 to1 listing store_write hash B steps f = Ok (f', B') ->
  (forall s, s ∈ steps -> bundle_readable said_ok digits lang_ok (bs_result s) /\ groups_sorted (bs_result s) /\ shallow (bundle_json (bs_result s))) ->
  (forall s s', s ∈ steps -> s' ∈ steps -> b_said (bs_result s) = b_said (bs_result s') -> bundle_json (bs_result s) = bundle_json (bs_result s')) ->
  forall s, s ∈ steps -> exists k Bk, b_said (bs_result s) = Some k /\ get_bundle said_ok digits lang_ok standard_read read_json (fa_cache f') k = Ok Bk /\
    bundle_json Bk = bundle_json (bs_result s) /\ b_said Bk = Some k /\ bundle_encode Bk = bundle_encode (bs_result s).
Proof.
  intros f1 t1 ls so dg lo sr hs B steps f f' B' Hd Hb Hs Hc s Hin. destruct (C23_build_then_fetch _ _ _ so dg lo sr _ _ _ _ _ _ _ _ C61_serves Hd Hb Hs Hc) as (_ & X & _).
  destruct (X s Hin) as (k & Bk & E & F & J & S & _). exists k, Bk. split; [done|]. split; [|split; [done|split; [done|by apply C61_different_bundles]]].
  rewrite <- F. unfold get_bundle. destruct (mem_get NsBundles k (fa_cache f')) as [[t|]| |]; try done. by rewrite C61_reader.
Qed.
Print Assumptions C61_fetch.

(** ** Where it ends *)
(** A bundle without a SAID states 42 bytes more than it has. *)
Theorem C61_unsigned_refuted : forall B, b_said B = None -> (size_of (bundle_encode B) + 42 < six_digits)%N ->
  exists v, stated_version (bundle_encode B) v /\ states v "OCAS" 1 1 (size_of (bundle_encode B) + 42).
Proof.
  intros B E L. unfold bundle_encode in *. rewrite E in *. cbn [jopt] in *. set (r := [("capture_base", cb_json (b_cb B)); ("overlays", overlays_json (b_ovs B))]).
  pose proof (bundle_first B) as Hf. fold r in Hf. pose proof (derivation_len _ _ r oca_proto_ok Hf) as D. pose proof (base_len _ _ r oca_proto_ok Hf) as D0.
  assert (Hv : forall n, all_chars as_is (version_text oca_proto n) = true) by (intros; apply version_as_is, oca_proto_ok).
  assert (K : size_of (encode_text oca_proto (bundle_fields B) JNull) = N.of_nat (13 + 11 + len (hex06 (text_size (derivation_text oca_proto (bundle_fields B)))) + 3 + len (tail_of r))).
  { unfold encode_text. set (n := text_size _). rewrite Hf. rewrite versioned_text by done. unfold size_of. rewrite !len_app, version_len by apply oca_proto_ok. cbn [len write_json]. unfold QT. cbn [len]. f_equal. lia. }
  destruct (hex06_spec (base_size oca_proto (bundle_fields B))) as (_ & _ & L6 & S6 & _).
  destruct (hex06_spec (text_size (derivation_text oca_proto (bundle_fields B)))) as (_ & _ & L6' & S6' & _).
  assert (Hs : (base_size oca_proto (bundle_fields B) < six_digits)%N) by (rewrite K in L; lia). pose proof (same_size _ _ r oca_proto_ok Hf Hs) as Ss.
  assert (X : text_size (derivation_text oca_proto (bundle_fields B)) = (size_of (encode_text oca_proto (bundle_fields B) JNull) + 42)%N).
  { rewrite K, S6' by (rewrite Ss; exact Hs). rewrite Ss, D0. lia. }
  exists (version_text oca_proto (text_size (derivation_text oca_proto (bundle_fields B)))). split.
  - split; [done|]. unfold encode_text. set (n := text_size _). rewrite Hf, versioned_text by done. generalize (version_text oca_proto n), (write_json JNull). intros v x. eexists. reflexivity.
  - rewrite X. apply (version_states oca_proto). apply oca_proto_ok.
Qed.
Print Assumptions C61_unsigned_refuted.

(** From 16 MiB on the SAID is the digest of another text than the one published: the hashed text states the size it had with a shorter
    version. *)
Theorem C61_large_refuted : forall blake o b B, blake_ok blake -> generate_bundle (byte_digest blake) o b = Some B -> (six_digits <= size_of (bundle_encode B))%N ->
  exists s, b_said B = Some s /\ s = blake (preimage (bundle_json_d (JStr dummy_said) B)) /\
    forall v rest, all_chars as_is v = true -> bundle_encode B = opening v +:+ s +:+ QT +:+ rest -> opening v +:+ placeholder +:+ QT +:+ rest <> preimage (bundle_json_d (JStr dummy_said) B).
Proof.
  intros blake o b B Hb G L. destruct (C03_generated_saids_verify _ _ _ _ G) as [E _]. eexists. split; [exact E|]. split; [reflexivity|]. intros v rest Hv X. rewrite preimage_bundle.
  unfold bundle_encode in *. rewrite E in *. cbn [jopt] in *. refine (encode_big _ _ _ oca_proto_ok (bundle_first B) _ v rest _ L Hv X). apply Hb.
Qed.
Print Assumptions C61_large_refuted.
Lemma len_escape s : len s <= len (escape s).
Proof.
  induction s as [|c s IH]; [done|]. cbn [escape len]. rewrite len_app. assert (1 <= len (escape_char c)); [|lia].
  unfold escape_char, QT. repeat (match goal with |- context [if ?x then _ else _] => destruct x end; [cbn; lia|]). cbn. lia.
Qed.
Lemma len_commas x l : x ∈ l -> len x <= len (commas l).
Proof.
  induction l as [|y l IH]; intros H; [by apply elem_of_nil in H|]. rewrite commas_cons, len_app. apply elem_of_cons in H as [->|H]; [lia|]. specialize (IH H). destruct l; [by apply elem_of_nil in H|]. rewrite len_app. lia.
Qed.
Lemma len_field k x l : (k, x) ∈ l -> len (write_json x) <= len (write_json (JObj l)).
Proof.
  intros H. cbn [write_json]. rewrite !len_app. etransitivity; [|apply Nat.le_trans with (2 := Nat.le_add_l _ _), Nat.le_add_r]. 
  etransitivity; [|apply (len_commas (write_str k +:+ ":" +:+ write_json x)); apply elem_of_list_fmap; exists (k, x); done]. rewrite !len_app. lia.
Qed.
Lemma class_size B : (N.of_nat (len (cb_class (b_cb B))) <= size_of (bundle_encode B))%N.
Proof.
  unfold size_of, bundle_encode, encode_text, versioned. generalize (JStr (version_text oca_proto (text_size (derivation_text oca_proto (bundle_fields B))))). intros v. rewrite bundle_first.
  assert (len (cb_class (b_cb B)) <= len (write_json (JObj (("v", v) :: ("d", jopt (b_said B)) :: [("capture_base", cb_json (b_cb B)); ("overlays", overlays_json (b_ovs B))])))); [|lia].
  etransitivity; [|apply (len_field "capture_base" (cb_json (b_cb B))); do 2 right; left]. unfold cb_json, cb_json_d.
  etransitivity; [|apply (len_field "classification" (JStr (cb_class (b_cb B)))); do 3 right; left]. cbn [write_json]. unfold write_str. rewrite !len_app. pose proof (len_escape (cb_class (b_cb B))). lia.
Qed.
Theorem C61_large_exists : forall blake o b c, order_ok o -> api_box b -> (six_digits <= N.of_nat (String.length c))%N ->
  exists B, api_box (add_classification c b) /\ generate_bundle (byte_digest blake) o (add_classification c b) = Some B /\ (six_digits <= size_of (bundle_encode B))%N.
Proof.
  intros blake o b c Ho Hb L. destruct (C02_bundle_is_box_content (byte_digest blake) o (add_classification c b) Ho (ab_class _ _ Hb)) as (B & G & R). exists B. split; [by constructor|]. split; [done|].
  pose proof (class_size B) as K. rewrite (br_class _ _ R) in K. cbn [add_classification bx_class unwrap_or] in K. lia.
Qed.
Print Assumptions C61_large_exists.

(** ** Examples *)
(** tests/build_from_ocafile.rs 59. *)
Example C61_version_example : version_text oca_proto 2476 = "OCAS11JSON0009ac_".
Proof. reflexivity. Qed.
(** A hash with 44 characters. *)
Definition ex_blake (t : string) : string := zeros 38 +:+ hex06 (text_size t mod six_digits).
Lemma ex_blake_ok : blake_ok ex_blake.
Proof.
  intros t. unfold ex_blake. set (n := (text_size t mod six_digits)%N). destruct (hex06_spec n) as (_ & A & _ & L & _). split.
  - rewrite len_app, len_zeros, L; [reflexivity|]. apply N.mod_lt. intros X. cbn in X. discriminate.
  - by rewrite chars_app, zeros_as_is, A.
Qed.
Definition ex_c61 : ast := mk_ast [add_attrs [("a", NVal TText); ("n", NArr (NVal TNumeric))]; add_ov KCharacterEncoding [("a", VVal "utf-8")] []].
Notation c61_ast := (from_ast (byte_digest ex_blake) ex_from1 (fun _ => ord1) None ex_c61).
Notation c61_build := (build ex_from1 Props_Dag.ex_to1 ex_listing store_write ex_hash).
Definition c61_tast : tast := TAst "1.0.0" [TCommand TRename (ORename (Some [("a", "b")]))] [] {[ "source" := "EA"; "target" := "refs:EB" ]}.
Definition c61_small (t : string) : bool := (size_of t <? six_digits)%N.
Lemma c61_small_ok t : c61_small t = true -> (size_of t < six_digits)%N.
Proof. unfold c61_small. apply N.ltb_lt. Qed.
Definition c61_check (r : bresult) (b : bundle -> list bstep -> outcome (facade * bundle)) : bool :=
  match r with
  | BuildOk B steps => match b B steps with Ok _ => Nat.eqb (length steps) 2 && forallb (fun s => c61_small (bundle_encode (bs_result s))) steps | _ => false end
  | _ => false
  end.
Lemma c61_check_ok r b : c61_check r b = true -> exists B steps f B', r = BuildOk B steps /\ b B steps = Ok (f, B') /\ length steps = 2 /\ forall s, s ∈ steps -> (size_of (bundle_encode (bs_result s)) < six_digits)%N.
Proof.
  unfold c61_check. destruct r as [B steps|es|]; try done. destruct (b B steps) as [[f B']|es|] eqn:E; try done. intros H. apply andb_true_iff in H as [H1 H2]. apply Nat.eqb_eq in H1.
  exists B, steps, f, B'. split; [done|]. split; [done|]. split; [done|]. intros s Hs. apply elem_of_list_In in Hs. rewrite forallb_forall in H2. exact (c61_small_ok _ (H2 s Hs)).
Qed.
Definition c61_tcheck (r : outcome transformation) : bool := match r with Ok T => c61_small (tr_encode T) | _ => false end.
Lemma c61_tcheck_ok r : c61_tcheck r = true -> exists T, r = Ok T /\ (size_of (tr_encode T) < six_digits)%N.
Proof. unfold c61_tcheck. destruct r as [T| |]; try done. intros H. exists T. split; [done|]. exact (c61_small_ok _ H). Qed.
Theorem C61_hypotheses_met : blake_ok ex_blake /\ base_of ord1 None None /\
  (exists B steps f B', c61_ast = BuildOk B steps /\ c61_build B steps facade_new = Ok (f, B') /\ length steps = 2 /\ forall s, s ∈ steps -> (size_of (bundle_encode (bs_result s)) < six_digits)%N) /\
  (exists T, transformation_from_ast (byte_digest ex_blake) c61_tast = Ok T /\ (size_of (tr_encode T) < six_digits)%N) /\
  exists c, (six_digits <= N.of_nat (String.length c))%N.
Proof.
  split; [apply ex_blake_ok|]. split; [constructor|]. split; [apply (c61_check_ok _ (fun B steps => c61_build B steps facade_new)); vm_compute; reflexivity|].
  split; [apply c61_tcheck_ok; vm_compute; reflexivity|]. exists (zeros (N.to_nat six_digits)). rewrite len_zeros, N2Nat.id. apply N.le_refl.
Qed.
Print Assumptions C61_hypotheses_met.

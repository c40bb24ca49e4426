(** C53: histories of texts. *)
From Coq Require Import Lia.
From Verif Require Import Peg OcaGrammar OcaFile Spec_OcaFile Ast Bundle Spec_Bundle Build Spec_Build Spec_Read Facade Text Spec_Refs OcaShape OcaForms OcaBuilds TForms TFile Spec_TFile
  BundleCodec Spec_BundleCodec BundleCodec_proofs Bundle_proofs Replay_proofs Determinism_proofs Facade_proofs Spec_Facade Spec_Total Spec_Export Command_proofs Load_proofs Run_proofs Box_proofs Build_proofs Reload_proofs Stored_proofs VBuild_proofs Props_Codec Props_Bundle Props_Build Props_BundleCodec Props_Refs Props_From Props_Facade
  Nesting_proofs Props_OcaFile History_proofs Props_History Props_Total Props_Reload Props_Transformation Inj_digest Props_Read Props_TRead Export Props_Export Spec_Index Spec_Relations Index_proofs Props_Index Props_Index2 Incremental_proofs Texts_proofs.
From Verif Require Export Spec_Texts.
Local Open Scope list_scope.

Section Texts.
Variable wide : ascii -> bool.
Variable digest : json -> string.
Variables from1 to1 : string -> option string.
Variable listing : string -> list oobject -> list oobject.
Variables said_ok digits lang_ok : string -> bool.
Variable standard_read : string -> option string.
Variable to_text : json -> string.
Variable of_text : string -> option json.
Variable hash : string -> string.
Hypothesis Ht : text_ok to_text of_text.
Hypothesis Hd : digits_class digits.
Hypothesis H1 : digits "1" = true.
Hypothesis Hj : forall j, said_ok (digest j) = true.
Hypothesis Hl : forall c l, from1 c = Some l -> lang_ok l = true.
Notation run := (used digest from1 to1 listing said_ok digits lang_ok standard_read to_text of_text hash).
Notation texts := (texts_run wide digest from1 to1 listing said_ok digits lang_ok standard_read to_text of_text hash).
Notation validate := (validate_ast digest from1 said_ok digits lang_ok standard_read of_text).
Notation fetch := (get_bundle said_ok digits lang_ok standard_read of_text).
Notation storable := (step_storable said_ok digits lang_ok).

Lemma state_fine cs : forall st, Forall (good said_ok) cs -> (forall b, st = Some b -> api_box b /\ fine_box said_ok lang_ok b) ->
  forall b, state_after from1 st cs = Some b -> api_box b /\ fine_box said_ok lang_ok b.
Proof.
  induction cs as [|c cs IH]; intros st Hc Hs b; [by apply Hs|]. apply Forall_cons in Hc as [G1 G2]. rewrite state_after_cons. apply IH; [done|]. intros b' E.
  destruct (apply_command from1 st c) as [x|e|] eqn:Ea; cbn in E; [|by apply Hs|by apply Hs]. injection E as <-. split.
  - eapply Command_proofs.apply_api; [apply G1| |exact Ea]. intros y Hy. by apply Hs.
  - eapply (apply_fine said_ok lang_ok from1 Hl); [exact G1| |exact Ea]. exact Hs.
Qed.
Lemma fine_shallow b B : bundle_right b B -> fine_box said_ok lang_ok b -> shallow (bundle_json B).
Proof. intros R F. apply bundle_shallow. intros n t Hin. apply (br_types _ _ R) in Hin as (a & Ea & Et). by apply (ar_type _ _ _ (fb_attrs _ _ _ F n a Ea)). Qed.
Lemma steps_storable os from a B steps : (forall i, order_ok (os i)) -> Forall (good said_ok) (ast_commands a) -> from_ast digest from1 os from a = BuildOk B steps ->
  (forall B0, from = Some B0 -> content_readable said_ok lang_ok B0) -> forall s, s ∈ steps -> storable s.
Proof.
  intros Ho Hc HA Hf s Hs. destruct (base_of_some digest from1 os from a _ HA) as [st Hb]; [done|]. destruct (C13_step_chain _ _ _ _ _ _ _ _ Hb HA) as (_ & X & _).
  apply elem_of_list_lookup in Hs as [i Hi]. destruct (X i s Hi) as (Ec & _ & b & Es & G).
  assert (Fb : api_box b /\ fine_box said_ok lang_ok b).
  { eapply state_fine; [|  |exact Es]; [by apply Forall_take|]. intros b' E. destruct Hb as [|B0 b0 L]; [done|]. injection E as <-.
    split; [by eapply load_api|]. eapply load_fine; [apply Ho| |exact L]. by apply Hf. }
  destruct Fb as [Ha F]. destruct (C02_proof (os i) (Ho i) digest b (api_box_ok b Ha)) as (B' & G' & R). rewrite G in G'. injection G' as <-. pose proof F as F'. apply fine_readable in F. split.
  - by apply (generated_readable digest said_ok digits lang_ok (os i) b).
  - apply (generated_groups b _ R). apply F.
  - assert (Hin : bs_cmd s ∈ ast_commands a) by (eapply elem_of_list_lookup_2; exact Ec). rewrite Forall_forall in Hc. destruct (Hc _ Hin) as (? & ? & ? & _). done.
  - split; [by apply (fine_shallow b)|]. assert (Hin : bs_cmd s ∈ ast_commands a) by (eapply elem_of_list_lookup_2; exact Ec). rewrite Forall_forall in Hc. destruct (Hc _ Hin) as (_ & _ & _ & S). apply S.
Qed.
Lemma final_readable os from a B steps : (forall i, order_ok (os i)) -> Forall (good said_ok) (ast_commands a) -> from_ast digest from1 os from a = BuildOk B steps ->
  (forall B0, from = Some B0 -> content_readable said_ok lang_ok B0) -> bundle_readable said_ok digits lang_ok B /\ groups_sorted B /\ shallow (bundle_json B).
Proof.
  intros Ho Hc HA Hf. destruct (base_of_some digest from1 os from a _ HA) as [st Hb]; [done|]. destruct (C13_chain _ _ _ _ _ _ _ _ Hb HA) as (_ & _ & b & Es & G).
  assert (Fb : api_box b /\ fine_box said_ok lang_ok b).
  { eapply state_fine; [|  |exact Es]; [done|]. intros b' E. destruct Hb as [|B0 b0 L]; [done|]. injection E as <-.
    split; [by eapply load_api|]. eapply load_fine; [apply Ho| |exact L]. by apply Hf. }
  destruct Fb as [Ha F]. destruct (C02_proof _ (Ho (length (ast_commands a))) digest b (api_box_ok b Ha)) as (B' & G' & R). rewrite G in G'. injection G' as <-. pose proof F as F'. apply fine_readable in F. split.
  - by apply (generated_readable digest said_ok digits lang_ok (os (length (ast_commands a))) b).
  - split; [apply (generated_groups b _ R); apply F|by apply (fine_shallow b)].
Qed.
Lemma validated_parts H f os s a g B steps : run H f -> (forall x, x ∈ concat (map snd H) -> storable x) -> (forall i, order_ok (os i)) -> storable_text wide said_ok s ->
  parse_ocafile wide said_ok s = Ok a -> validate os a f = Ok (g, (B, steps)) -> exists from a', from_ast digest from1 os from a' = BuildOk B steps /\
  Forall (good said_ok) (ast_commands a') /\ (forall B0, from = Some B0 -> content_readable said_ok lang_ok B0).
Proof.
  intros R Hall Ho Hst Ha Hv. destruct (C48_commands wide said_ok s a Ha) as [Hr _]. specialize (Hst a Ha).
  unfold validate_ast in Hv. destruct (check_base said_ok digits lang_ok standard_read of_text (fa_cache f) a) as [[from a1]|e|] eqn:Eb; [|done|done]. cbn [obind fst snd] in Hv.
  assert (Base : Forall (readable (has_backslash s) said_ok) (ast_commands a1) /\ Forall (storable_command said_ok) (ast_commands a1) /\ forall B0, from = Some B0 -> content_readable said_ok lang_ok B0).
  { unfold check_base in Eb. destruct (ast_commands a) as [|c rest] eqn:Ec; [injection Eb as <- <-; rewrite Ec; done|].
    assert (Same : Ok (None, a) = Ok (from, a1) -> Forall (readable (has_backslash s) said_ok) (ast_commands a1) /\ Forall (storable_command said_ok) (ast_commands a1) /\ forall B0, from = Some B0 -> content_readable said_ok lang_ok B0).
    { intros E. injection E as <- <-. by rewrite Ec. }
    destruct c as [[] [|[[k|k]]|]]; try (by apply Same); try done.
    apply Forall_cons in Hr as [_ Hr]. apply Forall_cons in Hst as [_ Hst].
    destruct (fetch (fa_cache f) k) as [B0|e|] eqn:Ef; [|injection Eb as <- <-; done|done]. injection Eb as <- <-. split; [done|]. split; [done|]. intros B1 E. injection E as <-.
    rewrite fetch_entry in Ef. destruct (entry (fa_cache f) NsBundles k) as [t|] eqn:Ee; [|done].
    destruct (used_cache digest from1 to1 listing said_ok digits lang_ok standard_read to_text of_text hash H f R Hall k t Ee) as (x & _ & Hx & ->).
    unfold read_bundle, parse_text in Ef. rewrite Ht in Ef by apply (ss_depth _ _ _ _ Hx). rewrite (bundle_round said_ok digits lang_ok standard_read Hd _ (ss_bundle _ _ _ _ Hx)) in Ef. injection Ef as <-.
    eapply stored_content; [apply Hx|]. apply (ss_depth _ _ _ _ Hx). }
  destruct Base as (Hr1 & Hs1 & Hf). inv_ok Hv. match type of Hv with context [from_ast _ _ _ _ ?x] => set (a' := x) in * end.
  destruct (from_ast digest from1 os from a') as [B0 st|es|] eqn:FA; [|done|done].
  assert (Est : B0 = B /\ st = steps). { destruct (ast_meta a1 !! "name"); [inv_ok Hv; inv_ok Hv; by injection Hv|by injection Hv]. } destruct Est as [-> ->].
  exists from, a'. split; [done|]. split; [|done]. unfold a'. cbn [ast_commands]. eapply resolved_all; [exact Hr1|exact Hs1|eassumption].
Qed.
Lemma build_ast_eq os a f : build_ast digest from1 to1 listing said_ok digits lang_ok standard_read to_text of_text hash os a f =
  let! x := validate os a f in build from1 to1 listing to_text hash x.2.1 x.2.2 x.1.
Proof. reflexivity. Qed.
Lemma texts_inv h f : texts h f -> run (outputs h) f /\ (forall x, x ∈ steps_of h -> storable x) /\ forall B, final (outputs h) B -> bundle_readable said_ok digits lang_ok B /\ groups_sorted B /\ shallow (bundle_json B).
Proof.
  induction 1 as [|h f os s a g [B steps] _ IH Ho Hst Ha Hv|h f os s a g B steps k B' _ IH Ho Hst Ha Hv HB].
  - split; [constructor|]. split; [intros x Hx; by apply elem_of_nil in Hx|]. intros B [st H]. by apply elem_of_nil in H.
  - destruct IH as (R & Hall). split; [by eapply us_validate|done].
  - destruct IH as (R & Hall & Hfin). destruct (validated_parts _ _ _ _ _ _ _ _ R Hall Ho Hst Ha Hv) as (from & a' & FA & Hg & Hf). unfold steps_of, outputs in *. rewrite !map_app. cbn [map snd].
    split; [by eapply us_build|]. split.
    + intros x. rewrite concat_app. cbn [concat]. rewrite app_nil_r, elem_of_app. intros [Hx|Hx]; [by apply Hall|]. by eapply steps_storable.
    + intros B0 [st H0]. apply elem_of_app in H0 as [H0|H0]; [apply Hfin; by exists st|]. apply elem_of_list_singleton in H0. injection H0 as -> ->. by eapply final_readable.
Qed.
Lemma used_steps H f : run H f -> steps_run digest from1 to1 listing said_ok digits lang_ok standard_read to_text of_text hash (concat (map snd H)) f.
Proof.
  induction 1 as [|h f os a g r _ IH Ho Hv|h f os a g B steps k B' _ IH Ho Hv HB]; [constructor|by eapply sr_validate|].
  rewrite map_app, concat_app. cbn [map concat snd]. rewrite app_nil_r. by eapply sr_build.
Qed.
Lemma validate_names os a f g r h : validate os a f = Ok (g, r) -> builds from1 to1 listing to_text hash h f -> builds from1 to1 listing to_text hash h g.
Proof.
  intros Hv Hb. unfold validate_ast in Hv. inv_ok Hv. cbv zeta in Hv. inv_ok Hv. destruct (from_ast _ _ _ _ _) as [B st|es|]; [|done|done].
  destruct (ast_meta _ !! "name") as [n|]; [|by injection Hv as <- _]. inv_ok Hv. inv_ok Hv. injection Hv as <- _. by eapply builds_name.
Qed.
Lemma used_builds H f : run H f -> builds from1 to1 listing to_text hash H f.
Proof.
  induction 1 as [|h f os a g r _ IH Ho Hv|h f os a g B steps k B' _ IH Ho Hv HB]; [constructor|by eapply validate_names|].
  destruct (build_effect _ _ _ _ _ _ _ _ _ _ HB) as (-> & _). eapply builds_one; [by eapply validate_names|done].
Qed.

(** The result of a build is what a step gave, its last or, for a file with no command but FROM, a step of an earlier build. *)
Variable M : string -> gmap string string.
Hypothesis Hempty : said_ok "" = false.
Notation all := (storable_all said_ok digits lang_ok M).
Definition as_step (B : bundle) (s : bstep) : Prop := b_said (bs_result s) = b_said B /\ bundle_json (bs_result s) = bundle_json B /\
  forall k o, object_in B k o -> exists o', object_in (bs_result s) k o' /\ same_object o o'.
Lemma made_like s b b' o B ss : made digest M s b -> tracked M b b' -> order_ok o -> generate_bundle digest o b' = Some B -> s ∈ ss -> no_clash digest (map bs_result ss) -> as_step B s.
Proof.
  intros [Tb (o1 & O1 & G1)] T Ho G Hin Hn.
  destruct (bundle_json_equiv digest o1 o b b' (bs_result s) B) as (E1 & E2 & E3 & E4); try done.
  - apply api_box_ok, T.
  - apply api_box_ok, T.
  - eapply sim_equiv; [apply T|apply T|apply T].
  - eapply uniform_consistent, T.
  - intros v w Hv Hw. eapply (Hn (bs_result s) (bs_result s)); [by apply elem_of_list_fmap_1|by apply elem_of_list_fmap_1|by constructor|by constructor].
  - split; [done|]. split; [done|]. intros k x [[Hk -> ]|(ov & Hov & Hk & -> )].
    + exists (FCapture (b_cb (bs_result s))). split; [left; split; [congruence|done]|]. split; [|done]. cbn.
      unfold bundle_json, bundle_json_d in E1. apply (f_equal (fun j => match j with JObj (_ :: (_, x) :: _) => x | _ => JNull end)) in E1. symmetry. exact E1.
    + assert (Hx : overlay_json ov ∈ map overlay_json (b_ovs (bs_result s))) by (rewrite E4; apply elem_of_list_In, in_map, elem_of_list_In, Hov).
      apply elem_of_list_In, in_map_iff in Hx as (ov' & Ej & Hx). exists (FOverlay ov'). split; [right; exists ov'; split; [by apply elem_of_list_In|]; split; [|done]|split; [by cbn|done]].
      rewrite <- Hk. by apply overlay_json_said.
Qed.
Lemma validated_result ss os a f g B steps : recorded digest from1 to_text M ss f -> all (ss ++ steps) -> (forall i, order_ok (os i)) -> no_clash digest (map bs_result (ss ++ steps)) ->
  validate os a f = Ok (g, (B, steps)) -> exists s, s ∈ ss ++ steps /\ as_step B s.
Proof.
  intros R Hall Ho Hn Hv. assert (Hold : all ss) by (intros s Hs; apply Hall, elem_of_app; by left). assert (Hnew : all steps) by (intros s Hs; apply Hall, elem_of_app; by right).
  unfold validate_ast in Hv. destruct (check_base _ _ _ _ _ (fa_cache f) a) as [[from a1]|e|] eqn:Eb; [|done|done]. cbn [obind fst snd] in Hv. inv_ok Hv.
  match type of Hv with context [from_ast _ _ _ _ ?x] => set (a' := x) in * end.
  destruct (from_ast digest from1 os from a') as [B0 st|es|] eqn:FA; [|done|done].
  assert (Est : B0 = B /\ st = steps). { destruct (ast_meta a1 !! "name"); [inv_ok Hv; inv_ok Hv; by injection Hv|by injection Hv]. } destruct Est as [-> ->].
  destruct (base_of_some digest from1 os from a' _ FA) as [st Hb]; [done|].
  pose proof FA as HA'. rewrite (from_ast_base_of digest from1 os from a' st Hb) in HA'. apply base_ok in HA' as (Hok & _ & _).
  destruct (C13_chain _ _ _ _ _ _ _ _ Hb FA) as (Hlen & X & b & Es & G).
  assert (Hcs : ast_commands a' = map bs_cmd steps).
  { apply list_eq. intros j. rewrite list_lookup_fmap. destruct (steps !! j) as [x|] eqn:Ej; cbn [fmap option_fmap option_map]; [by apply (X j x Ej)|]. apply lookup_ge_None. apply lookup_ge_None in Ej. by rewrite <- Hlen. }
  assert (Hst : forall b, st = Some b -> exists s0 b0, s0 ∈ ss /\ made digest M s0 b0 /\ tracked M b0 b).
  { intros b1 E0. destruct Hb as [|B1 b2 L]; [done|]. injection E0 as ->. unfold check_base in Eb. destruct (ast_commands a) as [|[[] [|[[k|n]]|]] cs]; try done.
    destruct (fetch (fa_cache f) k) as [B2|e|] eqn:HF; [|done|done]. injection Eb as -> <-.
    destruct (read_base digest from1 said_ok digits lang_ok standard_read to_text of_text Ht Hd M ss f k k Hold R B1 HF eq_refl) as (s0 & Hin & Es0 & ->).
    destruct (rc_just digest from1 to_text M ss f R s0 Hin) as (b0 & Hm0 & _). destruct (Hold s0 Hin) as [[_ Hg _] _].
    destruct (made_loads digest M s0 b0 (os (S (length (ast_commands a')))) Hm0 Hg (Ho _)) as (b' & L' & T). rewrite L in L'. injection L' as <-. by exists s0, b0. }
  destruct (last steps) as [s|] eqn:Hlast.
  - rewrite last_lookup in Hlast. destruct (X _ _ Hlast) as (_ & _ & b' & G1 & G2).
    assert (Etk : take (S (Nat.pred (length steps))) (ast_commands a') = ast_commands a') by (apply take_ge; rewrite Hlen; lia).
    rewrite Etk, Es in G1. injection G1 as <-. exists s. assert (Hin : s ∈ ss ++ steps) by (apply elem_of_app; right; by eapply elem_of_list_lookup_2). split; [done|].
    assert (T : tracked M b b).
    { apply (state_tracked from1 M st (ast_commands a')); [|..|done|done].
      - intros b1 E1. destruct (Hst b1 E1) as (s0 & b0 & _ & _ & T). eapply tracked_trans; [by apply tracked_sym|done].
      - rewrite Hcs. apply Forall_forall. intros c Hc. apply elem_of_list_fmap in Hc as (s' & -> & Hs). by destruct (Hnew s' Hs) as [[_ _ (? & _)] _].
      - rewrite Hcs. apply Forall_forall. intros c Hc. apply elem_of_list_fmap in Hc as (s' & -> & Hs). by destruct (Hnew s' Hs) as [_ ?]. }
    eapply made_like; [split; [exact T|by eexists]|exact T|apply Ho|exact G|exact Hin|exact Hn].
  - apply last_None in Hlast. subst steps. assert (Enil : ast_commands a' = []) by (by rewrite Hcs). rewrite Enil in Es. cbn in Es.
    destruct (Hst b Es) as (s0 & b0 & Hin & Hm & T). exists s0. assert (Hin' : s0 ∈ ss ++ []) by (by apply elem_of_app; left). split; [done|].
    eapply made_like; [exact Hm|exact T|apply Ho|exact G|exact Hin'|exact Hn].
Qed.
Lemma texts_recorded h f : texts h f -> all (steps_of h) -> recorded digest from1 to_text M (steps_of h) f.
Proof.
  intros HT Hall. destruct (texts_inv h f HT) as (R & _ & _). eapply recorded_run; [exact Ht|exact Hd|apply used_steps; exact R|exact Hall].
Qed.
Lemma steps_of_app h s B steps : steps_of (h ++ [(s, (B, steps))]) = steps_of h ++ steps.
Proof. unfold steps_of, outputs. rewrite !map_app, concat_app. cbn [map concat snd]. by rewrite app_nil_r. Qed.
Lemma texts_results h f : texts h f -> all (steps_of h) -> no_clash digest (map bs_result (steps_of h)) -> forall B, final (outputs h) B -> exists s, s ∈ steps_of h /\ as_step B s.
Proof.
  induction 1 as [|h f os s a g [B steps] _ IH Ho Hst Ha Hv|h f os s a g B steps k B' HT IH Ho Hst Ha Hv HB]; intros Hall Hn.
  - intros B [st H]. by apply elem_of_nil in H.
  - by apply IH.
  - rewrite steps_of_app in *. assert (Hold : all (steps_of h)) by (intros x Hx; apply Hall, elem_of_app; by left).
    intros B0 [st H0]. unfold outputs in H0. rewrite map_app in H0. apply elem_of_app in H0 as [H0|H0].
    + destruct (IH Hold) with (B := B0) as (x & Hx & A); [|by exists st|exists x; split; [apply elem_of_app; by left|done]].
      intros X Y j j' HX HY. apply Hn; rewrite map_app, elem_of_app; by left.
    + apply elem_of_list_singleton in H0. injection H0 as -> ->. eapply validated_result; [by apply texts_recorded|done..].
Qed.
Lemma stepped_of h X : stepped (outputs h) X <-> exists s, s ∈ steps_of h /\ bs_result s = X.
Proof.
  unfold stepped, steps_of. split.
  - intros (R & st & s & Hin & Hs & E). exists s. split; [|done]. apply elem_of_list_In, in_concat. exists st. split; [|by apply elem_of_list_In].
    apply in_map_iff. exists (R, st). split; [done|by apply elem_of_list_In].
  - intros (s & Hs & E). apply elem_of_list_In, in_concat in Hs as (st & Hin & Hs). apply in_map_iff in Hin as ([R st'] & E' & Hin). cbn in E'. subst st'.
    exists R, st, s. split; [by apply elem_of_list_In|]. split; [by apply elem_of_list_In|done].
Qed.
Lemma same_object_sym x y : same_object x y -> same_object y x.
Proof. intros [E F]. split; [done|]. by destruct x, y. Qed.
Lemma same_object_trans x y z : same_object x y -> same_object y z -> same_object x z.
Proof. intros [E F] [E' F']. split; [congruence|]. by destruct x, y, z. Qed.
Lemma overlay_json_type ov ov' : overlay_json ov = overlay_json ov' -> ov_type ov = ov_type ov'.
Proof.
  intros E. apply Codec_proofs.otype_text_inj. unfold overlay_json, overlay_json_d in E.
  assert (E1 := f_equal (jkey 1) E). assert (E2 := f_equal (jkey 2) E). destruct (ov_body ov), (ov_body ov'); cbn [jkey app lookup list_lookup] in E1, E2; congruence.
Qed.
Lemma cb_json_again cb cb' : cb_json_d (JStr dummy_said) cb = cb_json_d (JStr dummy_said) cb' -> cb_said cb = cb_said cb' -> cb_json cb = cb_json cb'.
Proof.
  intros E E'. unfold cb_json. rewrite <- E'. unfold cb_json_d in *. apply (f_equal (fun j => match j with JObj (_ :: r) => r | _ => [] end)) in E. by rewrite E.
Qed.
Lemma ov_json_again ov ov' : overlay_json_d (JStr dummy_said) ov = overlay_json_d (JStr dummy_said) ov' -> ov_said ov = ov_said ov' -> overlay_json ov = overlay_json ov'.
Proof.
  intros E E'. unfold overlay_json. rewrite <- E'. destruct (overlay_head ov) as [l El], (overlay_head ov') as [l' El'].
  assert (H : forall d x, overlay_json_d d x = match overlay_json_d (JStr dummy_said) x with JObj (_ :: r) => JObj (("d", d) :: r) | j => j end).
  { intros d x. unfold overlay_json_d. by destruct (ov_body x). }
  rewrite (H _ ov), (H _ ov'), E. done.
Qed.
Lemma step_objects ss s s' k o o' : (forall s, s ∈ ss -> exists b, made digest M s b) -> no_clash digest (map bs_result ss) -> s ∈ ss -> s' ∈ ss ->
  object_in (bs_result s) k o -> object_in (bs_result s') k o' -> same_object o o'.
Proof.
  intros HM Hn Hs Hs' I I'. destruct (HM s Hs) as (b & _ & (x & _ & G)), (HM s' Hs') as (b' & _ & (x' & _ & G')).
  destruct (C03_generated_saids_verify _ _ _ _ G) as (S1 & S2 & S3), (C03_generated_saids_verify _ _ _ _ G') as (T1 & T2 & T3).
  assert (N : forall j j', hashed (bs_result s) j -> hashed (bs_result s') j' -> digest j = digest j' -> j = j').
  { intros j j' Hj1 Hj2. apply (Hn (bs_result s) (bs_result s')); [by apply elem_of_list_fmap_1|by apply elem_of_list_fmap_1|done|done]. }
  destruct I as [[E -> ]|(ov & Hov & E & -> )], I' as [[E' -> ]|(ov' & Hov' & E' & -> )].
  - split; [|done]. cbn. apply cb_json_again; [|congruence]. apply N; [constructor|constructor|congruence].
  - exfalso. destruct (T3 ov' Hov') as [T4 _]. assert (J : cb_json_d (JStr dummy_said) (b_cb (bs_result s)) = overlay_json_d (JStr dummy_said) ov') by (apply N; [constructor|by constructor|congruence]).
    destruct (overlay_keys ov') as [[X Y]|[X Y]]; rewrite <- J in X, Y; cbn in X, Y; congruence.
  - exfalso. destruct (S3 ov Hov) as [S4 _]. assert (J : overlay_json_d (JStr dummy_said) ov = cb_json_d (JStr dummy_said) (b_cb (bs_result s'))) by (apply N; [by constructor|constructor|congruence]).
    destruct (overlay_keys ov) as [[X Y]|[X Y]]; rewrite J in X, Y; cbn in X, Y; congruence.
  - split; [|done]. cbn. destruct (S3 ov Hov) as [S4 _], (T3 ov' Hov') as [T4 _]. apply ov_json_again; [|congruence]. apply N; [by constructor|by constructor|congruence].
Qed.
Lemma step_bundles ss s s' : (forall s, s ∈ ss -> exists b, made digest M s b) -> no_clash digest (map bs_result ss) -> s ∈ ss -> s' ∈ ss ->
  b_said (bs_result s) = b_said (bs_result s') -> bundle_json (bs_result s) = bundle_json (bs_result s').
Proof.
  intros HM Hn Hs Hs' E. destruct (HM s Hs) as (b & _ & (x & _ & G)), (HM s' Hs') as (b' & _ & (x' & _ & G')).
  apply gen_said in G as S1. apply gen_said in G' as S2. unfold bundle_json. rewrite <- E.
  assert (Ej : bundle_json_d (JStr dummy_said) (bs_result s) = bundle_json_d (JStr dummy_said) (bs_result s')).
  { eapply (Hn (bs_result s) (bs_result s')); [by apply elem_of_list_fmap_1|by apply elem_of_list_fmap_1|constructor|constructor|congruence]. }
  unfold bundle_json_d in *. apply (f_equal (fun j => match j with JObj l => l | _ => [] end)) in Ej. apply cons_inj in Ej as [_ Ej]. by rewrite Ej.
Qed.
Lemma texts_sound h f : plain_digest digest -> texts h f -> all (steps_of h) -> no_clash digest (map bs_result (steps_of h)) -> sound said_ok digits lang_ok (outputs h).
Proof.
  intros Hp HT Hall Hn. destruct (texts_inv h f HT) as (R & Hst & Hfin). pose proof (texts_results h f HT Hall Hn) as HR. pose proof (texts_recorded h f HT Hall) as Rc.
  assert (HM : forall s, s ∈ steps_of h -> exists b, made digest M s b). { intros s Hs. destruct (rc_just _ _ _ _ _ _ Rc s Hs) as (b & Hm & _). by exists b. }
  assert (Like : forall B, final (outputs h) B \/ stepped (outputs h) B -> exists s, s ∈ steps_of h /\ as_step B s).
  { intros B [HB|HB]; [by apply HR|]. apply stepped_of in HB as (s & Hs & <-). exists s. split; [done|]. split; [done|]. split; [done|]. intros k o Ho. exists o. split; [done|]. split; [done|]. by destruct o. }
  assert (Roles : forall B k r, final (outputs h) B -> has_role B k r -> exists s, s ∈ steps_of h /\ has_role (bs_result s) k r).
  { intros B k r HB Hr. destruct (HR B HB) as (s & Hs & A1 & A2 & A3). exists s. split; [done|]. destruct Hr as [[-> E]|[[-> E]|(ov & Hov & E & -> )]].
    - left. split; [done|congruence].
    - destruct (A3 k (FCapture (b_cb B))) as (o' & Ho' & [E1 E2]); [by left|]. destruct o' as [cb|ov]; [|done]. apply object_role in Ho'. exact Ho'.
    - destruct (A3 k (FOverlay ov)) as (o' & Ho' & [E1 E2]); [right; by exists ov|]. destruct o' as [cb|ov']; [done|]. apply object_role in Ho'. cbn in E1. by rewrite (overlay_json_type _ _ E1). }
  destruct (after_relations _ _ _ _ _ _ _ _ _ _ _ _ _ Hp (used_files _ _ _ _ _ _ _ _ _ _ _ _ _ R)) as [_ Hgen].
  assert (Fin : forall B, B ∈ map fst (outputs h) -> final (outputs h) B). { intros B HB. apply elem_of_list_fmap in HB as ([X st] & -> & HB). by exists st. }
  assert (Sane : saids_sane (map bs_result (steps_of h))).
  { apply (sane_generated digest); [done|done|]. apply Forall_forall. intros B HB. apply elem_of_list_fmap in HB as (s & -> & Hs). destruct (HM s Hs) as (b & _ & (o & _ & G)). by exists o, b. }
  split.
  - intros B [HB|HB]; [by apply Hfin|]. apply stepped_of in HB as (s & Hs & <-). destruct (Hst s Hs) as [? ? _ [? _]]. done.
  - intros B HB. destruct (HR B HB) as (s & Hs & A). exists (bs_result s). split; [apply stepped_of; by exists s|exact A].
  - intros B B' HB HB' E. destruct (Like B HB) as (s & Hs & A1 & A2 & _), (Like B' HB') as (s' & Hs' & A1' & A2' & _). rewrite <- A2, <- A2'. by apply (step_bundles (steps_of h)); [..|congruence].
  - intros B B' k o o' HB HB' I I'. destruct (Like B HB) as (s & Hs & _ & _ & A3), (Like B' HB') as (s' & Hs' & _ & _ & A3').
    destruct (A3 k o I) as (x & Hx & X1), (A3' k o' I') as (y & Hy & Y1). eapply same_object_trans; [exact X1|]. eapply same_object_trans; [|apply same_object_sym; exact Y1].
    by apply (step_objects (steps_of h) s s' k).
  - by eapply generated_all.
  - destruct Sane as (Z1 & Z2 & Z3). split; [|split].
    + intros B B' k r r' HB HB' Hr Hr'. destruct (Roles B k r (Fin B HB) Hr) as (s & Hs & Q), (Roles B' k r' (Fin B' HB') Hr') as (s' & Hs' & Q').
      eapply Z1; [apply elem_of_list_fmap_1; exact Hs|apply elem_of_list_fmap_1; exact Hs'|exact Q|exact Q'].
    + intros B k r HB Hr. destruct (Roles B k r (Fin B HB) Hr) as (s & Hs & Q). eapply Z2; [apply elem_of_list_fmap_1; exact Hs|exact Q].
    + intros B B' k k' r r' HB HB' Hr Hr'. destruct (Roles B k r (Fin B HB) Hr) as (s & Hs & Q), (Roles B' k' r' (Fin B' HB') Hr') as (s' & Hs' & Q').
      eapply Z3; [apply elem_of_list_fmap_1; exact Hs|apply elem_of_list_fmap_1; exact Hs'|exact Q|exact Q'].
Qed.

(** ** The histories the facade answers with *)
Notation loop := (steps_loop said_ok digits lang_ok standard_read of_text).
Notation said s := (b_said (bs_result s)).
Notation consistent := (Spec_Facade.consistent said_ok digits lang_ok standard_read of_text).
Lemma used_consistent H f : run H f -> (forall x, x ∈ concat (map snd H) -> storable x) -> consistent (fa_cache f).
Proof.
  induction 1 as [|h f os a g [B steps] _ IH Ho Hv|h f os a g B steps k B' _ IH Ho Hv HB]; intros Hall.
  - intros k B E. rewrite fetch_entry in E. unfold entry in E. cbn in E. rewrite lookup_empty in E. done.
  - destruct (validate_effect _ _ _ _ _ _ _ _ _ _ _ _ _ Hv) as (Ec & _). rewrite Ec. by apply IH.
  - rewrite map_app, concat_app in Hall. cbn [map concat snd] in Hall. rewrite app_nil_r in Hall. destruct (validate_effect _ _ _ _ _ _ _ _ _ _ _ _ _ Hv) as (Ec & _).
    eapply (C23_consistent from1 to1 listing said_ok digits lang_ok standard_read to_text of_text hash B steps g k B' Ht Hd HB).
    + intros s Hs. destruct (Hall s) as [? ? _ [? _]]; [apply elem_of_app; by right|done].
    + rewrite Ec. apply IH. intros x Hx. apply Hall, elem_of_app. by left.
Qed.
Definition kept_history (ss : list bstep) (f : facade) : Prop := forall s k, s ∈ ss -> said s = Some k ->
  exists n L, loop n f k = Some (Ok L) /\ NoDup (map (fun s => said s) L) /\ forall x, x ∈ map (fun s => said s) L -> x ∈ map (fun s => said s) ss.
Lemma texts_history h f : texts h f -> NoDup (map (fun s => said s) (steps_of h)) -> kept_history (steps_of h) f.
Proof.
  induction 1 as [|h f os s a g [B steps] HT IH Ho Hst Ha Hv|h f os s a g B steps k0 B' HT IH Ho Hst Ha Hv HB]; intros Hn.
  - intros s k Hs. by apply elem_of_nil in Hs.
  - intros x k Hx Ek. destruct (IH Hn x k Hx Ek) as (n & L & HL & Q). exists n, L. split; [|exact Q]. destruct (texts_inv h f HT) as (R & Hsto & _).
    destruct (validate_effect _ _ _ _ _ _ _ _ _ _ _ _ _ Hv) as (Ec & _ & En & _). apply (loop_frame _ _ _ _ _ n f g (used_consistent _ _ R Hsto) k L HL). intros k' _. rewrite Ec. split; [by apply En|done].
  - rewrite steps_of_app in *. rewrite map_app in Hn. pose proof Hn as Hn0. apply NoDup_app in Hn0 as (Hn1 & Hn2 & Hn3). specialize (IH Hn1). destruct (texts_inv h f HT) as (R & Hsto & _).
    pose proof (used_consistent _ _ R Hsto) as Hc. destruct (validate_effect _ _ _ _ _ _ _ _ _ _ _ _ _ Hv) as (Ec & _ & En & _).
    assert (Keep : forall k L n, loop n f k = Some (Ok L) -> loop n g k = Some (Ok L)).
    { intros k L n HL. apply (loop_frame _ _ _ _ _ n f g Hc k L HL). intros k' _. rewrite Ec. split; [by apply En|done]. }
    assert (Hcg : consistent (fa_cache g)) by (by rewrite Ec).
    assert (HX : exists from a', from_ast digest from1 os from a' = BuildOk B steps /\ (forall s, s ∈ steps -> storable s) /\
      forall p, (from ≫= b_said) = Some p -> exists s0, s0 ∈ steps_of h /\ said s0 = Some p).
    { destruct (validated_parts _ _ _ _ _ _ _ _ R Hsto Ho Hst Ha Hv) as (from & a' & FA & Hg & Hf).
      pose proof Hv as Hv2. unfold validate_ast in Hv2. destruct (check_base said_ok digits lang_ok standard_read of_text (fa_cache f) a) as [[from2 a1]|e|] eqn:Eb; [|done|done]. cbn [obind fst snd] in Hv2.
      inv_ok Hv2. match type of Hv2 with context [from_ast _ _ _ _ ?x] => set (a2 := x) in * end.
      destruct (from_ast digest from1 os from2 a2) as [B0 st|es|] eqn:FA2; [|done|done].
      assert (Est : B0 = B /\ st = steps). { destruct (ast_meta a1 !! "name"); [inv_ok Hv2; inv_ok Hv2; by injection Hv2|by injection Hv2]. } destruct Est as [-> ->].
      exists from2, a2. split; [done|]. split; [by apply (steps_storable os from a' B steps Ho Hg FA Hf)|]. intros p Ep. destruct from2 as [B0|]; [|done]. cbn in Ep.
      unfold check_base in Eb. destruct (ast_commands a) as [|[[] [|[[k|nm]]|]] cs]; try done.
      destruct (fetch (fa_cache f) k) as [B2|e|] eqn:HF; [|done|done]. injection Eb as -> <-. rewrite (Hc k B0 HF) in Ep. injection Ep as <-.
      rewrite fetch_entry in HF. destruct (entry (fa_cache f) NsBundles k) as [t|] eqn:Ee; [|done].
      destruct (he_bundles _ _ _ _ (builds_held _ _ _ _ _ _ _ (used_builds _ _ R)) k) as [(X & HX & Ek & _)|[_ Q]]; [|congruence].
      apply stepped_of in HX as (s0 & Hs0 & <-). by exists s0. }
    destruct HX as (from & a' & FA & Hnew & Hbase). destruct (base_of_some digest from1 os from a' _ FA) as [st Hb]; [done|]. destruct (C13_step_chain _ _ _ _ _ _ _ _ Hb FA) as (Hlen & X & _).
    assert (Hch : chained (from ≫= b_said) steps) by (apply chain_of_index; intros i x Hi; by apply (X i x Hi)).
    assert (HH : exists n0 H0, match from ≫= b_said with None => H0 = [] | Some p => loop n0 g p = Some (Ok (rev H0)) end /\
      NoDup (map (fun s => said s) H0) /\ forall x, x ∈ map (fun s => said s) H0 -> x ∈ map (fun s => said s) (steps_of h)).
    { destruct (from ≫= b_said) as [p|] eqn:Ep.
      - destruct (Hbase p eq_refl) as (s0 & Hs0 & Es0). destruct (IH s0 p Hs0 Es0) as (n & L & HL & HN & HS). exists n, (rev L). split; [rewrite rev_involutive; by apply Keep|]. rewrite map_rev.
        split; [by rewrite <- Permutation_rev|]. intros x Hx. apply HS. by rewrite <- Permutation_rev in Hx.
      - exists 0, []. split; [done|]. split; [constructor|]. intros x Hx. by apply elem_of_nil in Hx. }
    destruct HH as (n0 & H0 & HH & HN0 & HS0).
    assert (HND : NoDup (map (fun s => said s) (H0 ++ steps))).
    { rewrite map_app. apply NoDup_app. split; [done|]. split; [|done]. intros x Hx. apply Hn2. by apply HS0. }
    intros x k Hx Ek. apply elem_of_app in Hx as [Hx|Hx].
    + destruct (IH x k Hx Ek) as (n & L & HL & HN & HS). exists n, L. split; [|split; [done|intros y Hy; rewrite map_app; apply elem_of_app; left; by apply HS]].
      apply (loop_frame _ _ _ _ _ n g k0 Hcg k L (Keep _ _ _ HL)). intros k' Hk'. destruct (build_effect _ _ _ _ _ _ _ _ _ _ HB) as (_ & _ & _ & _ & O).
      apply O. intros y Hy Ey. apply (Hn2 (Some k')); [by apply HS|]. rewrite <- Ey. apply elem_of_list_In, in_map_iff. exists y. split; [done|]. by apply elem_of_list_In.
    + apply elem_of_list_lookup in Hx as [i Hi].
      destruct (history_at from1 to1 listing said_ok digits lang_ok standard_read to_text of_text hash Ht Hd Hempty B B' steps g k0 (from ≫= b_said) H0 n0 HB Hcg Hch Hnew HH HND i x k Hi Ek) as (H & L & HF).
      exists (n0 + S i), (rev (H0 ++ H)). split; [exact L|].
      assert (EH : map (fun s => said s) H = map (fun s => said s) (take (S i) steps)).
      { clear -HF. induction HF as [|u v l l' (_ & _ & _ & E) _ IH]; [done|]. cbn. by rewrite E, IH. }
      rewrite map_rev, map_app, EH. split.
      * rewrite <- Permutation_rev. rewrite <- (take_drop (S i) steps), map_app, map_app, app_assoc in HND. by apply NoDup_app in HND as (? & _).
      * intros y Hy. rewrite <- Permutation_rev in Hy. rewrite map_app. apply elem_of_app. apply elem_of_app in Hy as [Hy|Hy]; [left; by apply HS0|right].
        apply elem_of_list_In, in_map_iff in Hy as (z & <- & Hz). apply elem_of_list_In, in_map_iff. exists z. split; [done|]. apply elem_of_list_In in Hz. apply elem_of_list_In.
        apply elem_of_take in Hz as (j & Hz & _). by eapply elem_of_list_lookup_2.
Qed.
End Texts.

(** ** Theorems *)
(** A text that can be stored, built into a facade with a history of such texts, extends that history. *)
Theorem C53_building_extends : forall wide digest from1 to1 listing said_ok digits lang_ok standard_read to_text of_text hash h f os s g B,
  texts_run wide digest from1 to1 listing said_ok digits lang_ok standard_read to_text of_text hash h f -> (forall i, order_ok (os i)) -> storable_text wide said_ok s ->
  facade_build_file wide digest from1 to1 listing said_ok digits lang_ok standard_read to_text of_text hash os s f = Ok (g, B) ->
  exists steps, texts_run wide digest from1 to1 listing said_ok digits lang_ok standard_read to_text of_text hash (h ++ [(s, (B, steps))]) g.
Proof.
  intros wide dig f1 t1 ls so dg lo sr tt ot hs h f os s g B HT Ho Hst HB.
  rewrite build_file_eq in HB. pose proof (C49_any_file_reads wide so s) as P. generalize dependent (parse_any wide so s). intros pa HB P.
  destruct P as [(a & -> & _)|[(a & -> & Ha)|[(es & ->)|(-> & _ & Hb)]]]; [discriminate HB| |discriminate HB|discriminate HB].
  rewrite Ha in HB. cbn [obind] in HB. rewrite build_ast_eq in HB.
  destruct (validate_ast dig f1 so dg lo sr ot os a f) as [[g0 [B0 steps]]|e|] eqn:Ev; cbn [obind fst snd] in HB; [|done|done].
  destruct (build_effect _ _ _ _ _ _ _ _ _ _ HB) as (-> & _). exists steps. by eapply tr_build.
Qed.
Print Assumptions C53_building_extends.
(** Everything a history of texts built can be stored and read back: no hypothesis on the bundles is left. *)
Theorem C53_texts_are_storable : forall wide digest from1 to1 listing said_ok digits lang_ok standard_read to_text of_text hash h f,
  services digest from1 said_ok digits lang_ok to_text of_text ->
  texts_run wide digest from1 to1 listing said_ok digits lang_ok standard_read to_text of_text hash h f ->
  (forall x, x ∈ steps_of h -> step_storable said_ok digits lang_ok x) /\
  (forall s B steps, (s, (B, steps)) ∈ h -> bundle_readable said_ok digits lang_ok B /\ groups_sorted B /\ shallow (bundle_json B)).
Proof.
  intros wide dig f1 t1 ls so dg lo sr tt ot hs h f [Ht Hd H1 Hj Hp He Hl] HT.
  destruct (texts_inv wide dig f1 t1 ls so dg lo sr tt ot hs Ht Hd H1 Hj Hl h f HT) as (_ & HS & HF). split; [exact HS|].
  intros s B steps Hin. apply HF. exists steps. unfold outputs. apply elem_of_list_In, in_map_iff. exists (s, (B, steps)). split; [done|]. by apply elem_of_list_In.
Qed.
Print Assumptions C53_texts_are_storable.
(** Building any text after any history of texts aborts only for the reasons the text shows. *)
Theorem C53_history_builds : forall wide digest from1 to1 listing said_ok digits lang_ok standard_read to_text of_text hash os s h f,
  listing_ok listing -> Spec_Dag.codes_ok from1 to1 -> (forall t, short (hash t)) -> (forall s, said_ok s = true -> short s) ->
  services digest from1 said_ok digits lang_ok to_text of_text -> (forall i, order_ok (os i)) ->
  texts_run wide digest from1 to1 listing said_ok digits lang_ok standard_read to_text of_text hash h f ->
  (forall a g B steps, parse_ocafile wide said_ok s = Ok a -> validate_ast digest from1 said_ok digits lang_ok standard_read of_text os a f = Ok (g, (B, steps)) ->
     no_clash digest (map fst (outputs h) ++ [B])) ->
  facade_build_file wide digest from1 to1 listing said_ok digits lang_ok standard_read to_text of_text hash os s f = Panic ->
  backslash_in_braces s \/ exists a, parse_ocafile wide said_ok s = Ok a /\
    (ast_commands a = [] \/ (exists k, ast_commands a = [from_cmd (RSaid k)]) \/ exists c, c ∈ ast_commands a /\ aborting from1 false c).
Proof.
  intros wide dig f1 t1 ls so dg lo sr tt ot hs os s h f Hli Hc Hh Hk [Ht Hd H1 Hj Hp He Hl] Ho HT Hn HB.
  destruct (texts_inv wide dig f1 t1 ls so dg lo sr tt ot hs Ht Hd H1 Hj Hl h f HT) as (R & HS & _).
  eapply C49_history_builds; [exact Hli|exact Hc|exact Hh|exact Hp|exact Hk|exact Hj|exact Ht|exact Hd|exact Ho|exact R|exact HS|exact Hn|exact HB].
Qed.
Print Assumptions C53_history_builds.
Lemma fine_all digest said_ok digits lang_ok h : (forall x, x ∈ steps_of h -> step_storable said_ok digits lang_ok x) -> framings_agree (map bs_cmd (steps_of h)) ->
  storable_all said_ok digits lang_ok (M_of (map bs_cmd (steps_of h))) (steps_of h) /\ (no_clash digest (map bs_result (steps_of h)) -> steps_fine digest said_ok digits lang_ok (steps_of h)).
Proof.
  intros Hst Hag. assert (Hco : Forall command_ok (map bs_cmd (steps_of h))). { apply Forall_forall. intros c Hc. apply elem_of_list_fmap in Hc as (s & -> & Hs). by destruct (Hst s Hs) as [_ _ (? & _)]. }
  assert (Hu := agree_uniform _ Hag Hco). split; [|by split]. intros s Hs. split; [by apply Hst|]. rewrite Forall_forall in Hu. apply Hu. by apply elem_of_list_fmap_1.
Qed.
(** The stores after a history of texts are those of a sound history of builds: what C43 says of objects, listings and searches holds. *)
Theorem C53_texts_are_sound : forall wide digest from1 to1 listing said_ok digits lang_ok standard_read to_text of_text hash h f,
  services digest from1 said_ok digits lang_ok to_text of_text ->
  texts_run wide digest from1 to1 listing said_ok digits lang_ok standard_read to_text of_text hash h f -> texts_fine digest h ->
  builds from1 to1 listing to_text hash (outputs h) f /\ sound said_ok digits lang_ok (outputs h).
Proof.
  intros wide dig f1 t1 ls so dg lo sr tt ot hs h f [Ht Hd H1 Hj Hp He Hl] HT [Hn Hag].
  destruct (texts_inv wide dig f1 t1 ls so dg lo sr tt ot hs Ht Hd H1 Hj Hl h f HT) as (R & HS & _). split; [by eapply used_builds|].
  eapply (texts_sound wide dig f1 t1 ls so dg lo sr tt ot hs Ht Hd H1 Hj Hl (M_of (map bs_cmd (steps_of h)))); [exact Hp|exact HT|by apply (fine_all dig)|exact Hn].
Qed.
Print Assumptions C53_texts_are_sound.
(** Every text built can be fetched, by the SAID of its bundle, whatever was built or validated after it; so can every step. *)
Theorem C53_fetch : forall wide digest from1 to1 listing said_ok digits lang_ok standard_read to_text of_text hash h f,
  services digest from1 said_ok digits lang_ok to_text of_text ->
  texts_run wide digest from1 to1 listing said_ok digits lang_ok standard_read to_text of_text hash h f -> texts_fine digest h ->
  forall s B steps, (s, (B, steps)) ∈ h -> forall X, X = B \/ X ∈ map bs_result steps ->
  exists k X', b_said X = Some k /\ get_bundle said_ok digits lang_ok standard_read of_text (fa_cache f) k = Ok X' /\ b_said X' = Some k /\ bundle_json X' = bundle_json X.
Proof.
  intros wide dig f1 t1 ls so dg lo sr tt ot hs h f Hv HT Hf s B steps Hin X HX.
  destruct (C53_texts_are_sound _ _ _ _ _ _ _ _ _ _ _ _ _ _ Hv HT Hf) as [Hb Hs]. destruct Hv as [Ht Hd H1 Hj Hp He Hl].
  destruct (texts_inv wide dig f1 t1 ls so dg lo sr tt ot hs Ht Hd H1 Hj Hl h f HT) as (R & HS & _).
  assert (Ho : (B, steps) ∈ outputs h). { apply elem_of_list_In, in_map_iff. exists (s, (B, steps)). split; [done|]. by apply elem_of_list_In. }
  assert (HX' : final (outputs h) X \/ stepped (outputs h) X).
  { destruct HX as [->|HX]; [left; by exists steps|]. right. apply elem_of_list_fmap in HX as (x & -> & Hx). by exists B, steps, x. }
  assert (HY : exists Y, stepped (outputs h) Y /\ b_said Y = b_said X /\ bundle_json Y = bundle_json X).
  { destruct HX' as [HX'|HX']; [|by exists X]. destruct (so_result _ _ _ _ Hs X HX') as (Y & HY & E1 & E2 & _). by exists Y. }
  destruct HY as (Y & HY & E1 & E2). pose proof HY as HY'. apply stepped_of in HY' as (y & Hy & <-).
  destruct (fine_all dig so dg lo h HS (tf_frames _ _ Hf)) as [Hall _].
  destruct (rc_just _ _ _ _ _ _ (texts_recorded wide dig f1 t1 ls so dg lo sr tt ot hs Ht Hd H1 Hj Hl _ h f HT Hall) y Hy) as (b & [_ (o & _ & G)] & _). apply gen_said in G.
  set (k := dig (bundle_json_d (JStr dummy_said) (bs_result y))) in *. exists k. rewrite <- E1, fetch_entry.
  destruct (he_bundles _ _ _ _ (builds_held _ _ _ _ _ _ _ Hb) k) as [(Z & HZ & Ek & ->)|[Q _]]; [|exfalso; by apply (Q _ HY)].
  destruct (so_readable _ _ _ _ Hs Z (or_intror HZ)) as (Rz & Gz & Xz). unfold read_bundle, parse_text. rewrite Ht by done. rewrite (bundle_round so dg lo sr Hd _ Rz). cbn.
  exists (bundle_read Z). split; [done|]. split; [done|]. split; [exact Ek|]. rewrite (bundle_read_json _ Gz), <- E2. apply (so_bundles _ _ _ _ Hs); [by right|by right|congruence].
Qed.
Print Assumptions C53_fetch.
(** When the steps have different SAIDs, the facade answers with a history for every one of them, whatever was built after it, and
    that history rebuilds the bundle, from scratch and in any iteration order. *)
Theorem C53_history : forall wide digest from1 to1 listing said_ok digits lang_ok standard_read to_text of_text hash h f,
  services digest from1 said_ok digits lang_ok to_text of_text ->
  texts_run wide digest from1 to1 listing said_ok digits lang_ok standard_read to_text of_text hash h f -> texts_fine digest h ->
  NoDup (map (fun s => b_said (bs_result s)) (steps_of h)) ->
  forall s B steps, (s, (B, steps)) ∈ h -> forall X k, X = B \/ X ∈ map bs_result steps -> b_said X = Some k ->
  exists N cs, (forall n, (N <= n)%nat -> get_ast said_ok digits lang_ok standard_read of_text n f k = Some (Ok cs)) /\
  forall os a, (forall i, order_ok (os i)) -> ast_commands a = cs ->
  exists X' steps', from_ast digest from1 os None a = BuildOk X' steps' /\ b_said X' = Some k /\ bundle_json X' = bundle_json X.
Proof.
  intros wide dig f1 t1 ls so dg lo sr tt ot hs h f Hv HT Hf Hn s B steps Hin X k HX Ek.
  destruct (C53_fetch _ _ _ _ _ _ _ _ _ _ _ _ _ _ Hv HT Hf s B steps Hin X HX) as (k' & X0 & Ek' & HF & _ & J). rewrite Ek in Ek'. injection Ek' as <-.
  destruct (C53_texts_are_sound _ _ _ _ _ _ _ _ _ _ _ _ _ _ Hv HT Hf) as [Hb Hs]. destruct Hv as [Ht Hd H1 Hj Hp He Hl].
  destruct (texts_inv wide dig f1 t1 ls so dg lo sr tt ot hs Ht Hd H1 Hj Hl h f HT) as (R & HS & _).
  assert (Ho : (B, steps) ∈ outputs h). { apply elem_of_list_In, in_map_iff. exists (s, (B, steps)). split; [done|]. by apply elem_of_list_In. }
  assert (HY : exists Y, stepped (outputs h) Y /\ b_said Y = b_said X).
  { destruct HX as [->|HX]; [destruct (so_result _ _ _ _ Hs B) as (Y & HY & E1 & _); [by exists steps|by exists Y]|]. exists X. split; [|done]. apply elem_of_list_fmap in HX as (x & -> & Hx). by exists B, steps, x. }
  destruct HY as (Y & HY & E1). apply stepped_of in HY as (y & Hy & <-). rewrite Ek in E1.
  destruct (texts_history wide dig f1 t1 ls so dg lo sr tt ot hs Ht Hd H1 Hj Hl He h f HT Hn y k Hy E1) as (N & L & HL & _).
  assert (HA : forall n, (N <= n)%nat -> get_ast so dg lo sr ot n f k = Some (Ok (map bs_cmd (rev L)))).
  { intros n Hle. unfold get_ast, get_steps. by rewrite (loop_mono _ _ _ _ _ _ _ _ _ _ HL Hle). }
  exists N, (map bs_cmd (rev L)). split; [exact HA|]. intros os a Hos Ea.
  destruct (C47_history_rebuilds dig f1 t1 ls so dg lo sr tt ot hs (steps_of h) f Ht Hd He) with (n := N) (k := k) (cs := map bs_cmd (rev L)) as (B0 & HF' & Q).
  - by apply used_steps.
  - apply (fine_all dig so dg lo h HS (tf_frames _ _ Hf)). apply Hf.
  - by apply HA.
  - destruct (Q os a Hos Ea) as (X' & st & E & E' & E2). exists X', st. rewrite HF in HF'. injection HF' as <-. split; [done|]. split; [done|]. congruence.
Qed.
Print Assumptions C53_history.
(** The objects of every text built can be fetched by their SAIDs, and the listing shows each bundle once. *)
Theorem C53_objects_and_listing : forall wide digest from1 to1 listing said_ok digits lang_ok standard_read to_text of_text hash h f,
  services digest from1 said_ok digits lang_ok to_text of_text -> listing_ok listing ->
  texts_run wide digest from1 to1 listing said_ok digits lang_ok standard_read to_text of_text hash h f -> texts_fine digest h ->
  (forall s B steps k o, (s, (B, steps)) ∈ h -> object_in B k o ->
    exists o', get_objects said_ok digits lang_ok standard_read of_text f [k] = Ok [o'] /\ same_object o' o) /\
  (forall limit, (1 <= limit)%nat -> exists (all : list bundle) (pages : nat -> list bundle),
    (forall p, (1 <= p)%nat -> list_bundles said_ok digits lang_ok standard_read of_text limit p f = Ok (pages p, length all)) /\
    (forall n, (length all <= n * limit)%nat -> concat (map pages (seq 1 n)) ≡ₚ all) /\ NoDup (map b_said all) /\
    (forall B, B ∈ all -> exists s B0 steps, (s, (B0, steps)) ∈ h /\ b_said B = b_said B0 /\ bundle_json B = bundle_json B0) /\
    (forall s B0 steps, (s, (B0, steps)) ∈ h -> exists B, B ∈ all /\ b_said B = b_said B0 /\ bundle_json B = bundle_json B0)).
Proof.
  intros wide dig f1 t1 ls so dg lo sr tt ot hs h f Hv Hli HT Hf.
  destruct (C53_texts_are_sound _ _ _ _ _ _ _ _ _ _ _ _ _ _ Hv HT Hf) as [Hb Hs]. destruct Hv as [Ht Hd H1 Hj Hp He Hl].
  assert (Fin : forall s B steps, (s, (B, steps)) ∈ h -> final (outputs h) B). { intros s B steps Hin. exists steps. apply elem_of_list_In, in_map_iff. exists (s, (B, steps)). split; [done|]. by apply elem_of_list_In. }
  split.
  - intros s B steps k o Hin Ho. destruct (C43_objects f1 t1 ls so dg lo sr tt ot hs (outputs h) f Ht Hd Hli Hs Hb [k]) as (os & E & HF).
    { constructor; [|constructor]. exists B, o. split; [by eapply Fin|done]. }
    inversion HF as [|? o' ? os' HQ HF']; subst. inversion HF'; subst. exists o'. split; [exact E|]. apply (HQ B o); [by eapply Fin|done].
  - intros limit Hlim. destruct (C43_listing f1 t1 ls so dg lo sr tt ot hs (outputs h) f limit Ht Hd Hs Hb Hlim) as (all & pages & P1 & P2 & P3 & P4 & P5 & _). exists all, pages.
    split; [done|]. split; [done|]. split; [done|]. split; [|intros s B0 steps Hin; apply P5; by eapply Fin].
    intros B HB. destruct (P4 B HB) as (B0 & [st H0] & E). apply elem_of_list_In, in_map_iff in H0 as ([s [B1 st1]] & E1 & H0). cbn in E1. injection E1 as -> ->. exists s, B0, st. split; [by apply elem_of_list_In|exact E].
Qed.
Print Assumptions C53_objects_and_listing.

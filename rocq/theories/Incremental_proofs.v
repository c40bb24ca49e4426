(** C37: building on a reloaded bundle = building from scratch. *)
From Verif Require Import Spec_Build Upd_proofs Effect_proofs Command_proofs Load_proofs Run_proofs Build_proofs Flags_proofs Reload_proofs
  Bundle_proofs Box_proofs Determinism_proofs.

(** Attributes and boxes that say the same. *)
Record attr_sim (a1 a2 : attribute) : Prop := {
  as_facts : forall s, erase_datum <$> attr_datum a1 s = erase_datum <$> attr_datum a2 s;
  as_type : at_type a1 = at_type a2;
  as_flag : at_flag a1 = at_flag a2;
  as_cat1 : forall l, lookup_opt l (at_catlabels a1) = None;
  as_cat2 : forall l, lookup_opt l (at_catlabels a2) = None }.
Record box_sim (b1 b2 : obox) : Prop := {
  bs_attrs : forall n, option_Forall2 attr_sim (bx_attrs b1 !! n) (bx_attrs b2 !! n);
  bs_meta : forall l k, box_datum b1 (SLang KMeta l) k = box_datum b2 (SLang KMeta l) k;
  bs_class : unwrap_or "" (bx_class b1) = unwrap_or "" (bx_class b2);
  bs_maps : unwrap_or [] (bx_maps b1) = [] /\ unwrap_or [] (bx_maps b2) = [] }.
Definition uniform_attr (M : string -> gmap string string) (a : attribute) : Prop :=
  forall f fr sc s, lookup_opt f (at_frames a) = Some fr -> fr !! sc = Some s -> fs_meta s = M f.
Definition uniform (M : string -> gmap string string) (b : obox) : Prop := forall n a, bx_attrs b !! n = Some a -> uniform_attr M a.

Lemma uniform_consistent M b : uniform M b -> frames_consistent b.
Proof.
  intros H f k v w (n & a & fr & sc & s & Ha & Hf & Hs & Hv) (n' & a' & fr' & sc' & s' & Ha' & Hf' & Hs' & Hw).
  rewrite (H n a Ha f fr sc s Hf Hs) in Hv. rewrite (H n' a' Ha' f fr' sc' s' Hf' Hs') in Hw. congruence.
Qed.
Lemma erased_frame a1 a2 f fr sc s : attr_sim a1 a2 -> lookup_opt f (at_frames a1) = Some fr -> fr !! sc = Some s ->
  exists fr' s', lookup_opt f (at_frames a2) = Some fr' /\ fr' !! sc = Some s'.
Proof.
  intros H Hf Hs. pose proof (as_facts a1 a2 H (SFrame f)) as E. cbn -[lookup_opt] in E. rewrite Hf in E. cbn in E.
  destruct (lookup_opt f (at_frames a2)) as [fr'|]; [|done]. cbn in E. injection E as E. exists fr'.
  assert (E' : erase_frame fr !! sc = erase_frame fr' !! sc) by by rewrite E. unfold erase_frame, framing in *. rewrite !lookup_fmap, Hs in E'. cbn in E'.
  destruct (fr' !! sc) as [s'|]; [|done]. by exists s'.
Qed.
Lemma attr_sim_sym a1 a2 : attr_sim a1 a2 -> attr_sim a2 a1.
Proof. intros []. by split. Qed.
Lemma box_sim_sym b1 b2 : box_sim b1 b2 -> box_sim b2 b1.
Proof.
  intros [H1 H2 H3 [H4 H5]]. split; [|done|done|done]. intros n. destruct (H1 n); constructor. by apply attr_sim_sym.
Qed.
Lemma sim_says M b1 b2 f k v : box_sim b1 b2 -> uniform M b1 -> uniform M b2 -> frame_meta_says (bx_attrs b1) f k v -> frame_meta_says (bx_attrs b2) f k v.
Proof.
  intros H U1 U2 (n & a & fr & sc & s & Ha & Hf & Hs & Hv). pose proof (bs_attrs b1 b2 H n) as S. rewrite Ha in S.
  destruct (bx_attrs b2 !! n) as [a2|] eqn:E; [|by inversion S]. assert (S' : attr_sim a a2) by by inversion S.
  destruct (erased_frame a a2 f fr sc s S' Hf Hs) as (fr' & s' & Hf' & Hs'). exists n, a2, fr', sc, s'. repeat (split; [done|]).
  rewrite (U2 n a2 E f fr' sc s' Hf' Hs'). by rewrite <- (U1 n a Ha f fr sc s Hf Hs).
Qed.
Lemma sim_equiv M b1 b2 : box_sim b1 b2 -> uniform M b1 -> uniform M b2 -> box_equiv b1 b2.
Proof.
  intros H U1 U2. split.
  - intros s n. destruct s as [k|k l|t|f]; [| destruct (decide (k = KMeta)) as [->|Hk]; [by rewrite (bs_meta b1 b2 H)|] | |];
      (rewrite !box_datum_attr by (intros ? [=]; done); destruct (bs_attrs b1 b2 H n) as [a1 a2 S|]; [|done]; cbn -[attr_datum]; by apply (as_facts a1 a2 S)).
  - intros n. destruct (bs_attrs b1 b2 H n) as [a1 a2 S|]; [|done]. apply S.
  - intros n. destruct (bs_attrs b1 b2 H n) as [a1 a2 S|]; [|done]. cbn. f_equal. apply S.
  - apply H.
  - destruct (bs_maps b1 b2 H) as [-> ->]. done.
  - intros f k v. split; [by apply (sim_says M)|]. apply (sim_says M); [by apply box_sim_sym|done|done].
Qed.
#[global] Instance slot_meta_dec : forall s : slot, Decision (exists l, s = SLang KMeta l).
Proof.
  intros [k|k l|t|f]; try (right; by intros [? ?]). destruct (decide (k = KMeta)) as [->|Hk]; [left; by eexists|right; by intros [? [= ? ?]]].
Defined.
Lemma equiv_sim b1 b2 : box_equiv b1 b2 -> unwrap_or [] (bx_maps b1) = [] ->
  (forall n a l, bx_attrs b1 !! n = Some a -> lookup_opt l (at_catlabels a) = None) ->
  (forall n a l, bx_attrs b2 !! n = Some a -> lookup_opt l (at_catlabels a) = None) -> box_sim b1 b2.
Proof.
  intros E Hm C1 C2. split.
  - intros n. pose proof (be_flags b1 b2 E n) as F. pose proof (be_types b1 b2 E n) as T.
    destruct (bx_attrs b1 !! n) as [a1|] eqn:A1, (bx_attrs b2 !! n) as [a2|] eqn:A2; try done; constructor. injection F as F.
    split; [|done|done|by intros l; eapply C1|by intros l; eapply C2].
    intros s. destruct (decide (exists l, s = SLang KMeta l)) as [[l ->]|Hs]; [done|].
    pose proof (be_facts b1 b2 E s n) as D. rewrite !box_datum_attr, A1, A2 in D by (intros l ->; apply Hs; by exists l). done.
  - intros l k. pose proof (be_facts b1 b2 E (SLang KMeta l) k) as D. rewrite !box_datum_meta in *. destruct (_ ≫= _), (unwrap_or ∅ (bx_meta b2) !! l ≫= _); cbn in *; congruence.
  - apply E.
  - split; [done|]. by rewrite <- (be_maps b1 b2 E).
Qed.

(** ** One command *)
Section Cmd.
Variable from1 : string -> option string.
Variable M : string -> gmap string string.
Definition cmd_uniform (c : command) : Prop :=
  forall ct id, framing_command c ct -> frame_id_of (ct_props ct) = Some id -> frame_meta_props (ct_props ct) = M id.

Definition same_names (b1 b2 : obox) : Prop := forall n, is_Some (bx_attrs b1 !! n) <-> is_Some (bx_attrs b2 !! n).
Lemma sim_names b1 b2 : box_sim b1 b2 -> same_names b1 b2.
Proof. intros H n. destruct (bs_attrs b1 b2 H n); split; intros [? ?]; try done; by eexists. Qed.
Lemma names_none b1 b2 n : same_names b1 b2 -> bx_attrs b1 !! n = None -> bx_attrs b2 !! n = None.
Proof. intros H E. destruct (bx_attrs b2 !! n) eqn:E2; [|done]. destruct (proj2 (H n)) as [? ?]; [by eexists|congruence]. Qed.
Lemma acceptable_names b1 b2 k p n v : same_names b1 b2 -> acceptable from1 b1 k p n v <-> acceptable from1 b2 k p n v.
Proof. intros H. unfold acceptable. by rewrite (H n). Qed.
Lemma first_bad_names b1 b2 k p l n v : same_names b1 b2 -> first_bad from1 b1 k p l n v -> first_bad from1 b2 k p l n v.
Proof.
  intros H (pre & post & -> & H1 & H2). exists pre, post. split; [done|]. split.
  - intros n' v' Hin. apply (acceptable_names b1 b2); [done|]. by apply H1.
  - by rewrite <- (acceptable_names b1 b2).
Qed.
Lemma rejects_names b1 b2 k ct es : same_names b1 b2 -> overlay_rejects from1 b1 k ct es -> overlay_rejects from1 b2 k ct es.
Proof.
  intros H (Hk & hs & Hh & R). split; [done|]. exists hs. split; [done|]. destruct R as [(l & n & v & El & Hf & R)|(R & Hn)].
  - left. exists l, n, v. split; [done|]. split; [by apply (first_bad_names b1)|]. destruct R as [[R1 R2]|(R1 & R2)].
    + left. split; [by apply (names_none b1)|done].
    + right. split; [by apply H|done].
  - right. split; [|done]. intros n v Hv. apply (acceptable_names b1 b2); [done|]. by apply R.
Qed.
Lemma aborts_names b1 b2 k ct : same_names b1 b2 -> overlay_aborts from1 b1 k ct -> overlay_aborts from1 b2 k ct.
Proof.
  intros H [A|(Hk & l & n & v & El & Hf & Hs & HL)]; [by left|right]. split; [done|]. exists l, n, v. split; [done|].
  split; [by apply (first_bad_names b1)|]. split; [by apply H|done].
Qed.
Lemma same_names_sym b1 b2 : same_names b1 b2 -> same_names b2 b1.
Proof. intros H n. by rewrite (H n). Qed.

Lemma written_sim s o1 o2 d : erase_datum <$> o1 = erase_datum <$> o2 ->
  erase_datum (written s o1 None d) = erase_datum (written s o2 None d).
Proof.
  intros E. unfold written. destruct s as [k|k l|t|f].
  - destruct k; try done; destruct o1 as [d1|], o2 as [d2|]; cbn in E; try done; injection E as E; cbn; congruence.
  - by destruct k.
  - done.
  - destruct o1 as [[]|], o2 as [[]|]; try done; destruct d; try done. cbn in *. injection E as E. f_equal. unfold erase_frame, framing in *.
    apply map_eq. intros sc. assert (E' : (erase_scope <$> f0) !! sc = (erase_scope <$> f1) !! sc) by by rewrite E.
    rewrite !lookup_fmap in *. rewrite !lookup_union. destruct (f2 !! sc), (f0 !! sc), (f1 !! sc); cbn in *; congruence.
Qed.
Lemma cat_none s a : (forall l, lookup_opt l (at_catlabels a) = None) -> cat_of s a = None.
Proof. intros H. destruct s as [|k l| |]; try done. destruct k; try done. apply H. Qed.
Lemma eff_sim k p v a1 a2 : attr_sim a1 a2 -> attr_sim (eff from1 k p v a1) (eff from1 k p v a2).
Proof.
  intros H. unfold eff. destruct (value_upd from1 k p v) as [[u|]| |]; try done.
  destruct (merge_upd_same u a1) as (_ & T1 & F1 & C1 & _), (merge_upd_same u a2) as (_ & T2 & F2 & C2 & _).
  split; [|rewrite T1, T2; apply H|rewrite F1, F2; apply H|intros l; rewrite C1; apply H|intros l; rewrite C2; apply H].
  intros s. rewrite !merge_upd_datum. case_decide; [|apply H]. cbn. f_equal. rewrite !cat_none by apply H. apply written_sim. apply H.
Qed.
Lemma eff_uniform k p v a : (k = KAttributeFraming -> forall id, frame_id_of p = Some id -> frame_meta_props p = M id) -> nvalue_ok v ->
  uniform_attr M a -> uniform_attr M (eff from1 k p v a).
Proof.
  intros Hc Hv H f fr sc s. unfold eff. destruct (value_upd from1 k p v) as [[u|]| |] eqn:Eu; try apply H.
  intros Hf Hs. assert (D : attr_datum (merge_fields a (upd_attr u a)) (SFrame f) = Some (DFraming fr)) by (change (DFraming <$> lookup_opt f (at_frames (merge_fields a (upd_attr u a))) = Some (DFraming fr)); by rewrite Hf).
  rewrite merge_upd_datum in D. case_decide as E.
  - destruct u; try done. injection E as ->. unfold value_upd in Eu.
    destruct k; try done; destruct v; try done; unfold need in Eu; try (by destruct (cmd_lang _ _)); try (by destruct (encoding_of_str _)); try (by destruct (link_target _)).
    destruct (frame_id_of p) as [id'|] eqn:Ei; [|done]. injection Eu as -> <-. specialize (Hc eq_refl _ eq_refl). rewrite Hc in D.
    assert (Hnew : forall sc x, framing_of (M id) l !! sc = Some x -> fs_meta x = M id).
    { intros sc' x Hx. apply framing_of_spec in Hx as (? & ? & ? & _ & _ & _ & ->); [done|]. apply Hv. }
    unfold written in D. destruct (attr_datum a (SFrame id)) as [[]|] eqn:Ea; try done; try (injection D as <-; by apply Hnew in Hs).
    injection D as <-. unfold framing in *. apply lookup_union_Some_raw in Hs as [Hs|[_ Hs]]; [by apply Hnew in Hs|].
    change (DFraming <$> lookup_opt id (at_frames a) = Some (DFraming f)) in Ea. destruct (lookup_opt id (at_frames a)) as [g|] eqn:Eg; [|done]. injection Ea as ->. by apply (H id f sc s).
  - apply (H f fr sc s); [|done]. change (DFraming <$> lookup_opt f (at_frames a) = Some (DFraming fr)) in D. destruct (lookup_opt f (at_frames a)); [by injection D as ->|done].
Qed.
Lemma set_type_sim t a1 a2 : attr_sim a1 a2 -> attr_sim (set_type t a1) (set_type t a2).
Proof. intros []. split; done. Qed.
Lemma new_sim t n : attr_sim (set_type t (attr_new n)) (set_type t (attr_new n)).
Proof. by split. Qed.
Lemma new_uniform t n : uniform_attr M (set_type t (attr_new n)).
Proof. intros f fr sc s. done. Qed.

Lemma apply_uniform b b' c : api_box b -> command_ok c -> cmd_uniform c -> uniform M b ->
  apply_command from1 (Some b) c = Ok b' -> uniform M b'.
Proof.
  intros Hb Hc Hu U. unfold apply_command. cbn [unwrap_or]. apply api_box_ok in Hb.
  destruct c as [[] [cc|bc|t ct]]; cbn [cmd_kind cmd_obj]; try done.
  - intros [= <-] n a. destruct Hc as [Ha Hp]. cbn in Ha, Hp. unfold add_capture.
    set (b1 := fold_left _ (unwrap_or [] (cc_attrs cc)) b).
    destruct (add_capture_attrs (unwrap_or [] (cc_attrs cc)) b) as (H1 & H2 & H3 & H4);
      [by apply box_ok_names|destruct (cc_attrs cc); cbn; [by apply Ha|constructor]|]. fold b1 in H1, H2, H3, H4.
    destruct (add_capture_class (unwrap_or [] (cc_props cc)) b1) as (-> & _); [destruct (cc_props cc) as [p|]; cbn; [by apply (Hp p)|constructor]|].
    rewrite H4. destruct (imap_get n (unwrap_or [] (cc_attrs cc))) as [ty|]; [|apply U].
    intros [= <-]. destruct (bx_attrs b !! n) as [a0|] eqn:E; [|apply new_uniform]. exact (U n a0 E).
  - intros H. destruct Hc as [Ha Hp]. cbn in Ha, Hp.
    destruct (decide (ot_kind t = KMeta)) as [Hk|Hk].
    + rewrite Hk in H. apply meta_effect in H as (H1 & _); [|done]. intros n a. rewrite H1. apply U.
    + apply overlay_effect in H as (_ & _ & _ & H); [|done..]. intros n a. rewrite H. unfold eff_at.
      destruct (bx_attrs b !! n) as [a0|] eqn:E; [|done]. destruct (imap_get n _) as [v|] eqn:Ev; intros [= <-]; [|by apply (U n)].
      apply eff_uniform; [| |by apply (U n)].
      * intros Hkf id Hid. apply (Hu ct id); [|done]. destruct t as [tk tv]. cbn in Hkf. subst tk. by exists tv.
      * case_decide; [|done]. destruct (ct_attrs ct) as [l|] eqn:El; [|done]. cbn in Ev. by apply (proj2 (Ha l eq_refl) n).
  - intros [= <-] n a. unfold remove_capture.
    set (b1 := fold_left _ (unwrap_or [] (cc_attrs cc)) b).
    destruct (remove_capture_attrs (unwrap_or [] (cc_attrs cc)) b) as (H1 & H2 & H3 & H4). fold b1 in H1, H2, H3, H4.
    destruct (remove_capture_class (unwrap_or [] (cc_props cc)) b1) as (-> & _).
    rewrite H4. case_decide; [done|]. apply U.
Qed.
Lemma ok_sim b1 b2 b1' b2' c : api_box b1 -> api_box b2 -> command_ok c -> box_sim b1 b2 ->
  apply_command from1 (Some b1) c = Ok b1' -> apply_command from1 (Some b2) c = Ok b2' -> box_sim b1' b2'.
Proof.
  intros Hb1 Hb2 Hc S. unfold apply_command. cbn [unwrap_or]. apply api_box_ok in Hb1, Hb2.
  destruct c as [[] [cc|bc|t ct]]; cbn [cmd_kind cmd_obj]; try done.
  - intros [= <-] [= <-]. destruct Hc as [Ha Hp]. cbn in Ha, Hp. unfold add_capture.
    assert (Nd : NoDup (map fst (unwrap_or [] (cc_attrs cc)))) by (destruct (cc_attrs cc); cbn; [by apply Ha|constructor]).
    assert (Nd' : NoDup (map fst (unwrap_or [] (cc_props cc)))) by (destruct (cc_props cc) as [p|]; cbn; [by apply (Hp p)|constructor]).
    set (c1 := fold_left _ (unwrap_or [] (cc_attrs cc)) b1). set (c2 := fold_left _ (unwrap_or [] (cc_attrs cc)) b2).
    destruct (add_capture_attrs (unwrap_or [] (cc_attrs cc)) b1) as (G1 & G2 & G3 & G4); [by apply box_ok_names|done|]. fold c1 in G1, G2, G3, G4.
    destruct (add_capture_attrs (unwrap_or [] (cc_attrs cc)) b2) as (H1 & H2 & H3 & H4); [by apply box_ok_names|done|]. fold c2 in H1, H2, H3, H4.
    destruct (add_capture_class (unwrap_or [] (cc_props cc)) c1 Nd') as (I1 & I2 & I3 & I4).
    destruct (add_capture_class (unwrap_or [] (cc_props cc)) c2 Nd') as (J1 & J2 & J3 & J4).
    split.
    + intros n. rewrite I1, J1, G4, H4. destruct (bs_attrs b1 b2 S n) as [x y Sxy|]; destruct (imap_get n _); constructor; [by apply set_type_sim|done|apply new_sim].
    + intros l k. rewrite !box_datum_meta, I3, J3, G2, H2, <- !box_datum_meta. apply S.
    + rewrite I4, J4, G3, H3. destruct (imap_get _ _) as [[]|]; try apply S. done.
    + rewrite I2, J2, G1, H1. apply S.
  - intros E1 E2. destruct Hc as [Ha Hp]. cbn in Ha, Hp.
    destruct (decide (ot_kind t = KMeta)) as [Hk|Hk].
    + rewrite Hk in E1, E2. unfold add_overlay in E1, E2. destruct (ct_props ct) as [p|] eqn:Ep; [|congruence].
      assert (Nd : NoDup (map fst (imap_remove "lang" p))).
      { destruct (Hp p eq_refl) as [Hp1 _]. unfold imap_remove. clear -Hp1. induction p as [|[k v] p IH]; [constructor|]. cbn in Hp1. apply NoDup_cons in Hp1 as [P1 P2].
        cbn. case_match; [|by apply IH]. cbn. constructor; [|by apply IH]. intros Hin. apply P1. apply elem_of_list_fmap in Hin as (x & -> & Hin).
        apply elem_of_list_In, filter_In in Hin as [Hin _]. apply elem_of_list_fmap. exists x. by rewrite elem_of_list_In. }
      apply add_metas_effect in E1 as (G1 & G2 & G3 & G4); [|done]. apply add_metas_effect in E2 as (H1 & H2 & H3 & H4); [|done].
      split; [by rewrite G1, H1; apply S| |by rewrite G3, H3; apply S|by rewrite G2, H2; apply S].
      intros l k. rewrite !box_datum_meta, G4, H4. pose proof (bs_meta b1 b2 S l k) as Sm. rewrite !box_datum_meta in Sm.
      assert (Sm' : unwrap_or ∅ (bx_meta b1) !! l ≫= lookup k = unwrap_or ∅ (bx_meta b2) !! l ≫= lookup k).
      { destruct (unwrap_or ∅ (bx_meta b1) !! l ≫= _), (unwrap_or ∅ (bx_meta b2) !! l ≫= _); cbn in Sm; congruence. }
      destruct (imap_get k _) as [[]|]; rewrite ?Sm'; done.
    + apply overlay_effect in E1 as (G1 & G2 & G3 & G4); [|done..]. apply overlay_effect in E2 as (H1 & H2 & H3 & H4); [|done..].
      split; [|by intros l k; rewrite !box_datum_meta, G2, H2, <- !box_datum_meta; apply S|by rewrite G3, H3; apply S|by rewrite G1, H1; apply S].
      intros n. rewrite G4, H4. unfold eff_at. destruct (bs_attrs b1 b2 S n) as [x y Sxy|]; [|constructor]. destruct (imap_get n _); constructor; [by apply eff_sim|done].
  - intros [= <-] [= <-]. unfold remove_capture.
    set (c1 := fold_left _ (unwrap_or [] (cc_attrs cc)) b1). set (c2 := fold_left _ (unwrap_or [] (cc_attrs cc)) b2).
    destruct (remove_capture_attrs (unwrap_or [] (cc_attrs cc)) b1) as (G1 & G2 & G3 & G4). fold c1 in G1, G2, G3, G4.
    destruct (remove_capture_attrs (unwrap_or [] (cc_attrs cc)) b2) as (H1 & H2 & H3 & H4). fold c2 in H1, H2, H3, H4.
    destruct (remove_capture_class (unwrap_or [] (cc_props cc)) c1) as (I1 & I2 & I3 & I4).
    destruct (remove_capture_class (unwrap_or [] (cc_props cc)) c2) as (J1 & J2 & J3 & J4).
    split.
    + intros n. rewrite I1, J1, G4, H4. case_decide; [constructor|apply S].
    + intros l k. rewrite !box_datum_meta, I3, J3, G2, H2, <- !box_datum_meta. apply S.
    + rewrite I4, J4, G3, H3. destruct (imap_mem _ _); [done|apply S].
    + rewrite I2, J2, G1, H1. apply S.
Qed.
Lemma apply_sim b1 b2 c : api_box b1 -> api_box b2 -> command_ok c -> box_sim b1 b2 -> 
  match apply_command from1 (Some b1) c, apply_command from1 (Some b2) c with
  | Ok b1', Ok b2' => box_sim b1' b2'
  | Err e1, Err e2 => e1 = e2
  | Panic, Panic => True
  | _, _ => False
  end.
Proof.
  intros Hb1 Hb2 Hc S. assert (N := sim_names b1 b2 S). assert (N' := same_names_sym b1 b2 N).
  assert (P : apply_command from1 (Some b1) c = Panic <-> apply_command from1 (Some b2) c = Panic).
  { rewrite !apply_panics by (try done; by apply box_ok_names, api_box_ok). split; (intros [?|(t & ct & -> & H)]; [by left|right; exists t, ct; split; [done|]]);
      [by apply (aborts_names b1)|by apply (aborts_names b2)]. }
  assert (Er : forall es, apply_command from1 (Some b1) c = Err es <-> apply_command from1 (Some b2) c = Err es).
  { intros es. rewrite !apply_errors by (try done; by apply box_ok_names, api_box_ok). split; (intros [?|(t & ct & -> & H)]; [by left|right; exists t, ct; split; [done|]]);
      [by apply (rejects_names b1)|by apply (rejects_names b2)]. }
  destruct (apply_command from1 (Some b1) c) as [b1'|e1|] eqn:E1, (apply_command from1 (Some b2) c) as [b2'|e2|] eqn:E2; try done.
  - by apply (ok_sim b1 b2 b1' b2' c).
  - pose proof (proj2 (Er e2) eq_refl). congruence.
  - pose proof (proj2 P eq_refl). congruence.
  - pose proof (proj1 (Er e1) eq_refl). congruence.
  - pose proof (proj1 (Er e1) eq_refl). congruence.
  - pose proof (proj2 P eq_refl). congruence.
  - pose proof (proj1 P eq_refl). congruence.
  - pose proof (proj1 P eq_refl). congruence.
Qed.

(** ** Command lists *)
Definition same_outcome (r1 r2 : outcome obox) : Prop :=
  match r1, r2 with Ok b1, Ok b2 => box_sim b1 b2 | Err e1, Err e2 => e1 = e2 | Panic, Panic => True | _, _ => False end.
Record tracked (b1 b2 : obox) : Prop := {
  tk_api1 : api_box b1; tk_api2 : api_box b2; tk_uni1 : uniform M b1; tk_uni2 : uniform M b2; tk_sim : box_sim b1 b2 }.
Lemma apply_tracked b1 b2 c : tracked b1 b2 -> command_ok c -> cmd_uniform c ->
  same_outcome (apply_command from1 (Some b1) c) (apply_command from1 (Some b2) c) /\
  exists b1' b2', after (Some b1) (apply_command from1 (Some b1) c) = Some b1' /\
    after (Some b2) (apply_command from1 (Some b2) c) = Some b2' /\ tracked b1' b2'.
Proof.
  intros [A1 A2 U1 U2 S] Hc Hu. pose proof (apply_sim b1 b2 c A1 A2 Hc S) as H. split; [exact H|].
  destruct (apply_command from1 (Some b1) c) as [b1'|e1|] eqn:E1, (apply_command from1 (Some b2) c) as [b2'|e2|] eqn:E2; try done.
  - exists b1', b2'. split; [done|]. split; [done|]. split; [| | | |done].
    + eapply apply_api in E1; [done|done|by intros ? [= <-]].
    + eapply apply_api in E2; [done|done|by intros ? [= <-]].
    + exact (apply_uniform b1 b1' c A1 Hc Hu U1 E1).
    + exact (apply_uniform b2 b2' c A2 Hc Hu U2 E2).
  - exists b1, b2. done.
  - exists b1, b2. done.
Qed.
Lemma run_tracked cs : forall b1 b2, tracked b1 b2 -> Forall command_ok cs -> Forall cmd_uniform cs ->
  Forall2 same_outcome (outcomes from1 (Some b1) cs) (outcomes from1 (Some b2) cs) /\
  exists b1' b2', state_after from1 (Some b1) cs = Some b1' /\ state_after from1 (Some b2) cs = Some b2' /\ tracked b1' b2'.
Proof.
  induction cs as [|c cs IH]; intros b1 b2 T Hc Hu; [split; [constructor|by exists b1, b2]|].
  apply Forall_cons in Hc as [Hc Hcs]. apply Forall_cons in Hu as [Hu Hus].
  destruct (apply_tracked b1 b2 c T Hc Hu) as (H & b1' & b2' & E1 & E2 & T').
  destruct (IH b1' b2' T' Hcs Hus) as (G1 & G2). rewrite !state_after_cons, E1, E2. split; [|done].
  cbn [outcomes]. rewrite E1, E2. by constructor.
Qed.
Lemma new_tracked : tracked box_new box_new.
Proof.
  split; try constructor; try done; try (intros n a; unfold box_new; cbn [bx_attrs]; rewrite lookup_empty; done).
  intros n. unfold box_new. cbn [bx_attrs]. rewrite lookup_empty. constructor.
Qed.
Lemma run_new cs : cs <> [] -> Forall (fun r => is_ok r = true) (outcomes from1 None cs) ->
  state_after from1 None cs = state_after from1 (Some box_new) cs.
Proof.
  destruct cs as [|c cs]; [done|]. intros _ H. cbn [outcomes] in H. apply Forall_cons in H as [H _]. rewrite !state_after_cons.
  assert (E : apply_command from1 None c = apply_command from1 (Some box_new) c) by done. rewrite E in *.
  by destruct (apply_command from1 (Some box_new) c).
Qed.
Lemma outcomes_app c1 c2 : forall st, outcomes from1 st (c1 ++ c2) = outcomes from1 st c1 ++ outcomes from1 (state_after from1 st c1) c2.
Proof. induction c1 as [|c c1 IH]; intros st; [done|]. cbn [outcomes app]. by rewrite IH, state_after_cons. Qed.
Lemma state_after_app c1 c2 st : state_after from1 st (c1 ++ c2) = state_after from1 (state_after from1 st c1) c2.
Proof. unfold state_after. apply fold_left_app. Qed.

Lemma attr_sim_trans a1 a2 a3 : attr_sim a1 a2 -> attr_sim a2 a3 -> attr_sim a1 a3.
Proof. intros [] []. split; try done; intros; etransitivity; eauto. Qed.
Lemma box_sim_trans b1 b2 b3 : box_sim b1 b2 -> box_sim b2 b3 -> box_sim b1 b3.
Proof.
  intros [H1 H2 H3 [H4 H5]] [G1 G2 G3 [G4 G5]]. split; [|intros; by rewrite H2|by rewrite H3|done].
  intros n. specialize (H1 n). specialize (G1 n). destruct (bx_attrs b1 !! n), (bx_attrs b2 !! n), (bx_attrs b3 !! n); inversion H1; inversion G1; subst; constructor.
  by eapply attr_sim_trans.
Qed.
(** Loading a bundle that states the facts of a box [bn] that says the same as [b]. *)
Lemma reload_tracked_as o B b bn : order_ok o -> tracked b b -> box_sim b bn -> uniform M bn -> box_ok bn -> loadable bn B ->
  exists b', load o B = Some b' /\ tracked b b'.
Proof.
  intros Ho T Sn U K R. pose proof (tk_api1 b b T) as A. pose proof (box_sim_trans _ _ _ (box_sim_sym _ _ Sn) Sn) as S.
  assert (Hcat : forall n a l, bx_attrs bn !! n = Some a -> lookup_opt l (at_catlabels a) = None).
  { intros n a l Ha. pose proof (bs_attrs bn bn S n) as X. rewrite Ha in X. assert (Y : attr_sim a a) by by inversion X. apply Y. }
  assert (Hfc := uniform_consistent M bn U).
  destruct (reload_equiv o Ho bn B R K Hcat Hfc) as (b' & E & Q); [apply S|].
  pose proof (reload_scopes o Ho bn B R K Hfc b' E) as Sc.
  assert (S' : box_sim bn b').
  { apply equiv_sim; [done|apply S|done|]. intros n a l Ha. by apply (Sc n a Ha). }
  exists b'. split; [done|]. split; [done|by eapply load_api|apply T| |by eapply box_sim_trans].
  intros n a' Ha' f fr sc s Hf Hs. destruct (Sc n a' Ha') as [_ Hm]. specialize (Hm f fr sc s Hf Hs).
  pose proof (bs_attrs bn b' S' n) as X. rewrite Ha' in X. destruct (bx_attrs bn !! n) as [a|] eqn:Ha; [|by inversion X].
  assert (Y : attr_sim a a') by by inversion X. destruct (erased_frame a' a f fr sc s (attr_sim_sym _ _ Y) Hf Hs) as (fr0 & s0 & Hf0 & Hs0).
  pose proof (U n a Ha f fr0 sc s0 Hf0 Hs0) as E0. apply map_eq. intros k. apply option_eq. intros v. rewrite Hm. split.
  - intros (n1 & a1 & f1 & sc1 & s1 & X1 & X2 & X3 & X4). by rewrite (U n1 a1 X1 f f1 sc1 s1 X2 X3) in X4.
  - intros Hv. exists n, a, fr0, sc, s0. rewrite E0. done.
Qed.
Lemma reload_tracked o B b : order_ok o -> bundle_right b B -> tracked b b -> exists b', load o B = Some b' /\ tracked b b'.
Proof.
  intros Ho R T. apply (reload_tracked_as o B b b); try done; [apply T|apply T|by apply api_box_ok, T|by apply right_loadable].
Qed.
End Cmd.

(** ** Framing properties of a command list *)
Section Agree.
Definition M_of (cs : list command) (f : string) : gmap string string :=
  unwrap_or ∅ (head (omap (fun c => match c with
    | Command CAdd (OOverlay (OType KAttributeFraming _) ct) => if decide (frame_id_of (ct_props ct) = Some f) then Some (frame_meta_props (ct_props ct)) else None
    | _ => None end) cs)).
Lemma framing_props_ok c ct : command_ok c -> framing_command c ct -> values_ok (ct_props ct).
Proof. intros H [v ->]. apply H. Qed.
Lemma agree_uniform cs : framings_agree cs -> Forall command_ok cs -> Forall (cmd_uniform (M_of cs)) cs.
Proof.
  intros Hag Hok. rewrite Forall_forall in *. intros c Hc ct id Hf Hid. unfold M_of.
  destruct (head _) as [m|] eqn:E.
  - assert (Hin : exists c' ct', c' ∈ cs /\ framing_command c' ct' /\ frame_id_of (ct_props ct') = Some id /\ m = frame_meta_props (ct_props ct')).
    { assert (Hm : m ∈ omap (fun c => match c with
    | Command CAdd (OOverlay (OType KAttributeFraming _) ct) => if decide (frame_id_of (ct_props ct) = Some id) then Some (frame_meta_props (ct_props ct)) else None
    | _ => None end) cs). { destruct (omap _ cs); [done|]. injection E as ->. left. }
      apply elem_of_list_omap in Hm as ([[] [|?|[[] v] ct']] & Hin & Hm); try done. case_decide; [|done]. injection Hm as <-.
      eexists _, ct'. split; [exact Hin|]. split; [by eexists|]. done. }
    destruct Hin as (c' & ct' & Hin & Hf' & Hid' & ->). cbn [unwrap_or].
    pose proof (framing_props_ok c ct (Hok c Hc) Hf) as V. pose proof (framing_props_ok c' ct' (Hok c' Hin) Hf') as V'.
    apply map_eq. intros k. apply option_eq. intros v. rewrite !frame_meta_spec by done.
    pose proof (Hag c c' ct ct' id Hc Hin Hf Hf' (proj1 (frame_id_spec _ _ V) Hid) (proj1 (frame_id_spec _ _ V') Hid')) as G.
    split; intros (k' & -> & Hk & Hh); exists k'; (split; [done|split; [done|]]); by apply (G k' v Hk).
  - exfalso. assert (Hm : frame_meta_props (ct_props ct) ∈ omap (fun c => match c with
    | Command CAdd (OOverlay (OType KAttributeFraming _) ct) => if decide (frame_id_of (ct_props ct) = Some id) then Some (frame_meta_props (ct_props ct)) else None
    | _ => None end) cs).
    { apply elem_of_list_omap. exists c. split; [done|]. destruct Hf as [v ->]. by rewrite decide_True. }
    destruct (omap _ cs); [by apply elem_of_nil in Hm|done].
Qed.
End Agree.

(** ** Builds *)
Lemma report_msgs cm cm' l1 l2 : Forall2 same_outcome l1 l2 -> forall i j, map be_msg (report cm i l1) = map be_msg (report cm' j l2).
Proof.
  induction 1 as [|r1 r2 l1 l2 H _ IH]; intros i j; [done|]. cbn [report]. rewrite !map_app, (IH (S i) (S j)). f_equal.
  destruct r1, r2; try done. cbn in H. subst. by rewrite !map_map.
Qed.
Lemma same_flags l1 l2 : Forall2 same_outcome l1 l2 -> Forall (fun r => is_ok r = true) l1 <-> Forall (fun r => is_ok r = true) l2.
Proof.
  induction 1 as [|r1 r2 l1 l2 H _ IH]; [done|]. rewrite !Forall_cons, IH. destruct r1, r2; try done; tauto.
Qed.
Lemma same_panics l1 l2 : Forall2 same_outcome l1 l2 -> Forall (fun r => is_panic r = false) l1 <-> Forall (fun r => is_panic r = false) l2.
Proof.
  induction 1 as [|r1 r2 l1 l2 H _ IH]; [done|]. rewrite !Forall_cons, IH. destruct r1, r2; try done; tauto.
Qed.
Definition same_result (digest : json -> string) (r1 r2 : bresult) : Prop :=
  match r1, r2 with
  | BuildOk B1 _, BuildOk B2 _ => no_collision digest (b_ovs B1) -> bundle_json B1 = bundle_json B2 /\ b_said B1 = b_said B2
  | BuildErr e1, BuildErr e2 => map be_msg e1 = map be_msg e2
  | BuildPanic, BuildPanic => True
  | _, _ => False
  end.
(** Commands [cs] have led to [b1]; [Bb] is any bundle that loads as a box that says the same. *)
Lemma first_part digest from1 os1 a1 B1 steps1 M : (forall i, order_ok (os1 i)) -> Forall command_ok (ast_commands a1) -> Forall (cmd_uniform M) (ast_commands a1) ->
  from_ast digest from1 os1 None a1 = BuildOk B1 steps1 ->
  exists b1, ast_commands a1 <> [] /\ Forall (fun r => is_ok r = true) (outcomes from1 None (ast_commands a1)) /\ state_after from1 None (ast_commands a1) = Some b1 /\
    generate_bundle digest (os1 (length (ast_commands a1))) b1 = Some B1 /\ bundle_right b1 B1 /\ tracked M b1 b1.
Proof.
  intros O1 K1 U1 H1.
  assert (Z : base_of (os1 (S (length (ast_commands a1)))) None None) by constructor.
  pose proof H1 as H1'. rewrite (from_ast_base_of digest from1 os1 None a1 None Z) in H1'. apply base_ok in H1' as (Hok1 & _ & b1 & Es1 & G1).
  assert (Hne : ast_commands a1 <> []). { intros X. rewrite X in Es1. done. }
  assert (T1 : tracked M b1 b1).
  { pose proof Es1 as Es1'. rewrite (run_new from1 _ Hne Hok1) in Es1'. destruct (run_tracked from1 M (ast_commands a1) box_new box_new (new_tracked M) K1 U1) as (_ & x & y & X & Y & T).
    rewrite Es1' in X, Y. injection X as <-. injection Y as <-. done. }
  destruct (C02_proof (os1 (length (ast_commands a1))) (O1 _) digest b1 (api_box_ok _ (tk_api1 M _ _ T1))) as (B1' & G1' & R1). rewrite G1 in G1'. injection G1' as <-.
  by exists b1.
Qed.
Lemma second_part digest from1 os2 os3 a1 a2 a12 Bb b1 b1' M :
  (forall i, order_ok (os2 i)) -> (forall i, order_ok (os3 i)) ->
  ast_commands a12 = ast_commands a1 ++ ast_commands a2 -> Forall command_ok (ast_commands a1) -> Forall command_ok (ast_commands a2) -> Forall (cmd_uniform M) (ast_commands a2) ->
  ast_commands a1 <> [] -> Forall (fun r => is_ok r = true) (outcomes from1 None (ast_commands a1)) -> state_after from1 None (ast_commands a1) = Some b1 ->
  load (os2 (S (length (ast_commands a2)))) Bb = Some b1' -> tracked M b1 b1' ->
  same_result digest (from_ast digest from1 os2 (Some Bb) a2) (from_ast digest from1 os3 None a12).
Proof.
  intros O2 O3 E K1 K2 U2 Hne Hok1 Es1 L T.
  destruct (run_tracked from1 M (ast_commands a2) b1 b1' T K2 U2) as (F & x & y & X & Y & T2).
  assert (Hb2 : base_of (os2 (S (length (ast_commands a2)))) (Some Bb) (Some b1')) by by constructor.
  assert (Hb3 : base_of (os3 (S (length (ast_commands a12)))) None None) by constructor.
  assert (Eo : outcomes from1 None (ast_commands a12) = outcomes from1 None (ast_commands a1) ++ outcomes from1 (Some b1) (ast_commands a2)) by by rewrite E, outcomes_app, Es1.
  assert (Est : state_after from1 None (ast_commands a12) = Some x) by by rewrite E, state_after_app, Es1.
  rewrite (from_ast_base_of digest from1 os2 (Some Bb) a2 _ Hb2), (from_ast_base_of digest from1 os3 None a12 _ Hb3).
  assert (Hok12 : Forall command_ok (ast_commands a12)) by (rewrite E; by apply Forall_app).
  assert (Hne12 : ast_commands a12 <> []) by (rewrite E; by destruct (ast_commands a1)).
  set (r2 := from_ast_base _ _ os2 _ _ _ a2). set (r3 := from_ast_base _ _ os3 _ _ _ a12).
  assert (P1 : Forall (fun r => is_panic r = false) (outcomes from1 None (ast_commands a1))).
  { eapply Forall_impl; [exact Hok1|]. by intros [| |]. }
  assert (Np2 : Forall (fun r => is_panic r = false) (outcomes from1 (Some b1') (ast_commands a2)) -> r2 <> BuildPanic).
  { intros Hp. apply base_total; [done|done|intros ? [= <-]; apply T|done|left; by eexists]. }
  assert (Np3 : Forall (fun r => is_panic r = false) (outcomes from1 None (ast_commands a12)) -> r3 <> BuildPanic).
  { intros Hp. apply base_total; [done|done|by intros ?|done|by right]. }
  assert (Pe : Forall (fun r => is_panic r = false) (outcomes from1 None (ast_commands a12)) <-> Forall (fun r => is_panic r = false) (outcomes from1 (Some b1') (ast_commands a2))).
  { rewrite Eo, Forall_app, (same_panics _ _ F). tauto. }
  assert (Oe : Forall (fun r => is_ok r = true) (outcomes from1 None (ast_commands a12)) <-> Forall (fun r => is_ok r = true) (outcomes from1 (Some b1') (ast_commands a2))).
  { rewrite Eo, Forall_app, (same_flags _ _ F). tauto. }
  assert (Ok_np : forall l : list (outcome obox), Forall (fun r => is_ok r = true) l -> Forall (fun r => is_panic r = false) l).
  { intros l Hl. eapply Forall_impl; [exact Hl|]. by intros [| |]. }
  assert (Ne : forall cm i l, Forall (fun r => is_ok r = true) l -> report cm i l = []) by (intros; by apply report_ok).
  destruct r2 as [B2 ss2|es2|] eqn:E2, r3 as [B3 ss3|es3|] eqn:E3; cbn; try done; subst r2 r3.
  - intros Hnc. apply base_ok in E2 as (_ & _ & y' & Y' & G2). apply base_ok in E3 as (_ & _ & x' & X' & G3).
    rewrite Y in Y'. injection Y' as <-. rewrite Est in X'. injection X' as <-.
    assert (Q : box_equiv y x) by (eapply sim_equiv; [apply box_sim_sym, T2|apply T2|apply T2]).
    destruct (bundle_json_equiv digest (os2 (length (ast_commands a2))) (os3 (length (ast_commands a12))) y x B2 B3) as (J1 & J2 & _); try done.
    + by apply api_box_ok, T2.
    + by apply api_box_ok, T2.
    + eapply uniform_consistent, T2.
  - exfalso. apply base_ok in E2 as (Hk & _). apply base_err in E3 as (_ & Hn & Er). apply Oe in Hk. rewrite Ne in Er; done.
  - exfalso. apply base_ok in E2 as (Hk & _). apply Np3; [|done]. by apply Ok_np, Oe.
  - exfalso. apply base_ok in E3 as (Hk & _). apply base_err in E2 as (_ & Hn & Er). apply Oe in Hk. rewrite Ne in Er; done.
  - apply base_err in E2 as (_ & _ & ->). apply base_err in E3 as (_ & _ & ->). rewrite Eo.
    assert (Hr : forall cm l1 l2 i, Forall (fun r => is_ok r = true) l1 -> report cm i (l1 ++ l2) = report cm (i + length l1) l2).
    { intros cm l1 l2. induction l1 as [|r l1 IH]; intros i Hl; [cbn; by rewrite Nat.add_0_r|]. apply Forall_cons in Hl as [Hr Hl]. cbn. destruct r; try done. cbn.
      rewrite IH by done. f_equal. lia. }
    rewrite Hr by done. symmetry. by apply report_msgs.
  - exfalso. apply base_err in E2 as (Hk & _). apply Np3; [|done]. by apply Pe.
  - exfalso. apply base_ok in E3 as (Hk & _). apply Np2; [|done]. by apply Ok_np, Oe.
  - exfalso. apply base_err in E3 as (Hk & _). apply Np2; [|done]. by apply Pe.
Qed.
Lemma C37_proof digest from1 os1 os2 os3 a1 a2 a12 B1 steps1 :
  (forall i, order_ok (os1 i)) -> (forall i, order_ok (os2 i)) -> (forall i, order_ok (os3 i)) ->
  ast_commands a12 = ast_commands a1 ++ ast_commands a2 -> Forall command_ok (ast_commands a12) -> framings_agree (ast_commands a12) ->
  from_ast digest from1 os1 None a1 = BuildOk B1 steps1 ->
  same_result digest (from_ast digest from1 os2 (Some B1) a2) (from_ast digest from1 os3 None a12).
Proof.
  intros O1 O2 O3 E Hok Hag H1. assert (Hu := agree_uniform _ Hag Hok). set (M := M_of (ast_commands a12)) in *. rewrite E in Hok, Hu.
  apply Forall_app in Hok as [K1 K2]. apply Forall_app in Hu as [U1 U2].
  destruct (first_part digest from1 os1 a1 B1 steps1 M O1 K1 U1 H1) as (b1 & Hne & Hok1 & Es1 & _ & R1 & T1).
  destruct (reload_tracked M (os2 (S (length (ast_commands a2)))) B1 b1 (O2 _) R1 T1) as (b1' & L & T).
  by apply (second_part digest from1 os2 os3 a1 a2 a12 B1 b1 b1' M).
Qed.

(** Boxes that say the same generate the same JSON, whatever the iteration orders. *)
From Verif Require Import Spec_Bundle Overlays_proofs Bundle_proofs Sort_proofs.
From Coq Require Import Lia.

Lemma box_equiv_refl b : box_equiv b b.
Proof. constructor; done. Qed.
Lemma box_equiv_sym b1 b2 : box_equiv b1 b2 -> box_equiv b2 b1.
Proof. intros [H1 H2 H3 H4 H5 H6]. constructor; intros; symmetry; auto. Qed.
Lemma box_equiv_trans b1 b2 b3 : box_equiv b1 b2 -> box_equiv b2 b3 -> box_equiv b1 b3.
Proof.
  intros [H1 H2 H3 H4 H5 H6] [G1 G2 G3 G4 G5 G6]. constructor; intros.
  - by rewrite H1. - by rewrite H2. - by rewrite H3. - by rewrite H4. - by rewrite H5. - by rewrite H6.
Qed.

(** Equality of overlay bodies from equality of what they say. *)
Lemma body_ext b1 b2 k :
  body_slot b1 = gkey_slot k -> body_slot b2 = gkey_slot k -> body_tidy b1 -> body_tidy b2 ->
  (forall n, erase_datum <$> body_datum b1 n = erase_datum <$> body_datum b2 n) ->
  (forall m1 m2 f1 f2, b1 = BFraming m1 f1 -> b2 = BFraming m2 f2 -> m1 = m2) ->
  body_erase b1 = body_erase b2.
Proof.
  intros S1 S2 T1 T2 HD HM.
  destruct b1; simpl in S1; try (destruct k; done);
  destruct b2; simpl in S2; try (destruct k; done); simpl in *;
    try (destruct (meta !! "frame_id") eqn:?; destruct k; done);
    try (destruct (meta0 !! "frame_id") eqn:?; destruct k; done);
    try (f_equal; [congruence|]);
    try (f_equal; apply map_eq; intros n; specialize (HD n); destruct (m !! n), (m0 !! n); simpl in HD; congruence).
  - (* conditional *)
    f_equal; apply map_eq; intros n; specialize (HD n); specialize (T1 n); specialize (T2 n);
      destruct (c !! n), (c0 !! n); simpl in *; try congruence.
    by rewrite T1, T2.
  - (* entry codes *)
    f_equal. apply map_eq. intros n. specialize (HD n). rewrite !lookup_fmap.
    destruct (m !! n), (m0 !! n); simpl in *; try congruence.
  - (* label *)
    destruct T1 as [-> T1], T2 as [-> T2].
    f_equal; [congruence| |]; apply map_eq; intros n; specialize (HD n); specialize (T1 n); specialize (T2 n);
      destruct (m !! n), (m0 !! n); simpl in *; try congruence.
    by rewrite T1, T2.
  - (* framing *)
    f_equal; [by eapply HM|]. apply map_eq. intros n. specialize (HD n). rewrite !lookup_fmap.
    destruct (m !! n), (m0 !! n); simpl in *; try congruence.
Qed.

(** Where overlays come from, in one statement per order. *)
Section Two.
Context (o1 o2 : order) (Ho1 : order_ok o1) (Ho2 : order_ok o2) (b1 b2 : obox).
Context (Hb1 : box_ok b1) (Hb2 : box_ok b2) (He : box_equiv b1 b2) (Hc : frames_consistent b1).

Lemma erase_some (x y : option datum) : erase_datum <$> x = erase_datum <$> y -> is_Some x -> is_Some y.
Proof. intros H [d ->]. destruct y; [by eexists|done]. Qed.

Lemma body_datum_box o b ov k n : order_ok o -> box_ok b -> ov ∈ gen o (attr_values o b) -> ov_slot ov = gkey_slot k ->
  body_datum (ov_body ov) n = box_datum b (gkey_slot k) n.
Proof.
  intros Ho Hb Hin Hk. destruct (gen_box_facts o Ho b ov k Hb Hin Hk) as (_ & _ & _ & _ & F & _).
  apply option_eq. intros d. rewrite F. by rewrite box_datum_gkey.
Qed.

Lemma gen_sub ov : ov ∈ map ov_erase (gen o1 (attr_values o1 b1)) -> ov ∈ map ov_erase (gen o2 (attr_values o2 b2)).
Proof.
  intros Hin. apply elem_of_list_In, in_map_iff in Hin as (x & <- & Hx). apply elem_of_list_In in Hx.
  destruct (gen_elem o1 Ho1 _ x (attr_values_nodup o1 Ho1 b1 Hb1) (attr_values_noid o1 Ho1 b1 Hb1) Hx) as (k & Hk & Hfind).
  destruct (gen_box_facts o1 Ho1 b1 x k Hb1 Hx Hk) as (T1 & A1 & A2 & A3 & F1 & M1).
  (* some datum *)
  assert (Hd : exists n d, box_datum b1 (gkey_slot k) n = Some d).
  { destruct (gen_spec o1 Ho1 _ (attr_values_nodup o1 Ho1 b1 Hb1) (attr_values_noid o1 Ho1 b1 Hb1)) as (G1 & G2 & G3 & G4 & G5).
    destruct (decide (Exists (fun a => is_Some (attr_datum a (gkey_slot k))) (attr_values o1 b1))) as [Hx'|Hn].
    - apply Exists_exists in Hx' as (a & Hain & [d Hd]). exists (at_name a), d. apply box_datum_gkey.
      exists a. split; [by apply (attr_values_elem o1 Ho1)|done].
    - exfalso. assert (Hnone : find_slot (gkey_slot k) (gen o1 (attr_values o1 b1)) = None); [|congruence].
      apply G4. intros a Hain. apply eq_None_not_Some. intros Hs. apply Hn, Exists_exists. eauto. }
  destruct Hd as (n & d & Hd).
  assert (Hd2 : is_Some (box_datum b2 (gkey_slot k) n)).
  { eapply erase_some; [apply (be_facts _ _ He)|]. by eexists. }
  destruct Hd2 as [d2 Hd2]. apply box_datum_gkey in Hd2 as (a2 & Ha2 & Hda2).
  destruct (gen_has o2 Ho2 b2 k a2 n Hb2 Ha2) as (y & Hy & Hky); [by eexists|].
  destruct (gen_box_facts o2 Ho2 b2 y k Hb2 Hy Hky) as (T2 & B1 & B2 & B3 & F2 & M2).
  apply elem_of_list_In, in_map_iff. exists y. split; [|by apply elem_of_list_In].
  unfold ov_erase. rewrite A1, A2, A3, B1, B2, B3. f_equal. symmetry.
  apply (body_ext _ _ k); [done|done|done|done| |].
  - intros n'. rewrite (body_datum_box o1 b1 x k) by done. rewrite (body_datum_box o2 b2 y k) by done.
    apply (be_facts _ _ He).
  - intros m1 m2 f1 f2 E1 E2. unfold ov_slot in Hk. rewrite E1 in Hk. simpl in Hk.
    destruct (m1 !! "frame_id") as [f|] eqn:Ef1; [|by destruct k].
    assert (k = GFrame f) as -> by (destruct k; simpl in Hk; congruence).
    destruct (M1 f eq_refl) as (m1' & f1' & E1' & P1 & Q1). rewrite E1 in E1'. injection E1' as <- <-.
    destruct (M2 f eq_refl) as (m2' & f2' & E2' & P2 & Q2). rewrite E2 in E2'. injection E2' as <- <-.
    unfold ov_slot in Hky. rewrite E2 in Hky. simpl in Hky.
    destruct (m2 !! "frame_id") as [f'|] eqn:Ef2; [|done]. assert (f' = f) as -> by (simpl in Hky; congruence).
    assert (S1 : forall k v, (exists a fr, a ∈ attr_values o1 b1 /\ lookup_opt f (at_frames a) = Some fr /\ scope_says fr k v)
       <-> frame_meta_says (bx_attrs b1) f k v).
    { intros k v. split.
      - intros (a & fr & Ha & Hf & sc & s & Hs & Hv). apply (attr_values_elem o1 Ho1) in Ha; [|done].
        exists (at_name a), a, fr, sc, s. eauto.
      - intros (nn & a & fr & sc & s & Ha & Hf & Hs & Hv). exists a, fr. split; [|split; [done|by exists sc, s]].
        apply (attr_values_elem o1 Ho1); [done|]. by rewrite (ok_names b1 Hb1 _ _ Ha). }
    assert (S2 : forall k v, (exists a fr, a ∈ attr_values o2 b2 /\ lookup_opt f (at_frames a) = Some fr /\ scope_says fr k v)
       <-> frame_meta_says (bx_attrs b2) f k v).
    { intros k v. split.
      - intros (a & fr & Ha & Hf & sc & s & Hs & Hv). apply (attr_values_elem o2 Ho2) in Ha; [|done].
        exists (at_name a), a, fr, sc, s. eauto.
      - intros (nn & a & fr & sc & s & Ha & Hf & Hs & Hv). exists a, fr. split; [|split; [done|by exists sc, s]].
        apply (attr_values_elem o2 Ho2); [done|]. by rewrite (ok_names b2 Hb2 _ _ Ha). }
    apply map_eq. intros key. destruct (m1 !! key) as [v|] eqn:K1.
    + destruct (P1 key v K1) as [[-> ->]|Hs]; [congruence|].
      apply S1 in Hs. destruct (m2 !! key) as [w|] eqn:K2.
      * destruct (P2 key w K2) as [[-> ->]|Hs2]; [congruence|]. apply S2, (be_frames _ _ He) in Hs2.
        f_equal. by eapply Hc.
      * exfalso. apply (be_frames _ _ He), S2 in Hs as (a & fr & Ha & Hf & Hv). by eapply (Q2 key K2).
    + destruct (m2 !! key) as [w|] eqn:K2; [|done]. destruct (P2 key w K2) as [[-> ->]|Hs2]; [congruence|].
      exfalso. apply S2, (be_frames _ _ He), S1 in Hs2 as (a & fr & Ha & Hf & Hv). by eapply (Q1 key K1).
Qed.
Lemma meta_sub ov : ov ∈ map ov_erase (meta_overlays o1 b1) -> ov ∈ map ov_erase (meta_overlays o2 b2).
Proof.
  intros Hin. apply elem_of_list_In, in_map_iff in Hin as (x & <- & Hx). apply elem_of_list_In in Hx.
  apply (meta_overlays_elem o1 Ho1) in Hx as (meta & l & m & Hm & Hl & ->).
  pose proof (ok_meta b1 Hb1 _ _ _ Hm Hl) as Hne. apply map_choose in Hne as (k & v & Hkv).
  assert (Hd2 : is_Some (box_datum b2 (SLang KMeta l) k)).
  { eapply erase_some; [apply (be_facts _ _ He)|]. exists (DText v). apply meta_datum. eauto 10. }
  destruct Hd2 as [d2 Hd2]. apply meta_datum in Hd2 as (meta2 & m2 & v2 & Hm2 & Hl2 & Hv2 & ->).
  assert (m = m2) as ->.
  { apply map_eq. intros n. pose proof (be_facts _ _ He (SLang KMeta l) n) as H. simpl in H.
    rewrite Hm, Hm2 in H. simpl in H. rewrite Hl, Hl2 in H. simpl in H. destruct (m !! n), (m2 !! n); simpl in *; congruence. }
  apply elem_of_list_In, in_map_iff. exists (meta_overlay l m2). split; [done|]. apply elem_of_list_In.
  apply (meta_overlays_elem o2 Ho2). eauto 10.
Qed.
End Two.

Lemma erase_slot ov : ov_slot (ov_erase ov) = ov_slot ov.
Proof. unfold ov_slot, ov_erase. simpl. by destruct (ov_body ov). Qed.
Lemma frames_consistent_equiv b1 b2 : box_equiv b1 b2 -> frames_consistent b1 -> frames_consistent b2.
Proof. intros He Hc f k v w H1 H2. apply (be_frames _ _ He) in H1, H2. by eapply Hc. Qed.

Lemma tail_perm o1 o2 b1 b2 : order_ok o1 -> order_ok o2 -> box_ok b1 -> box_ok b2 -> box_equiv b1 b2 ->
  frames_consistent b1 ->
  map ov_erase (meta_overlays o1 b1 ++ gen o1 (attr_values o1 b1)) ≡ₚ
  map ov_erase (meta_overlays o2 b2 ++ gen o2 (attr_values o2 b2)).
Proof.
  intros Ho1 Ho2 Hb1 Hb2 He Hc.
  pose proof (frames_consistent_equiv _ _ He Hc) as Hc2. pose proof (box_equiv_sym _ _ He) as He2.
  assert (Hnd : forall o b, order_ok o -> box_ok b -> NoDup (map ov_erase (meta_overlays o b ++ gen o (attr_values o b)))).
  { intros o b Ho Hb. apply (NoDup_fmap_1 ov_slot).
    assert (E : ov_slot <$> map ov_erase (meta_overlays o b ++ gen o (attr_values o b)) =
                map ov_slot (meta_overlays o b ++ gen o (attr_values o b))).
    { change (map ov_slot (map ov_erase (meta_overlays o b ++ gen o (attr_values o b))) = map ov_slot (meta_overlays o b ++ gen o (attr_values o b))).
      rewrite map_map. apply map_ext. apply erase_slot. }
    rewrite E, map_app. apply NoDup_app. split; [|split].
    - unfold meta_overlays. destruct (bx_meta b) as [meta|]; [|apply NoDup_nil_2].
      rewrite !map_map. unfold ov_slot. simpl.
      replace (map _ _) with ((SLang KMeta) <$> (o ["meta"] _ meta).*1).
      + apply NoDup_fmap_2; [intros ? ? [= ?]; done|]. apply (order_nodup o Ho).
      + rewrite <- list_fmap_compose. done.
    - intros s Hs Hs'. apply elem_of_list_In, in_map_iff in Hs as (ov & <- & Hin).
      apply elem_of_list_In, (meta_overlays_elem o Ho) in Hin as (meta & l & m & _ & _ & ->).
      destruct (gen_spec o Ho _ (attr_values_nodup o Ho b Hb) (attr_values_noid o Ho b Hb)) as (G1 & G2 & G3 & _).
      apply G3 in Hs' as [k Hk]. by apply not_gkey_meta in Hk.
    - by destruct (gen_spec o Ho _ (attr_values_nodup o Ho b Hb) (attr_values_noid o Ho b Hb)) as (G1 & G2 & G3 & _). }
  apply NoDup_Permutation; [by apply Hnd|by apply Hnd|]. intros ov. rewrite !map_app, !elem_of_app. split; intros [H|H].
  - left. apply (meta_sub o1 o2 Ho1 Ho2 b1 b2); auto.
  - right. apply (gen_sub o1 o2 Ho1 Ho2 b1 b2); auto.
  - left. apply (meta_sub o2 o1 Ho2 Ho1 b2 b1); auto.
  - right. apply (gen_sub o2 o1 Ho2 Ho1 b2 b1); auto.
Qed.

(** JSON. *)
Lemma jmap_fmap {V W} (f : W -> json) (g : V -> W) (m : gmap string V) : jmap f (g <$> m) = jmap (fun x => f (g x)) m.
Proof. unfold jmap. rewrite <- sorted_pairs_fmap, map_map. done. Qed.
Lemma jmap_ext {V} (f g : V -> json) (m : gmap string V) : (forall k v, m !! k = Some v -> f v = g v) -> jmap f m = jmap g m.
Proof.
  intros H. unfold jmap. f_equal. apply map_ext_in. intros [k v] Hin. simpl. f_equal.
  apply (H k). by apply sorted_pairs_elem, elem_of_list_In.
Qed.
Lemma jmap_id {V} (f : V -> json) (m : gmap string V) : jmap f m = jmap id (f <$> m).
Proof. by rewrite jmap_fmap. Qed.
Lemma body_fields_erase b : body_fields (body_erase b) = body_fields b.
Proof.
  destruct b; try done.
  - simpl. rewrite jmap_fmap. do 2 f_equal. apply jmap_ext. intros k [] _; [done| |done]. cbn. by rewrite sort_by_idem.
  - simpl. rewrite jmap_fmap. do 3 f_equal. apply jmap_ext. intros k v _.
    unfold erase_frame. by rewrite jmap_fmap.
Qed.
Lemma body_kind_erase b : body_kind (body_erase b) = body_kind b. Proof. by destruct b. Qed.
Lemma overlay_json_erase d ov : overlay_json_d d (ov_erase ov) = overlay_json_d d ov.
Proof.
  unfold overlay_json_d. cbn [ov_erase ov_body ov_cb]. rewrite body_fields_erase.
  unfold ov_type. cbn [ov_erase ov_body ov_ver]. rewrite body_kind_erase. by destruct (ov_body ov).
Qed.
Lemma ov_sign_erase digest c ov : ov_sign digest c (ov_erase ov) = ov_erase (ov_sign digest c ov).
Proof.
  unfold ov_sign, ov_fill, ov_erase. cbn. f_equal. f_equal. f_equal.
  apply (overlay_json_erase _ (Overlay (ov_said ov) (Some c) (ov_ver ov) (ov_body ov))).
Qed.

(** Grouping. *)
#[global] Instance okind_snake_inj : Inj (=) (=) okind_snake.
Proof. intros [] []; simpl; congruence. Qed.
Definition group_val (k : okind) (l : list overlay) : option oval :=
  if overlays_many k then match l with [] => None | _ => Some (OVArr l) end else OVObj <$> last l.
Lemma group_overlays_lookup ovs k : group_overlays ovs !! okind_snake k = group_val k (of_kind k ovs).
Proof.
  unfold group_overlays. induction ovs as [|ov ovs IH] using rev_ind.
  { unfold group_val, of_kind. simpl. rewrite lookup_empty. by destruct (overlays_many k). }
  rewrite fold_left_app. simpl. unfold of_kind. rewrite filter_app_l. fold (of_kind k ovs). simpl.
  unfold group_step at 1. case_bool_decide as E.
  - subst k. set (k := body_kind (ov_body ov)) in *. rewrite IH. unfold group_val.
    destruct (overlays_many k) eqn:Em.
    + destruct (of_kind k ovs) as [|x l] eqn:El; [by rewrite lookup_insert|]. rewrite lookup_insert. done.
    + rewrite lookup_insert. by rewrite last_snoc.
  - rewrite app_nil_r. rewrite <- IH.
    assert (Hne : okind_snake (body_kind (ov_body ov)) <> okind_snake k) by (intros H; by apply (inj okind_snake) in H).
    destruct (overlays_many (body_kind (ov_body ov))).
    + destruct (_ !! okind_snake (body_kind (ov_body ov))) as [[]|]; by rewrite lookup_insert_ne.
    + by rewrite lookup_insert_ne.
Qed.
Lemma group_overlays_key ovs s v : group_overlays ovs !! s = Some v -> exists k, s = okind_snake k.
Proof.
  unfold group_overlays. revert v. induction ovs as [|ov ovs IH] using rev_ind; intros v.
  { simpl. by rewrite lookup_empty. }
  rewrite fold_left_app. simpl. unfold group_step at 1.
  destruct (decide (s = okind_snake (body_kind (ov_body ov)))) as [->|Hne]; [eauto|].
  destruct (overlays_many (body_kind (ov_body ov))).
  - destruct (_ !! okind_snake (body_kind (ov_body ov))) as [[]|]; rewrite lookup_insert_ne by done; apply IH.
  - rewrite lookup_insert_ne by done. apply IH.
Qed.
Lemma overlays_json_eq ovs1 ovs2 :
  (forall k, overlays_many k = true -> of_kind k ovs1 ≡ₚ of_kind k ovs2) ->
  (forall k, overlays_many k = false -> map overlay_json (of_kind k ovs1) = map overlay_json (of_kind k ovs2)) ->
  (forall x y, x ∈ ovs1 -> y ∈ ovs1 -> said_key x = said_key y -> overlay_json x = overlay_json y) ->
  overlays_json ovs1 = overlays_json ovs2.
Proof.
  intros Hm Hs Hj. unfold overlays_json. rewrite (jmap_id _ (group_overlays ovs1)), (jmap_id _ (group_overlays ovs2)).
  f_equal. apply map_eq. intros s. rewrite !lookup_fmap.
  assert (Hdec : (exists k, s = okind_snake k) \/ (group_overlays ovs1 !! s = None /\ group_overlays ovs2 !! s = None)).
  { destruct (group_overlays ovs1 !! s) eqn:E1; [left; by eapply group_overlays_key|].
    destruct (group_overlays ovs2 !! s) eqn:E2; [left; by eapply group_overlays_key|]. by right. }
  destruct Hdec as [[k ->]|[-> ->]]; [|done]. rewrite !group_overlays_lookup. unfold group_val.
  destruct (overlays_many k) eqn:Em.
  - specialize (Hm k Em).
    assert (Hnil : of_kind k ovs1 = [] <-> of_kind k ovs2 = []).
    { split; intros E; rewrite E in Hm; [by apply Permutation_nil_l in Hm|by apply Permutation_nil_r in Hm]. }
    assert (Hsort : map overlay_json (sort_by said_key (of_kind k ovs1)) = map overlay_json (sort_by said_key (of_kind k ovs2))).
    { apply sort_by_map_eq; [done|]. intros x y Hx Hy. apply Hj.
      - apply elem_of_list_In in Hx. unfold of_kind in Hx. apply filter_In in Hx as [Hx _]. by apply elem_of_list_In.
      - apply elem_of_list_In in Hy. unfold of_kind in Hy. apply filter_In in Hy as [Hy _]. by apply elem_of_list_In. }
    destruct (of_kind k ovs1) as [|x l1] eqn:E1, (of_kind k ovs2) as [|y l2] eqn:E2; simpl; try naive_solver.
    f_equal. f_equal. exact Hsort.
  - specialize (Hs k Em). rewrite <- !option_fmap_compose.
    assert (Hl : forall l, (fun ov => oval_json (OVObj ov)) <$> last l = last (map overlay_json l)).
    { intros l. rewrite <- (fmap_last overlay_json). done. }
    change (oval_json ∘ OVObj) with (fun ov => oval_json (OVObj ov)). rewrite !Hl. by rewrite Hs.
Qed.

Lemma overlay_json_d_swap d e x y : overlay_json_d d x = overlay_json_d d y -> overlay_json_d e x = overlay_json_d e y.
Proof.
  unfold overlay_json_d. set (f := body_fields (ov_body x)). set (g := body_fields (ov_body y)). clearbody f g.
  generalize (otype_text (ov_type x)), (otype_text (ov_type y)). intros t u.
  intros H. injection H as H.
  destruct (ov_body x), (ov_body y); cbn [app] in *; injection H; intros; subst; congruence.
Qed.

Section CB.
Context (o1 o2 : order) (Ho1 : order_ok o1) (Ho2 : order_ok o2) (b1 b2 : obox).
Context (Hb1 : box_ok b1) (Hb2 : box_ok b2) (He : box_equiv b1 b2).
Lemma cb_attr_elem o b n t : order_ok o -> box_ok b ->
  (n, t) ∈ map (fun a => (at_name a, unwrap_or NNull (at_type a))) (attr_values o b) <->
  (a ← bx_attrs b !! n; at_type a) = Some t.
Proof.
  intros Ho Hb. rewrite elem_of_list_In, in_map_iff, bind_Some. split.
  - intros (a & [= <- <-] & Hin). apply elem_of_list_In, (attr_values_elem o Ho) in Hin; [|done].
    exists a. split; [done|]. destruct (ok_types b Hb _ _ Hin) as [t Ht]. by rewrite Ht.
  - intros (a & Ha & Ht). exists a. rewrite Ht. rewrite (ok_names b Hb _ _ Ha). split; [done|].
    apply elem_of_list_In, (attr_values_elem o Ho); [done|]. by rewrite (ok_names b Hb _ _ Ha).
Qed.
Lemma cb_flag_elem o b n : order_ok o -> box_ok b ->
  n ∈ map at_name (List.filter at_flag (attr_values o b)) <-> at_flag <$> bx_attrs b !! n = Some true.
Proof.
  intros Ho Hb. rewrite elem_of_list_In, in_map_iff, fmap_Some. split.
  - intros (a & <- & Hin). apply filter_In in Hin as [Hin Hf]. apply elem_of_list_In, (attr_values_elem o Ho) in Hin; eauto.
  - intros (a & Han & Hf). exists a. split; [by apply (ok_names b Hb)|]. apply filter_In. split; [|done].
    apply elem_of_list_In, (attr_values_elem o Ho); [done|]. by rewrite (ok_names b Hb _ _ Han).
Qed.
Lemma filter_map_nodup (l : list attribute) : NoDup (map at_name l) -> NoDup (map at_name (List.filter at_flag l)).
Proof.
  induction l as [|a l IH]; simpl; intros H; [done|]. apply NoDup_cons in H as [H1 H2].
  destruct (at_flag a); simpl; [|by apply IH]. apply NoDup_cons. split; [|by apply IH].
  intros Hin. apply H1. apply elem_of_list_In, in_map_iff in Hin as (x & <- & Hin). apply filter_In in Hin as [Hin _].
  apply elem_of_list_In, in_map, Hin.
Qed.
Lemma cb_json_equiv d cb1 cb2 : generate_capture_base o1 b1 = Some cb1 -> generate_capture_base o2 b2 = Some cb2 ->
  cb_json_d d cb1 = cb_json_d d cb2.
Proof.
  intros H1 H2. rewrite (generate_capture_base_eq o1 Ho1) in H1 by done. rewrite (generate_capture_base_eq o2 Ho2) in H2 by done.
  injection H1 as <-. injection H2 as <-. unfold cb_json_d. cbn [cb_stype cb_attrs cb_class cb_flagged].
  rewrite (be_class _ _ He).
  assert (EA : map (fun kv => (kv.1, nattr_json kv.2)) (sort_by fst (map (fun a => (at_name a, unwrap_or NNull (at_type a))) (attr_values o1 b1))) =
               map (fun kv => (kv.1, nattr_json kv.2)) (sort_by fst (map (fun a => (at_name a, unwrap_or NNull (at_type a))) (attr_values o2 b2)))).
  { apply sort_by_map_eq.
    + apply NoDup_Permutation.
      * apply (NoDup_fmap_1 fst). change (NoDup (map fst (map (fun a => (at_name a, unwrap_or NNull (at_type a))) (attr_values o1 b1)))).
        rewrite map_map. simpl. by apply (attr_values_nodup o1 Ho1).
      * apply (NoDup_fmap_1 fst). change (NoDup (map fst (map (fun a => (at_name a, unwrap_or NNull (at_type a))) (attr_values o2 b2)))).
        rewrite map_map. simpl. by apply (attr_values_nodup o2 Ho2).
      * intros [n t]. rewrite !cb_attr_elem by done. by rewrite (be_types _ _ He).
    + intros [n t] [n' t'] Hx Hy E. simpl in E. subst n'. rewrite cb_attr_elem in Hx, Hy by done. congruence. }
  assert (EF : sort_by id (map at_name (List.filter at_flag (attr_values o1 b1))) = sort_by id (map at_name (List.filter at_flag (attr_values o2 b2)))).
  { apply sort_id_perm. apply NoDup_Permutation.
    + by apply filter_map_nodup, (attr_values_nodup o1 Ho1).
    + by apply filter_map_nodup, (attr_values_nodup o2 Ho2).
    + intros n. rewrite !cb_flag_elem by done. by rewrite (be_flags _ _ He). }
  rewrite EA, EF. done.
Qed.
End CB.

Lemma of_kind_app k l1 l2 : of_kind k (l1 ++ l2) = of_kind k l1 ++ of_kind k l2.
Proof. apply filter_app_l. Qed.
Lemma of_kind_perm k l1 l2 : l1 ≡ₚ l2 -> of_kind k l1 ≡ₚ of_kind k l2.
Proof.
  induction 1 as [|x l l' _ IH|x y l|l l' l'' _ IH1 _ IH2]; simpl; [done| | |by etransitivity].
  - unfold of_kind in *. simpl. case_bool_decide; [by constructor|done].
  - unfold of_kind in *. simpl. repeat case_bool_decide; try done. constructor.
Qed.
Lemma of_kind_map (g : overlay -> overlay) k l : (forall x, body_kind (ov_body (g x)) = body_kind (ov_body x)) ->
  of_kind k (map g l) = map g (of_kind k l).
Proof.
  intros Hg. unfold of_kind. induction l as [|x l IH]; simpl; [done|]. rewrite Hg. case_bool_decide; simpl; by rewrite IH.
Qed.
(** A single-overlay kind occurs at most once among the non-mapping overlays. *)
Lemma single_kind o b k : order_ok o -> box_ok b -> overlays_many k = false ->
  length (of_kind k (meta_overlays o b ++ gen o (attr_values o b))) <= 1.
Proof.
  intros Ho Hb Hk. rewrite of_kind_app.
  assert (E : of_kind k (meta_overlays o b) = []).
  { apply filter_none. intros x Hx. apply (meta_overlays_elem o Ho) in Hx as (? & l & m & _ & _ & ->).
    apply bool_decide_eq_false_2. simpl. intros <-. done. }
  rewrite E. simpl.
  destruct (gen_spec o Ho _ (attr_values_nodup o Ho b Hb) (attr_values_noid o Ho b Hb)) as (G1 & G2 & G3 & _).
  set (L := gen o (attr_values o b)) in *.
  assert (Hall : forall x, x ∈ of_kind k L -> ov_slot x = SPlain k).
  { intros x Hx. apply elem_of_list_In in Hx. apply filter_In in Hx as [Hx Hk']. apply bool_decide_eq_true_1 in Hk'.
    unfold ov_slot. destruct (ov_body x); simpl in Hk'; subst k; try done. }
  assert (Hnd : NoDup (map ov_slot (of_kind k L))).
  { clear -G2. induction L as [|x L IH]; [done|]. unfold of_kind. simpl in *. apply NoDup_cons in G2 as [H1 H2].
    case_bool_decide; [|by apply IH]. simpl. apply NoDup_cons. split; [|by apply IH].
    intros Hin. apply H1. apply elem_of_list_In, in_map_iff in Hin as (y & <- & Hy). apply filter_In in Hy as [Hy _].
    apply elem_of_list_In, in_map, Hy. }
  destruct (of_kind k L) as [|x [|y l]]; simpl; [lia|lia|]. exfalso.
  apply NoDup_cons in Hnd as [Hnd _]. apply Hnd. simpl.
  rewrite (Hall x) by apply elem_of_list_here. rewrite (Hall y) by (apply elem_of_list_further, elem_of_list_here).
  apply elem_of_list_here.
Qed.
Lemma perm_short {A} (l1 l2 : list A) : l1 ≡ₚ l2 -> length l1 <= 1 -> l1 = l2.
Proof.
  intros Hp Hl. destruct l1 as [|x [|? ?]]; simpl in Hl; [by apply Permutation_nil_l in Hp| |lia].
  by apply Permutation_singleton_l in Hp.
Qed.

Lemma overlays_json_erase ovs : overlays_json (map ov_erase ovs) = overlays_json ovs.
Proof.
  assert (Hk : forall x, body_kind (ov_body (ov_erase x)) = body_kind (ov_body x)) by (intros x; apply body_kind_erase).
  assert (Hj : forall x, overlay_json (ov_erase x) = overlay_json x) by (intros x; apply overlay_json_erase).
  unfold overlays_json. rewrite (jmap_id _ (group_overlays _)), (jmap_id _ (group_overlays ovs)).
  f_equal. apply map_eq. intros s. rewrite !lookup_fmap.
  assert (Hdec : (exists k, s = okind_snake k) \/ (group_overlays (map ov_erase ovs) !! s = None /\ group_overlays ovs !! s = None)).
  { destruct (group_overlays (map ov_erase ovs) !! s) eqn:E1; [left; by eapply group_overlays_key|].
    destruct (group_overlays ovs !! s) eqn:E2; [left; by eapply group_overlays_key|]. by right. }
  destruct Hdec as [[k ->]|[-> ->]]; [|done]. rewrite !group_overlays_lookup, of_kind_map by done. unfold group_val.
  destruct (overlays_many k).
  - destruct (of_kind k ovs) as [|x l] eqn:E; [done|]. simpl. f_equal. f_equal.
    change (ov_erase x :: map ov_erase l) with (map ov_erase (x :: l)).
    change (insert_by said_key (ov_erase x) (sort_by said_key (map ov_erase l))) with (sort_by said_key (map ov_erase (x :: l))).
    rewrite <- (sort_by_map said_key said_key ov_erase) by done. rewrite map_map. apply map_ext. apply Hj.
  - change (map ov_erase (of_kind k ovs)) with (ov_erase <$> of_kind k ovs). rewrite fmap_last.
    destruct (last (of_kind k ovs)); simpl; [|done]. by rewrite Hj.
Qed.

Theorem bundle_json_equiv digest o1 o2 b1 b2 B1 B2 :
  order_ok o1 -> order_ok o2 -> box_ok b1 -> box_ok b2 -> box_equiv b1 b2 -> frames_consistent b1 ->
  generate_bundle digest o1 b1 = Some B1 -> generate_bundle digest o2 b2 = Some B2 ->
  no_collision digest (b_ovs B1) ->
  bundle_json B1 = bundle_json B2 /\ b_said B1 = b_said B2 /\ cb_said (b_cb B1) = cb_said (b_cb B2) /\
  map overlay_json (b_ovs B1) ≡ₚ map overlay_json (b_ovs B2).
Proof.
  intros Ho1 Ho2 Hb1 Hb2 He Hc H1 H2 Hnc.
  unfold generate_bundle in H1, H2.
  destruct (generate_capture_base o1 b1) as [c1|] eqn:E1; [|done].
  destruct (generate_capture_base o2 b2) as [c2|] eqn:E2; [|done].
  pose proof (cb_json_equiv o1 o2 Ho1 Ho2 b1 b2 Hb1 Hb2 He (JStr dummy_said) c1 c2 E1 E2) as Hcb.
  assert (Hcs : cb_said (cb_fill digest c1) = cb_said (cb_fill digest c2)) by (simpl; by rewrite Hcb).
  assert (Hcj : cb_json (cb_fill digest c1) = cb_json (cb_fill digest c2)).
  { unfold cb_json. rewrite Hcs. apply (cb_json_equiv o1 o2 Ho1 Ho2 b1 b2 Hb1 Hb2 He _ c1 c2 E1 E2). }
  set (s := unwrap_or "" (cb_said (cb_fill digest c1))) in *.
  assert (Hs2 : unwrap_or "" (cb_said (cb_fill digest c2)) = s) by (unfold s; by rewrite Hcs).
  rewrite Hs2 in H2. injection H1 as <-. injection H2 as <-. cbn [bundle_fill b_ovs b_said b_cb] in *.
  set (L1 := map (ov_sign digest s) (generate_overlays o1 b1)) in *.
  set (L2 := map (ov_sign digest s) (generate_overlays o2 b2)) in *.
  pose proof (tail_perm o1 o2 b1 b2 Ho1 Ho2 Hb1 Hb2 He Hc) as Hp.
  assert (Hsp : forall o b, map ov_erase (map (ov_sign digest s) (generate_overlays o b)) =
     map (ov_sign digest s) (map ov_erase (map_bodies b)) ++
     map (ov_sign digest s) (map ov_erase (meta_overlays o b ++ gen o (attr_values o b)))).
  { intros o b. rewrite generate_overlays_parts, !map_map, <- map_app.
    apply map_ext. intros x. by rewrite ov_sign_erase. }
  assert (Hmb : map_bodies b1 = map_bodies b2) by (unfold map_bodies; by rewrite (be_maps _ _ He)).
  assert (Hperm : map ov_erase L1 ≡ₚ map ov_erase L2).
  { unfold L1, L2. rewrite !Hsp, Hmb. apply Permutation_app_head. by apply Permutation_map. }
  assert (Hov : overlays_json L1 = overlays_json L2).
  { rewrite <- (overlays_json_erase L1), <- (overlays_json_erase L2). apply overlays_json_eq.
    - intros k _. by apply of_kind_perm.
    - intros k Hk. f_equal. unfold L1, L2. rewrite !Hsp, Hmb, !of_kind_app. f_equal.
      apply perm_short; [by apply of_kind_perm, Permutation_map|].
      rewrite of_kind_map by done. rewrite of_kind_map by (intros x; apply body_kind_erase).
      rewrite !map_length. by apply single_kind.
    - intros x y Hx Hy Hk. apply elem_of_list_In, in_map_iff in Hx as (x' & <- & Hx). apply elem_of_list_In, in_map_iff in Hy as (y' & <- & Hy).
      unfold overlay_json. rewrite !overlay_json_erase. simpl in Hk.
      assert (Hsaid : forall z, In z L1 -> ov_said z = Some (digest (overlay_json_d (JStr dummy_said) z))).
      { intros z Hz. unfold L1 in Hz. apply in_map_iff in Hz as (w & <- & _). done. }
      unfold said_key in Hk. cbn [ov_erase ov_said] in *. rewrite (Hsaid _ Hx), (Hsaid _ Hy) in *. cbn [unwrap_or] in Hk.
      rewrite Hk. eapply overlay_json_d_swap. apply Hnc; [by apply elem_of_list_In|by apply elem_of_list_In|done]. }
  assert (Hsaid : digest (bundle_json_d (JStr dummy_said) (Bundle None (cb_fill digest c1) L1)) =
                  digest (bundle_json_d (JStr dummy_said) (Bundle None (cb_fill digest c2) L2))).
  { unfold bundle_json_d. cbn [b_cb b_ovs]. by rewrite Hcj, Hov. }
  split; [|split; [|split]].
  - unfold bundle_json, bundle_fill. cbn [b_said]. rewrite Hsaid. unfold bundle_json_d. cbn [b_cb b_ovs]. by rewrite Hcj, Hov.
  - by rewrite Hsaid.
  - done.
  - apply (Permutation_map overlay_json) in Hperm. rewrite !map_map in Hperm.
    assert (Hj : forall x, overlay_json (ov_erase x) = overlay_json x) by (intros x; apply overlay_json_erase).
    rewrite !(map_ext _ _ Hj) in Hperm. done.
Qed.

From Verif Require Import Spec_Bundle Overlays_proofs.
From Coq Require Import Lia.

Section Order.
Context (o : order) (Ho : order_ok o).

(** attr_values lists the box's attributes once each. *)
Lemma attr_values_elem b a : box_ok b -> a ∈ attr_values o b <-> bx_attrs b !! at_name a = Some a.
Proof.
  intros Hb. unfold attr_values. rewrite elem_of_list_In, in_map_iff. split.
  - intros ([n x] & <- & Hin). apply elem_of_list_In, (order_elem o Ho) in Hin. simpl.
    by rewrite (ok_names b Hb _ _ Hin).
  - intros H. exists (at_name a, a). split; [done|]. by apply elem_of_list_In, (order_elem o Ho).
Qed.
Lemma attr_values_names b : box_ok b -> map at_name (attr_values o b) = (o ["attributes"] _ (bx_attrs b)).*1.
Proof.
  intros Hb. unfold attr_values. rewrite map_map. apply map_ext_in. intros [n a] Hin.
  apply elem_of_list_In, (order_elem o Ho) in Hin. simpl. by apply (ok_names b Hb).
Qed.
Lemma attr_values_nodup b : box_ok b -> NoDup (map at_name (attr_values o b)).
Proof. intros Hb. rewrite attr_values_names by done. apply (order_nodup o Ho). Qed.
Lemma attr_values_noid b : box_ok b -> Forall attr_noid (attr_values o b).
Proof.
  intros Hb. apply Forall_forall. intros a Ha f fr sc s Hf Hs. apply (attr_values_elem b a Hb) in Ha.
  destruct (fs_meta s !! "frame_id") eqn:E; [|done]. exfalso.
  eapply (ok_frames b Hb). exists (at_name a), a, fr, sc, s. eauto.
Qed.

(** Capture base. *)
Lemma imap_insert_fresh {V} k (v : V) m : k ∉ map fst m -> imap_insert k v m = m ++ [(k, v)].
Proof.
  induction m as [|[k' v'] m IH]; simpl; intros H; [done|]. apply not_elem_of_cons in H as [H1 H2].
  destruct (String.eqb_spec k k'); [done|]. by rewrite IH.
Qed.
Lemma cb_fold l : forall cb, NoDup (map fst (cb_attrs cb) ++ map at_name l) ->
  Forall (fun a => is_Some (at_type a)) l ->
  fold_left cb_add l (Some cb) =
  Some (CaptureBase (cb_said cb) (cb_stype cb)
         (cb_attrs cb ++ map (fun a => (at_name a, unwrap_or NNull (at_type a))) l) (cb_class cb)
         (cb_flagged cb ++ map at_name (List.filter at_flag l))).
Proof.
  induction l as [|a l IH]; intros cb Hn Ht; simpl.
  - rewrite !app_nil_r. by destruct cb.
  - apply Forall_cons in Ht as [[t Ht] Hts]. rewrite Ht. simpl in Hn.
    apply NoDup_app in Hn as (Hn1 & Hn2 & Hn3). apply NoDup_cons in Hn3 as [Hn3 Hn4].
    rewrite IH; [| |done]; cbn [cb_said cb_stype cb_attrs cb_class cb_flagged].
    + rewrite imap_insert_fresh.
      2:{ intros Hin. apply (Hn2 _ Hin). apply elem_of_list_here. }
      rewrite <- app_assoc. simpl. destruct (at_flag a); simpl; [by rewrite <- app_assoc|done].
    + rewrite imap_insert_fresh.
      2:{ intros Hin. apply (Hn2 _ Hin). apply elem_of_list_here. }
      rewrite map_app. simpl. rewrite <- app_assoc. simpl. apply NoDup_app. split; [done|]. split.
      * intros x Hx. apply Hn2 in Hx. done.
      * by apply NoDup_cons.
Qed.
Lemma generate_capture_base_eq b : box_ok b ->
  generate_capture_base o b =
  Some (CaptureBase None "spec/capture_base/1.1"
         (map (fun a => (at_name a, unwrap_or NNull (at_type a))) (attr_values o b))
         (unwrap_or "" (bx_class b))
         (map at_name (List.filter at_flag (attr_values o b)))).
Proof.
  intros Hb. unfold generate_capture_base. rewrite cb_fold; [done| |].
  - simpl. by apply attr_values_nodup.
  - apply Forall_forall. intros a Ha. apply attr_values_elem in Ha; [|done]. by eapply ok_types.
Qed.

(** Bodies are kept by signing. *)
Lemma sign_bodies digest c ovs : map ov_body (map (ov_sign digest c) ovs) = map ov_body ovs.
Proof. rewrite map_map. done. Qed.

Lemma not_gkey_meta l k : SLang KMeta l <> gkey_slot k. Proof. by destruct k. Qed.
Lemma filter_app_l {A} (f : A -> bool) (l k : list A) : List.filter f (l ++ k) = List.filter f l ++ List.filter f k.
Proof. induction l as [|x l IH]; simpl; [done|]. destruct (f x); simpl; by rewrite IH. Qed.
Lemma filter_all {A} (f : A -> bool) (l : list A) : (forall x, x ∈ l -> f x = true) -> List.filter f l = l.
Proof.
  induction l as [|x l IH]; intros H; [done|]. simpl. rewrite (H x) by apply elem_of_list_here.
  f_equal. apply IH. intros y Hy. apply H. by apply elem_of_list_further.
Qed.
Lemma filter_none {A} (f : A -> bool) (l : list A) : (forall x, x ∈ l -> f x = false) -> List.filter f l = [].
Proof.
  induction l as [|x l IH]; intros H; [done|]. simpl. rewrite (H x) by apply elem_of_list_here.
  apply IH. intros y Hy. apply H. by apply elem_of_list_further.
Qed.

Definition map_bodies (b : obox) : list overlay := map mapping_overlay (unwrap_or [] (bx_maps b)).
Definition meta_overlays (b : obox) : list overlay :=
  match bx_meta b with Some meta => map (fun kv => meta_overlay kv.1 kv.2) (o ["meta"] _ meta) | None => [] end.
Lemma meta_overlays_elem b ov : ov ∈ meta_overlays b <->
  exists meta l m, bx_meta b = Some meta /\ meta !! l = Some m /\ ov = meta_overlay l m.
Proof.
  unfold meta_overlays. destruct (bx_meta b) as [meta|].
  - rewrite elem_of_list_In, in_map_iff. split.
    + intros ([l m] & <- & Hin). apply elem_of_list_In, (order_elem o Ho) in Hin. by exists meta, l, m.
    + intros (meta' & l & m & [= <-] & Hl & ->). exists (l, m). split; [done|]. by apply elem_of_list_In, (order_elem o Ho).
  - split; [intros H; by apply not_elem_of_nil in H|]. by intros (? & ? & ? & ? & _).
Qed.
Lemma generate_overlays_parts b :
  generate_overlays o b = map_bodies b ++ meta_overlays b ++ gen o (attr_values o b).
Proof. rewrite (generate_overlays_eq o). unfold initial_overlays. by rewrite <- app_assoc. Qed.

Lemma slot_mapping b : body_tidy b -> body_slot b = SPlain KAttributeMapping -> exists m, b = BMapping m.
Proof. destruct b; simpl; try done; eauto. by destruct (meta !! "frame_id"). Qed.

Lemma gen_elem l ov : NoDup (map at_name l) -> Forall attr_noid l -> ov ∈ gen o l ->
  exists k, ov_slot ov = gkey_slot k /\ find_slot (gkey_slot k) (gen o l) = Some ov.
Proof.
  intros Hn Hf Hin. destruct (gen_spec o Ho l Hn Hf) as (G1 & G2 & G3 & G4 & G5).
  destruct (G3 (ov_slot ov)) as [k Hk].
  { apply elem_of_list_In, in_map, elem_of_list_In, Hin. }
  exists k. split; [done|]. rewrite <- Hk. by apply find_slot_nodup.
Qed.

Lemma gen_box_facts b ov k : box_ok b -> ov ∈ gen o (attr_values o b) -> ov_slot ov = gkey_slot k ->
  body_tidy (ov_body ov) /\ ov_said ov = None /\ ov_cb ov = None /\ ov_ver ov = ver11 /\
  (forall n d, body_datum (ov_body ov) n = Some d <-> exists a, bx_attrs b !! n = Some a /\ attr_datum a (gkey_slot k) = Some d) /\
  (forall f, k = GFrame f -> meta_right (attr_values o b) f (ov_body ov)).
Proof.
  intros Hb Hin Hk. pose proof (attr_values_nodup b Hb) as Hn. pose proof (attr_values_noid b Hb) as Hf.
  destruct (gen_spec o Ho _ Hn Hf) as (G1 & G2 & G3 & G4 & G5).
  destruct (gen_elem _ ov Hn Hf Hin) as (k' & Hk' & Hfind).
  assert (k' = k) as -> by (apply (inj gkey_slot); congruence).
  destruct (G5 k ov Hfind) as (J1 & J2 & J3 & J4 & J5). split; [done|]. split; [done|]. split; [done|].
  split; [unfold all11 in G1; rewrite Forall_forall in G1; by apply G1|]. split; [|done].
  intros n d. rewrite J4. split.
  - intros (a & Ha & <- & Hd). apply attr_values_elem in Ha; eauto.
  - intros (a & Ha & Hd). exists a. pose proof (ok_names b Hb _ _ Ha) as <-. split; [|done]. by apply attr_values_elem.
Qed.

Lemma box_datum_gkey b k n d : box_datum b (gkey_slot k) n = Some d <->
  exists a, bx_attrs b !! n = Some a /\ attr_datum a (gkey_slot k) = Some d.
Proof.
  unfold box_datum. destruct k; simpl; rewrite bind_Some; naive_solver.
Qed.
Lemma gen_has b k a n : box_ok b -> bx_attrs b !! n = Some a -> is_Some (attr_datum a (gkey_slot k)) ->
  exists ov, ov ∈ gen o (attr_values o b) /\ ov_slot ov = gkey_slot k.
Proof.
  intros Hb Ha [d Hd]. pose proof (attr_values_nodup b Hb) as Hn. pose proof (attr_values_noid b Hb) as Hf.
  destruct (gen_spec o Ho _ Hn Hf) as (G1 & G2 & G3 & G4 & G5).
  destruct (find_slot (gkey_slot k) (gen o (attr_values o b))) as [ov|] eqn:E.
  - apply find_slot_some in E. eauto.
  - apply (proj1 (G4 k)) with (a := a) in E; [congruence|]. apply attr_values_elem; [done|].
    by rewrite (ok_names b Hb _ _ Ha).
Qed.
Lemma datum_gkey a s d : attr_datum a s = Some d -> exists k, s = gkey_slot k.
Proof.
  destruct s as [k|k l|t|f]; simpl.
  - destruct k; try done; intros _; [exists GEnc|exists GFormat|exists GCard|exists GCond|exists GConf|exists GECode|exists GUnit]; done.
  - destruct k; try done; intros _; [exists (GLabel l)|exists (GInfo l)|exists (GEntry l)]; done.
  - intros _. by exists (GLink t).
  - intros _. by exists (GFrame f).
Qed.
Lemma box_datum_slot b s n d : box_datum b s n = Some d ->
  (exists l, s = SLang KMeta l) \/ (exists k, s = gkey_slot k /\ exists a, bx_attrs b !! n = Some a /\ attr_datum a s = Some d).
Proof.
  unfold box_datum. intros H.
  assert (Hc : (exists l, s = SLang KMeta l) \/ (a ← bx_attrs b !! n; attr_datum a s) = Some d).
  { destruct s as [|[]| |]; try (by right). left. eauto. }
  destruct Hc as [?|H']; [by left|right].
  apply bind_Some in H' as (a & Ha & Hd). destruct (datum_gkey _ _ _ Hd) as [k ->]. eauto.
Qed.
Lemma gen_not_mapping b ov : box_ok b -> ov ∈ gen o (attr_values o b) -> is_mapping (ov_body ov) = false.
Proof.
  intros Hb Hin. destruct (gen_elem _ ov (attr_values_nodup b Hb) (attr_values_noid b Hb) Hin) as (k & Hk & _).
  unfold ov_slot in Hk. destruct (ov_body ov); try done. by destruct k.
Qed.
Lemma meta_datum b l n d : box_datum b (SLang KMeta l) n = Some d <->
  exists meta m v, bx_meta b = Some meta /\ meta !! l = Some m /\ m !! n = Some v /\ d = DText v.
Proof.
  simpl. rewrite bind_Some. split.
  - intros (meta & Hm & H). apply bind_Some in H as (m & Hl & H). apply fmap_Some in H as (v & Hv & ->). eauto 10.
  - intros (meta & m & v & Hm & Hl & Hv & ->). exists meta. split; [done|]. rewrite Hl. simpl. by rewrite Hv.
Qed.

Definition elem3 b ov :
  ov ∈ generate_overlays o b <-> ov ∈ map_bodies b \/ ov ∈ meta_overlays b \/ ov ∈ gen o (attr_values o b).
Proof. rewrite generate_overlays_parts. by rewrite !elem_of_app. Qed.
Lemma map_bodies_elem b ov : ov ∈ map_bodies b -> exists m, ov = mapping_overlay m.
Proof. unfold map_bodies. rewrite elem_of_list_In, in_map_iff. intros (m & <- & _). eauto. Qed.

(** bundle_right for any bundle with the right overlay bodies and capture base. *)
Lemma bundle_right_gen b B cb0 : box_ok b ->
  map ov_body (b_ovs B) = map ov_body (generate_overlays o b) ->
  map ov_ver (b_ovs B) = map ov_ver (generate_overlays o b) ->
  generate_capture_base o b = Some cb0 ->
  cb_attrs (b_cb B) = cb_attrs cb0 -> cb_class (b_cb B) = cb_class cb0 -> cb_flagged (b_cb B) = cb_flagged cb0 ->
  bundle_right b B.
Proof.
  intros Hb Hbody Hver Hcb Ha Hc Hfl.
  assert (Hcorr : forall ov, ov ∈ b_ovs B -> exists ov', ov' ∈ generate_overlays o b /\ ov_body ov = ov_body ov').
  { intros ov Hin. assert (Hi : ov_body ov ∈ map ov_body (b_ovs B)) by (apply elem_of_list_In, in_map, elem_of_list_In, Hin).
    rewrite Hbody in Hi. apply elem_of_list_In, in_map_iff in Hi as (ov' & E & Hi). exists ov'. split; [by apply elem_of_list_In|done]. }
  assert (Hcorr' : forall ov, ov ∈ generate_overlays o b -> exists ov', ov' ∈ b_ovs B /\ ov_body ov = ov_body ov').
  { intros ov Hin. assert (Hi : ov_body ov ∈ map ov_body (generate_overlays o b)) by (apply elem_of_list_In, in_map, elem_of_list_In, Hin).
    rewrite <- Hbody in Hi. apply elem_of_list_In, in_map_iff in Hi as (ov' & E & Hi). exists ov'. split; [by apply elem_of_list_In|done]. }
  pose proof (attr_values_nodup b Hb) as Hn. pose proof (attr_values_noid b Hb) as Hno.
  destruct (gen_spec o Ho _ Hn Hno) as (G1 & G2 & G3 & G4 & G5).
  assert (Hslots : NoDup (map body_slot (map ov_body (meta_overlays b)) ++ map body_slot (map ov_body (gen o (attr_values o b))))).
  { apply NoDup_app. split; [|split].
    - unfold meta_overlays. destruct (bx_meta b) as [meta|]; [|apply NoDup_nil_2].
      rewrite !map_map. simpl.
      replace (map _ _) with ((SLang KMeta) <$> (o ["meta"] _ meta).*1).
      + apply NoDup_fmap_2; [intros ? ? [= ?]; done|]. apply (order_nodup o Ho).
      + rewrite <- list_fmap_compose. done.
    - intros s Hs Hs'. rewrite map_map in Hs. apply elem_of_list_In, in_map_iff in Hs as (ov & <- & Hin).
      apply elem_of_list_In, meta_overlays_elem in Hin as (meta & l & m & _ & _ & ->). simpl in Hs'.
      rewrite map_map in Hs'. apply G3 in Hs' as [k Hk]. by apply not_gkey_meta in Hk.
    - rewrite map_map. exact G2. }
  constructor.
  - rewrite Hbody, generate_overlays_parts, !map_app, !filter_app_l.
    rewrite (filter_none _ (map ov_body (map_bodies b))).
    2:{ intros x Hx. apply elem_of_list_In, in_map_iff in Hx as (ov & <- & Hin). apply elem_of_list_In, map_bodies_elem in Hin as [m ->]. done. }
    rewrite (filter_all _ (map ov_body (meta_overlays b))).
    2:{ intros x Hx. apply elem_of_list_In, in_map_iff in Hx as (ov & <- & Hin).
        apply elem_of_list_In, meta_overlays_elem in Hin as (? & ? & ? & _ & _ & ->). done. }
    rewrite (filter_all _ (map ov_body (gen o _))).
    2:{ intros x Hx. apply elem_of_list_In, in_map_iff in Hx as (ov & <- & Hin).
        apply elem_of_list_In, gen_not_mapping in Hin; [|done]. by rewrite Hin. }
    simpl. rewrite map_app. exact Hslots.
  - rewrite Hbody, generate_overlays_parts, !map_app, !filter_app_l.
    rewrite (filter_all _ (map ov_body (map_bodies b))).
    2:{ intros x Hx. apply elem_of_list_In, in_map_iff in Hx as (ov & <- & Hin). apply elem_of_list_In, map_bodies_elem in Hin as [m ->]. done. }
    rewrite (filter_none _ (map ov_body (meta_overlays b))).
    2:{ intros x Hx. apply elem_of_list_In, in_map_iff in Hx as (ov & <- & Hin).
        apply elem_of_list_In, meta_overlays_elem in Hin as (? & ? & ? & _ & _ & ->). done. }
    rewrite (filter_none _ (map ov_body (gen o _))).
    2:{ intros x Hx. apply elem_of_list_In, in_map_iff in Hx as (ov & <- & Hin).
        by apply elem_of_list_In, gen_not_mapping in Hin. }
    rewrite !app_nil_r. unfold map_bodies. rewrite map_map. done.
  - intros s Hs. split.
    + intros (ov & Hin & Hsl). destruct (Hcorr ov Hin) as (x & Hx & E). rewrite E in Hsl.
      apply elem3 in Hx as [Hx|[Hx|Hx]].
      * apply map_bodies_elem in Hx as [m ->]. simpl in Hsl. congruence.
      * apply meta_overlays_elem in Hx as (meta & l & m & Hm & Hl & ->). simpl in Hsl. subst s.
        pose proof (ok_meta b Hb _ _ _ Hm Hl) as Hne. apply map_choose in Hne as (k & v & Hkv).
        exists k, (DText v). apply meta_datum. eauto 10.
      * destruct (gen_elem _ x Hn Hno Hx) as (k & Hk & Hfind).
        assert (Hs' : s = gkey_slot k) by (unfold ov_slot in Hk; congruence). subst s. rewrite Hs' in *.
        assert (Hnn : ~ (forall a, a ∈ attr_values o b -> attr_datum a (gkey_slot k) = None)).
        { intros Hall. apply G4 in Hall. congruence. }
        destruct (decide (Exists (fun a => is_Some (attr_datum a (gkey_slot k))) (attr_values o b))) as [He|He].
        -- apply Exists_exists in He as (a & Hain & [d Hd]). exists (at_name a), d. apply box_datum_gkey.
           exists a. split; [by apply attr_values_elem|done].
        -- exfalso. apply Hnn. intros a Hain. apply eq_None_not_Some. intros Hsome. apply He. apply Exists_exists. eauto.
    + intros (n & d & Hd). destruct (box_datum_slot b s n d Hd) as [[l ->]|(k & -> & a & Han & Had)].
      * apply meta_datum in Hd as (meta & m & v & Hm & Hl & Hv & ->).
        destruct (Hcorr' (meta_overlay l m)) as (ov & Hin & E).
        { apply elem3. right. left. apply meta_overlays_elem. eauto 10. }
        exists ov. split; [done|]. by rewrite <- E.
      * destruct (gen_has b k a n Hb Han) as (x & Hx & Hk); [eauto|].
        destruct (Hcorr' x) as (ov & Hin & E); [apply elem3; by do 2 right|].
        exists ov. split; [done|]. by rewrite <- E.
  - intros ov n d Hin Hsl. destruct (Hcorr ov Hin) as (x & Hx & E). rewrite E in *.
    apply elem3 in Hx as [Hx|[Hx|Hx]].
    + apply map_bodies_elem in Hx as [m ->]. done.
    + apply meta_overlays_elem in Hx as (meta & l & m & Hm & Hl & ->). cbn [ov_body meta_overlay body_slot body_kind].
      rewrite meta_datum. cbn [body_datum]. split.
      * intros Hd. apply fmap_Some in Hd as (v & Hv & ->). eauto 10.
      * intros (meta' & m' & v & Hm' & Hl' & Hv & ->). assert (m' = m) as -> by congruence. by rewrite Hv.
    + destruct (gen_elem _ x Hn Hno Hx) as (k & Hk & Hfind).
      destruct (gen_box_facts b x k Hb Hx Hk) as (_ & _ & _ & _ & F & _). unfold ov_slot in Hk. rewrite Hk.
      rewrite F. by rewrite box_datum_gkey.
  - intros ov Hin. destruct (Hcorr ov Hin) as (x & Hx & E). rewrite E.
    apply elem3 in Hx as [Hx|[Hx|Hx]].
    + by apply map_bodies_elem in Hx as [m ->].
    + by apply meta_overlays_elem in Hx as (? & ? & ? & _ & _ & ->).
    + destruct (gen_elem _ x Hn Hno Hx) as (k & Hk & Hfind). by destruct (gen_box_facts b x k Hb Hx Hk) as (? & _).
  - intros ov Hin. assert (Hi : ov_ver ov ∈ map ov_ver (b_ovs B)) by (apply elem_of_list_In, in_map, elem_of_list_In, Hin).
    rewrite Hver in Hi. apply elem_of_list_In, in_map_iff in Hi as (x & <- & Hx). apply elem_of_list_In in Hx.
    apply elem3 in Hx as [Hx|[Hx|Hx]].
    + by apply map_bodies_elem in Hx as [m ->].
    + by apply meta_overlays_elem in Hx as (? & ? & ? & _ & _ & ->).
    + destruct (gen_elem _ x Hn Hno Hx) as (k & Hk & Hfind). by destruct (gen_box_facts b x k Hb Hx Hk) as (_ & _ & _ & ? & _).
  - intros ov meta m Hin Hbd. destruct (Hcorr ov Hin) as (x & Hx & E). rewrite E in Hbd.
    apply elem3 in Hx as [Hx|[Hx|Hx]].
    + by apply map_bodies_elem in Hx as [? ->].
    + by apply meta_overlays_elem in Hx as (? & ? & ? & _ & _ & ->).
    + destruct (gen_elem _ x Hn Hno Hx) as (k & Hk & Hfind).
      destruct (gen_box_facts b x k Hb Hx Hk) as (_ & _ & _ & _ & _ & Hm).
      unfold ov_slot in Hk. rewrite Hbd in Hk. simpl in Hk.
      destruct (meta !! "frame_id") as [f|] eqn:Ef; [|by destruct k].
      exists f. split; [done|]. assert (k = GFrame f) as -> by (destruct k; simpl in Hk; congruence).
      destruct (Hm f eq_refl) as (meta' & m' & E' & M1 & M2). rewrite Hbd in E'. injection E' as <- <-.
      split.
      * intros k v Hne Hv. destruct (M1 k v Hv) as [[? _]|(a & fr & Hain & Hfr & sc & s & Hs & Hv')]; [done|].
        exists (at_name a), a, fr, sc, s. split; [by apply attr_values_elem|done].
      * intros k v (n & a & fr & sc & s & Han & Hfr & Hs & Hv). destruct (meta !! k) eqn:Ek; [by eexists|].
        exfalso. eapply (M2 k Ek a fr v); [|done|by exists sc, s].
        apply attr_values_elem; [done|]. by rewrite (ok_names b Hb _ _ Han).
  - rewrite Ha. rewrite generate_capture_base_eq in Hcb by done. injection Hcb as <-. cbn [cb_attrs].
    rewrite map_map. simpl. by apply attr_values_nodup.
  - intros n t. rewrite Ha. rewrite generate_capture_base_eq in Hcb by done. injection Hcb as <-. cbn [cb_attrs].
    rewrite elem_of_list_In, in_map_iff. split.
    + intros (a & [= <- <-] & Hin). apply elem_of_list_In, attr_values_elem in Hin; [|done].
      exists a. split; [done|]. destruct (ok_types b Hb _ _ Hin) as [t Ht]. by rewrite Ht.
    + intros (a & Han & Ht). exists a. rewrite Ht. rewrite (ok_names b Hb _ _ Han). split; [done|].
      apply elem_of_list_In, attr_values_elem; [done|]. by rewrite (ok_names b Hb _ _ Han).
  - rewrite Hc. rewrite generate_capture_base_eq in Hcb by done. by injection Hcb as <-.
  - rewrite Hfl. rewrite generate_capture_base_eq in Hcb by done. injection Hcb as <-. cbn [cb_flagged].
    assert (Hg : forall l, NoDup (map at_name l) -> NoDup (map at_name (List.filter at_flag l))).
    { induction l as [|a l IH]; simpl; intros H; [done|]. apply NoDup_cons in H as [H1 H2].
      destruct (at_flag a); simpl; [|by apply IH]. apply NoDup_cons. split; [|by apply IH].
      intros Hin. apply H1. apply elem_of_list_In, in_map_iff in Hin as (x & <- & Hin). apply filter_In in Hin as [Hin _].
      apply elem_of_list_In, in_map, Hin. }
    by apply Hg.
  - intros n. rewrite Hfl. rewrite generate_capture_base_eq in Hcb by done. injection Hcb as <-. cbn [cb_flagged].
    rewrite elem_of_list_In, in_map_iff. split.
    + intros (a & <- & Hin). apply filter_In in Hin as [Hin Hf]. apply elem_of_list_In, attr_values_elem in Hin; eauto.
    + intros (a & Han & Hf). exists a. split; [by apply (ok_names b Hb)|]. apply filter_In. split; [|done].
      apply elem_of_list_In, attr_values_elem; [done|]. by rewrite (ok_names b Hb _ _ Han).
Qed.
Lemma C02_proof digest b : box_ok b -> exists B, generate_bundle digest o b = Some B /\ bundle_right b B.
Proof.
  intros Hb. unfold generate_bundle. rewrite generate_capture_base_eq by done. eexists. split; [done|].
  eapply bundle_right_gen; [done| | |by apply generate_capture_base_eq|done|done|done]; cbn [b_ovs bundle_fill].
  - apply sign_bodies.
  - by rewrite map_map.
Qed.
End Order.

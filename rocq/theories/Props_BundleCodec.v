(** C06: bundle JSON round trip.  Statements here; longer proofs in BundleCodec_proofs. *)
From Verif Require Import Spec_Bundle Spec_BundleCodec BundleCodec_proofs Box_proofs Bundle_proofs Upd_proofs Inj_digest Validator Props_Bundle Props_Codec.
From Coq Require Import Lia.

(** Same bundle: same identifiers, same capture base, and the overlays are the same up to order. *)
Definition same_bundle (B B' : bundle) : Prop :=
  b_said B' = b_said B /\ cb_said (b_cb B') = cb_said (b_cb B) /\ cb_stype (b_cb B') = cb_stype (b_cb B) /\
  cb_attrs (b_cb B') ≡ₚ cb_attrs (b_cb B) /\ cb_class (b_cb B') = cb_class (b_cb B) /\ cb_flagged (b_cb B') ≡ₚ cb_flagged (b_cb B) /\
  exists l, l ≡ₚ b_ovs B' /\ Forall2 overlay_same (b_ovs B) l.

Lemma kinds_perm l1 : forall l2, (forall k, of_kind k l1 ≡ₚ of_kind k l2) -> l1 ≡ₚ l2.
Proof.
  induction l1 as [|x l1 IH]; intros l2 H.
  - destruct l2 as [|y l2]; [done|]. specialize (H (body_kind (ov_body y))). cbn in H. rewrite bool_decide_eq_true_2 in H by done.
    by apply Permutation_nil_l in H.
  - assert (Hx : x ∈ l2).
    { assert (Hx : x ∈ of_kind (body_kind (ov_body x)) l2) by (rewrite <- H; apply of_kind_elem; split; [left|done]). by apply of_kind_elem in Hx as [? _]. }
    apply elem_of_list_split in Hx as (a & b & ->). rewrite <- Permutation_middle. constructor. apply IH. intros k. specialize (H k).
    rewrite of_kind_app in *. cbn in H |- *. destruct (bool_decide _).
    + rewrite <- Permutation_middle in H. by apply Permutation_cons_inv in H.
    + done.
Qed.
Lemma written_perm ovs : (forall k, overlays_many k = false -> length (of_kind k ovs) <= 1) -> written_order ovs ≡ₚ ovs.
Proof.
  intros H. apply kinds_perm. intros k. rewrite written_kind. destruct (overlays_many k) eqn:E; [apply sort_by_perm|].
  unfold visible. rewrite E. specialize (H k E). destruct (of_kind k ovs) as [|x [|y l]]; cbn in *; [done|done|lia].
Qed.
Lemma cb_read_json_d d cb : cb_json_d d (cb_read cb) = cb_json_d d cb.
Proof. unfold cb_json_d, cb_read. cbn [cb_said cb_stype cb_attrs cb_class cb_flagged]. by rewrite !sort_by_idem. Qed.
Lemma overlay_read_json_d d ov : (forall l, has_groups (ov_body ov) l -> increasing l) -> overlay_json_d d (ov_read ov) = overlay_json_d d ov.
Proof.
  intros H. assert (T : ov_type (ov_read ov) = ov_type ov) by (unfold ov_type; cbn [ov_body ov_read ov_ver]; by rewrite body_kind_read).
  pose proof (body_read_fields (ov_body ov) H) as F. unfold overlay_json_d. rewrite T. cbn [ov_said ov_cb ov_body ov_read]. rewrite F. by destruct (ov_body ov).
Qed.

(** Every bundle: if its texts are readable, the JSON it writes is read back as the same bundle, whose JSON is again the same. *)
Theorem C06_round_trip : forall said_ok digits lang_ok standard_read B, digits_class digits ->
  bundle_readable said_ok digits lang_ok B -> groups_sorted B ->
  exists B', bundle_parse said_ok digits lang_ok standard_read (bundle_json B) = Ok B' /\
    bundle_json B' = bundle_json B /\ b_said B' = b_said B /\ bundle_same B B' /\
    ((forall k, overlays_many k = false -> length (of_kind k (b_ovs B)) <= 1) -> same_bundle B B').
Proof.
  intros so dg lo sr B Hd Hr Hg. exists (bundle_read B). split; [by apply bundle_round|]. pose proof (bundle_read_json B Hg) as J.
  split; [done|]. split; [done|]. split; [symmetry in J; by apply bundle_json_same in J as [_ ?]|]. intros Hk.
  split; [done|]. split; [done|]. split; [done|]. split; [apply sort_by_perm|]. split; [done|]. split; [apply sort_by_perm|].
  exists (map ov_read (b_ovs B)). split; [by rewrite <- (written_perm _ Hk) at 1|].
  apply Forall2_fmap_r. apply Forall_Forall2_diag. apply Forall_forall. intros ov Hin. apply overlay_json_same'. symmetry. apply overlay_read_json.
  intros l. by apply Hg.
Qed.
Print Assumptions C06_round_trip.

(** What a generated bundle inherits from its box. *)
Lemma generated_groups b B : bundle_right b B -> (forall n a l, bx_attrs b !! n = Some a -> at_ecodes a = Some (ECObj l) -> increasing l) -> groups_sorted B.
Proof.
  intros R Hg ov l Hin (m & n & Eb & En).
  assert (D : body_datum (ov_body ov) n = Some (DCodes (ECObj l))) by (rewrite Eb; cbn; by rewrite En).
  apply (br_facts _ _ R) in D; [|done|by rewrite Eb]. rewrite Eb in D. cbn in D. destruct (bx_attrs b !! n) as [a|] eqn:Ea; [|done]. cbn in D.
  destruct (at_ecodes a) as [e|] eqn:Ee; [|done]. cbn in D. injection D as ->. by apply (Hg n a).
Qed.
Lemma body_slot_lang bd l : body_lang bd = Some l -> body_slot bd = SLang (body_kind bd) l.
Proof. destruct bd; cbn; intros [= ->]; done. Qed.
Lemma single_kinds b B : bundle_right b B -> length (unwrap_or [] (bx_maps b)) <= 1 ->
  forall k, overlays_many k = false -> length (of_kind k (b_ovs B)) <= 1.
Proof.
  intros R Hm k Hk. destruct (decide (k = KAttributeMapping)) as [->|Hne].
  - assert (E : length (of_kind KAttributeMapping (b_ovs B)) = length (List.filter is_mapping (map ov_body (b_ovs B)))).
    { unfold of_kind. generalize (b_ovs B) as ovs. induction ovs as [|x ovs IH]; [done|]. cbn [List.filter map].
      destruct (ov_body x); cbn [body_kind is_mapping]; first [rewrite bool_decide_eq_true_2 by done; cbn [length]; by rewrite IH|rewrite bool_decide_eq_false_2 by done; exact IH]. }
    rewrite E, (br_maps _ _ R), map_length. done.
  - pose proof (br_slots _ _ R) as N. revert N. generalize (b_ovs B) as ovs. induction ovs as [|x ovs IH]; [cbn; lia|]. intros N.
    cbn [map List.filter] in N. unfold of_kind. cbn [List.filter]. case_bool_decide as E.
    + assert (M : is_mapping (ov_body x) = false) by (destruct (ov_body x); cbn in E |- *; congruence). rewrite M in N. cbn in N. apply NoDup_cons in N as [N1 N2].
      fold (of_kind k ovs). destruct (of_kind k ovs) as [|y l] eqn:F; [cbn; lia|]. exfalso. apply N1.
      assert (Hy : y ∈ of_kind k ovs) by (rewrite F; left). apply of_kind_elem in Hy as [Hy Ey].
      apply elem_of_list_fmap. exists (ov_body y). split.
      * subst k. destruct (ov_body x), (ov_body y); cbn in *; congruence.
      * apply elem_of_list_In, filter_In. split; [apply in_map; by apply elem_of_list_In|]. destruct (ov_body y); cbn in Ey |- *; congruence.
    + fold (of_kind k ovs). apply IH. destruct (is_mapping (ov_body x)); cbn in N; [done|]. by apply NoDup_cons in N as [_ ?].
Qed.
Lemma generated_readable digest said_ok digits lang_ok o b B : (forall j, said_ok (digest j) = true) -> digits "1" = true ->
  bundle_right b B -> generate_bundle digest o b = Some B -> box_readable said_ok lang_ok b ->
  bundle_readable said_ok digits lang_ok B.
Proof.
  intros Hs H1 R G K. destruct (C03_generated_saids_verify _ _ _ _ G) as (S1 & S2 & S3). split.
  - intros s [E|E]; rewrite ?S1, ?S2 in E; injection E as <-; apply Hs.
  - exact (br_names _ _ R).
  - intros n t Hin. apply (br_types _ _ R) in Hin as (a & Ea & Et). by apply (bk_types _ _ _ K n a).
  - intros ov Hin. destruct (S3 ov Hin) as [O1 O2]. split.
    + intros s [E|E]; rewrite ?O1, ?O2, ?S2 in E; injection E as <-; apply Hs.
    + exists "1", "1". rewrite (br_version _ _ R ov Hin). done.
    + intros l Hl. apply body_slot_lang in Hl.
      destruct (proj1 (br_exists _ _ R (SLang (body_kind (ov_body ov)) l) ltac:(done))) as (n & d & D); [by exists ov|]. by apply (bk_langs _ _ _ K _ _ _ _ D).
    + intros l m k E Hk. destruct (m !! k) as [v|] eqn:Em; [|done]. exfalso.
      assert (D : body_datum (ov_body ov) k = Some (DText v)) by (rewrite E; cbn; by rewrite Em). apply (br_facts _ _ R) in D; [|done|by rewrite E].
      rewrite E in D. cbn [body_slot body_kind] in D. by rewrite (bk_meta _ _ _ K l k Hk) in D.
    + intros l Hl. apply (generated_groups b B R (bk_groups _ _ _ K) ov l Hin Hl).
    + pose proof (br_tidy _ _ R ov Hin) as T. by destruct (ov_body ov).
Qed.
(** Every generated bundle is read back as the same bundle, and all its identifiers still verify. *)
Theorem C06_generated : forall digest said_ok digits lang_ok standard_read o b B, order_ok o -> api_box b ->
  (forall j, said_ok (digest j) = true) -> digits_class digits -> digits "1" = true ->
  box_readable said_ok lang_ok b -> generate_bundle digest o b = Some B ->
  exists B', bundle_parse said_ok digits lang_ok standard_read (bundle_json B) = Ok B' /\
    bundle_json B' = bundle_json B /\ same_bundle B B' /\
    b_said B' = Some (digest (bundle_json_d (JStr dummy_said) B')) /\
    cb_said (b_cb B') = Some (digest (cb_json_d (JStr dummy_said) (b_cb B'))) /\
    forall ov, ov ∈ b_ovs B' -> ov_said ov = Some (digest (overlay_json_d (JStr dummy_said) ov)) /\ ov_cb ov = cb_said (b_cb B').
Proof.
  intros digest so dg lo sr o b B Ho Hb Hs Hd H1 K G.
  destruct (C02_bundle_is_box_content digest o b Ho Hb) as (B0 & G0 & R). rewrite G in G0. injection G0 as <-.
  pose proof (generated_readable digest so dg lo o b B Hs H1 R G K) as Hr. pose proof (generated_groups b B R (bk_groups _ _ _ K)) as Hg.
  destruct (C06_round_trip so dg lo sr B Hd Hr Hg) as (B' & P & J & S & _ & X). assert (E : B' = bundle_read B).
  { pose proof (bundle_round so dg lo sr Hd B Hr) as Q. rewrite P in Q. by injection Q. }
  exists B'. split; [done|]. split; [done|]. split; [apply X; by apply (single_kinds b B R), (bk_maps _ _ _ K)|]. clear X P. subst B'.
  destruct (C03_generated_saids_verify _ _ _ _ G) as (S1 & S2 & S3). split.
  - cbn [b_said bundle_read]. rewrite S1. do 2 f_equal. symmetry. unfold bundle_json_d. unfold bundle_json, bundle_json_d in J.
    apply (f_equal (fun j => match j with JObj l => l | _ => [] end)) in J. apply cons_inj in J as [_ J]. apply cons_inj in J as [J1 J]. apply cons_inj in J as [J2 _].
    apply pair_inj in J1 as [_ J1]. apply pair_inj in J2 as [_ J2]. by rewrite J1, J2.
  - split.
    + cbn [b_cb bundle_read]. rewrite cb_read_json_d. exact S2.
    + intros ov Hin. cbn [b_ovs bundle_read] in Hin. apply elem_of_list_fmap in Hin as (x & -> & Hin). apply written_elem in Hin.
      destruct (S3 x Hin) as [O1 O2]. rewrite overlay_read_json_d by (intros l; by apply Hg). done.
Qed.
Print Assumptions C06_generated.

(** A concrete case. *)
Definition ex_said_ok (s : string) : bool := negb (String.eqb s "").
Definition ex_lang_ok (l : string) : bool := existsb (String.eqb l) ["eng"; "pol"].
Definition ex_a3 (g : imap (list string)) : attribute := set_entry "eng" (EnObj {["k" := "v"]}) (set_ecodes (ECObj g) (set_type (NArr (NRef (RSaid "EX"))) (attr_new "kind"))).
Definition ex_read_box (g : imap (list string)) : obox := add_attribute_mapping {["name" := "first"]} (add_attribute (ex_a3 g) ex_box).
Definition sorted_groups : imap (list string) := [("a", ["2"; "1"]); ("b", ["x"])].
Definition ex_parse : json -> outcome bundle := bundle_parse ex_said_ok ascii_digits ex_lang_ok (fun _ => None).
Lemma ex_read_api g : api_box (ex_read_box g).
Proof.
  apply ab_mapping, ab_add; [|left; by eexists|exact ex_box_api]. apply aa_entry, aa_ecodes, aa_type, aa_new.
Qed.
Lemma ex_read_attrs g n a : bx_attrs (ex_read_box g) !! n = Some a -> a = ex_a1 \/ a = ex_a2 \/ a = ex_a3 g.
Proof.
  change (bx_attrs (ex_read_box g)) with (<["kind" := ex_a3 g]> (<["age" := ex_a2]> (<["name" := ex_a1]> (∅ : gmap string attribute)))).
  intros H. apply lookup_insert_Some in H as [[_ <-]|[_ H]]; [by right; right|]. apply lookup_insert_Some in H as [[_ <-]|[_ H]]; [by right; left|].
  apply lookup_insert_Some in H as [[_ <-]|[_ H]]; [by left|]. done.
Qed.
Lemma ex_read_ok : box_readable ex_said_ok ex_lang_ok (ex_read_box sorted_groups).
Proof.
  split.
  - intros n a t Ha. apply ex_read_attrs in Ha as [->|[->| ->]]; intros [= <-]; done.
  - intros k l n d D. destruct k; try (cbn in D; destruct (bx_attrs _ !! n); done).
    + cbn [box_datum] in D. destruct (bx_attrs _ !! n) as [a|] eqn:Ha; [|done]. cbn in D. apply ex_read_attrs in Ha as [->|[->| ->]]; cbn in D; try done.
      destruct (_ !! l) eqn:E in D; [|done]. clear D. apply lookup_insert_Some in E as [[<- _]|[_ E]]; [done|].
      apply lookup_insert_Some in E as [[<- _]|[_ E]]; [done|]. done.
    + cbn [box_datum] in D. destruct (bx_attrs _ !! n) as [a|] eqn:Ha; [|done]. cbn in D. apply ex_read_attrs in Ha as [->|[->| ->]]; cbn in D; done.
    + change (box_datum (ex_read_box sorted_groups) (SLang KMeta l) n) with (m ← ({["eng" := {["name" := "Test"]}]} : gmap string (gmap string string)) !! l; DText <$> m !! n) in D.
      destruct (_ !! l) as [m|] eqn:E in D; [|done]. apply lookup_singleton_Some in E as [<- _]. done.
    + cbn [box_datum] in D. destruct (bx_attrs _ !! n) as [a|] eqn:Ha; [|done]. cbn in D. apply ex_read_attrs in Ha as [->|[->| ->]]; cbn in D; try done.
      destruct (_ !! l) eqn:E in D; [|done]. clear D. apply lookup_insert_Some in E as [[<- _]|[_ E]]; [done|]. done.
  - intros l k Hk. change (box_datum (ex_read_box sorted_groups) (SLang KMeta l) k) with (m ← ({["eng" := {["name" := "Test"]}]} : gmap string (gmap string string)) !! l; DText <$> m !! k).
    destruct (_ !! l) as [m|] eqn:E; [|done]. apply lookup_singleton_Some in E as [_ <-]. cbn. rewrite lookup_singleton_ne; [done|].
    intros <-. apply elem_of_list_In in Hk. cbn in Hk. repeat (destruct Hk as [Hk|Hk]; [discriminate Hk|]). done.
  - intros n a l Ha. apply ex_read_attrs in Ha as [->|[->| ->]]; intros [= <-]. split; [by apply NoDup_cons; split; [set_solver|apply NoDup_singleton]|].
    intros pre k v mid k' v' post E. destruct pre as [|p0 pre]; cbn in E.
    + injection E as <- <- E. destruct mid as [|p1 mid]; cbn in E; [by injection E as <- <- <-|]. injection E as _ E. by destruct mid.
    + injection E as _ E. destruct pre as [|p1 pre]; cbn in E; [injection E as _ _ E; by destruct mid|]. injection E as _ E. by destruct pre.
  - vm_compute. lia.
Qed.
Example C06_example :
  order_ok ord1 /\ api_box (ex_read_box sorted_groups) /\ box_readable ex_said_ok ex_lang_ok (ex_read_box sorted_groups) /\
  (forall j, ex_said_ok (inj_digest j) = true) /\ digits_class ascii_digits /\ ascii_digits "1" = true /\
  match generate_bundle inj_digest ord1 (ex_read_box sorted_groups) with
  | Some B => match ex_parse (bundle_json B) with
              | Ok B' => (length (b_ovs B') =? 10)%nat && String.eqb (inj_digest (bundle_json B')) (inj_digest (bundle_json B)) && negb (bool_decide (kinds B' = kinds B))
              | _ => false end
  | None => false
  end = true.
Proof.
  split; [exact ord1_ok|]. split; [apply ex_read_api|]. split; [exact ex_read_ok|]. split; [by intros []|]. split; [exact ascii_digits_class|]. split; [done|].
  vm_compute. reflexivity.
Qed.

(** Findings. *)
(** Grouped entry codes keep their order in the box but not through JSON: the bundle read back writes different JSON,
    whose digest is not the identifier the bundle carries. *)
Theorem C06_group_order_refuted :
  api_box (ex_read_box [("b", ["x"]); ("a", ["1"])]) /\
  exists B B', generate_bundle inj_digest ord1 (ex_read_box [("b", ["x"]); ("a", ["1"])]) = Some B /\
    ex_parse (bundle_json B) = Ok B' /\ bundle_json B' <> bundle_json B /\ said_errors inj_digest B' <> [].
Proof.
  split; [apply ex_read_api|].
  assert (H : match generate_bundle inj_digest ord1 (ex_read_box [("b", ["x"]); ("a", ["1"])]) with
    | Some B => match ex_parse (bundle_json B) with
                | Ok B' => negb (String.eqb (inj_digest (bundle_json B')) (inj_digest (bundle_json B))) && match said_errors inj_digest B' with [] => false | _ => true end
                | _ => false end
    | None => false end = true) by (vm_compute; reflexivity).
  destruct (generate_bundle _ _ _) as [B|]; [|done]. destruct (ex_parse (bundle_json B)) as [B'| |] eqn:P; try done.
  apply andb_true_iff in H as [H1 H2]. exists B, B'. split; [done|]. split; [done|]. split.
  - intros E. by rewrite E, String.eqb_refl in H1.
  - intros E. by rewrite E in H2.
Qed.
(** A meta key that is a field name of the overlay makes reading the bundle panic. *)
Theorem C06_reserved_meta_key_refuted : forall k, k ∈ ["d"; "capture_base"; "type"; "language"] ->
  exists b B, api_box b /\ generate_bundle inj_digest ord1 b = Some B /\ bundle_parse (fun s => negb (String.eqb s "x")) ascii_digits ex_lang_ok (fun _ => None) (bundle_json B) = Panic.
Proof.
  intros k Hk. exists (add_meta "eng" k "x" box_new).
  assert (H : match generate_bundle inj_digest ord1 (add_meta "eng" k "x" box_new) with
    | Some B => match bundle_parse (fun s => negb (String.eqb s "x")) ascii_digits ex_lang_ok (fun _ => None) (bundle_json B) with Panic => true | _ => false end
    | None => false end = true).
  { apply elem_of_list_In in Hk. cbn in Hk. destruct Hk as [<-|[<-|[<-|[<-|[]]]]]; vm_compute; reflexivity. }
  destruct (generate_bundle _ _ _) as [B|]; [|done]. exists B. split; [apply ab_meta, ab_new|]. split; [done|]. by destruct (bundle_parse _ _ _ _ _).
Qed.
(** Of two attribute mappings only the last is written. *)
Theorem C06_second_mapping_refuted :
  exists b B B', api_box b /\ generate_bundle inj_digest ord1 b = Some B /\ ex_parse (bundle_json B) = Ok B' /\
    length (b_ovs B) = 2 /\ length (b_ovs B') = 1.
Proof.
  exists (add_attribute_mapping {["a" := "2"]} (add_attribute_mapping {["a" := "1"]} box_new)).
  assert (H : match generate_bundle inj_digest ord1 (add_attribute_mapping {["a" := "2"]} (add_attribute_mapping {["a" := "1"]} box_new)) with
    | Some B => match ex_parse (bundle_json B) with Ok B' => (length (b_ovs B) =? 2)%nat && (length (b_ovs B') =? 1)%nat | _ => false end
    | None => false end = true) by (vm_compute; reflexivity).
  destruct (generate_bundle _ _ _) as [B|]; [|done]. destruct (ex_parse (bundle_json B)) as [B'| |] eqn:P; try done.
  apply andb_true_iff in H as [H1 H2]. apply Nat.eqb_eq in H1, H2. exists B, B'. split; [apply ab_mapping, ab_mapping, ab_new|]. done.
Qed.
Print Assumptions C06_group_order_refuted.
Print Assumptions C06_reserved_meta_key_refuted.
Print Assumptions C06_second_mapping_refuted.

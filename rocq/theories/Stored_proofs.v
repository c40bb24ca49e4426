(** Building on a bundle that was written as JSON and read back. *)
From Verif Require Import Base Spec_Bundle Spec_Build Spec_BundleCodec Command_proofs Bundle_proofs Box_proofs Sort_proofs Determinism_proofs Reload_proofs Incremental_proofs BundleCodec_proofs Props_BundleCodec.

Definition norm_datum (d : datum) : datum := match d with DCodes e => DCodes (erase_codes e) | _ => d end.
Definition norm_attr (a : attribute) : attribute := match at_ecodes a with Some e => set_ecodes (erase_codes e) a | None => a end.
Definition norm_box (b : obox) : obox := OBox (norm_attr <$> bx_attrs b) (bx_maps b) (bx_meta b) (bx_class b).

Lemma norm_same a : at_name (norm_attr a) = at_name a /\ at_type (norm_attr a) = at_type a /\ at_flag (norm_attr a) = at_flag a /\
  at_catlabels (norm_attr a) = at_catlabels a /\ at_frames (norm_attr a) = at_frames a /\ at_cond (norm_attr a) = at_cond a /\ at_deps (norm_attr a) = at_deps a.
Proof. unfold norm_attr. by destruct (at_ecodes a). Qed.
Lemma norm_attr_datum a s : attr_datum (norm_attr a) s = norm_datum <$> attr_datum a s.
Proof.
  unfold norm_attr. destruct (at_ecodes a) as [e|] eqn:E.
  - destruct s as [k|k l|t|f]; [destruct k|destruct k| |]; cbn -[lookup_opt]; try done; rewrite ?E; cbn -[lookup_opt]; try done;
      match goal with |- _ <$> ?x = _ => destruct x; done end.
  - destruct s as [k|k l|t|f]; [destruct k|destruct k| |]; cbn -[lookup_opt]; try done; rewrite ?E; cbn -[lookup_opt]; try done;
      match goal with |- _ <$> ?x = _ => destruct x; done end.
Qed.
Lemma norm_box_datum b s n : box_datum (norm_box b) s n = norm_datum <$> box_datum b s n.
Proof.
  destruct (decide (exists l, s = SLang KMeta l)) as [[l ->]|Hs].
  - rewrite !box_datum_meta. cbn [bx_meta norm_box]. by destruct (_ ≫= _).
  - rewrite !box_datum_attr by (intros l ->; apply Hs; by exists l). cbn [bx_attrs norm_box]. rewrite lookup_fmap.
    destruct (bx_attrs b !! n) as [a|]; [|done]. cbn -[attr_datum]. apply norm_attr_datum.
Qed.
Lemma erase_norm d : erase_datum (norm_datum d) = erase_datum d.
Proof. destruct d as [| | |e| | |]; try done. cbn. by destruct e; cbn; rewrite ?sort_by_idem. Qed.
Lemma norm_lookup b n a : bx_attrs (norm_box b) !! n = Some a -> exists a0, bx_attrs b !! n = Some a0 /\ a = norm_attr a0.
Proof. cbn [bx_attrs norm_box]. rewrite lookup_fmap. destruct (bx_attrs b !! n) as [a0|]; [|done]. intros [= <-]. by exists a0. Qed.
Lemma norm_lookup' b n a : bx_attrs b !! n = Some a -> bx_attrs (norm_box b) !! n = Some (norm_attr a).
Proof. intros H. cbn [bx_attrs norm_box]. by rewrite lookup_fmap, H. Qed.
Lemma norm_says b f k v : frame_meta_says (bx_attrs (norm_box b)) f k v <-> frame_meta_says (bx_attrs b) f k v.
Proof.
  split.
  - intros (n & a & fr & sc & s & Ha & Hf & H). apply norm_lookup in Ha as (a0 & Ha & ->). exists n, a0, fr, sc, s. destruct (norm_same a0) as (_ & _ & _ & _ & E & _).
    by rewrite E in Hf.
  - intros (n & a & fr & sc & s & Ha & Hf & H). exists n, (norm_attr a), fr, sc, s. destruct (norm_same a) as (_ & _ & _ & _ & E & _). rewrite E. split; [|done]. by apply norm_lookup'.
Qed.
Lemma norm_ok b : box_ok b -> box_ok (norm_box b).
Proof.
  intros [H1 H2 H3 H4 H5]. split.
  - intros n a Ha. apply norm_lookup in Ha as (a0 & Ha & ->). rewrite (proj1 (norm_same a0)). by apply H1.
  - intros n a Ha. apply norm_lookup in Ha as (a0 & Ha & ->). destruct (norm_same a0) as (_ & -> & _). by apply (H2 n).
  - exact H3.
  - intros f v H. apply (proj1 (norm_says b f _ v)) in H. by apply H4 in H.
  - intros n a Ha. apply norm_lookup in Ha as (a0 & Ha & ->). destruct (norm_same a0) as (_ & _ & _ & _ & _ & -> & ->). by apply (H5 n).
Qed.
Lemma norm_sim b : box_sim b b -> box_sim b (norm_box b).
Proof.
  intros [H1 H2 H3 H4]. split; [|intros; by rewrite norm_box_datum, box_datum_meta; destruct (_ ≫= _)|done|done].
  intros n. cbn [bx_attrs norm_box]. rewrite lookup_fmap. specialize (H1 n). destruct (bx_attrs b !! n) as [a|]; constructor.
  assert (S : attr_sim a a) by by inversion H1. destruct S as [S1 S2 S3 S4 S5]. destruct (norm_same a) as (_ & T & F & C & _).
  split; [|done|done|done|by rewrite C]. intros s. rewrite norm_attr_datum. destruct (attr_datum a s) as [d|]; [|done]. cbn. by rewrite erase_norm.
Qed.
Lemma norm_uniform M b : uniform M b -> uniform M (norm_box b).
Proof.
  intros H n a Ha. apply norm_lookup in Ha as (a0 & Ha & ->). intros f fr sc s Hf. destruct (norm_same a0) as (_ & _ & _ & _ & E & _). rewrite E in Hf. by apply (H n a0 Ha f fr).
Qed.
Lemma read_datum bd n : (forall l, has_groups bd l -> increasing l) -> ferase <$> body_datum (body_read bd) n = ferase <$> (norm_datum <$> body_datum bd n).
Proof.
  intros Hg. destruct bd as [m|m|m|m|m|c d|m|l m|l c m cl|l m|l m|t m|me m|m|a|s|m]; cbn [body_read body_datum]; try done;
    try (match goal with |- _ <$> (_ <$> ?x) = _ => destruct x; done end).
  - rewrite lookup_fmap. destruct (m !! n) as [e|] eqn:E; [|done]. cbn. do 2 f_equal. destruct e as [s|l|l]; try done. cbn.
    f_equal. apply sort_by_sorted_id, increasing_sorted, Hg. by exists m, n.
  - rewrite lookup_fmap. destruct (m !! n) as [f|]; [|done]. cbn. do 2 f_equal.
    apply map_eq. intros k. unfold erase_frame, framing in *. rewrite !lookup_fmap. destruct (f !! k); done.
Qed.
Lemma read_slot bd : body_slot (body_read bd) = body_slot bd.
Proof. by destruct bd. Qed.
Lemma read_mapping bd : is_mapping (body_read bd) = is_mapping bd.
Proof. by destruct bd. Qed.
Lemma stored_loadable b B : bundle_right b B -> groups_sorted B -> length (unwrap_or [] (bx_maps b)) <= 1 -> loadable (norm_box b) (bundle_read B).
Proof.
  intros R Hg Hm. pose proof (written_perm _ (single_kinds b B R Hm)) as P. split.
  - intros s Hs (n & d & Hd). rewrite norm_box_datum in Hd. destruct (box_datum b s n) as [d0|] eqn:D; [|done].
    destruct (proj2 (br_exists b B R s Hs)) as (ov & Hin & E); [eauto|]. exists (ov_read ov). cbn [b_ovs bundle_read ov_read ov_body]. rewrite read_slot. split; [|done].
    apply elem_of_list_fmap_1. by rewrite P.
  - intros ov n Hin. cbn [b_ovs bundle_read] in Hin. apply elem_of_list_fmap in Hin as (x & -> & Hin). apply written_elem in Hin. cbn [ov_body ov_read].
    rewrite read_mapping, read_slot. intros Hx. rewrite read_datum by (intros l; by apply Hg). rewrite norm_box_datum. f_equal. f_equal. apply option_eq. intros d.
    apply (br_facts b B R); [done|]. destruct (ov_body x) as [| | | | | | | | | | | |meta m| | | |]; try done. cbn. by destruct (meta !! "frame_id").
  - intros ov meta m Hin E. cbn [b_ovs bundle_read] in Hin. apply elem_of_list_fmap in Hin as (x & -> & Hin). apply written_elem in Hin. cbn [ov_body ov_read] in E.
    destruct (ov_body x) as [| | | | | | | | | | | |meta0 m0| | | |] eqn:E0; try done. injection E as -> _. destruct (br_frame b B R x meta m0 Hin E0) as (f & H1 & H2 & H3).
    exists f. split; [done|]. split; intros k v; rewrite norm_says; [apply H2|apply H3].
  - cbn [bundle_read b_cb cb_read cb_attrs]. rewrite (Permutation_map fst (sort_by_perm fst (cb_attrs (b_cb B)))). apply R.
  - intros n t. cbn [bundle_read b_cb cb_read cb_attrs]. rewrite sort_by_perm, (br_types b B R). split.
    + intros (a & Ha & Ht). exists (norm_attr a). destruct (norm_same a) as (_ & -> & _). split; [by apply norm_lookup'|done].
    + intros (a & Ha & Ht). apply norm_lookup in Ha as (a0 & Ha & ->). destruct (norm_same a0) as (_ & E & _). rewrite E in Ht. by exists a0.
  - apply R.
  - intros n. cbn [bundle_read b_cb cb_read cb_flagged]. rewrite sort_by_perm, (br_flags b B R). split.
    + intros (a & Ha & Ht). exists (norm_attr a). destruct (norm_same a) as (_ & _ & -> & _). split; [by apply norm_lookup'|done].
    + intros (a & Ha & Ht). apply norm_lookup in Ha as (a0 & Ha & ->). destruct (norm_same a0) as (_ & _ & E & _). rewrite E in Ht. by exists a0.
Qed.
Lemma stored_tracked M o B b : order_ok o -> tracked M b b -> bundle_right b B -> groups_sorted B ->
  exists b', load o (bundle_read B) = Some b' /\ tracked M b b'.
Proof.
  intros Ho T R Hg. apply (reload_tracked_as M o _ b (norm_box b)); try done.
  - apply norm_sim, T.
  - apply norm_uniform, T.
  - by apply norm_ok, api_box_ok, T.
  - apply stored_loadable; try done. destruct (bs_maps b b (tk_sim M b b T)) as [-> _]. cbn. lia.
Qed.
(** As C37, with the base read back from its JSON. *)
Lemma C26_proof digest from1 os1 os2 os3 a1 a2 a12 B1 steps1 :
  (forall i, order_ok (os1 i)) -> (forall i, order_ok (os2 i)) -> (forall i, order_ok (os3 i)) ->
  ast_commands a12 = ast_commands a1 ++ ast_commands a2 -> Forall command_ok (ast_commands a12) -> framings_agree (ast_commands a12) ->
  from_ast digest from1 os1 None a1 = BuildOk B1 steps1 -> groups_sorted B1 ->
  same_result digest (from_ast digest from1 os2 (Some (bundle_read B1)) a2) (from_ast digest from1 os3 None a12).
Proof.
  intros O1 O2 O3 E Hok Hag H1 Hg. assert (Hu := agree_uniform _ Hag Hok). set (M := M_of (ast_commands a12)) in *. rewrite E in Hok, Hu.
  apply Forall_app in Hok as [K1 K2]. apply Forall_app in Hu as [U1 U2].
  destruct (first_part digest from1 os1 a1 B1 steps1 M O1 K1 U1 H1) as (b1 & Hne & Hok1 & Es1 & _ & R1 & T1).
  destruct (stored_tracked M (os2 (S (length (ast_commands a2)))) B1 b1 (O2 _) T1 R1 Hg) as (b1' & L & T).
  by apply (second_part digest from1 os2 os3 a1 a2 a12 (bundle_read B1) b1 b1' M).
Qed.

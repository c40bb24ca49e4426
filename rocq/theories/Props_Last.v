(** C63: what a bundle says is the last word of its commands. *)
From Verif Require Import Spec_Last Upd_proofs Command_proofs Load_proofs Bundle_proofs Box_proofs Run_proofs Build_proofs Flags_proofs
  Last_proofs Last_runs Determinism_proofs Incremental_proofs Inj_digest Props_Bundle Props_Build.

Notation Bx st := (unwrap_or box_new st).
(** The final box of a build from scratch. *)
Lemma scratch_box digest from1 os a B steps : (forall i, order_ok (os i)) -> Forall command_ok (ast_commands a) ->
  from_ast digest from1 os None a = BuildOk B steps ->
  exists b, state_after from1 None (ast_commands a) = Some b /\ plain b /\ bundle_right b B /\
    generate_bundle digest (os (length (ast_commands a))) b = Some B /\
    Forall (fun r => is_ok r = true) (outcomes from1 None (ast_commands a)).
Proof.
  intros Ho Hc H. rewrite (from_ast_base_of digest from1 os None a None) in H by constructor.
  apply base_ok in H as (H1 & _ & b & H2 & H3). exists b. split; [done|].
  pose proof (run_plain from1 (ast_commands a) None plain_new Hc H1) as Hp. rewrite H2 in Hp. cbn in Hp.
  destruct (C02_proof (os (length (ast_commands a))) (Ho _) digest b (api_box_ok b (proj1 Hp))) as (B2 & G2 & R).
  rewrite H3 in G2. injection G2 as <-. done.
Qed.
Lemma no_mapping_overlay_at b B : unwrap_or [] (bx_maps b) = [] -> bundle_right b B -> forall ov, ov ∈ b_ovs B -> body_slot (ov_body ov) <> SPlain KAttributeMapping.
Proof.
  intros Hm R ov Hin E. apply slot_mapping in E as [m E]; [|by apply (br_tidy b B R)].
  assert (X : BMapping m ∈ List.filter is_mapping (map ov_body (b_ovs B))).
  { apply elem_of_list_In, filter_In. split; [|done]. apply in_map_iff. exists ov. split; [done|]. by apply elem_of_list_In. }
  rewrite (br_maps b B R), Hm in X. by apply not_elem_of_nil in X.
Qed.
Lemma no_mapping_overlay b B : plain b -> bundle_right b B -> forall ov, ov ∈ b_ovs B -> body_slot (ov_body ov) <> SPlain KAttributeMapping.
Proof. intros (_ & _ & Hm). apply no_mapping_overlay_at. by rewrite Hm. Qed.
Lemma box_datum_mapping b n : box_datum b (SPlain KAttributeMapping) n = None.
Proof. cbn. by destruct (bx_attrs b !! n). Qed.
Lemma bundle_box_at b B s n d : unwrap_or [] (bx_maps b) = [] -> bundle_right b B -> bundle_says B s n d <-> box_datum b s n = Some d.
Proof.
  intros Hp R. split.
  - intros (ov & Hin & <- & Hd). apply (br_facts b B R ov n d Hin); [|done]. by eapply no_mapping_overlay_at.
  - intros Hd. assert (Hs : s <> SPlain KAttributeMapping) by (intros ->; by rewrite box_datum_mapping in Hd).
    destruct (proj2 (br_exists b B R s Hs)) as (ov & Hin & <-); [by exists n, d|]. exists ov. split; [done|]. split; [done|].
    by apply (br_facts b B R ov n d Hin).
Qed.
Lemma bundle_box b B s n d : plain b -> bundle_right b B -> bundle_says B s n d <-> box_datum b s n = Some d.
Proof. intros (_ & _ & Hm). apply bundle_box_at. by rewrite Hm. Qed.

(** Labels, descriptions, entries, formats, encodings, cardinalities, conformances, conditions, links and meta texts:
    the bundle says the last word of the commands, and nothing else. *)
Theorem C63_last_word : forall digest from1 os a B steps, (forall i, order_ok (os i)) -> Forall command_ok (ast_commands a) ->
  from_ast digest from1 os None a = BuildOk B steps ->
  forall s n d, ~ first_wins s -> ~ is_frame s ->
  bundle_says B s n d <-> last_word from1 (ast_commands a) s n d.
Proof.
  intros digest from1 os a B steps Ho Hc H s n d Hf Hr. destruct (scratch_box digest from1 os a B steps Ho Hc H) as (b & E & Hp & R & _ & O).
  rewrite (bundle_box b B s n d Hp R). assert (D : s = SPlain KAttributeMapping \/ s <> SPlain KAttributeMapping).
  { destruct s as [[]| | |]; try (by right). by left. }
  destruct D as [-> |Hs].
  - rewrite box_datum_mapping. split; [done|]. intros (be & c & la & _ & X & _). by apply says_not_mapping in X.
  - pose proof (run_last from1 (ast_commands a) None plain_new Hc O s n (conj Hs (conj Hf Hr)) d) as L. rewrite E in L. cbn [unwrap_or] in L. rewrite L. split.
    + intros [?|[_ X]]; [done|]. exfalso. destruct s as [k|k l|t|f]; cbn in X; try (by rewrite lookup_empty in X). destruct k; try (by rewrite lookup_empty in X). done.
    + intros; by left.
Qed.
Print Assumptions C63_last_word.
(** Units and entry codes: the first word since the attribute was last removed. *)
Theorem C63_first_word : forall digest from1 os a B steps, (forall i, order_ok (os i)) -> Forall command_ok (ast_commands a) ->
  from_ast digest from1 os None a = BuildOk B steps ->
  forall s n d, first_wins s -> bundle_says B s n d <-> first_word from1 (ast_commands a) s n d.
Proof.
  intros digest from1 os a B steps Ho Hc H s n d Hf. destruct (scratch_box digest from1 os a B steps Ho Hc H) as (b & E & Hp & R & _ & O).
  rewrite (bundle_box b B s n d Hp R). destruct (run_first from1 s n (ast_commands a) Hf Hc O) as [L _]. rewrite E in L. apply L.
Qed.
Print Assumptions C63_first_word.
(** Framings: an attribute is framed iff a command frames it that no removal follows; each of its scopes is the last
    word on that scope. *)
Theorem C63_frames : forall digest from1 os a B steps, (forall i, order_ok (os i)) -> Forall command_ok (ast_commands a) ->
  from_ast digest from1 os None a = BuildOk B steps ->
  forall f n, ((exists d, bundle_says B (SFrame f) n d) <-> framed from1 (ast_commands a) f n) /\
  (forall d, bundle_says B (SFrame f) n d -> exists g, d = DFraming g /\
     forall sc x, g !! sc = Some x <-> last_scope from1 (ast_commands a) f n sc x).
Proof.
  intros digest from1 os a B steps Ho Hc H f n. destruct (scratch_box digest from1 os a B steps Ho Hc H) as (b & E & Hp & R & _ & O).
  assert (Z : box_datum box_new (SFrame f) n = None) by (cbn; by rewrite lookup_empty). split.
  - pose proof (run_framed from1 (ast_commands a) None plain_new Hc O f n) as L. rewrite E in L. cbn [unwrap_or] in L. split.
    + intros [d X]. apply (bundle_box b B _ n d Hp R) in X. destruct (proj1 L) as [?|[_ Y]]; [congruence|done|done].
    + intros X. destruct (box_datum b (SFrame f) n) as [d|] eqn:Ed; [|exfalso; by apply (proj2 L); [left|]].
      exists d. by apply (bundle_box b B _ n d Hp R).
  - intros d X. apply (bundle_box b B _ n d Hp R) in X. destruct (box_frame b f n) as [Y|[g Y]]; [congruence|].
    exists g. split; [congruence|]. intros sc x. pose proof (run_scope from1 (ast_commands a) None plain_new Hc O f n sc x) as L.
    rewrite E in L. cbn [unwrap_or] in L. unfold scope_at in L. rewrite Y, Z in L. rewrite L. split; [intros [?|[_ ?]]; done|by left].
Qed.
Print Assumptions C63_frames.
(** One overlay per slot, none without anything to say, one answer per attribute. *)
Theorem C63_no_other_overlays : forall digest from1 os a B steps, (forall i, order_ok (os i)) -> Forall command_ok (ast_commands a) ->
  from_ast digest from1 os None a = BuildOk B steps ->
  NoDup (map (fun ov => body_slot (ov_body ov)) (b_ovs B)) /\
  (forall ov, ov ∈ b_ovs B -> body_tidy (ov_body ov) /\ exists n d, body_datum (ov_body ov) n = Some d) /\
  (forall s n d d', bundle_says B s n d -> bundle_says B s n d' -> d = d').
Proof.
  intros digest from1 os a B steps Ho Hc H. destruct (scratch_box digest from1 os a B steps Ho Hc H) as (b & E & Hp & R & _ & O). split; [|split].
  - assert (X := br_slots b B R). rewrite <- (map_map ov_body body_slot).
    replace (map ov_body (b_ovs B)) with (List.filter (fun x => negb (is_mapping x)) (map ov_body (b_ovs B))); [exact X|].
    assert (K : forall l, (forall ov, ov ∈ l -> body_slot (ov_body ov) <> SPlain KAttributeMapping) ->
      List.filter (fun x => negb (is_mapping x)) (map ov_body l) = map ov_body l).
    { induction l as [|ov l IH]; intros Hl; [done|]. cbn. rewrite IH by (intros o' Ho'; apply Hl; by right).
      assert (N := Hl ov ltac:(left)). destruct (is_mapping (ov_body ov)) eqn:Em; [|done]. by destruct (ov_body ov). }
    apply K. by eapply no_mapping_overlay.
  - intros ov Hin. split; [by apply (br_tidy b B R)|]. assert (Hs := no_mapping_overlay b B Hp R ov Hin).
    destruct (proj1 (br_exists b B R _ Hs)) as (n & d & Hd); [by exists ov|]. exists n, d. by apply (br_facts b B R ov n d Hin Hs).
  - intros s n d d' X Y. apply (bundle_box b B s n _ Hp R) in X, Y. congruence.
Qed.
Print Assumptions C63_no_other_overlays.
(** The capture base: each attribute under its last declared type, no attribute flagged, the last classification. *)
Theorem C63_capture_base : forall digest from1 os a B steps, (forall i, order_ok (os i)) -> Forall command_ok (ast_commands a) ->
  from_ast digest from1 os None a = BuildOk B steps ->
  NoDup (map fst (cb_attrs (b_cb B))) /\
  (forall n t, (n, t) ∈ cb_attrs (b_cb B) <-> last_type (ast_commands a) n t) /\
  cb_flagged (b_cb B) = [] /\
  (forall x, last_class (ast_commands a) x -> cb_class (b_cb B) = x) /\
  ((forall x, ~ last_class (ast_commands a) x) -> cb_class (b_cb B) = "").
Proof.
  intros digest from1 os a B steps Ho Hc H. destruct (C11_attribute_types digest from1 os None a B steps Ho) as [T1 T2]; [exact Hc|by intros ? [=]|exact H|].
  assert (E : cb_class (b_cb B) = fold_left replay_class (ast_commands a) "").
  { apply (C39_class digest from1 os Ho None a B steps Hc H). }
  destruct (class_last (ast_commands a) "") as [K1 K2]. split; [done|]. split; [|split; [|split]].
  - intros n t. rewrite T2, replay_last. cbn. rewrite lookup_empty. split; [intros [?|[_ ?]]; done|by left].
  - pose proof (C39_flags_come_from_base digest from1 os None a B steps Ho Hc H) as F. destruct (cb_flagged (b_cb B)) as [|n l]; [done|].
    exfalso. destruct (proj1 (F n)) as [X _]; [by left|]. by apply not_elem_of_nil in X.
  - intros x Hx. rewrite E. by apply K1.
  - intros Hn. rewrite E. by destruct (K2 Hn) as [?|[_ ?]].
Qed.
Print Assumptions C63_capture_base.
(** So two lists of commands that say the same, built from scratch, are the same bundle. *)
Theorem C63_same_words_same_bundle : forall digest from1 os1 os2 a1 a2 B1 B2 steps1 steps2,
  (forall i, order_ok (os1 i)) -> (forall i, order_ok (os2 i)) ->
  Forall command_ok (ast_commands a1) -> Forall command_ok (ast_commands a2) -> framings_agree (ast_commands a1) ->
  same_words from1 (ast_commands a1) (ast_commands a2) ->
  from_ast digest from1 os1 None a1 = BuildOk B1 steps1 -> from_ast digest from1 os2 None a2 = BuildOk B2 steps2 ->
  no_collision digest (b_ovs B1) ->
  bundle_json B1 = bundle_json B2 /\ b_said B1 = b_said B2 /\ cb_said (b_cb B1) = cb_said (b_cb B2).
Proof.
  intros digest from1 os1 os2 a1 a2 B1 B2 steps1 steps2 O1 O2 C1 C2 Hag W H1 H2 Hcol.
  destruct (scratch_box digest from1 os1 a1 B1 steps1 O1 C1 H1) as (b1 & E1 & P1 & R1 & G1 & U1).
  destruct (scratch_box digest from1 os2 a2 B2 steps2 O2 C2 H2) as (b2 & E2 & P2 & R2 & G2 & U2).
  destruct (first_part digest from1 os1 a1 B1 steps1 (M_of (ast_commands a1)) O1 C1 (agree_uniform _ Hag C1) H1) as (b1' & _ & _ & E1' & _ & _ & T1).
  rewrite E1 in E1'. injection E1' as <-. assert (Hfc := uniform_consistent _ b1 (tk_uni1 _ _ _ T1)). clear T1.
  assert (A1 := proj1 P1). assert (A2 := proj1 P2).
  assert (Hsc : forall f n sc x, scope_at b1 f n sc = Some x <-> scope_at b2 f n sc = Some x).
  { intros f n sc x. pose proof (run_scope from1 (ast_commands a1) None plain_new C1 U1 f n sc x) as L1. rewrite E1 in L1.
    pose proof (run_scope from1 (ast_commands a2) None plain_new C2 U2 f n sc x) as L2. rewrite E2 in L2. cbn [unwrap_or] in L1, L2.
    assert (Z : scope_at box_new f n sc = None) by (unfold scope_at; cbn; by rewrite lookup_empty). rewrite Z in L1, L2.
    rewrite L1, L2, (sw_scopes _ _ _ W f n sc x). split; (intros [?|[_ ?]]; [by left|done]). }
  assert (Hdat : forall s n, box_datum b1 s n = box_datum b2 s n).
  { intros s n. assert (K : (forall d, box_datum b1 s n = Some d <-> box_datum b2 s n = Some d) -> box_datum b1 s n = box_datum b2 s n).
    { intros K. destruct (box_datum b1 s n) as [d|] eqn:X; [symmetry; by apply K|]. destruct (box_datum b2 s n) as [d|] eqn:Y; [|done].
      assert (Z := proj2 (K d) eq_refl). done. }
    assert (Df : is_frame s \/ ~ is_frame s) by (destruct s; [right; by intros [? [=]]..|left; by eexists]).
    destruct Df as [[f ->]|Hf].
    - pose proof (run_framed from1 (ast_commands a1) None plain_new C1 U1 f n) as L1. rewrite E1 in L1.
      pose proof (run_framed from1 (ast_commands a2) None plain_new C2 U2 f n) as L2. rewrite E2 in L2. cbn [unwrap_or] in L1, L2.
      assert (Z : box_datum box_new (SFrame f) n = None) by (cbn; by rewrite lookup_empty). rewrite Z in L1, L2.
      assert (S : forall sc x, scope_at b1 f n sc = Some x <-> scope_at b2 f n sc = Some x) by apply Hsc. unfold scope_at in S.
      destruct (box_frame b1 f n) as [X|[g X]], (box_frame b2 f n) as [Y|[g' Y]]; rewrite X, Y in *.
      + done.
      + exfalso. apply L1; [|done]. left. apply (sw_framed _ _ _ W). destruct (proj1 L2) as [?|[_ ?]]; done.
      + exfalso. apply L2; [|done]. left. apply (sw_framed _ _ _ W). destruct (proj1 L1) as [?|[_ ?]]; done.
      + f_equal. f_equal. apply (map_eq (M := gmap string)). intros sc. specialize (S sc).
        destruct ((g : gmap string fscope) !! sc) as [x|] eqn:Ex; [symmetry; by apply S|].
        destruct ((g' : gmap string fscope) !! sc) as [x|] eqn:Ey; [|done]. assert (V := proj2 (S x) Ey). discriminate (eq_trans (eq_sym Ex) V).
    - apply K. intros d. rewrite <- (bundle_box b1 B1 s n d P1 R1), <- (bundle_box b2 B2 s n d P2 R2).
      assert (Dw : first_wins s \/ ~ first_wins s).
      { destruct s as [k| | |]; try (right; by intros [[=]|[=]]). destruct k; try (right; by intros [[=]|[=]]); left; unfold first_wins; auto. }
      destruct Dw as [Hw|Hw].
      + rewrite (C63_first_word digest from1 os1 a1 B1 steps1 O1 C1 H1 s n d Hw), (C63_first_word digest from1 os2 a2 B2 steps2 O2 C2 H2 s n d Hw).
        by apply (sw_first _ _ _ W).
      + rewrite (C63_last_word digest from1 os1 a1 B1 steps1 O1 C1 H1 s n d Hw Hf), (C63_last_word digest from1 os2 a2 B2 steps2 O2 C2 H2 s n d Hw Hf).
        by apply (sw_last _ _ _ W). }
  destruct (C63_capture_base digest from1 os1 a1 B1 steps1 O1 C1 H1) as (_ & T1 & F1 & K1 & K1').
  destruct (C63_capture_base digest from1 os2 a2 B2 steps2 O2 C2 H2) as (_ & T2 & F2 & K2 & K2').
  assert (Hty : forall n, (a ← bx_attrs b1 !! n; at_type a) = (a ← bx_attrs b2 !! n; at_type a)).
  { intros n. assert (V : forall t, (a ← bx_attrs b1 !! n; at_type a) = Some t <-> (a ← bx_attrs b2 !! n; at_type a) = Some t).
    { intros t. rewrite !bind_Some. rewrite <- (br_types b1 B1 R1 n t), <- (br_types b2 B2 R2 n t), T1, T2. apply (sw_types _ _ _ W). }
    destruct (bx_attrs b1 !! n ≫= at_type) as [t|]; [symmetry; by apply V|]. destruct (bx_attrs b2 !! n ≫= at_type) as [t|]; [|done].
    assert (Z := proj2 (V t) eq_refl). done. }
  assert (Q : box_equiv b1 b2).
  { split.
    - intros s n. by rewrite Hdat.
    - exact Hty.
    - intros n. specialize (Hty n). assert (N1 := br_flags b1 B1 R1 n). assert (N2 := br_flags b2 B2 R2 n). rewrite F1 in N1. rewrite F2 in N2.
      destruct (bx_attrs b1 !! n) as [x|] eqn:X, (bx_attrs b2 !! n) as [y|] eqn:Y; cbn in *; try done.
      + f_equal. destruct (at_flag x) eqn:Fx; [exfalso; eapply not_elem_of_nil, N1; eauto|].
        destruct (at_flag y) eqn:Fy; [exfalso; eapply not_elem_of_nil, N2; eauto|done].
      + destruct (ok_types b1 (api_box_ok b1 A1) n x X) as [t Ht]. congruence.
      + destruct (ok_types b2 (api_box_ok b2 A2) n y Y) as [t Ht]. congruence.
    - rewrite <- (br_class b1 B1 R1), <- (br_class b2 B2 R2).
      rewrite (C39_class digest from1 os1 O1 None a1 B1 steps1 C1 H1), (C39_class digest from1 os2 O2 None a2 B2 steps2 C2 H2).
      destruct (class_some (ast_commands a1)) as [[x Hx]|Hx].
      + assert (Hx2 := proj1 (sw_class _ _ _ W x) Hx). by rewrite (proj1 (class_last _ _) x Hx), (proj1 (class_last _ _) x Hx2).
      + assert (Hx2 : forall x, ~ last_class (ast_commands a2) x) by (intros x X; by apply (Hx x), (sw_class _ _ _ W)).
        destruct (proj2 (class_last _ "") Hx) as [-> |[_ ->]], (proj2 (class_last _ "") Hx2) as [-> |[_ ->]]; done.
    - by rewrite (proj2 (proj2 P1)), (proj2 (proj2 P2)).
    - assert (FM : forall b f k v, frame_meta_says (bx_attrs b) f k v <-> exists n sc x, scope_at b f n sc = Some x /\ fs_meta x !! k = Some v).
      { intros b f k v. unfold scope_at. split.
        - intros (n & x & fr & sc & s & Hx & Hl & Hs & Hv). exists n, sc, s. cbn. rewrite Hx. cbn. by rewrite Hl.
        - intros (n & sc & s & Hs & Hv). cbn in Hs. destruct (bx_attrs b !! n) as [x|] eqn:Hx; [|done]. cbn in Hs.
          destruct (lookup_opt f (at_frames x)) as [fr|] eqn:Hl; [|done]. cbn in Hs. by exists n, x, fr, sc, s. }
      intros f k v. rewrite !FM. split; intros (n & sc & x & Hs & Hv); exists n, sc, x; (split; [by apply Hsc|done]). }
  destruct (bundle_json_equiv digest (os1 (length (ast_commands a1))) (os2 (length (ast_commands a2))) b1 b2 B1 B2) as (J1 & J2 & J3 & _); try done;
    by apply api_box_ok.
Qed.
Print Assumptions C63_same_words_same_bundle.

(** The hypotheses are met: two lists that say the same in different words. *)
(** example *)
Definition wordy : list command :=
  [ add_attrs [("name", NVal TText); ("age", NVal TText)];
    add_ov KLabel [("name", VVal "Old"); ("age", VVal "Age")] [("lang", VVal "en")];
    classify "GICS";
    add_ov KUnit [("name", VVal "kg")] [];
    add_ov KUnit [("name", VVal "g")] [];
    add_ov KMeta [] [("lang", VVal "en"); ("name", VVal "Draft")];
    add_attrs [("name", NVal TNumeric)];
    add_ov KLabel [("name", VVal "New")] [("lang", VVal "en")];
    rem_attrs ["age"];
    add_ov KMeta [] [("lang", VVal "en"); ("name", VVal "Final")];
    classify "ISIC" ].
(** example *)
Definition terse : list command :=
  [ add_ov KMeta [] [("lang", VVal "en"); ("name", VVal "Final")];
    add_attrs [("name", NVal TNumeric)];
    add_ov KUnit [("name", VVal "kg")] [];
    add_ov KLabel [("name", VVal "New")] [("lang", VVal "en")];
    classify "ISIC" ].
Lemma terse_ok : Forall command_ok wordy /\ Forall command_ok terse.
Proof.
  assert (V : forall (l : imap nvalue), bool_decide (NoDup (map fst l)) = true -> Forall (fun kv => exists s, kv.2 = VVal s) l -> values_ok (Some l)).
  { intros l H1%bool_decide_eq_true_1 H2 l' [= <-]. split; [done|]. intros n v Hg. apply imap_get_elem in Hg. rewrite Forall_forall in H2.
    destruct (H2 _ Hg) as [s E]. cbn in E. by rewrite E. }
  assert (N : forall l : list string, bool_decide (NoDup l) = true -> NoDup l) by (intros l; apply bool_decide_eq_true_1).
  assert (KO : forall k a p, values_ok (Some a) -> values_ok (Some p) -> command_ok (add_ov k a p)) by (intros; split; done).
  assert (KA : forall l, bool_decide (NoDup (map fst l)) = true -> command_ok (add_attrs l)).
  { intros l H%bool_decide_eq_true_1. split; [by intros l' [= <-]|by intros l']. }
  assert (KC : forall s, command_ok (classify s)).
  { intros s. split; [by intros l'|]. cbn. apply V; [done|]. repeat constructor; by eexists. }
  assert (KR : forall l, command_ok (rem_attrs l) <-> NoDup (map fst (map (fun n => (n, NNull)) l))).
  { intros l. split; [intros [H _]; by apply H|]. intros H. split; [by intros l' [= <-]|by intros l']. }
  assert (KV : forall l, Forall (fun kv => exists s, kv.2 = VVal s) l <-> forallb (fun kv : string * nvalue => match kv.2 with VVal _ => true | _ => false end) l = true).
  { intros l. rewrite forallb_forall, Forall_forall. split; intros H x Hx; [|specialize (H x)].
    - apply elem_of_list_In in Hx. by destruct (H x Hx) as [s ->].
    - apply elem_of_list_In in Hx. specialize (H Hx). destruct x as [k []]; try done. by eexists. }
  unfold wordy, terse. split; repeat (apply Forall_cons_2; [first [by apply KA|apply KC|apply KR, N; reflexivity|apply KO; apply V; [reflexivity|apply KV; reflexivity|reflexivity|apply KV; reflexivity]
    |apply KO; (apply V; [reflexivity|apply KV; reflexivity])]|]); apply Forall_nil_2; done.
Qed.
Lemma same_box_same_words from1 cs1 cs2 : Forall command_ok cs1 -> Forall command_ok cs2 ->
  Forall (fun r => is_ok r = true) (outcomes from1 None cs1) -> Forall (fun r => is_ok r = true) (outcomes from1 None cs2) ->
  state_after from1 None cs1 = state_after from1 None cs2 ->
  (forall n, fold_left replay_types cs1 ∅ !! n = fold_left replay_types cs2 ∅ !! n) ->
  (forall x, last_class cs1 x <-> last_class cs2 x) -> same_words from1 cs1 cs2.
Proof.
  intros C1 C2 U1 U2 E T K. split; [| | | | |exact K].
  - intros s n d Hw Hf. assert (D : s = SPlain KAttributeMapping \/ s <> SPlain KAttributeMapping).
    { destruct s as [[]| | |]; try (by right). by left. }
    destruct D as [-> |Hs]; [split; intros (be & c & la & _ & X & _); by apply says_not_mapping in X|].
    assert (Z : box_datum box_new s n = None).
    { destruct s as [k|k l|t|f]; cbn; try (by rewrite lookup_empty). destruct k; try (by rewrite lookup_empty). done. }
    pose proof (run_last from1 cs1 None plain_new C1 U1 s n (conj Hs (conj Hw Hf)) d) as L1.
    pose proof (run_last from1 cs2 None plain_new C2 U2 s n (conj Hs (conj Hw Hf)) d) as L2. cbn [unwrap_or] in L1, L2.
    rewrite Z in L1, L2. rewrite <- E in L2. split; intros X.
    + destruct (proj1 L2) as [?|[_ ?]]; [by apply L1; left|done|done].
    + destruct (proj1 L1) as [?|[_ ?]]; [by apply L2; left|done|done].
  - intros s n d Hw. rewrite <- (proj1 (run_first from1 s n cs1 Hw C1 U1) d), <- (proj1 (run_first from1 s n cs2 Hw C2 U2) d). by rewrite E.
  - intros f n. pose proof (run_framed from1 cs1 None plain_new C1 U1 f n) as L1. pose proof (run_framed from1 cs2 None plain_new C2 U2 f n) as L2.
    cbn [unwrap_or] in L1, L2. assert (Z : box_datum box_new (SFrame f) n = None) by (cbn; by rewrite lookup_empty). rewrite Z in L1, L2.
    rewrite <- E in L2. split; intros X.
    + destruct (proj1 L2) as [?|[_ ?]]; [by apply L1; left|done|done].
    + destruct (proj1 L1) as [?|[_ ?]]; [by apply L2; left|done|done].
  - intros f n sc x. pose proof (run_scope from1 cs1 None plain_new C1 U1 f n sc x) as L1. pose proof (run_scope from1 cs2 None plain_new C2 U2 f n sc x) as L2.
    cbn [unwrap_or] in L1, L2. assert (Z : scope_at box_new f n sc = None) by (unfold scope_at; cbn; by rewrite lookup_empty). rewrite Z in L1, L2.
    rewrite <- E in L2. split; intros X.
    + destruct (proj1 L2) as [?|[_ ?]]; [by apply L1; left|done|done].
    + destruct (proj1 L1) as [?|[_ ?]]; [by apply L2; left|done|done].
  - intros n t. pose proof (replay_last cs1 n t ∅) as L1. pose proof (replay_last cs2 n t ∅) as L2. rewrite lookup_empty in L1, L2. rewrite <- T in L2.
    split; intros X.
    + destruct (proj1 L2) as [?|[_ ?]]; [by apply L1; left|done|done].
    + destruct (proj1 L1) as [?|[_ ?]]; [by apply L2; left|done|done].
Qed.
Local Instance fscope_dec : EqDecision fscope. Proof. solve_decision. Defined.
Local Instance ecodes_dec : EqDecision ecodes. Proof. solve_decision. Defined.
Local Instance entries_dec : EqDecision entries. Proof. solve_decision. Defined.
Local Instance framing_dec : EqDecision framing. Proof. unfold framing. solve_decision. Defined.
Local Instance attribute_dec : EqDecision attribute. Proof. solve_decision. Defined.
Local Instance obox_dec : EqDecision obox. Proof. solve_decision. Defined.
(** example *)
Definition built (r : bresult) : bool := match r with BuildOk _ _ => true | _ => false end.
Lemma last_classify cs pre post s : cs = pre ++ classify s :: post ->
  (forall c', c' ∈ post -> ~ unclassifies c' /\ forall x', ~ classifies x' c') -> forall x, last_class cs x <-> x = s.
Proof.
  intros E Hq. assert (L : last_class cs s).
  { exists pre, (classify s), post. split; [done|]. split; [|done]. eexists. split; [reflexivity|]. by eexists. }
  intros x. split; [|by intros ->]. intros Lx. destruct (class_last cs "") as [K _]. by rewrite <- (K x Lx), <- (K s L).
Qed.
Theorem C63_hypotheses_met : Forall command_ok wordy /\ Forall command_ok terse /\ framings_agree wordy /\
  same_words ex_from1 wordy terse /\ (forall ovs, no_collision inj_digest ovs) /\
  built (from_ast inj_digest ex_from1 (fun _ => ord1) None (mk_ast wordy)) = true /\
  built (from_ast inj_digest ex_from1 (fun _ => ord2) None (mk_ast terse)) = true /\
  last_word ex_from1 wordy (SLang KLabel "eng") "name" (DLabel "New" None) /\
  first_word ex_from1 wordy (SPlain KUnit) "name" (DText "kg") /\
  last_type wordy "name" (NVal TNumeric) /\ ~ (exists d, last_word ex_from1 wordy (SLang KLabel "eng") "age" d).
Proof.
  destruct terse_ok as [C1 C2].
  assert (U1 : Forall (fun r => is_ok r = true) (outcomes ex_from1 None wordy)).
  { apply Forall_forall. intros r Hr. assert (X : forallb (fun r => is_ok r) (outcomes ex_from1 None wordy) = true) by (vm_compute; reflexivity).
    eapply forallb_forall in X; [exact X|]. by apply elem_of_list_In. }
  assert (U2 : Forall (fun r => is_ok r = true) (outcomes ex_from1 None terse)).
  { apply Forall_forall. intros r Hr. assert (X : forallb (fun r => is_ok r) (outcomes ex_from1 None terse) = true) by (vm_compute; reflexivity).
    eapply forallb_forall in X; [exact X|]. by apply elem_of_list_In. }
  assert (W : same_words ex_from1 wordy terse).
  { apply same_box_same_words; try done.
    - apply (bool_decide_eq_true_1 _). vm_compute. reflexivity.
    - intros x. rewrite (last_classify wordy (firstn 10 wordy) [] "ISIC" eq_refl), (last_classify terse (firstn 4 terse) [] "ISIC" eq_refl); [done| |];
        intros c' X; by apply not_elem_of_nil in X. }
  assert (SF : box_datum (unwrap_or box_new (state_after ex_from1 None wordy)) (SPlain KUnit) "name" = Some (DText "kg")) by (vm_compute; reflexivity).
  assert (SL : box_datum (unwrap_or box_new (state_after ex_from1 None wordy)) (SLang KLabel "eng") "name" = Some (DLabel "New" None)) by (vm_compute; reflexivity).
  assert (SA : box_datum (unwrap_or box_new (state_after ex_from1 None wordy)) (SLang KLabel "eng") "age" = None) by (vm_compute; reflexivity).
  assert (OL : ordinary (SLang KLabel "eng")).
  { split; [done|]. split; [by intros [[=]|[=]]|by intros [? [=]]]. }
  split; [done|]. split; [done|]. split.
  { intros c1 c2 ct1 ct2 id H1 _ [v1 E1] _ _ _. exfalso. subst c1. apply elem_of_list_In in H1. cbn in H1.
    repeat (destruct H1 as [H1|H1]; [discriminate H1|]). done. }
  split; [done|]. split; [intros ovs x y _ _ H; by apply inj_digest_inj|].
  split; [vm_compute; reflexivity|]. split; [vm_compute; reflexivity|]. split; [|split; [|split]].
  - apply (run_last ex_from1 wordy None plain_new C1 U1 _ "name" OL) in SL as [L|[_ X]]; [exact L|exfalso; vm_compute in X; discriminate X].
  - apply (run_first ex_from1 (SPlain KUnit) "name" wordy (or_introl eq_refl) C1 U1). exact SF.
  - destruct (proj1 (replay_last wordy "name" (NVal TNumeric) ∅)) as [L|[_ X]]; [vm_compute; reflexivity|exact L|vm_compute in X; discriminate X].
  - intros [d X]. assert (Y := proj2 (run_last ex_from1 wordy None plain_new C1 U1 _ "age" OL d) (or_introl X)). discriminate (eq_trans (eq_sym SA) Y).
Qed.
Print Assumptions C63_hypotheses_met.

(** C63, continued: texts, and bundles built on bundles. *)
From Verif Require Import Spec_Last Upd_proofs Command_proofs Load_proofs Bundle_proofs Box_proofs Run_proofs Build_proofs Flags_proofs
  Last_proofs Last_runs Determinism_proofs Incremental_proofs Inj_digest Props_Bundle Props_Build Props_Last
  Replay_proofs Props_Reload Spec_Read OcaBuilds Props_Read Spec_Hand HandLayout Props_Hand.

Lemma scratch_reads_off digest from1 os a B steps : (forall i, order_ok (os i)) -> Forall command_ok (ast_commands a) ->
  from_ast digest from1 os None a = BuildOk B steps -> reads_off from1 (ast_commands a) B.
Proof.
  intros Ho Hc H. destruct (C63_no_other_overlays digest from1 os a B steps Ho Hc H) as (N1 & N2 & _).
  destruct (C63_capture_base digest from1 os a B steps Ho Hc H) as (T1 & T2 & T3 & T4 & T5). split; try done.
  - by apply (C63_last_word digest from1 os a B steps).
  - by apply (C63_first_word digest from1 os a B steps).
  - intros f n. by apply (C63_frames digest from1 os a B steps Ho Hc H f n).
  - intros f n. by apply (C63_frames digest from1 os a B steps Ho Hc H f n).
Qed.
(** Whatever the text, its bundle can be read off its commands. *)
Theorem C63_any_text : forall digest from1 os wide said_ok text a B steps, (forall i, order_ok (os i)) ->
  parse_ocafile wide said_ok text = Ok a -> from_ast digest from1 os None a = BuildOk B steps -> reads_off from1 (ast_commands a) B.
Proof.
  intros digest from1 os wide said_ok text a B steps Ho Hp H. apply C48_commands in Hp as [Hr _].
  apply (scratch_reads_off digest from1 os a B steps Ho); [|done]. eapply Forall_impl; [exact Hr|]. intros c. apply readable_ok.
Qed.
Print Assumptions C63_any_text.
(** In particular a hand-written file's bundle can be read off its lines. *)
Theorem C63_hand_written : forall digest from1 os wide said_ok lines text a B steps, (forall i, order_ok (os i)) ->
  Forall (fun ft => hline_ok wide ft.1) lines -> hfile wide said_ok lines text ->
  parse_ocafile wide said_ok text = Ok a -> from_ast digest from1 os None a = BuildOk B steps ->
  reads_off from1 (omap hline_command (map fst lines)) B.
Proof.
  intros digest from1 os wide said_ok lines text a B steps Ho Hl Hf Hp H.
  destruct (C62_same_commands wide said_ok lines text lines text a Hl Hf Hl Hf eq_refl Hp) as (_ & _ & _ & E & _). rewrite <- E.
  by apply (C63_any_text digest from1 os wide said_ok text a B steps).
Qed.
Print Assumptions C63_hand_written.
(** Two texts that say the same, in whatever words, lines and order. *)
Theorem C63_same_words_same_text : forall digest from1 os1 os2 wide said_ok t1 t2 a1 a2 B1 B2 steps1 steps2,
  (forall i, order_ok (os1 i)) -> (forall i, order_ok (os2 i)) ->
  parse_ocafile wide said_ok t1 = Ok a1 -> parse_ocafile wide said_ok t2 = Ok a2 -> framings_agree (ast_commands a1) ->
  same_words from1 (ast_commands a1) (ast_commands a2) ->
  from_ast digest from1 os1 None a1 = BuildOk B1 steps1 -> from_ast digest from1 os2 None a2 = BuildOk B2 steps2 ->
  no_collision digest (b_ovs B1) ->
  bundle_json B1 = bundle_json B2 /\ b_said B1 = b_said B2 /\ cb_said (b_cb B1) = cb_said (b_cb B2).
Proof.
  intros digest from1 os1 os2 wide said_ok t1 t2 a1 a2 B1 B2 steps1 steps2 O1 O2 P1 P2. apply C48_commands in P1 as [R1 _], P2 as [R2 _].
  apply C63_same_words_same_bundle; try done; (eapply Forall_impl; [eassumption|]; intros c; apply readable_ok).
Qed.
Print Assumptions C63_same_words_same_text.

(** ** Bundles built on bundles *)
Lemma built_tracked digest from1 M cs B : built_by digest from1 cs B -> Forall command_ok cs -> Forall (cmd_uniform M) cs ->
  exists x y, cs <> [] /\ Forall (fun r => is_ok r = true) (outcomes from1 None cs) /\ state_after from1 None cs = Some x /\
    bundle_right y B /\ tracked M x y.
Proof.
  induction 1 as [os a B steps Ho H|os a cs B0 B steps Ho H IH Hb]; intros Hc Hu.
  - destruct (first_part digest from1 os a B steps M Ho Hc Hu H) as (b & H1 & H2 & H3 & _ & R & T). by exists b, b.
  - apply Forall_app in Hc as [C1 C2]. apply Forall_app in Hu as [U1 U2]. destruct (IH C1 U1) as (x & y & Hne & Hok & Es & R & T).
    assert (Ty : tracked M y y) by (eapply tracked_trans; [apply tracked_sym; exact T|exact T]).
    destruct (reload_tracked M (os (S (length (ast_commands a)))) B0 y (Ho _) R Ty) as (y' & L & T').
    assert (T2 : tracked M x y') by (eapply tracked_trans; [exact T|exact T']).
    destruct (run_tracked from1 M (ast_commands a) x y' T2 C2 U2) as (F & x2 & y2 & X & Y & T3).
    rewrite (from_ast_base_of digest from1 os (Some B0) a (Some y')) in Hb by by constructor. apply base_ok in Hb as (Hk & _ & b & E & G).
    rewrite Y in E. injection E as <-. exists x2, y2. split; [by destruct cs|].
    destruct (C02_proof (os (length (ast_commands a))) (Ho _) digest y2 (api_box_ok y2 (tk_api2 M _ _ T3))) as (B' & G' & R'). rewrite G in G'. injection G' as <-.
    rewrite outcomes_app, state_after_app, Es. split; [|done]. apply Forall_app. split; [done|]. by apply (same_flags _ _ F).
Qed.
Lemma sim_datum b1 b2 s n : box_sim b1 b2 -> erase_datum <$> box_datum b1 s n = erase_datum <$> box_datum b2 s n.
Proof.
  intros H. destruct s as [k|k l|t|f]; [| destruct (decide (k = KMeta)) as [->|Hk]; [by rewrite (bs_meta b1 b2 H)|] | |];
    (rewrite !box_datum_attr by (intros ? [=]; done); destruct (bs_attrs b1 b2 H n) as [a1 a2 S|]; [|done]; cbn -[attr_datum]; by apply (as_facts a1 a2 S)).
Qed.
Lemma erase_text d d' : erase_datum d = erase_datum d' -> (forall f, d <> DFraming f) -> (forall e, d <> DCodes e) -> d = d'.
Proof. destruct d; cbn; try (by intros _ H; destruct (H f)); try (by intros _ _ H; destruct (H e)); destruct d'; cbn; congruence. Qed.
(** What a bundle says is the last word of the whole chain of commands behind it: of the bundle it was built FROM first, its own then.
    (Of an array of entry codes only the elements are told, of a scope the two texts the bundle shows.) *)
Theorem C63_from : forall digest from1 cs B, built_by digest from1 cs B -> Forall command_ok cs -> framings_agree cs ->
  (forall s n d, ~ first_wins s -> ~ is_frame s -> bundle_says B s n d <-> last_word from1 cs s n d) /\
  (forall n d, bundle_says B (SPlain KUnit) n d <-> first_word from1 cs (SPlain KUnit) n d) /\
  (forall n e, (exists d, bundle_says B (SPlain KEntryCode) n d /\ erase_datum d = e) <->
     exists d, first_word from1 cs (SPlain KEntryCode) n d /\ erase_datum d = e) /\
  (forall f n, (exists d, bundle_says B (SFrame f) n d) <-> framed from1 cs f n) /\
  (forall f n d, bundle_says B (SFrame f) n d -> exists g, d = DFraming g /\ forall sc p j,
     (exists m, g !! sc = Some (FScope p j m)) <-> exists m, last_scope from1 cs f n sc (FScope p j m)) /\
  (forall n t, (n, t) ∈ cb_attrs (b_cb B) <-> last_type cs n t) /\
  (forall x, last_class cs x -> cb_class (b_cb B) = x) /\ ((forall x, ~ last_class cs x) -> cb_class (b_cb B) = "").
Proof.
  intros digest from1 cs B Hb Hc Hag. destruct (built_tracked digest from1 (M_of cs) cs B Hb Hc (agree_uniform _ Hag Hc)) as (x & y & Hne & Hok & Es & R & T).
  assert (Sim := tk_sim _ _ _ T). assert (Hy := proj2 (bs_maps x y Sim)).
  assert (Bb : forall s n d, bundle_says B s n d <-> box_datum y s n = Some d) by (intros; by apply bundle_box_at).
  assert (D := fun s n => sim_datum x y s n Sim).
  assert (Dxy : forall s n d, box_datum x s n = Some d -> exists d', box_datum y s n = Some d' /\ erase_datum d = erase_datum d').
  { intros s n d E. specialize (D s n). rewrite E in D. destruct (box_datum y s n) as [d'|]; [|done]. injection D as D. by exists d'. }
  assert (Dyx : forall s n d, box_datum y s n = Some d -> exists d', box_datum x s n = Some d' /\ erase_datum d' = erase_datum d).
  { intros s n d E. specialize (D s n). rewrite E in D. destruct (box_datum x s n) as [d'|]; [|done]. injection D as D. by exists d'. }
  assert (Plainly : forall s n d b, ~ is_frame s -> s <> SPlain KEntryCode -> box_datum b s n = Some d -> (forall f, d <> DFraming f) /\ (forall e, d <> DCodes e)).
  { intros s n d b Hf He E. destruct s as [k|k l|t|f]; [| | |by destruct Hf; eexists].
    - cbn in E. destruct (bx_attrs b !! n) as [a|]; [|done]. cbn in E. destruct k; try done; cbn in E;
        try discriminate E; apply fmap_Some in E as (? & _ & ->); done.
    - destruct (decide (k = KMeta)) as [->|Hk].
      + rewrite box_datum_meta in E. destruct (unwrap_or ∅ (bx_meta b) !! l ≫= lookup n); [|done]. by injection E as <-.
      + rewrite box_datum_attr in E by congruence. destruct (bx_attrs b !! n) as [a|]; [|done]. cbn [mbind option_bind] in E. destruct k; try done; cbn in E;
        try discriminate E; apply fmap_Some in E as (? & _ & ->); done.
    - cbn in E. destruct (bx_attrs b !! n) as [a|]; [|done]. cbn in E. destruct (lookup_opt t (at_links a)); [|done]. by injection E as <-. }
  assert (Same : forall s n d, ~ is_frame s -> s <> SPlain KEntryCode -> box_datum y s n = Some d <-> box_datum x s n = Some d).
  { intros s n d Hf He. split; intros E.
    - destruct (Dyx s n d E) as (d' & E' & Q). destruct (Plainly s n d' x Hf He E') as [P1 P2]. by rewrite <- (erase_text d' d Q P1 P2).
    - destruct (Dxy s n d E) as (d' & E' & Q). destruct (Plainly s n d x Hf He E) as [P1 P2]. by rewrite (erase_text d d' Q P1 P2). }
  split; [|split; [|split; [|split; [|split; [|split; [|split]]]]]].
  - intros s n d Hw Hf. rewrite Bb. rewrite Same; [|done|by intros ->; apply Hw; right].
    assert (Ds : s = SPlain KAttributeMapping \/ s <> SPlain KAttributeMapping).
    { destruct s as [[]| | |]; try (by right). by left. }
    destruct Ds as [-> |Hs].
    + rewrite box_datum_mapping. split; [done|]. intros (be & c & la & _ & X & _). by apply says_not_mapping in X.
    + pose proof (run_last from1 cs None plain_new Hc Hok s n (conj Hs (conj Hw Hf)) d) as L. rewrite Es in L. cbn [unwrap_or] in L. rewrite L. split.
      * intros [?|[_ X]]; [done|]. exfalso. destruct s as [k|k l|t|f]; cbn in X; try (by rewrite lookup_empty in X). destruct k; try (by rewrite lookup_empty in X). done.
      * intros; by left.
  - intros n d. rewrite Bb, Same by (try done; by intros [? [=]]). pose proof (run_first from1 (SPlain KUnit) n cs (or_introl eq_refl) Hc Hok) as [L _]. rewrite Es in L. apply L.
  - intros n e. pose proof (run_first from1 (SPlain KEntryCode) n cs (or_intror eq_refl) Hc Hok) as [L _]. rewrite Es in L. cbn [unwrap_or] in L. split.
    + intros (d & Hd%Bb & <-). destruct (Dyx _ _ _ Hd) as (d' & E' & Q). exists d'. split; [by apply L|done].
    + intros (d & Hd%L & <-). destruct (Dxy _ _ _ Hd) as (d' & E' & Q). exists d'. split; [by apply Bb|done].
  - intros f n. pose proof (run_framed from1 cs None plain_new Hc Hok f n) as L. rewrite Es in L. cbn [unwrap_or] in L.
    assert (Z : box_datum box_new (SFrame f) n = None) by (cbn; by rewrite lookup_empty). split.
    + intros [d Hd%Bb]. destruct (Dyx _ _ _ Hd) as (d' & E' & Q). destruct (proj1 L) as [?|[_ Y]]; [congruence|done|done].
    + intros X. destruct (box_datum x (SFrame f) n) as [d|] eqn:Ed; [|exfalso; by apply (proj2 L); [left|]].
      destruct (Dxy _ _ _ Ed) as (d' & E' & _). exists d'. by apply Bb.
  - intros f n d Hd%Bb. destruct (Dyx _ _ _ Hd) as (d' & E' & Q). destruct (box_frame y f n) as [Y|[g Y]]; [congruence|].
    destruct (box_frame x f n) as [Y'|[g' Y']]; [congruence|]. assert (d = DFraming g) as -> by congruence. assert (d' = DFraming g') as -> by congruence.
    exists g. split; [done|]. cbn in Q. injection Q as Q. intros sc p j.
    assert (Z : scope_at box_new f n sc = None) by (unfold scope_at; cbn; by rewrite lookup_empty).
    assert (L : forall s, g' !! sc = Some s <-> last_scope from1 cs f n sc s).
    { intros s. pose proof (run_scope from1 cs None plain_new Hc Hok f n sc s) as L. rewrite Es in L. cbn [unwrap_or] in L. unfold scope_at in L at 1. rewrite Y', Z in L.
      rewrite L. split; [intros [?|[_ ?]]; done|by left]. }
    assert (K : (exists m, g !! sc = Some (FScope p j m)) <-> exists m, g' !! sc = Some (FScope p j m)).
    { assert (Q' : erase_scope <$> g' !! sc = erase_scope <$> g !! sc).
      { etrans; [symmetry; exact (lookup_fmap (M := gmap string) erase_scope g' sc)|]. etrans; [|exact (lookup_fmap (M := gmap string) erase_scope g sc)]. exact (f_equal (lookup (M := gmap string _) sc) Q). }
      split; intros [m E]; rewrite E in Q'; cbn in Q'.
      - destruct (g' !! sc) as [[p' j' m']|]; [|done]. cbn in Q'. injection Q' as -> ->. by eexists.
      - destruct (g !! sc) as [[p' j' m']|]; [|done]. cbn in Q'. injection Q' as -> ->. by eexists. }
    rewrite K. split; intros [m E]; exists m; by apply L.
  - intros n t. rewrite (br_types y B R n t).
    assert (E : (exists a, bx_attrs y !! n = Some a /\ at_type a = Some t) <-> box_types x n = Some t).
    { unfold box_types. destruct (bs_attrs x y Sim n) as [a1 a2 S|]; [|by split; [intros (? & ? & _)|]]. cbn. rewrite (as_type a1 a2 S). split.
      - by intros (? & [= <-] & ?).
      - intros ?. by exists a2. }
    rewrite E. pose proof (run_types from1 cs None ∅ Hc ltac:(done) ltac:(intros m; cbn; unfold box_types; cbn; by rewrite !lookup_empty) Hok n) as Q. rewrite Es in Q. cbn [unwrap_or] in Q.
    rewrite Q, replay_last, lookup_empty. split; [intros [?|[_ ?]]; done|by left].
  - rewrite (br_class y B R), <- (bs_class x y Sim). pose proof (run_class from1 cs None Hc ltac:(done) Hok) as Q. rewrite Es in Q. cbn in Q. rewrite Q.
    apply class_last.
  - rewrite (br_class y B R), <- (bs_class x y Sim). pose proof (run_class from1 cs None Hc ltac:(done) Hok) as Q. rewrite Es in Q. cbn in Q. rewrite Q.
    intros Hn. by destruct (proj2 (class_last cs "") Hn) as [?|[_ ?]].
Qed.
Print Assumptions C63_from.
(** And the shape of such a bundle: one overlay per slot, each of them saying something, one answer per attribute, each attribute once, none flagged. *)
Theorem C63_from_shape : forall digest from1 cs B, built_by digest from1 cs B -> Forall command_ok cs -> framings_agree cs ->
  NoDup (map (fun ov => body_slot (ov_body ov)) (b_ovs B)) /\
  (forall ov, ov ∈ b_ovs B -> body_tidy (ov_body ov) /\ exists n d, body_datum (ov_body ov) n = Some d) /\
  (forall s n d d', bundle_says B s n d -> bundle_says B s n d' -> d = d') /\
  NoDup (map fst (cb_attrs (b_cb B))) /\ cb_flagged (b_cb B) = [].
Proof.
  intros digest from1 cs B Hb Hc Hag. destruct (built_tracked digest from1 (M_of cs) cs B Hb Hc (agree_uniform _ Hag Hc)) as (x & y & _ & _ & _ & R & T).
  assert (Hy := proj2 (bs_maps x y (tk_sim _ _ _ T))). split; [|split; [|split; [|split]]].
  - assert (X := br_slots y B R). rewrite <- (map_map ov_body body_slot).
    replace (map ov_body (b_ovs B)) with (List.filter (fun x => negb (is_mapping x)) (map ov_body (b_ovs B))); [exact X|].
    assert (K : forall l, (forall ov, ov ∈ l -> body_slot (ov_body ov) <> SPlain KAttributeMapping) ->
      List.filter (fun x => negb (is_mapping x)) (map ov_body l) = map ov_body l).
    { induction l as [|ov l IH]; intros Hl; [done|]. cbn. rewrite IH by (intros o' Ho'; apply Hl; by right).
      assert (N := Hl ov ltac:(left)). destruct (is_mapping (ov_body ov)) eqn:Em; [|done]. by destruct (ov_body ov). }
    apply K. by apply (no_mapping_overlay_at y).
  - intros ov Hin. split; [by apply (br_tidy y B R)|]. assert (Hs := no_mapping_overlay_at y B Hy R ov Hin).
    destruct (proj1 (br_exists y B R _ Hs)) as (n & d & Hd); [by exists ov|]. exists n, d. by apply (br_facts y B R ov n d Hin Hs).
  - intros s n d d' X Y. apply (bundle_box_at y B s n _ Hy R) in X, Y. congruence.
  - apply (br_names y B R).
  - clear - Hb Hc. induction Hb as [os a B steps Ho H|os a cs B0 B steps Ho H IH Hb].
    + pose proof (C39_flags_come_from_base digest from1 os None a B steps Ho Hc H) as F. destruct (cb_flagged (b_cb B)) as [|n l]; [done|].
      exfalso. destruct (proj1 (F n)) as [X _]; [by left|]. by apply not_elem_of_nil in X.
    + apply Forall_app in Hc as [C1 C2]. pose proof (C39_flags_come_from_base digest from1 os (Some B0) a B steps Ho C2 Hb) as F.
      cbn in F. rewrite (IH C1) in F. destruct (cb_flagged (b_cb B)) as [|n l]; [done|].
      exfalso. destruct (proj1 (F n)) as [X _]; [by left|]. by apply not_elem_of_nil in X.
Qed.
Print Assumptions C63_from_shape.
Lemma built_chain (r : bresult) (f : bundle -> bresult) : built (match r with BuildOk B _ => f B | r => r end) = true ->
  exists B s B2 s2, r = BuildOk B s /\ f B = BuildOk B2 s2.
Proof. destruct r as [B s| |]; try done. destruct (f B) as [B2 s2| |] eqn:E; try done. intros _. by exists B, s, B2, s2. Qed.
(** A bundle built on a bundle: [wordy] first, then [terse] FROM it. *)
Theorem C63_from_hypotheses_met : Forall command_ok (wordy ++ terse) /\ framings_agree (wordy ++ terse) /\
  exists B, built_by inj_digest ex_from1 (wordy ++ terse) B /\
    bundle_says B (SLang KLabel "eng") "name" (DLabel "New" None) /\ bundle_says B (SPlain KUnit) "name" (DText "kg") /\
    reads_off ex_from1 (ast_commands (mk_ast wordy)) (match from_ast inj_digest ex_from1 (fun _ => ord1) None (mk_ast wordy) with BuildOk B _ => B | _ => B end).
Proof.
  destruct terse_ok as [C1 C2].
  assert (C : Forall command_ok (wordy ++ terse)) by (by apply Forall_app).
  assert (Fa : framings_agree (wordy ++ terse)).
  { intros c1 c2 ct1 ct2 id H1 _ [v1 E1] _ _ _. exfalso. subst c1. apply elem_of_list_In in H1. cbn in H1.
    repeat (destruct H1 as [H1|H1]; [discriminate H1|]). done. }
  destruct (built_chain (from_ast inj_digest ex_from1 (fun _ => ord1) None (mk_ast wordy))
    (fun B => from_ast inj_digest ex_from1 (fun _ => ord2) (Some B) (mk_ast terse))) as (B0 & s0 & B & s & E0 & E); [vm_compute; reflexivity|].
  split; [exact C|]. split; [exact Fa|]. exists B.
  assert (Hb : built_by inj_digest ex_from1 (wordy ++ terse) B).
  { apply (bb_from _ _ (fun _ => ord2) (mk_ast terse) wordy B0 B s (fun _ => ord2_ok)); [|exact E].
    exact (bb_scratch _ _ (fun _ => ord1) (mk_ast wordy) B0 s0 (fun _ => ord1_ok) E0). }
  split; [exact Hb|]. destruct (C63_from inj_digest ex_from1 _ B Hb C Fa) as (L & U & _).
  assert (K : Forall (fun r => is_ok r = true) (outcomes ex_from1 None (wordy ++ terse))).
  { apply Forall_forall. intros r Hr. assert (X : forallb (fun r => is_ok r) (outcomes ex_from1 None (wordy ++ terse)) = true) by (vm_compute; reflexivity).
    eapply forallb_forall in X; [exact X|]. by apply elem_of_list_In. }
  assert (SF : box_datum (unwrap_or box_new (state_after ex_from1 None (wordy ++ terse))) (SPlain KUnit) "name" = Some (DText "kg")) by (vm_compute; reflexivity).
  assert (SL : box_datum (unwrap_or box_new (state_after ex_from1 None (wordy ++ terse))) (SLang KLabel "eng") "name" = Some (DLabel "New" None)) by (vm_compute; reflexivity).
  assert (OL : ordinary (SLang KLabel "eng")).
  { split; [done|]. split; [by intros [[=]|[=]]|by intros [? [=]]]. }
  split; [|split].
  - apply L; [by intros [[=]|[=]]|by intros [? [=]]|].
    apply (run_last ex_from1 (wordy ++ terse) None plain_new C K _ "name" OL) in SL as [X|[_ X]]; [exact X|exfalso; vm_compute in X; discriminate X].
  - apply U. apply (run_first ex_from1 (SPlain KUnit) "name" (wordy ++ terse) (or_introl eq_refl) C K). exact SF.
  - rewrite E0. exact (scratch_reads_off inj_digest ex_from1 (fun _ => ord1) (mk_ast wordy) B0 s0 (fun _ => ord1_ok) C1 E0).
Qed.
Print Assumptions C63_from_hypotheses_met.
(** Saying it again: commands FROM a bundle after which the last words are what they were leave the bundle as it is. *)
Theorem C63_said_again : forall digest from1 os1 os2 a1 a2 B1 B2 steps1 steps2,
  (forall i, order_ok (os1 i)) -> (forall i, order_ok (os2 i)) ->
  Forall command_ok (ast_commands a1 ++ ast_commands a2) -> framings_agree (ast_commands a1 ++ ast_commands a2) ->
  same_words from1 (ast_commands a1) (ast_commands a1 ++ ast_commands a2) ->
  from_ast digest from1 os1 None a1 = BuildOk B1 steps1 -> from_ast digest from1 os2 (Some B1) a2 = BuildOk B2 steps2 ->
  no_collision digest (b_ovs B1) -> no_collision digest (b_ovs B2) ->
  bundle_json B1 = bundle_json B2 /\ b_said B1 = b_said B2.
Proof.
  intros digest from1 os1 os2 a1 a2 B1 B2 steps1 steps2 O1 O2 Hc Hag W H1 H2 N1 N2.
  pose proof (C37_incremental_build digest from1 os1 os2 os1 a1 a2 (Ast "1.0.0" (ast_commands a1 ++ ast_commands a2) [] ∅) B1 steps1 O1 O2 O1 eq_refl Hc Hag H1) as K.
  rewrite H2 in K. destruct (from_ast digest from1 os1 None (Ast "1.0.0" (ast_commands a1 ++ ast_commands a2) [] ∅)) as [B s| |] eqn:E; [|done..].
  destruct (K N2) as [J S]. rewrite J, S. destruct (C63_same_words_same_bundle digest from1 os1 os1 a1 (Ast "1.0.0" (ast_commands a1 ++ ast_commands a2) [] ∅) B1 B steps1 s) as (J1 & S1 & _); try done.
  - by apply Forall_app in Hc as [? _].
  - intros c1 c2 ct1 ct2 id X1 X2. apply Hag; by apply elem_of_app; left.
Qed.
Print Assumptions C63_said_again.
Local Instance fscope_dec : EqDecision fscope. Proof. solve_decision. Defined.
Local Instance ecodes_dec : EqDecision ecodes. Proof. solve_decision. Defined.
Local Instance entries_dec : EqDecision entries. Proof. solve_decision. Defined.
Local Instance framing_dec : EqDecision framing. Proof. unfold framing. solve_decision. Defined.
Local Instance attribute_dec : EqDecision attribute. Proof. solve_decision. Defined.
Local Instance obox_dec : EqDecision obox. Proof. solve_decision. Defined.
Theorem C63_said_again_met : Forall command_ok (wordy ++ terse) /\ framings_agree (wordy ++ terse) /\
  same_words ex_from1 wordy (wordy ++ terse) /\ (forall ovs, no_collision inj_digest ovs) /\
  exists B1 s1 B2 s2, from_ast inj_digest ex_from1 (fun _ => ord1) None (mk_ast wordy) = BuildOk B1 s1 /\
    from_ast inj_digest ex_from1 (fun _ => ord2) (Some B1) (mk_ast terse) = BuildOk B2 s2.
Proof.
  destruct terse_ok as [C1 C2].
  assert (C : Forall command_ok (wordy ++ terse)) by (by apply Forall_app).
  destruct C63_from_hypotheses_met as (_ & Fa & _). split; [exact C|]. split; [exact Fa|].
  assert (U1 : Forall (fun r => is_ok r = true) (outcomes ex_from1 None wordy)).
  { apply Forall_forall. intros r Hr. assert (X : forallb (fun r => is_ok r) (outcomes ex_from1 None wordy) = true) by (vm_compute; reflexivity).
    eapply forallb_forall in X; [exact X|]. by apply elem_of_list_In. }
  assert (U2 : Forall (fun r => is_ok r = true) (outcomes ex_from1 None (wordy ++ terse))).
  { apply Forall_forall. intros r Hr. assert (X : forallb (fun r => is_ok r) (outcomes ex_from1 None (wordy ++ terse)) = true) by (vm_compute; reflexivity).
    eapply forallb_forall in X; [exact X|]. by apply elem_of_list_In. }
  split.
  { apply same_box_same_words; try done.
    - apply (bool_decide_eq_true_1 _). vm_compute. reflexivity.
    - intros x. rewrite (last_classify wordy (firstn 10 wordy) [] "ISIC" eq_refl), (last_classify (wordy ++ terse) (wordy ++ firstn 4 terse) [] "ISIC" eq_refl); [done| |];
        intros c' X; by apply not_elem_of_nil in X. }
  split; [intros ovs x y _ _ H; by apply inj_digest_inj|].
  apply built_chain. vm_compute. reflexivity.
Qed.
Print Assumptions C63_said_again_met.

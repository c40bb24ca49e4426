(** C47 with ATTR_FRAMING commands: what the facade exports builds the bundle again, also when it is written on several lines. *)
From Verif Require Import Base Ast Bundle Spec_Bundle Build Spec_Build Text Facade Spec_Facade Spec_BundleCodec Spec_Ast Spec_Refs Spec_Total Spec_Export Facade_proofs Props_Storage AstValidator AstValidator_proofs Props_Ast Run_proofs Build_proofs
  Bundle_proofs Box_proofs Determinism_proofs Command_proofs Incremental_proofs Stored_proofs BundleCodec_proofs Props_BundleCodec Props_Bundle Props_Build Props_Codec Props_Dag Props_Facade
  History_proofs Props_History Props_Refs Props_From VBuild_proofs Replay_proofs Peg OcaGrammar OcaFile Spec_OcaFile AsRead Props_OcaFile ToAst ToAst_proofs Reload_proofs Load_proofs Props_Reload Props_ToAst Export Spec_Writable Spec_Framing Props_Framing Props_Export Spec_Read Props_Read.
Local Open Scope list_scope.

Lemma read_back_placed_back cs c : well_placed (map read_back cs) (read_back c) -> well_placed cs c.
Proof.
  intros (H1 & H2 & H3). split; [|split]; intros n Hn.
  - rewrite <- (read_back_stack names_attr) by exact read_back_names_attr. apply H1. by apply read_back_names_attr.
  - rewrite <- (read_back_stack names_attr) by exact read_back_names_attr. apply H2. by apply read_back_names_attr.
  - rewrite <- (read_back_stack names_prop) by exact read_back_names_prop. apply H3. by apply read_back_names_prop.
Qed.
Lemma framing_plain c n : framing_ok c -> ~ mentions c n.
Proof. intros [ver ats ps _ _ _ _] [(l & a & t & (p & fl & E) & _)|(x & pre & post & (v & a & E) & _)]; discriminate E. Qed.
Lemma says_plain wide said_ok c n : says wide said_ok c -> ~ mentions c n.
Proof. intros [H|H]; [by eapply printable_plain|by apply framing_plain]. Qed.
Lemma says_not_from wide said_ok c : says wide said_ok c -> cmd_kind (as_read c) <> CFrom.
Proof. intros [H|H]; [by eapply printable_not_from|]. by destruct H as [ver ats ps _ _ _ _]. Qed.
Lemma read_settled wide said_ok cs : Forall (says wide said_ok) cs -> Forall settled cs -> map read_back cs = map as_read cs.
Proof.
  intros H Hs. apply map_ext_Forall. eapply Forall_impl; [exact (proj2 (Forall_and _ _) (conj H Hs))|]. intros c [[Hc|Hc] Hst]; unfold read_back.
  - by rewrite (printable_not_framing _ _ _ Hc).
  - rewrite (framing_is c Hc). by apply settled_read.
Qed.
Lemma build_says wide said_ok digest from1 os from a a' : Forall (says wide said_ok) (ast_commands a) -> ast_commands a' = map as_read (ast_commands a) ->
  same_build (from_ast digest from1 os from a') (from_ast digest from1 os from a).
Proof.
  intros H E. apply (build_same as_read); [|done]. eapply Forall_impl; [exact H|]. intros c [Hc|Hc] st; [by eapply apply_as_read|]. destruct Hc as [ver ats ps _ _ _ _]. reflexivity.
Qed.

(** A text printed from commands that come back as they were, read again: accepted exactly when the commands can stand one after
    the other, and then validating it, on any facade, builds what the commands build. *)
Theorem C47_framing_text_builds : forall wide said_ok cs, Forall (says wide said_ok) cs -> Forall settled cs -> exists s,
  generate_ocafile (commands_ast cs) = Ok s /\
  ((exists b, parse_ocafile wide said_ok s = Ok b) <-> each_placed cs) /\
  forall b, parse_ocafile wide said_ok s = Ok b ->
  forall digest from1 digits lang_ok standard_read of_text os g B steps, from_ast digest from1 os None (commands_ast cs) = BuildOk B steps ->
  exists steps', validate_ast digest from1 said_ok digits lang_ok standard_read of_text os b g = Ok (g, (B, steps')) /\ map step_data steps' = map step_data steps.
Proof.
  intros wide said_ok cs Hp Hst. destruct (C41_framing_round_trip wide said_ok (commands_ast cs) Hp) as (ts & H2 & Eg & Ep). cbn [ast_commands commands_ast] in *.
  exists (file_of ts). split; [done|]. pose proof (Forall2_length _ _ _ H2) as Hlen. rewrite Ep. set (fc := gline_commands 0 (zip (map gline_of cs) ts)) in *.
  assert (Efst : map fst fc = map as_read cs) by (rewrite <- (read_settled _ _ _ Hp Hst); by apply gline_commands_fst). split.
  - split.
    + intros [b Eb] pre c post E. apply C15_assembly in Eb as [Hw _]. subst cs. rewrite map_app in Efst. cbn in Efst. apply map_eq_app in Efst as (p1 & r1 & E1 & E2 & E3).
      destruct r1 as [|[d m] r1]; [discriminate E3|]. injection E3 as E3 _. apply as_read_placed. rewrite <- E2, <- E3. apply (Hw p1 d m r1 E1).
    + intros Hw. eexists. apply C15_assembly. split; [|reflexivity]. intros pre c m post E.
      assert (E' : map as_read cs = map fst pre ++ c :: map fst post) by (by rewrite <- Efst, E, map_app).
      apply map_eq_app in E' as (p' & rest & E1 & <- & E2). destruct rest as [|d rest]; [discriminate E2|]. injection E2 as <- _. apply as_read_placed, (Hw p' d rest E1).
  - intros b Eb digest from1 digits lang_ok standard_read of_text os g B steps HB. apply C15_assembly in Eb as [_ ->]. rewrite Efst.
    set (b := Ast "1.0.0" (map as_read cs) (zip (seq 0 (length fc)) (map snd fc)) ∅).
    pose proof (build_says wide said_ok digest from1 os None (commands_ast cs) b Hp eq_refl) as Hs. rewrite HB in Hs.
    unfold validate_ast. assert (Ec : check_base said_ok digits lang_ok standard_read of_text (fa_cache g) b = Ok (None, b)).
    { unfold check_base. subst b. cbn [ast_commands]. destruct Hp as [|c cs' Hc _]; [done|]. cbn [map]. pose proof (says_not_from _ _ _ Hc) as Hk.
      destruct (as_read c) as [k ob]. cbn in Hk. destruct k; try done. }
    rewrite Ec. cbn [obind snd fst]. subst b. cbn [ast_commands ast_version ast_cmeta ast_meta]. rewrite resolve_plain.
    2: { intros c n Hin. apply elem_of_list_fmap in Hin as (d & -> & Hd). intros Hm. rewrite Forall_forall in Hp. apply (says_plain wide said_ok d n (Hp d Hd)), as_read_mentions, Hm. }
    clear HB. cbn [obind]. rewrite lookup_empty. destruct (from_ast digest from1 os None _) as [B' ss|es|]; [|destruct Hs..].
    destruct Hs as [ -> E]. by exists ss.
Qed.
Print Assumptions C47_framing_text_builds.

(** ** Exporting what a run stored *)
Theorem C47_framing_export_builds : forall wide digest from1 to1 listing said_ok digits lang_ok standard_read to_text of_text hash ss f,
  text_ok to_text of_text -> digits_class digits -> said_ok "" = false ->
  steps_run digest from1 to1 listing said_ok digits lang_ok standard_read to_text of_text hash ss f -> steps_fine digest said_ok digits lang_ok ss ->
  forall n k cs, get_ast said_ok digits lang_ok standard_read of_text n f k = Some (Ok cs) -> Forall (says wide said_ok) cs -> Forall settled cs ->
  exists s B0, (forall dereference, export_file said_ok digits lang_ok standard_read of_text n f k dereference = Some (Ok s)) /\
  get_bundle said_ok digits lang_ok standard_read of_text (fa_cache f) k = Ok B0 /\
  ((exists b, parse_ocafile wide said_ok s = Ok b) <-> each_placed cs) /\
  forall b, parse_ocafile wide said_ok s = Ok b -> forall os g, (forall i, order_ok (os i)) ->
  exists B steps, validate_ast digest from1 said_ok digits lang_ok standard_read of_text os b g = Ok (g, (B, steps)) /\ b_said B = Some k /\ bundle_json B = bundle_json B0.
Proof.
  intros wide dig f1 t1 ls so dg lo sr tt ot hs ss f Ht Hd He HR Hf n k cs HA Hp Hst.
  destruct (C47_history_rebuilds dig f1 t1 ls so dg lo sr tt ot hs ss f Ht Hd He HR Hf n k cs HA) as (B0 & HF & HB).
  destruct (C47_framing_text_builds wide so cs Hp Hst) as (s & Eg & Hparse & Hval). exists s, B0. split.
  { intros d. unfold export_file. rewrite HA. destruct d; [|exact (f_equal Some Eg)]. rewrite resolve_plain; [exact (f_equal Some Eg)|].
    intros c m Hin. rewrite Forall_forall in Hp. apply (says_plain wide so), Hp, Hin. }
  split; [done|]. split; [done|]. intros b Eb os g Ho. destruct (HB os (commands_ast cs) Ho eq_refl) as (B & steps & EB & Ek & J).
  destruct (Hval b Eb dig f1 dg lo sr ot os g B steps EB) as (steps' & V & _). exists B, steps'. done.
Qed.
Print Assumptions C47_framing_export_builds.

(** Resolving names leaves these commands alone. *)
Lemma resolve_framing said_ok find cs : forall cs', resolve said_ok find cs = Ok cs' -> forall c, c ∈ cs' -> is_framing c = true -> c ∈ cs.
Proof.
  induction cs as [|c0 cs IH]; intros cs' H c Hc Hf; [by injection H as <-|]. cbn [resolve] in H. apply obind_ok in H as (c' & Hc' & H). apply obind_ok in H as (r & Hr & H).
  injection H as <-. apply elem_of_cons in Hc as [->|Hc]; [|right; by eapply IH]. cut (c' = c0); [intros ->; apply elem_of_list_here|].
  destruct c0 as [[] [[[l|] p fl]|b|[kd v] [a [p|]]]]; cbn [resolve_cmd] in Hc'; try (by injection Hc' as <-).
  - apply obind_ok in Hc' as (l' & _ & Hc'). by injection Hc' as <-.
  - destruct kd; try (by injection Hc' as <-). destruct (imap_get "target" p) as [[[s|m]|w|w|w]|]; try (by injection Hc' as <-).
    apply obind_ok in Hc' as (r' & _ & Hc'). by injection Hc' as <-.
  - destruct kd; by injection Hc' as <-.
Qed.
Lemma no_capitals_lower s : no_capitals s -> lower_case s.
Proof.
  unfold no_capitals, lower_case. induction s as [|c s IH]; [done|]. cbn [all_chars lower_str]. intros H. apply andb_true_iff in H as [Hc H]. rewrite (IH H). f_equal.
  revert Hc. destruct c as [[] [] [] [] [] [] [] []]; vm_compute; done.
Qed.
(** Once read, a command is as it will come back. *)
Lemma read_is_settled wide said_ok cont c : says wide said_ok c -> (is_framing c = true -> readable cont said_ok c) -> settled c.
Proof.
  intros Hs Hr ver ats ps E. subst c. specialize (Hr eq_refl). destruct Hs as [Hs|Hs]; [by apply printable_not_framing in Hs|].
  inversion Hs as [ver' ats' ps' Ht Hp Hpn Hps E]; subst. clear Hs Ht Hp Hpn.
  assert (Hf : map_form (key_form cont) json_form ats /\ map_form (frame_key_form cont) plain_form ps).
  { remember (Command CAdd (OOverlay (OType KAttributeFraming ver) (Content (Some ats) (Some ps)))) as c eqn:Ec.
    destruct Hr as [| | | |k ? ? Hk| |k ? Hk| | | | | | | | | |]; try discriminate Ec; try (injection Ec as -> _; by destruct Hk); try (injection Ec as -> _; repeat (apply elem_of_cons in Hk as [Hk|Hk]; [discriminate Hk|]); by apply elem_of_nil in Hk).
    injection Ec as _ <- <-. done. }
  destruct Hf as [[_ Ha] [_ Hq]]. split.
  - eapply Forall_impl; [exact (proj2 (Forall_and _ _) (conj Hps Hq))|]. intros [k v] [[Hk _] [[H|[_ H]] _]]; cbn [fst] in *; [exact H|]. subst k. cbn in Hk.
    repeat (apply elem_of_cons in Hk as [Hk|Hk]; [discriminate Hk|]). by apply elem_of_nil in Hk.
  - eapply Forall_impl; [exact Ha|]. intros [n v] [_ Hj] m E. cbn [snd] in *. subst v. inversion Hj as [|m' _ Hm E]; subst. eapply Forall_impl; [exact Hm|].
    intros [k w] [Hk Hw]. cbn [fst snd] in *. split; [by apply no_capitals_lower|]. intros x ->. inversion Hw as [|m' _ Hx E]; subst. eapply Forall_impl; [exact Hx|].
    intros y [Hy _]. by apply no_capitals_lower.
Qed.

(** ** One file *)
Theorem C47_framing_file_export : forall wide digest from1 to1 listing said_ok digits lang_ok standard_read to_text of_text hash ss f src a os g B steps h B',
  text_ok to_text of_text -> digits_class digits -> said_ok "" = false ->
  steps_run digest from1 to1 listing said_ok digits lang_ok standard_read to_text of_text hash ss f ->
  parse_ocafile wide said_ok src = Ok a -> (forall c, head (ast_commands a) = Some c -> cmd_kind c <> CFrom) -> (forall i, order_ok (os i)) ->
  validate_ast digest from1 said_ok digits lang_ok standard_read of_text os a f = Ok (g, (B, steps)) ->
  build from1 to1 listing to_text hash B steps g = Ok (h, B') ->
  steps_fine digest said_ok digits lang_ok (ss ++ steps) -> steps <> [] -> NoDup (map (fun s => b_said (bs_result s)) steps) ->
  Forall (says wide said_ok) (map bs_cmd steps) ->
  exists k s b, b_said B = Some k /\
  (forall n dereference, (length steps <= n)%nat -> export_file said_ok digits lang_ok standard_read of_text n h k dereference = Some (Ok s)) /\
  parse_ocafile wide said_ok s = Ok b /\ ast_commands b = map as_read (map bs_cmd steps) /\
  forall os' g', (forall i, order_ok (os' i)) ->
  exists B'' steps', validate_ast digest from1 said_ok digits lang_ok standard_read of_text os' b g' = Ok (g', (B'', steps')) /\ b_said B'' = Some k /\ bundle_json B'' = bundle_json B.
Proof.
  intros wide dig f1 t1 ls so dg lo sr tt ot hs ss f src a os g B steps h B' Ht Hd He HR Hsrc Hfrom Ho Hv HB Hfine Hne Hnd Hp.
  pose proof (C15_read_file _ _ _ _ Hsrc) as Hplaced.
  (* what the validation built *)
  assert (Ha : exists a1, each_placed (ast_commands a1) /\ (forall c, c ∈ ast_commands a1 -> is_framing c = true -> c ∈ ast_commands a) /\ from_ast dig f1 os None a1 = BuildOk B steps).
  { pose proof Hv as Hv'. unfold validate_ast in Hv'. assert (Ec : check_base so dg lo sr ot (fa_cache f) a = Ok (None, a)).
    { unfold check_base. destruct (ast_commands a) as [|[[] [|b|]] cs]; try done. by destruct (Hfrom _ eq_refl). }
    rewrite Ec in Hv'. cbn [obind fst snd] in Hv'. apply obind_ok in Hv' as (cs & Hcs & Hv'). exists (Ast (ast_version a) cs (ast_cmeta a) (ast_meta a)).
    split; [cbn; eapply renamed_placed; [by eapply resolve_names|done]|]. split; [cbn [ast_commands]; by eapply resolve_framing|]. destruct (from_ast dig f1 os None _) as [B0 st|es|] eqn:FA; [|discriminate Hv'..].
    assert (E : B0 = B /\ st = steps). { destruct (ast_meta a !! "name"); [|by injection Hv']. apply obind_ok in Hv' as (x & _ & Hv'). apply obind_ok in Hv' as (y & _ & Hv'). by injection Hv'. }
    by destruct E as [-> ->]. }
  destruct Ha as (a1 & Hpl & Hfr & FA). pose proof (bo_none (os (S (length (ast_commands a1))))) as Hb.
  destruct (C13_step_chain _ _ _ _ _ _ _ _ Hb FA) as (Hl & X & _).
  assert (Hcs : ast_commands a1 = map bs_cmd steps).
  { apply list_eq. intros j. rewrite list_lookup_fmap. destruct (steps !! j) as [x|] eqn:Ej; cbn [fmap option_fmap option_map]; [by apply (X j x Ej)|]. apply lookup_ge_None. apply lookup_ge_None in Ej. by rewrite <- Hl. }
  assert (Hset : Forall settled (map bs_cmd steps)).
  { apply Forall_forall. intros c Hc. rewrite Forall_forall in Hp. apply (read_is_settled wide so (has_backslash src)); [by apply Hp|]. intros Hi.
    destruct (C48_commands _ _ _ _ Hsrc) as [Hrd _]. rewrite Forall_forall in Hrd. apply Hrd, Hfr; [by rewrite Hcs|done]. }
  destruct Hfine as [Hst Hn Hag]. assert (Hco : Forall command_ok (map bs_cmd (ss ++ steps))). { apply Forall_forall. intros c Hc. apply elem_of_list_fmap in Hc as (s & -> & Hs). by destruct (Hst s Hs) as [_ _ (? & _)]. }
  assert (Hu := agree_uniform _ Hag Hco). set (M := M_of (map bs_cmd (ss ++ steps))) in *.
  assert (Hall : storable_all so dg lo M (ss ++ steps)). { intros s Hs. split; [by apply Hst|]. rewrite Forall_forall in Hu. apply Hu. by apply elem_of_list_fmap_1. }
  assert (Hrun : steps_run dig f1 t1 ls so dg lo sr tt ot hs (ss ++ steps) h) by (by eapply sr_build).
  pose proof (recorded_run dig f1 t1 ls so dg lo sr tt ot hs Ht Hd M _ h Hrun Hall) as R.
  (* the last step is the result *)
  destruct (last steps) as [s|] eqn:El; [|by apply last_None in El]. pose proof El as El'. apply last_Some in El' as [pre Epre].
  assert (Hi : steps !! length pre = Some s) by (subst steps; by rewrite list_lookup_middle).
  destruct (X _ s Hi) as (Hci & _ & b & Es & G). assert (Hlen : S (length pre) = length (ast_commands a1)) by (rewrite <- Hl, Epre, app_length; cbn; lia).
  rewrite Hlen, firstn_all in Es. pose proof FA as FB. unfold from_ast in FB. apply base_ok in FB as (Hout & _ & y & Hy & FB). rewrite Es in Hy. injection Hy as <-.
  assert (T : tracked M b b).
  { rewrite map_app in Hco, Hu. apply Forall_app in Hco as [_ Hco], Hu as [_ Hu]. rewrite <- Hcs in Hco, Hu. apply (state_tracked f1 M None (ast_commands a1)); try done. }
  assert (JS : bundle_json (bs_result s) = bundle_json B /\ b_said (bs_result s) = b_said B).
  { destruct (bundle_json_equiv dig (os (length pre)) (os (length (ast_commands a1))) b b (bs_result s) B) as (J1 & J2 & _); try done.
    - apply api_box_ok, T.
    - apply api_box_ok, T.
    - eapply uniform_consistent, T.
    - assert (Hin : bs_result s ∈ map bs_result (ss ++ steps)) by (apply elem_of_list_fmap_1, elem_of_app; right; by eapply elem_of_list_lookup_2).
      intros v w Hv' Hw. eapply (Hn (bs_result s) (bs_result s)); try done; by constructor. }
  destruct JS as [JS SS]. pose proof (gen_said _ _ _ _ G) as Sk. destruct (b_said (bs_result s)) as [k|] eqn:Ek; [|discriminate Sk]. clear Sk.
  (* the history *)
  destruct (validate_effect _ _ _ _ _ _ _ _ _ _ _ _ _ Hv) as (Ec & _).
  assert (Hold : storable_all so dg lo M ss) by (intros x Hx; apply Hall, elem_of_app; by left).
  pose proof (recorded_run dig f1 t1 ls so dg lo sr tt ot hs Ht Hd M _ f HR Hold) as R0.
  assert (Hcons : consistent so dg lo sr ot (fa_cache g)).
  { rewrite Ec. intros k0 B0 HF. destruct (read_base dig f1 so dg lo sr tt ot Ht Hd M ss f k0 k0 Hold R0 B0 HF eq_refl) as (s0 & _ & E0 & ->). exact E0. }
  assert (HA : forall n, (length steps <= n)%nat -> get_ast so dg lo sr ot n h k = Some (Ok (map bs_cmd steps))).
  { intros n Hle. rewrite <- Hcs. apply (C22_commands_replay dig f1 t1 ls so dg lo sr tt ot hs os None a1 None B steps g h B' [] 0 k Ht Hd He Hb FA HB Hcons).
    - intros x Hx. apply Hst, elem_of_app. by right.
    - done.
    - done.
    - by rewrite El.
    - by rewrite <- Hl. }
  destruct (C47_framing_export_builds wide dig f1 t1 ls so dg lo sr tt ot hs (ss ++ steps) h Ht Hd He Hrun) with (n := length steps) (k := k) (cs := map bs_cmd steps) as (t & B0 & He' & HF & Hparse & Hval); [by split|by apply HA|done|done|].
  destruct (proj2 Hparse) as [b' Eb']; [by rewrite <- Hcs|]. exists k, t, b'. split; [congruence|]. split.
  { intros n d Hle. rewrite <- (He' d). unfold export_file. by rewrite !HA by done. }
  split; [done|]. split.
  { destruct (C41_framing_round_trip wide so (commands_ast (map bs_cmd steps)) Hp) as (ts & H2 & Eg & Ep). specialize (He' false). unfold export_file in He'. rewrite HA in He' by done. injection He' as He'.
    cbn [obind] in He'. rewrite Eg in He'. injection He' as <-. rewrite Ep in Eb'. apply C15_assembly in Eb' as [_ ->]. cbn [ast_commands]. rewrite <- (read_settled _ _ _ Hp Hset). apply gline_commands_fst.
    by apply Forall2_length in H2. }
  intros os' g' Ho'. destruct (Hval b' Eb' os' g' Ho') as (B2 & steps2 & V & S2 & J2). exists B2, steps2. split; [done|]. split; [done|]. rewrite J2, <- JS.
  destruct (read_base dig f1 so dg lo sr tt ot Ht Hd M (ss ++ steps) h k k Hall R B0 HF eq_refl) as (s' & Hin' & Es' & EB). subst B0.
  destruct (Hst s' Hin') as [_ Hr' _]. rewrite (bundle_read_json _ Hr').
  assert (Hins : s ∈ ss ++ steps) by (apply elem_of_app; right; by eapply elem_of_list_lookup_2).
  destruct (rc_just dig f1 tt M _ h R s' Hin') as (b1 & [T1 (o1 & O1 & G1)] & _). apply gen_said in G1 as S1. apply gen_said in G as S0.
  assert (E : bundle_json_d (JStr dummy_said) (bs_result s') = bundle_json_d (JStr dummy_said) (bs_result s)).
  { eapply (Hn (bs_result s') (bs_result s)); [by apply elem_of_list_fmap_1|by apply elem_of_list_fmap_1|constructor|constructor|]. congruence. }
  unfold bundle_json. rewrite Es', Ek. unfold bundle_json_d in *. apply (f_equal (fun j => match j with JObj l => l | _ => [] end)) in E. apply cons_inj in E as [_ E]. by rewrite E.
Qed.
Print Assumptions C47_framing_file_export.

(** ** A concrete case *)
From Verif Require Import Props_Total2 Checkers Props_Export2.
Lemma one_framing_agree l c r : forallb no_framing l = true -> forallb no_framing r = true -> framings_agree (l ++ c :: r).
Proof.
  intros Hl Hr c1 c2 ct1 ct2 id H1 H2 F1 F2. assert (E : forall d ct, d ∈ l ++ c :: r -> framing_command d ct -> d = c).
  { intros d ct Hd [v ->]. apply elem_of_app in Hd as [Hd|Hd]; [rewrite forallb_forall in Hl; apply elem_of_list_In, Hl in Hd; discriminate Hd|].
    apply elem_of_cons in Hd as [Hd|Hd]; [exact Hd|]. rewrite forallb_forall in Hr. apply elem_of_list_In, Hr in Hd. discriminate Hd. }
  apply (E _ _ H1) in F1 as E1. apply (E _ _ H2) in F2 as E2. subst c1 c2. destruct F1 as [v1 E1], F2 as [v2 E2]. rewrite E1 in E2. injection E2 as _ <-. done.
Qed.
(** Example. *)
Definition one_framing (ss : list bstep) : bool :=
  match map bs_cmd ss with [a; b; c] => no_framing a && no_framing c && is_framing b | _ => false end.
Lemma one_framing_ok ss : one_framing ss = true -> framings_agree (map bs_cmd ss).
Proof.
  unfold one_framing. destruct (map bs_cmd ss) as [|a [|b [|c [|? ?]]]]; try done. intros H. apply andb_true_iff in H as [H _]. apply andb_true_iff in H as [H1 H2].
  apply (one_framing_agree [a] b [c]); cbn; by rewrite ?H1, ?H2.
Qed.
Lemma fr_says : Forall (says no_wide ex_said_ok) (map as_read (fr_ast "snomedct:397669002")).
Proof.
  apply Forall_cons; split; [left|apply Forall_cons; split; [right|apply Forall_cons; split; [left|by apply Forall_nil]]].
  - constructor. split; [done|]. split; [by apply (bool_decide_unpack _)|]. repeat (apply Forall_cons; split); [| |by apply Forall_nil]; (split; [by split|]); constructor.
  - by apply fr_ok_command.
  - apply pr_plain; [by do 5 right|split; [done|]|by right]. split; [apply NoDup_singleton|]. apply Forall_cons; split; [|by apply Forall_nil]. split; [by split|by eexists].
Qed.
(** Example: the two boolean checks below. *)
Definition fr_checks (r : outcome (facade * (bundle * list bstep))) (e : facade -> string -> option (outcome string)) : bool :=
  match r with Ok (f1, (B1, s1)) => match b_said B1 with Some k1 => match e f1 k1 with
    | Some (Ok t) => ex_simple s1 && clash_check (map bs_result s1) && (one_framing s1 && (bool_decide (NoDup (map (fun s => b_said (bs_result s)) s1)) && String.eqb t fr_text))
    | _ => false end | None => false end | _ => false end.
(** Example. *)
Definition built_cmds (r : outcome (facade * (bundle * list bstep))) : list command := match r with Ok (_, (_, s1)) => map bs_cmd s1 | _ => [] end.
(** Example. *)
Definition starts_from (r : outcome ast) : bool := match r with Ok a => match ast_commands a with Command CFrom _ :: _ => true | _ => false end | _ => false end.
Example C47_framing_hypotheses_met : exists f1 B1 s1 k1 a g B',
  xp_parse fr_text = Ok a /\ (forall c, head (ast_commands a) = Some c -> cmd_kind c <> CFrom) /\ xp_validate a facade_new = Ok (g, (B1, s1)) /\ xp_build B1 s1 g = Ok (f1, B') /\
  xp_run [] facade_new /\ steps_fine ex_digest ex_said_ok ascii_digits ex_lang_ok ([] ++ s1) /\ s1 <> [] /\ NoDup (map (fun s => b_said (bs_result s)) s1) /\
  map bs_cmd s1 = map as_read (fr_ast "snomedct:397669002") /\ Forall (says no_wide ex_said_ok) (map bs_cmd s1) /\ b_said B1 = Some k1 /\ xp_export 3 f1 k1 true = Some (Ok fr_text).
Proof.
  assert (H : fr_checks (xp_file fr_text facade_new) (fun f k => xp_export 3 f k true) = true) by (vm_compute; reflexivity).
  assert (C : built_cmds (xp_file fr_text facade_new) = map as_read (fr_ast "snomedct:397669002")) by (vm_compute; reflexivity).
  assert (F : starts_from (xp_parse fr_text) = false) by (vm_compute; reflexivity).
  destruct (xp_file fr_text facade_new) as [[f1 [B1 s1]]| |] eqn:E1; [|discriminate H|discriminate H]. cbn [built_cmds] in C. unfold fr_checks in H. destruct (b_said B1) as [k1|] eqn:Ek1; [|discriminate H].
  destruct (xp_export 3 f1 k1 true) as [[t| |]|] eqn:Et; [|discriminate H..]. apply andb_true_iff in H as [H1 H]. apply andb_true_iff in H1 as [H1 H2]. apply andb_true_iff in H as [H3 H]. apply andb_true_iff in H as [H4 H5].
  apply String.eqb_eq in H5. subst t. destruct (file_steps_ok _ _ _ _ _ _ _ _ E1) as (a & g & B' & Ea & Ev & Eb).
  exists f1, B1, s1, k1, a, g, B'. split; [exact Ea|]. split.
  { intros c Hc. rewrite Ea in F. cbn [starts_from] in F. destruct (ast_commands a) as [|[k o] cs]; [discriminate Hc|]. injection Hc as <-. cbn. by destruct k. }
  split; [exact Ev|]. split; [exact Eb|]. split; [constructor|]. split; [split; [by apply ex_simple_ok|by apply clash_check_ok|by apply one_framing_ok]|].
  split; [intros ->; discriminate C|]. split; [by apply bool_decide_eq_true in H4|]. split; [exact C|]. split; [rewrite C; apply fr_says|]. split; [exact Ek1|exact Et].
Qed.
Print Assumptions C47_framing_hypotheses_met.

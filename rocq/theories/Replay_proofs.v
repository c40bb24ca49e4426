(** Replaying the stored history of a bundle (C47). *)
From Verif Require Import Base Ast Bundle Spec_Bundle Build Spec_Build Text Facade Spec_Facade Spec_BundleCodec Spec_Total Spec_Export Facade_proofs Props_Storage Run_proofs Build_proofs
  Bundle_proofs Box_proofs Determinism_proofs Command_proofs Incremental_proofs Stored_proofs BundleCodec_proofs Props_BundleCodec Props_Bundle Props_Build Props_Codec Props_Dag Props_Facade
  History_proofs Props_History Props_Refs VBuild_proofs.
Local Open Scope list_scope.

Lemma attr_sim_trans a b c : attr_sim a b -> attr_sim b c -> attr_sim a c.
Proof. intros [A1 A2 A3 A4 A5] [B1 B2 B3 B4 B5]. split; try done; [|congruence|congruence]. intros s. by rewrite A1. Qed.
Lemma box_sim_trans a b c : box_sim a b -> box_sim b c -> box_sim a c.
Proof.
  intros [A1 A2 A3 [A4 A5]] [B1 B2 B3 [B4 B5]]. split; [|intros l k; by rewrite A2|congruence|done]. intros n. specialize (A1 n). specialize (B1 n).
  destruct (bx_attrs a !! n), (bx_attrs b !! n), (bx_attrs c !! n); inversion A1; inversion B1; subst; constructor. by eapply attr_sim_trans.
Qed.
Lemma tracked_sym M a b : tracked M a b -> tracked M b a.
Proof. intros [A1 A2 A3 A4 A5]. split; try done. by apply box_sim_sym. Qed.
Lemma tracked_trans M a b c : tracked M a b -> tracked M b c -> tracked M a c.
Proof. intros [A1 A2 A3 A4 A5] [B1 B2 B3 B4 B5]. split; try done. by eapply box_sim_trans. Qed.
Lemma outcomes_at from1 cs : forall st i c, cs !! i = Some c -> outcomes from1 st cs !! i = Some (apply_command from1 (state_after from1 st (take i cs)) c).
Proof.
  induction cs as [|x cs IH]; intros st [|i] c H; try done; [by injection H as ->|]. cbn [outcomes]. cbn in H. cbn [lookup list_lookup take]. rewrite state_after_cons.
  by apply IH.
Qed.

Section Replay.
Variable digest : json -> string.
Variables from1 to1 : string -> option string.
Variable listing : string -> list oobject -> list oobject.
Variables said_ok digits lang_ok : string -> bool.
Variable standard_read : string -> option string.
Variable to_text : json -> string.
Variable of_text : string -> option json.
Variable hash : string -> string.
Hypothesis Ht : text_ok to_text of_text.
Hypothesis Hd : digits_class digits.
Variable M : string -> gmap string string.
Notation said s := (b_said (bs_result s)).
Notation fetch := (get_bundle said_ok digits lang_ok standard_read of_text).
Notation loop := (steps_loop said_ok digits lang_ok standard_read of_text).
Notation op := (get_op said_ok of_text).
Notation run := (steps_run digest from1 to1 listing said_ok digits lang_ok standard_read to_text of_text hash).

(** The box a step was made from. *)
Definition made (s : bstep) (b : obox) : Prop := tracked M b b /\ exists o, order_ok o /\ generate_bundle digest o b = Some (bs_result s).
(** A step comes from one of [ss] by its command. *)
Definition just (ss : list bstep) (s : bstep) : Prop := exists b', made s b' /\
  match bs_parent s with
  | None => apply_command from1 None (bs_cmd s) = Ok b'
  | Some q => exists s0 b0 b, s0 ∈ ss /\ said s0 = Some q /\ made s0 b0 /\ tracked M b0 b /\ apply_command from1 (Some b) (bs_cmd s) = Ok b'
  end.
Lemma just_more ss ss' s : (forall x, x ∈ ss -> x ∈ ss') -> just ss s -> just ss' s.
Proof. intros H (b' & Hm & Hp). exists b'. split; [done|]. destruct (bs_parent s) as [q|]; [|done]. destruct Hp as (s0 & b0 & b & Hin & R). exists s0, b0, b. split; [by apply H|done]. Qed.

Lemma apply_new_tracked c b' : command_ok c -> cmd_uniform M c -> apply_command from1 None c = Ok b' -> tracked M b' b'.
Proof.
  intros Hc Hu H. assert (E : apply_command from1 (Some box_new) c = Ok b') by (rewrite <- H; done).
  destruct (apply_tracked from1 M box_new box_new c (new_tracked M) Hc Hu) as (_ & x & y & X & Y & T). rewrite E in X, Y. cbn in X, Y. injection X as <-. by injection Y as <-.
Qed.
Lemma apply_both b1 b2 c b2' : tracked M b1 b2 -> command_ok c -> cmd_uniform M c -> apply_command from1 (Some b2) c = Ok b2' ->
  exists b1', apply_command from1 (Some b1) c = Ok b1' /\ tracked M b1' b2'.
Proof.
  intros T Hc Hu H. destruct (apply_tracked from1 M b1 b2 c T Hc Hu) as (F & x & y & X & Y & T'). rewrite H in F, Y. cbn in F, Y.
  destruct (apply_command from1 (Some b1) c) as [b1'|e|] eqn:E; [|done|done]. cbn in X. injection X as <-. injection Y as <-. by exists b1'.
Qed.
Lemma state_tracked st cs : (forall b, st = Some b -> tracked M b b) -> Forall command_ok cs -> Forall (cmd_uniform M) cs ->
  Forall (fun r => is_ok r = true) (outcomes from1 st cs) -> forall b, state_after from1 st cs = Some b -> tracked M b b.
Proof.
  revert st. induction cs as [|c cs IH]; intros st Hst Hc Hu Ho b Hb; [by apply Hst|]. apply Forall_cons in Hc as [Hc Hcs]. apply Forall_cons in Hu as [Hu Hus].
  cbn [outcomes] in Ho. apply Forall_cons in Ho as [Ho Hos]. rewrite state_after_cons in Hb.
  apply (IH (after st (apply_command from1 st c))); try done. intros b' Hb'. destruct (apply_command from1 st c) as [x|e|] eqn:E; [|done|done]. cbn in Hb'. injection Hb' as <-.
  destruct st as [b0|]; [|by eapply apply_new_tracked]. destruct (apply_both b0 b0 c x (Hst b0 eq_refl) Hc Hu E) as (y & Y & T). rewrite E in Y. by injection Y as <-.
Qed.

Lemma chain_just os from a B steps ss : (forall i, order_ok (os i)) -> from_ast digest from1 os from a = BuildOk B steps ->
  Forall command_ok (ast_commands a) -> Forall (cmd_uniform M) (ast_commands a) ->
  match from with None => True | Some B0 => exists s0 b0 b q, s0 ∈ ss /\ b_said B0 = Some q /\ said s0 = Some q /\ made s0 b0 /\ load (os (S (length (ast_commands a)))) B0 = Some b /\ tracked M b0 b end ->
  forall s, s ∈ steps -> just (ss ++ steps) s.
Proof.
  intros Ho HA Hc Hu Hf s Hs. destruct (base_of_some digest from1 os from a _ HA) as [st Hb]; [done|].
  pose proof HA as HA'. rewrite (from_ast_base_of digest from1 os from a st Hb) in HA'. apply base_ok in HA' as (Hok & _ & _).
  assert (Hst : forall b, st = Some b -> tracked M b b).
  { intros b E. destruct Hb as [|B0 b1 L]; [done|]. injection E as ->. destruct Hf as (s0 & b0 & b2 & q & _ & _ & _ & _ & L' & T). rewrite L in L'. injection L' as <-.
    eapply tracked_trans; [by apply tracked_sym|done]. }
  destruct (C13_step_chain _ _ _ _ _ _ _ _ Hb HA) as (Hl & X & _).
  assert (Hbox : forall i s, steps !! i = Some s -> exists b, state_after from1 st (take (S i) (ast_commands a)) = Some b /\ made s b).
  { intros i s1 Hi. destruct (X i s1 Hi) as (Hci & _ & b & Es & G). exists b. split; [done|]. split; [|by exists (os i)].
    apply (state_tracked st (take (S i) (ast_commands a))); [done|by apply Forall_take|by apply Forall_take| |done].
    rewrite <- (take_drop (S i) (ast_commands a)), outcomes_app in Hok. by apply Forall_app in Hok as [? _]. }
  apply elem_of_list_lookup in Hs as [i Hi]. destruct (X i s Hi) as (Hci & Hp & _). destruct (Hbox i s Hi) as (b' & Es & Hm). exists b'. split; [done|].
  assert (Ea : apply_command from1 (state_after from1 st (take i (ast_commands a))) (bs_cmd s) = Ok b').
  { pose proof (outcomes_at from1 _ st i _ Hci) as Ho'. pose proof (proj1 (Forall_lookup _ _) Hok _ _ Ho') as Hk.
    rewrite (take_S_r _ _ _ Hci), state_after_app, state_after_cons in Es. destruct (apply_command from1 (state_after from1 st (take i (ast_commands a))) (bs_cmd s)) as [x|e|]; [|done|done].
    cbn in Es. by injection Es as <-. }
  destruct i as [|j].
  - rewrite Hp. cbn [take] in Ea. unfold state_after in Ea. cbn [fold_left] in Ea. destruct Hb as [|B0 b L]; cbn [mbind option_bind]; [done|].
    destruct Hf as (s0 & b0 & b1 & q & Hin & Eq & Es0 & Hm0 & L' & T). rewrite L in L'. injection L' as <-. cbn. rewrite Eq. exists s0, b0, b. split; [apply elem_of_app; by left|done].
  - destruct (steps !! j) as [sj|] eqn:Ej.
    2:{ apply lookup_ge_None in Ej. apply lookup_lt_Some in Hi. lia. }
    destruct (Hbox j sj Ej) as (bj & Esj & Hmj). pose proof Hmj as [Tj (oj & _ & Gj)]. apply gen_said in Gj as Sj. cbn in Hp. rewrite Sj in Hp. rewrite Hp. rewrite Esj in Ea.
    exists sj, bj, bj. split; [apply elem_of_app; right; by eapply elem_of_list_lookup_2|]. done.
Qed.

(** What the stores hold after a run. *)
Record recorded (ss : list bstep) (f : facade) : Prop := {
  rc_just : forall s, s ∈ ss -> just ss s;
  rc_op : forall k v, entry (fa_db f) NsOCA (op_key k) = Some v -> exists s, s ∈ ss /\ said s = Some k /\ op_encode to_text (bs_parent s) (bs_cmd s) = Ok v;
  rc_bundle : forall k t, entry (fa_cache f) NsBundles k = Some t -> exists s, s ∈ ss /\ said s = Some k /\ t = to_text (bundle_json (bs_result s)) }.
Definition storable_all (ss : list bstep) : Prop := forall s, s ∈ ss -> step_storable said_ok digits lang_ok s /\ cmd_uniform M (bs_cmd s).

Lemma read_base ss f s k : storable_all ss -> recorded ss f -> forall B, fetch (fa_cache f) k = Ok B -> s = k ->
  exists s0, s0 ∈ ss /\ said s0 = Some k /\ B = bundle_read (bs_result s0).
Proof.
  intros Hall R B HF _. rewrite fetch_entry in HF. destruct (entry (fa_cache f) NsBundles k) as [t|] eqn:E; [|done].
  destruct (rc_bundle ss f R k t E) as (s0 & Hin & Es & ->). exists s0. split; [done|]. split; [done|].
  unfold read_bundle, parse_text in HF. destruct (Hall s0 Hin) as [[Hr _ _ [Hx _]] _]. rewrite Ht in HF by done. rewrite (bundle_round said_ok digits lang_ok standard_read Hd _ Hr) in HF. by injection HF as <-.
Qed.
Lemma made_right s b : made s b -> bundle_right b (bs_result s).
Proof. intros [T (o & Ho & G)]. destruct (C02_proof o Ho digest b (api_box_ok _ (tk_api1 M _ _ T))) as (B' & G' & R). rewrite G in G'. by injection G' as <-. Qed.
Lemma made_loads s b o : made s b -> groups_sorted (bs_result s) -> order_ok o -> exists b', load o (bundle_read (bs_result s)) = Some b' /\ tracked M b b'.
Proof. intros Hm Hg Ho. apply (stored_tracked M o _ b Ho); [apply Hm|by apply made_right|done]. Qed.

Lemma recorded_run ss f : run ss f -> storable_all ss -> recorded ss f.
Proof.
  induction 1 as [|ss f os a g r _ IH Hv|ss f os a g B steps h B' _ IH Ho Hv HB]; intros Hall.
  - split; [intros s Hs; by apply elem_of_nil in Hs|..]; intros k v Hk; unfold entry in Hk; cbn in Hk; rewrite lookup_empty in Hk; done.
  - destruct r as [B steps]. destruct (validate_effect _ _ _ _ _ _ _ _ _ _ _ _ _ Hv) as (Ec & _ & En & _). destruct (IH Hall) as [J1 J2 J3]. split; [done|..].
    + intros k v. rewrite En by done. apply J2.
    + intros k v. rewrite Ec. apply J3.
  - assert (Hold : storable_all ss) by (intros s Hs; apply Hall, elem_of_app; by left). assert (Hnew : storable_all steps) by (intros s Hs; apply Hall, elem_of_app; by right).
    specialize (IH Hold). destruct (validate_effect _ _ _ _ _ _ _ _ _ _ _ _ _ Hv) as (Ec & _ & En & _).
    assert (R : recorded ss g). { destruct IH as [J1 J2 J3]. split; [done|..]; [intros k v; rewrite En by done; apply J2|intros k v; rewrite Ec; apply J3]. }
    destruct (build_effect _ _ _ _ _ _ _ _ _ _ HB) as (_ & _ & _ & I & O).
    assert (J : forall s, s ∈ steps -> just (ss ++ steps) s).
    { unfold validate_ast in Hv. destruct (check_base _ _ _ _ _ (fa_cache f) a) as [[from a1]|e|] eqn:Eb; [|done|done]. cbn [obind fst snd] in Hv. inv_ok Hv.
      match type of Hv with context [from_ast _ _ _ _ ?x] => set (a' := x) in * end.
      destruct (from_ast digest from1 os from a') as [B0 st|es|] eqn:FA; [|done|done].
      assert (Est : st = steps).
      { destruct (ast_meta a1 !! "name"); [inv_ok Hv; inv_ok Hv; by injection Hv|by injection Hv]. }
      subst st. destruct (base_of_some digest from1 os from a' _ FA) as [st Hb]; [done|]. destruct (C13_step_chain _ _ _ _ _ _ _ _ Hb FA) as (Hl & X & _).
      assert (Hcs : ast_commands a' = map bs_cmd steps).
      { apply list_eq. intros j. rewrite list_lookup_fmap. destruct (steps !! j) as [x|] eqn:Ej; cbn [fmap option_fmap option_map]; [by apply (X j x Ej)|]. apply lookup_ge_None. apply lookup_ge_None in Ej. by rewrite <- Hl. }
      apply (chain_just os from a' B0 steps ss Ho FA).
      - rewrite Hcs. apply Forall_forall. intros c Hc. apply elem_of_list_fmap in Hc as (s & -> & Hs). by destruct (Hnew s Hs) as [[_ _ (? & _)] _].
      - rewrite Hcs. apply Forall_forall. intros c Hc. apply elem_of_list_fmap in Hc as (s & -> & Hs). by destruct (Hnew s Hs) as [_ ?].
      - destruct from as [B1|]; [|done]. unfold check_base in Eb. destruct (ast_commands a) as [|[[] [|[[k|n]]|]] cs]; try done.
        destruct (fetch (fa_cache f) k) as [B2|e|] eqn:HF; [|done|done]. injection Eb as <- <-. destruct (read_base ss f k k Hold IH B2 HF eq_refl) as (s0 & Hin & Es0 & ->).
        destruct (rc_just ss f IH s0 Hin) as (b0 & Hm0 & _). destruct (Hold s0 Hin) as [[_ Hg _] _]. destruct (made_loads s0 b0 (os (S (length (ast_commands a')))) Hm0 Hg (Ho _)) as (b & L & T).
        exists s0, b0, b, k. split; [done|]. split; [exact Es0|]. done. }
    split.
    + intros s Hs. apply elem_of_app in Hs as [Hs|Hs]; [|by apply J]. eapply just_more; [|by apply (rc_just ss g R)]. intros x Hx. apply elem_of_app. by left.
    + intros k v Hk. destruct (step_of_or k steps) as [(s & Hs)|N].
      * destruct (I k s Hs) as (r & Er & Ee & _). rewrite Hk in Ee. injection Ee as ->. apply step_of_elem in Hs as [Hin Es]. exists s. split; [apply elem_of_app; by right|done].
      * destruct (O k N) as [E _]. rewrite E in Hk. destruct (rc_op ss g R k v Hk) as (s & Hin & Q). exists s. split; [apply elem_of_app; by left|done].
    + intros k t Hk. destruct (step_of_or k steps) as [(s & Hs)|N].
      * destruct (I k s Hs) as (r & _ & _ & Ee). rewrite Hk in Ee. injection Ee as ->. apply step_of_elem in Hs as [Hin Es]. exists s. split; [apply elem_of_app; by right|done].
      * destruct (O k N) as [_ E]. rewrite E in Hk. destruct (rc_bundle ss g R k t Hk) as (s & Hin & Q). exists s. split; [apply elem_of_app; by left|done].
Qed.

(** Two steps with the same SAID: their boxes say the same. *)
Hypothesis Hempty : said_ok "" = false.
Lemma same_said_tracked ss s1 s2 b1 b2 : no_clash digest (map bs_result ss) -> storable_all ss -> s1 ∈ ss -> s2 ∈ ss -> made s1 b1 -> made s2 b2 -> said s1 = said s2 -> tracked M b1 b2.
Proof.
  intros Hn Hall H1 H2 M1 M2 E. pose proof M1 as [_ (o1 & O1 & G1)]. pose proof M2 as [_ (o2 & O2 & G2)]. apply gen_said in G1 as S1. apply gen_said in G2 as S2.
  assert (J : bundle_json (bs_result s1) = bundle_json (bs_result s2)).
  { rewrite S1, S2 in E. injection E as E. assert (Ej : bundle_json_d (JStr dummy_said) (bs_result s1) = bundle_json_d (JStr dummy_said) (bs_result s2)).
    { eapply (Hn (bs_result s1) (bs_result s2)); [by apply elem_of_list_fmap_1|by apply elem_of_list_fmap_1|constructor|constructor|done]. }
    unfold bundle_json. rewrite S1, S2, <- Ej. unfold bundle_json_d in *. apply (f_equal (fun j => match j with JObj l => l | _ => [] end)) in Ej.
    apply cons_inj in Ej as [_ Ej]. by rewrite Ej. }
  destruct (Hall s1 H1) as [[R1 Q1 _] _], (Hall s2 H2) as [[R2 Q2 _] _].
  pose proof (bundle_round said_ok digits lang_ok standard_read Hd _ R1) as P1. pose proof (bundle_round said_ok digits lang_ok standard_read Hd _ R2) as P2. rewrite J, P2 in P1.
  assert (P3 : bundle_read (bs_result s2) = bundle_read (bs_result s1)) by congruence.
  destruct (made_loads s1 b1 o1 M1 Q1 O1) as (x & L1 & T1). destruct (made_loads s2 b2 o1 M2 Q2 O1) as (y & L2 & T2). rewrite P3, L1 in L2. injection L2 as <-.
  eapply tracked_trans; [exact T1|by apply tracked_sym].
Qed.

Lemma replay ss f n : recorded ss f -> storable_all ss -> no_clash digest (map bs_result ss) -> forall k L, loop n f k = Some (Ok L) ->
  exists s b0 b, s ∈ ss /\ said s = Some k /\ made s b /\ tracked M b0 b /\ state_after from1 None (rev (map bs_cmd L)) = Some b0 /\
    L <> [] /\ Forall command_ok (rev (map bs_cmd L)) /\ Forall (fun r => is_ok r = true) (outcomes from1 None (rev (map bs_cmd L))).
Proof.
  intros R Hall Hn. induction n as [|n IH]; intros k L H; cbn in H; [discriminate|].
  destruct (op (fa_db f) k) as [[p c]|e|] eqn:Eo; [|discriminate..]. destruct (String.eqb p k); [discriminate|]. destruct (negb (said_ok k)); [discriminate|].
  destruct (fetch (fa_cache f) k) as [B|e|]; [|discriminate..]. cbv zeta in H.
  rewrite op_entry in Eo. destruct (entry (fa_db f) NsOCA (op_key k)) as [v|] eqn:Ev; [|discriminate].
  destruct (rc_op ss f R k v Ev) as (s & Hin & Es & Er). destruct (Hall s Hin) as [[_ _ (Hc1 & Hc2 & Hc3) [_ Hx]] Hu].
  assert (Hlen : (String.length (unwrap_or "" (bs_parent s)) <= 255)%nat).
  { destruct (bs_parent s) as [q|]; cbn; [|lia]. unfold op_encode, len_prefixed in Er. destruct (Nat.leb_spec (String.length q) 255); [done|discriminate]. }
  destruct (C40_round_trip said_ok to_text of_text (bs_parent s) (bs_cmd s) Ht Hc1 Hc2 Hc3 Hx Hlen) as (r' & Er' & Dr). rewrite Er in Er'. injection Er' as <-.
  rewrite Dr in Eo. injection Eo as Ep <-. destruct (rc_just ss f R s Hin) as (b' & Hm & Hj).
  destruct (String.eqb p "") eqn:E0.
  - apply String.eqb_eq in E0 as ->. injection H as <-. destruct (bs_parent s) as [q|] eqn:Eq.
    + (* a parent with an empty SAID is no SAID *)
      exfalso. cbn in Ep. subst q. destruct Hj as (s0 & b0 & b & Hin0 & Es0 & _). destruct (Hall s0 Hin0) as [[Hr _ _] _].
      assert (said_ok "" = true) by (apply (re_said _ _ _ _ Hr); by left). congruence.
    + exists s, b', b'. split; [done|]. split; [done|]. split; [done|]. split; [apply Hm|]. cbn [map rev app bs_cmd]. rewrite state_after_cons, Hj. split; [done|].
      split; [done|]. split; [by constructor|]. cbn [outcomes]. rewrite Hj. by constructor.
  - destruct (loop n f p) as [[l|e|]|] eqn:El; [|discriminate..]. injection H as <-. destruct (bs_parent s) as [q|] eqn:Eq; [|cbn in Ep; subst p; done].
    cbn in Ep. subst q. destruct (IH p l El) as (s1 & b0 & b1 & Hin1 & Es1 & Hm1 & T1 & Est & Hne & Hok & Hout).
    destruct Hj as (s0 & b2 & b & Hin0 & Es0 & Hm0 & T0 & Ha).
    assert (T : tracked M b0 b). { eapply tracked_trans; [exact T1|]. eapply tracked_trans; [|exact T0]. apply (same_said_tracked ss s1 s0); try done. congruence. }
    destruct (apply_both b0 b (bs_cmd s) b' T Hc1 Hu Ha) as (x & X & Tx). exists s, x, b'. split; [done|]. split; [done|]. split; [done|]. split; [done|].
    cbn [map rev bs_cmd]. rewrite state_after_app, Est, state_after_cons, X. split; [done|]. split; [done|]. split; [apply Forall_app; split; [done|by constructor]|].
    rewrite outcomes_app, Est. apply Forall_app. split; [done|]. cbn [outcomes]. rewrite X. by constructor.
Qed.
End Replay.

(** C46: a validated build can be carried out. *)
From Verif Require Import Spec_Total Facade_proofs Props_Facade Props_Storage Props_Relations Props_Dag Condition_proofs Props_History Props_Refs Props_Bundle Props_Build Build Build_proofs Spec_Bundle Props_Crash Crash Crash_redo Crash_proofs Crash_again Codec_proofs BundleCodec Crash_proofs Text.
Local Open Scope list_scope.

Lemma prefixed_ok s : short s -> exists v, len_prefixed s = Ok v.
Proof. intros H. unfold len_prefixed. destruct (Nat.leb_spec (String.length s) 255); [by eexists|unfold short in H; lia]. Qed.
Lemma parent_ok p : (forall s, p = Some s -> short s) -> exists v, parent_bytes p = Ok v.
Proof. destruct p as [s|]; intros H; [by apply prefixed_ok, H|by eexists]. Qed.
Lemma prefixed_all_ok l : Forall short l -> exists v, prefixed_all l = Ok v.
Proof. induction 1 as [|s l Hs _ [v IH]]; [by eexists|]. destruct (prefixed_ok s Hs) as [w E]. cbn [prefixed_all]. rewrite E. cbn [obind]. rewrite IH. by eexists. Qed.

Section Total.
Variables from1 to1 : string -> option string.
Variable to_text : json -> string.
Variable hash : string -> string.
Hypothesis Hhash : forall t, short (hash t).

(** The names in the state of the version graph are short. *)
Definition state_short (st : dstate) : Prop :=
  (forall s, ds_bundle st = Some s -> short s) /\ (forall s, ds_cb st = Some s -> short s) /\ (forall k s, ds_ovs st !! k = Some s -> short s).
Definition node_short (n : node) : Prop := (forall s, nd_parent n = Some s -> short s) /\ short (nd_digest n).
Definition model_short (m : rmodel) : Prop :=
  (forall n, rm_cb m = Some n -> node_short n) /\ (forall n, rm_ov m = Some n -> node_short n) /\
  (forall s, bn_parent (rm_bundle m) = Some s -> short s) /\ Forall short (bn_cb (rm_bundle m) :: bn_ovs (rm_bundle m)).
Lemma dag_step_short st s st' m : step_short s -> state_short st -> dag_step from1 to1 to_text hash st s = Ok (st', m) -> state_short st' /\ model_short m.
Proof.
  intros [P R _] (H1 & H2 & H3) H. destruct P as (P1 & P2 & P3). unfold dag_step in H. cbv zeta in H.
  match type of H with obind ?m _ = _ => destruct m as [x|e|] eqn:E end; [|discriminate H|discriminate H]. cbn [obind] in H.
  assert (X : (forall t, x.1.1.1 = Some t -> short t) /\ (forall k t, x.1.1.2 !! k = Some t -> short t) /\
    (forall n, x.1.2 = Some n -> node_short n) /\ (forall n, x.2 = Some n -> node_short n)).
  { destruct (cmd_obj (bs_cmd s)) as [c|c|t ct].
    - destruct (cb_said (b_cb (bs_result s))) as [c'|] eqn:Ec; [|discriminate E]. cbn in E. injection E as <-. cbn.
      assert (short c') by (apply (R c' RCapture); right; left; done). split; [intros t Ht; congruence|]. split; [exact H3|]. split; [|done].
      intros n [= <-]. split; [exact H2|apply Hhash].
    - injection E as <-. cbn. done.
    - destruct (find_overlay _ _ _) as [ov|] eqn:Ef; [|injection E as <-; cbn; done]. destruct (line_key _ _ _) as [key|e|]; [|discriminate E|discriminate E]. cbn [obind] in E.
      destruct (ov_said ov) as [sv|] eqn:Es; [|discriminate E]. cbn [unwrap_some obind] in E. injection E as <-. cbn.
      apply List.find_some in Ef as [Ef _]. assert (Hs : short sv).
      { apply (R sv (ROverlay (ot_kind (ov_type ov)))). right. right. exists ov. split; [by apply elem_of_list_In|done]. }
      split; [exact H2|]. split; [|split; [done|]].
      + intros k0 t0 Ht. destruct (decide (k0 = key)) as [ -> |N]; [rewrite lookup_insert in Ht; congruence|rewrite lookup_insert_ne in Ht by done; by apply (H3 k0)].
      + intros n [= <-]. split; [apply H3|apply Hhash]. }
  destruct X as (X1 & X2 & X3 & X4).
  destruct (b_said (bs_result s)) as [bs|] eqn:Eb; [|discriminate H]. destruct (cb_said (b_cb (bs_result s))) as [cs|] eqn:Ec; [|discriminate H]. cbn [unwrap_some obind] in H.
  destruct (unwrap_all (map ov_said (b_ovs (bs_result s)))) as [os|e|] eqn:Eo; [|discriminate H|discriminate H]. cbn [obind] in H. injection H as <- <-. cbn.
  assert (short bs) by (apply (R bs RBundle); left; done). assert (short cs) by (apply (R cs RCapture); right; left; done).
  split; [split; [intros t Ht; cbn in Ht; congruence|done]|]. split; [done|]. split; [done|]. split; [done|]. constructor; [done|].
  assert (Ho : forall l os, unwrap_all (map ov_said l) = Ok os -> (forall ov, ov ∈ l -> ov ∈ b_ovs (bs_result s)) -> Forall short os).
  { clear -R. induction l as [|ov l IH]; intros os H Hin; cbn in H; [injection H as <-; constructor|].
    destruct (ov_said ov) as [v|] eqn:Es; [|discriminate H]. cbn in H. destruct (unwrap_all (map ov_said l)) as [r|e|] eqn:Er; [|discriminate H|discriminate H]. cbn in H. injection H as <-.
    constructor; [|apply (IH r eq_refl); intros o Ho; apply Hin; by right]. apply (R v (ROverlay (ot_kind (ov_type ov)))). right. right. exists ov. split; [apply Hin; left|done]. }
  by apply (Ho _ _ Eo).
Qed.
Lemma dag_steps_short steps : forall st ms, Forall step_short steps -> state_short st -> dag_steps from1 to1 to_text hash st steps = Ok ms -> Forall model_short ms.
Proof.
  induction steps as [|s r IH]; intros st ms HF Hst H; cbn in H; [injection H as <-; constructor|]. apply Forall_cons in HF as [Hs HF].
  destruct (dag_step from1 to1 to_text hash st s) as [[st' m]|e|] eqn:E; [|discriminate H|discriminate H]. cbn [obind fst snd] in H.
  destruct (dag_steps from1 to1 to_text hash st' r) as [ms'|e|] eqn:E'; [|discriminate H|discriminate H]. cbn in H. injection H as <-.
  destruct (dag_step_short _ _ _ _ Hs Hst E) as [Hst' Hm]. constructor; [done|]. by apply (IH st').
Qed.
Lemma store_model_ok m d : model_short m -> exists d', store_model d m = Ok d'.
Proof.
  intros (H1 & H2 & H3 & H4). unfold store_model. rewrite mem_ins2. cbn [obind].
  assert (N : forall n d, (forall x, n = Some x -> node_short x) -> exists d', store_node n d = Ok d').
  { intros [n|] d0 Hn; [|by eexists]. destruct (Hn n eq_refl) as [Hp Hd]. cbn [store_node]. unfold node_bytes. destruct (parent_ok _ Hp) as [v ->]. cbn [obind].
    destruct (prefixed_ok _ Hd) as [w ->]. cbn [obind]. rewrite mem_ins2. by eexists. }
  match goal with |- context [store_node (rm_cb m) ?x] => destruct (N (rm_cb m) x H1) as [d2 ->] end. cbn [obind].
  destruct (N (rm_ov m) d2 H2) as [d3 ->]. cbn [obind]. unfold bnode_bytes. destruct (parent_ok _ H3) as [v ->]. cbn [obind]. destruct (prefixed_all_ok _ H4) as [w ->]. cbn [obind].
  rewrite mem_ins2. by eexists.
Qed.
Lemma store_models_ok ms : forall d, Forall model_short ms -> exists d', fold_left (fun acc m => let! d := acc in store_model d m) ms (Ok d) = Ok d'.
Proof.
  induction ms as [|m ms IH]; intros d HF; [by eexists|]. apply Forall_cons in HF as [Hm HF]. cbn [fold_left obind]. destruct (store_model_ok m d Hm) as [d' ->]. by apply IH.
Qed.
Lemma build_step_ok s f : step_short s -> exists f', build_step to_text s f = Ok f'.
Proof.
  intros [(P1 & P2 & P3) R Hp]. unfold build_step, op_encode. destruct (parent_ok _ Hp) as [v E]. unfold parent_bytes in E. rewrite E. cbn [obind].
  destruct P1 as [b ->], P2 as [c ->]. cbn [unwrap_some obind]. rewrite !mem_ins2. cbn [obind]. rewrite mem_ins2. cbn [obind].
  match goal with |- context [store_overlays to_text _ ?x] => generalize x end. revert P3. generalize (b_ovs (bs_result s)). intros ovs HF.
  assert (Ho : forall d, exists d', store_overlays to_text ovs d = Ok d').
  { induction HF as [|ov l [sv Hs] _ IH]; intros d; [by eexists|]. cbn [store_overlays]. rewrite Hs. cbn [unwrap_some obind]. rewrite mem_ins2. cbn [obind]. apply IH. }
  intros d. destruct (Ho d) as [d' ->]. cbn [obind]. by eexists.
Qed.
Lemma build_steps_ok l : forall f, Forall step_short l -> exists f', build_steps to_text l f = Ok f'.
Proof.
  induction l as [|s l IH]; intros f HF; [by eexists|]. apply Forall_cons in HF as [Hs HF]. cbn [build_steps]. destruct (build_step_ok s f Hs) as [f' ->]. cbn [obind]. by apply IH.
Qed.
End Total.

(** A bundle with all its SAIDs is added to the relations of any earlier builds. *)
Lemma relations_added listing Bs B f : listing_ok listing -> Forall saids_present (Bs ++ [B]) -> saids_sane (Bs ++ [B]) -> relations_of listing Bs f ->
  exists d, add_relations listing B (fa_db f) = Ok d.
Proof.
  intros Hl Hp Hsane (d & Ed & Hd). set (Cs := Bs ++ [B]) in *. set (kind := kind_in Cs). pose (S := fun s => exists B r, B ∈ Cs /\ has_role B s r).
  pose proof Hsane as (Hone & Hlen & Hmeta).
  assert (HK : forall B, B ∈ Cs -> kinds_match kind B) by (intros B' HB s r Hsr; by apply (kind_in_role Cs B')).
  assert (SF : forall s, S s -> fine kind s).
  { intros s (B' & r & HB & Hsr). split; [|by eapply Hlen]. rewrite (HK B' HB s r Hsr). apply shown_byte. }
  assert (SM : forall s s', S s -> S s' -> s <> meta_key s') by (intros s s' (B1 & r & HB & Hsr) (B2 & r' & HB' & Hr'); exact (Hmeta _ _ _ _ _ _ HB HB' Hsr Hr')).
  assert (HB : B ∈ Cs) by (apply elem_of_app; right; left).
  destruct (history_rows listing Cs Bs Hl Hp Hsane) as (d' & E' & R & K & O); [apply Forall_forall; intros B' HB'; apply elem_of_app; by left|].
  unfold history in E'. rewrite Ed in E'. injection E' as <-. fold kind in R, K.
  set (D := fun s => exists B, B ∈ Bs /\ in_bundle B s) in *. set (P0 := fun s t => exists B, B ∈ Bs /\ linked B s t) in *.
  assert (H0 : forall s, S s -> row kind (fa_db f) s (D s) (P0 s)) by (intros s Hs; apply (row_same _ d); [apply Hd|by apply R]).
  assert (PS : forall s t, P0 s t -> S t).
  { intros s t (B' & HB' & Hlk). exists B'. assert (exists r, has_role B' t r) as [r Hr'] by (destruct Hlk; by eexists).
    exists r. split; [apply elem_of_app; by left|done]. }
  assert (BP : saids_present B) by exact (proj1 (Forall_forall _ _) Hp _ HB).
  assert (BI : forall s, in_bundle B s -> S s) by (intros s [r Hs]; by exists B, r).
  assert (BO : forall s r r', has_role B s r -> has_role B s r' -> r = r') by (intros s r r'; exact (Hone B B s r r' HB HB)).
  assert (M0 : mid kind S B (fa_db f) D P0 (fa_db f)) by by apply mid_start.
  destruct (mid_finish listing Hl kind S SF SM B BP (HK B HB) BI BO (fa_db f) D P0 PS (fa_db f) M0) as (d' & E & _). by exists d'.
Qed.
Lemma relations_agree listing Bs f g : relations_of listing Bs f -> (forall k, entry (fa_db g) NsRelations k = entry (fa_db f) NsRelations k) -> relations_of listing Bs g.
Proof. intros (d & E & H) Hg. exists d. split; [done|]. intros k. by rewrite Hg. Qed.

(** After any builds [Bs], a build with sane SAIDs that fit a length byte succeeds. *)
Theorem C46_build_succeeds : forall from1 to1 listing to_text hash Bs B steps f,
  listing_ok listing -> codes_ok from1 to1 -> (forall t, short (hash t)) ->
  Forall saids_present (Bs ++ [B]) -> saids_sane (Bs ++ [B]) -> relations_of listing Bs f -> Forall step_short steps ->
  exists g, build from1 to1 listing to_text hash B steps f = Ok (g, B).
Proof.
  intros f1 t1 ls tt hs Bs B steps f Hl Hc Hh Hp Hs Hr Hsteps. unfold build.
  assert (BP : saids_present B) by (apply (proj1 (Forall_forall _ _) Hp); apply elem_of_app; right; left). destruct BP as ([k Ek] & [c Ec] & _).
  assert (Ecache : exists g1, build_cache tt B f = Ok g1 /\ fa_db g1 = fa_db f) by (unfold build_cache; rewrite Ek, Ec; by eexists). destruct Ecache as (g1 & -> & D1). cbn [obind].
  assert (Emeta : exists g2, build_meta B g1 = Ok g2 /\ fa_db g2 = fa_db g1) by (unfold build_meta; rewrite Ek; destruct (omap _ _); by eexists). destruct Emeta as (g2 & -> & D2). cbn [obind].
  destruct (build_steps_ok tt steps g2 Hsteps) as [g3 E3]. rewrite E3. cbn [obind]. destruct (build_steps_effect _ _ _ _ E3) as (_ & I2 & _).
  destruct (relations_added ls Bs B g3 Hl Hp Hs) as [d4 E4].
  { apply (relations_agree _ _ f); [done|]. intros k'. rewrite I2, D2, D1 by done. done. }
  rewrite E4. cbn [obind]. unfold build_models.
  destruct (C30_version_dag f1 t1 tt hs steps Hc) as (ms & Em & _); [eapply Forall_impl; [exact Hsteps|]; intros s Hss; apply Hss|]. rewrite Em. cbn [obind].
  assert (Forall model_short ms) as Hms by (apply (dag_steps_short f1 t1 tt hs Hh steps dstate_new); [done| |exact Em]; split; [|split]; done).
  destruct (store_models_ok ms d4 Hms) as [d5 ->]. cbn [obind]. by eexists.
Qed.
Print Assumptions C46_build_succeeds.

(** ** Files *)
Lemma generated_hashed digest o b B s r : generate_bundle digest o b = Some B -> has_role B s r ->
  exists j, hashed B j /\ s = digest j /\ match r with RBundle => j = bundle_json_d (JStr dummy_said) B | RCapture => j = cb_json_d (JStr dummy_said) (b_cb B)
    | ROverlay k => exists ov, j = overlay_json_d (JStr dummy_said) ov /\ k = ot_kind (ov_type ov) end.
Proof.
  intros G H. destruct (C03_generated_saids_verify _ _ _ _ G) as (S1 & S2 & S3). destruct H as [[-> E]|[[-> E]|(ov & Hov & E & -> )]].
  - exists (bundle_json_d (JStr dummy_said) B). split; [constructor|]. split; [congruence|done].
  - exists (cb_json_d (JStr dummy_said) (b_cb B)). split; [constructor|]. split; [congruence|done].
  - exists (overlay_json_d (JStr dummy_said) ov). split; [by constructor|]. destruct (S3 ov Hov) as [E' _]. split; [congruence|]. by exists ov.
Qed.
Lemma overlay_head ov : exists l, overlay_json_d (JStr dummy_said) ov =
  JObj ((("d", JStr dummy_said) :: match ov_body ov with
    | BMapping _ => [("type", JStr (otype_text (ov_type ov))); ("capture_base", jopt (ov_cb ov))]
    | _ => [("capture_base", jopt (ov_cb ov)); ("type", JStr (otype_text (ov_type ov)))] end) ++ l).
Proof. exists (body_fields (ov_body ov)). unfold overlay_json_d. by destruct (ov_body ov). Qed.
Definition jkey (n : nat) (j : json) : option (string * json) := match j with JObj l => l !! n | _ => None end.
Lemma overlay_keys ov : let j := overlay_json_d (JStr dummy_said) ov in
  (jkey 1 j = Some ("capture_base", jopt (ov_cb ov)) /\ jkey 2 j = Some ("type", JStr (otype_text (ov_type ov)))) \/
  (jkey 1 j = Some ("type", JStr (otype_text (ov_type ov))) /\ jkey 2 j = Some ("capture_base", jopt (ov_cb ov))).
Proof. cbv zeta. destruct (overlay_head ov) as [l ->]. destruct (ov_body ov); cbn; auto. Qed.
Lemma sane_generated digest Bs : plain_digest digest -> no_clash digest Bs -> Forall (fun B => exists o b, generate_bundle digest o b = Some B) Bs -> saids_sane Bs.
Proof.
  intros [Hs Hm] Hn HF. rewrite Forall_forall in HF. split; [|split].
  - intros B B' s r r' HB HB' H H'. destruct (HF B HB) as (o & b & G), (HF B' HB') as (o' & b' & G').
    destruct (generated_hashed _ _ _ _ _ _ G H) as (j & Hj & Ej & Rj), (generated_hashed _ _ _ _ _ _ G' H') as (j' & Hj' & Ej' & Rj').
    assert (E : j = j') by (apply (Hn B B'); [done..|congruence]).
    destruct r as [| |k], r' as [| |k']; try done.
    + exfalso. rewrite Rj, Rj' in E. discriminate E.
    + exfalso. destruct Rj' as (ov & Rj' & _). rewrite Rj, Rj' in E. destruct (overlay_keys ov) as [[X Y]|[X Y]]; rewrite <- E in X, Y; cbn in X, Y; congruence.
    + exfalso. rewrite Rj, Rj' in E. discriminate E.
    + exfalso. destruct Rj' as (ov & Rj' & _). rewrite Rj, Rj' in E. destruct (overlay_keys ov) as [[X Y]|[X Y]]; rewrite <- E in X, Y; cbn in X, Y; congruence.
    + exfalso. destruct Rj as (ov & Rj & _). rewrite Rj, Rj' in E. destruct (overlay_keys ov) as [[X Y]|[X Y]]; rewrite E in X, Y; cbn in X, Y; congruence.
    + exfalso. destruct Rj as (ov & Rj & _). rewrite Rj, Rj' in E. destruct (overlay_keys ov) as [[X Y]|[X Y]]; rewrite E in X, Y; cbn in X, Y; congruence.
    + destruct Rj as (ov & Rj & -> ), Rj' as (ov' & Rj' & -> ). rewrite Rj, Rj' in E.
      assert (Et : ov_type ov = ov_type ov').
      { apply Codec_proofs.otype_text_inj. destruct (overlay_keys ov) as [[X Y]|[X Y]], (overlay_keys ov') as [[X' Y']|[X' Y']]; rewrite E in X, Y; congruence. }
      by rewrite Et.
  - intros B s r HB H. destruct (HF B HB) as (o & b & G). destruct (generated_hashed _ _ _ _ _ _ G H) as (j & _ & -> & _). apply Hs.
  - intros B B' s s' r r' HB HB' H H'. destruct (HF B HB) as (o & b & G), (HF B' HB') as (o' & b' & G').
    destruct (generated_hashed _ _ _ _ _ _ G H) as (j & _ & -> & _), (generated_hashed _ _ _ _ _ _ G' H') as (j' & _ & -> & _). apply Hm.
Qed.

Section Files.
Variable digest : json -> string.
Variables from1 to1 : string -> option string.
Variable listing : string -> list oobject -> list oobject.
Variables said_ok digits lang_ok : string -> bool.
Variable standard_read : string -> option string.
Variable to_text : json -> string.
Variable of_text : string -> option json.
Variable hash : string -> string.
Notation validate := (validate_ast digest from1 said_ok digits lang_ok standard_read of_text).
Notation build_file := (build_ast digest from1 to1 listing said_ok digits lang_ok standard_read to_text of_text hash).

(** A validated file is a successful build of its commands, on the base it names. *)
Lemma validate_from os a f g B steps : validate os a f = Ok (g, (B, steps)) -> exists from a', (forall B0, from = Some B0 -> exists t, read_bundle said_ok digits lang_ok standard_read of_text t = Ok B0) /\
  from_ast digest from1 os from a' = BuildOk B steps /\ (forall k, entry (fa_db g) NsRelations k = entry (fa_db f) NsRelations k).
Proof.
  intros H. pose proof H as Hw. unfold validate_ast in H. destruct (check_base said_ok digits lang_ok standard_read of_text (fa_cache f) a) as [x|e|] eqn:Ex; [|discriminate H|discriminate H].
  cbn [obind] in H. cbv zeta in H. destruct (resolve _ _ _) as [cs|e|]; [|discriminate H|discriminate H]. cbn [obind] in H.
  destruct (from_ast digest from1 os x.1 _) as [B1 st1| |] eqn:Ea; [|discriminate H|discriminate H].
  assert (HB : (B1, st1) = (B, steps)).
  { destruct (ast_meta x.2 !! "name"); [|congruence]. destruct (b_said B1); [|discriminate H]. cbn [unwrap_some obind] in H. rewrite mem_ins2 in H. cbn [obind] in H. congruence. }
  injection HB as -> ->. exists x.1, (Ast (ast_version x.2) cs (ast_cmeta x.2) (ast_meta x.2)). split; [|split; [exact Ea|]].
  - intros B0 E0. unfold check_base in Ex. destruct (ast_commands a) as [|[[] [| [[s|n]] |]] r]; try (injection Ex as <-; discriminate E0); try discriminate Ex.
    rewrite fetch_entry in Ex. destruct (entry (fa_cache f) NsBundles s) as [t|]; [|injection Ex as <-; discriminate E0].
    destruct (read_bundle said_ok digits lang_ok standard_read of_text t) as [B2|e|] eqn:Er; [|injection Ex as <-; discriminate E0|discriminate Ex].
    injection Ex as <-. cbn in E0. exists t. congruence.
  - intros k. destruct (validate_writes digest from1 said_ok digits lang_ok standard_read of_text os a f g B steps Hw) as [(_ & -> & _)|(n & s & _ & -> & _)]; [done|].
    rewrite put_db. cbn [fa_db with_db]. by rewrite entry_other.
Qed.
Lemma read_said t B0 s : read_bundle said_ok digits lang_ok standard_read of_text t = Ok B0 -> b_said B0 = Some s -> said_ok s = true.
Proof.
  unfold read_bundle, parse_text. destruct (of_text t) as [j|]; [|discriminate]. unfold bundle_parse. destruct j as [| | | |l|l]; try discriminate.
  destruct (optional "d" (said_parse said_ok) l) as [d|e|] eqn:Ed; [|discriminate|discriminate]. cbn [obind].
  destruct (required "capture_base" (cb_parse said_ok) l) as [c|e|]; [|discriminate|discriminate]. cbn [obind].
  destruct (required "overlays" _ l) as [o|e|]; [|discriminate|discriminate]. cbn [obind]. intros [= <-]. cbn. intros ->.
  unfold optional in Ed. destruct (field "d" l) as [x|e|]; [|discriminate Ed|discriminate Ed]. cbn [obind] in Ed. unfold opt_parse in Ed.
  destruct x as [j|]; [|discriminate Ed]. destruct j as [| | |v| |]; try discriminate Ed. unfold said_parse in Ed. destruct (said_ok v) eqn:Ev; [|discriminate Ed]. cbn in Ed. congruence.
Qed.
Lemma generated_short o b B s r : plain_digest digest -> generate_bundle digest o b = Some B -> has_role B s r -> short s.
Proof. intros [Hs _] G H. destruct (generated_hashed _ _ _ _ _ _ G H) as (j & _ & -> & _). apply Hs. Qed.
Lemma from_ast_short os from a B steps : plain_digest digest -> (forall s, said_ok s = true -> short s) ->
  (forall B0, from = Some B0 -> exists t, read_bundle said_ok digits lang_ok standard_read of_text t = Ok B0) ->
  from_ast digest from1 os from a = BuildOk B steps -> Forall step_short steps /\ exists o b, generate_bundle digest o b = Some B.
Proof.
  intros Hd Hk Hf H. destruct (base_of_some _ _ _ _ _ _ H) as [st Hb]; [done|]. destruct (C13_step_chain _ _ _ _ _ _ _ _ Hb H) as (_ & Hs & b & _ & G).
  split; [|by eexists _, _]. apply Forall_forall. intros s Hin. apply elem_of_list_lookup in Hin as [i Hi]. destruct (Hs i s Hi) as (_ & Ep & b' & _ & G'). split.
  - by eapply generated_present.
  - intros t r. by eapply generated_short.
  - intros p Hp. rewrite Ep in Hp. destruct i as [|j].
    + destruct from as [B0|]; [|discriminate Hp]. cbn in Hp. destruct (Hf B0 eq_refl) as [t Ht]. by apply Hk, (read_said t B0).
    + destruct (steps !! j) as [s'|] eqn:Ej; [|discriminate Hp]. cbn in Hp. destruct (Hs j s' Ej) as (_ & _ & b2 & _ & G2). apply (generated_short _ _ _ p RBundle Hd G2). by left.
Qed.
Lemma after_relations Bs f : plain_digest digest -> files_run digest from1 to1 listing said_ok digits lang_ok standard_read to_text of_text hash Bs f ->
  relations_of listing Bs f /\ Forall (fun B => exists o b, generate_bundle digest o b = Some B) Bs.
Proof.
  intros Hd. induction 1 as [|Bs f os a g [B steps] _ [IH1 IH2] H|Bs f os a g B _ [IH1 IH2] H].
  - split; [apply relations_of_new|constructor].
  - split; [|done]. destruct (validate_from _ _ _ _ _ _ H) as (_ & _ & _ & _ & E). by apply (relations_agree _ _ f).
  - split; [by eapply file_relations_of|]. apply Forall_app. split; [done|]. constructor; [|constructor].
    unfold build_ast in H. apply obind_ok in H as ([f1 [B1 steps]] & Hv & H). cbn [fst snd] in H. pose proof (build_effect _ _ _ _ _ _ _ _ _ _ H) as [-> _].
    destruct (validate_from _ _ _ _ _ _ Hv) as (from & a' & _ & E & _). destruct (base_of_some _ _ _ _ _ _ E) as [st Hb]; [done|].
    destruct (C13_step_chain _ _ _ _ _ _ _ _ Hb E) as (_ & _ & b & _ & G). by eexists _, _.
Qed.
End Files.
Lemma generated_all digest Bs : Forall (fun B => exists o b, generate_bundle digest o b = Some B) Bs -> Forall saids_present Bs.
Proof. intros H. eapply Forall_impl; [exact H|]. intros B (o & b & G). by eapply generated_present. Qed.

(** After any validations and builds of files, building a file ends as validating it does: with the same errors, and otherwise
    with the validated bundle, provided that its SAIDs do not clash with those of the bundles built before. *)
Theorem C46_file_build_succeeds : forall digest from1 to1 listing said_ok digits lang_ok standard_read to_text of_text hash Bs f os a,
  listing_ok listing -> codes_ok from1 to1 -> (forall t, short (hash t)) -> plain_digest digest -> (forall s, said_ok s = true -> short s) ->
  files_run digest from1 to1 listing said_ok digits lang_ok standard_read to_text of_text hash Bs f ->
  match validate_ast digest from1 said_ok digits lang_ok standard_read of_text os a f with
  | Ok (f1, (B, steps)) => no_clash digest (Bs ++ [B]) ->
      exists g, build_ast digest from1 to1 listing said_ok digits lang_ok standard_read to_text of_text hash os a f = Ok (g, B)
  | Err es => build_ast digest from1 to1 listing said_ok digits lang_ok standard_read to_text of_text hash os a f = Err es
  | Panic => build_ast digest from1 to1 listing said_ok digits lang_ok standard_read to_text of_text hash os a f = Panic
  end.
Proof.
  intros dig f1 t1 ls so dg lo sr tt ot hs Bs f os a Hl Hc Hh Hd Hk Ha. unfold build_ast.
  destruct (validate_ast dig f1 so dg lo sr ot os a f) as [[g [B steps]]|e|] eqn:Ev; [|done|done]. intros Hn. cbn [obind fst snd].
  destruct (after_relations _ _ _ _ _ _ _ _ _ _ _ _ _ Hd Ha) as [Hr Hg]. destruct (validate_from _ _ _ _ _ _ _ _ _ _ _ _ _ Ev) as (from & a' & Hf & E & Er).
  destruct (from_ast_short dig f1 so dg lo sr ot os from a' B steps Hd Hk Hf E) as [Hs HG].
  assert (HF : Forall (fun B => exists o b, generate_bundle dig o b = Some B) (Bs ++ [B])) by (apply Forall_app; split; [done|by constructor]).
  apply (C46_build_succeeds f1 t1 ls tt hs Bs B steps g Hl Hc Hh); [by apply (generated_all dig)|by apply (sane_generated dig)|by apply (relations_agree _ _ f)|done].
Qed.
Print Assumptions C46_file_build_succeeds.

(** ** What the facade shows of the relations after files (C21 at the level of the facade) *)
Lemma explore_agree d d' s : (forall k, entry d NsRelations k = entry d' NsRelations k) -> explore d s = explore d' s.
Proof. intros H. unfold explore, object_new, object_type. rewrite !get_entry, !H. done. Qed.
(** After any validations and builds of files, exploring an object of a built bundle shows its kind and exactly the objects
    some build links it to; a name no build has is unknown. *)
Theorem C21_after_files : forall digest from1 to1 listing said_ok digits lang_ok standard_read to_text of_text hash Bs f,
  listing_ok listing -> plain_digest digest -> no_clash digest Bs ->
  files_run digest from1 to1 listing said_ok digits lang_ok standard_read to_text of_text hash Bs f ->
  (forall B s r, B ∈ Bs -> has_role B s r -> exists l, explore (fa_db f) s = Ok (Some (OObj s (shown r), l)) /\ NoDup l /\
     forall x, x ∈ l <-> exists B' t r', B' ∈ Bs /\ linked B' s t /\ has_role B' t r' /\ x = OObj t (shown r')) /\
  (forall s, (forall B r, B ∈ Bs -> ~ has_role B s r) -> (forall B t r, B ∈ Bs -> has_role B t r -> s <> (t +:+ ".metadata")%string) ->
     explore (fa_db f) s = Ok None).
Proof.
  intros dig f1 t1 ls so dg lo sr tt ot hs Bs f Hl Hd Hn Ha. destruct (after_relations _ _ _ _ _ _ _ _ _ _ _ _ _ Hd Ha) as [(d & Ed & Hr) Hg].
  destruct (C21_relation_table ls Bs Hl (generated_all _ _ Hg) (sane_generated _ _ Hd Hn Hg)) as (d' & Ed' & H1 & H2). unfold history in Ed'. rewrite Ed in Ed'. injection Ed' as <-.
  split; [intros B s r HB Hs|intros s Hs Hm]; rewrite (explore_agree _ d) by exact Hr; [by apply (H1 B)|by apply H2].
Qed.
Print Assumptions C21_after_files.

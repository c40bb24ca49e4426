(** Proofs of C10-C14, C16, C38, C39 from the lemmas about commands and runs. *)
From Verif Require Import Spec_Build Upd_proofs Effect_proofs Command_proofs Load_proofs Run_proofs Bundle_proofs Box_proofs Determinism_proofs.

(** ** Merge *)
Lemma merge_ok a a' m : merge a a' = Ok m -> at_name a = at_name a' /\ m = merge_fields a a'.
Proof. unfold merge. destruct (String.eqb_spec (at_name a) (at_name a')); [|done]. by intros [= <-]. Qed.
Lemma lookup_merge_map {V} (x y : option (gmap string V)) k :
  lookup_opt k (merge_map x y) = match lookup_opt k y with Some v => Some v | None => lookup_opt k x end.
Proof.
  destruct x as [x|], y as [y|]; cbn; try done; [rewrite lookup_union; by destruct (y !! k), (x !! k)|by destruct (y !! k)].
Qed.
Lemma merge_newer a a' s d : attr_ok a' -> ~ first_wins s -> ~ is_label s ->
  attr_datum a' s = Some d -> attr_datum (merge_fields a a') s = Some d.
Proof.
  intros Ha Hf Hl. destruct s as [k|k l|t|f].
  - destruct k; cbn; try done; try (by destruct Hf; unfold first_wins; auto).
    + by destruct (at_enc a').
    + by destruct (at_format a').
    + by destruct (at_card a').
    + destruct (ak_cond a' Ha) as [[E1 E2]|(c & E1 & E2)]; rewrite E1; [done|]. rewrite E2. done.
    + by destruct (at_conf a').
  - destruct k; cbn -[lookup_opt]; try done; try (by destruct Hl; eexists).
    + rewrite lookup_merge_map. by destruct (lookup_opt l (at_infos a')).
    + rewrite lookup_merge_map. by destruct (lookup_opt l (at_entries a')).
  - cbn. destruct (at_links a'); done.
  - cbn. destruct (at_frames a'); done.
Qed.
Lemma merge_older a a' s : attr_ok a' -> ~ whole_table s -> ~ is_label s ->
  attr_datum a' s = None -> attr_datum (merge_fields a a') s = attr_datum a s.
Proof.
  intros Ha Hw Hl. destruct s as [k|k l|t|f]; [| |by destruct Hw|by destruct Hw].
  - destruct k; cbn; try done.
    + by destruct (at_enc a').
    + by destruct (at_format a').
    + by destruct (at_card a').
    + by destruct (at_cond a').
    + by destruct (at_conf a').
    + destruct (at_ecodes a'); [done|]. by destruct (at_ecodes a).
    + destruct (at_unit a'); [done|]. by destruct (at_unit a).
  - destruct k; cbn -[lookup_opt]; try done; try (by destruct Hl; eexists).
    + rewrite lookup_merge_map. by destruct (lookup_opt l (at_infos a')).
    + rewrite lookup_merge_map. by destruct (lookup_opt l (at_entries a')).
Qed.
Lemma merge_first a a' s d : first_wins s -> attr_datum a s = Some d -> attr_datum (merge_fields a a') s = Some d.
Proof. intros [ -> | -> ]; cbn; [by destruct (at_unit a)|by destruct (at_ecodes a)]. Qed.
Lemma merge_first_new a a' s : first_wins s -> attr_datum a s = None -> attr_datum (merge_fields a a') s = attr_datum a' s.
Proof. intros [ -> | -> ]; cbn; [by destruct (at_unit a)|by destruct (at_ecodes a)]. Qed.
Lemma newer_assoc {V} (x y z : option V) : newer (newer x y) z = newer x (newer y z).
Proof. by destruct z, y. Qed.
Lemma older_assoc {V} (x y z : option V) : older (older x y) z = older x (older y z).
Proof. by destruct x, y. Qed.
Lemma merge_map_assoc {V} (x y z : option (gmap string V)) : merge_map (merge_map x y) z = merge_map x (merge_map y z).
Proof. destruct x, y, z; cbn; try done. f_equal. by rewrite (assoc_L (∪)). Qed.
Lemma merge_assoc a b c : attr_ok b -> attr_ok c ->
  merge_fields (merge_fields a b) c = merge_fields a (merge_fields b c).
Proof.
  intros Hb Hc. unfold merge_fields. cbn. rewrite !newer_assoc, !older_assoc, !merge_map_assoc. f_equal.
  destruct (ak_cond b Hb) as [[E1 E2]|(x & E1 & E2)]; destruct (ak_cond c Hc) as [[E3 E4]|(y & E3 & E4)];
    rewrite ?E1, ?E2, ?E3, ?E4; cbn; done.
Qed.

(** ** Bundles and boxes *)
Lemma bundle_says_box b B s n d : bundle_right b B -> s <> SPlain KAttributeMapping ->
  bundle_says B s n d <-> box_datum b s n = Some d.
Proof.
  intros R Hs. split.
  - intros (ov & Hin & <- & Hd). by apply (br_facts b B R).
  - intros Hd. destruct (proj2 (br_exists b B R s Hs)) as (ov & Hin & E); [eauto|]. exists ov. split; [done|]. split; [done|].
    apply (br_facts b B R); [done|by rewrite E|by rewrite E].
Qed.
Section C14.
Variable from1 : string -> option string.
Variable digest : json -> string.
Variable o o' : order.
Hypothesis Ho : order_ok o.
Hypothesis Ho' : order_ok o'.
Variable b b' : obox.
Variable cc : cap_content.
Hypothesis Hb : api_box b.
Hypothesis Hrun : apply_command from1 (Some b) (Command CRemove (OCaptureBase cc)) = Ok b'.
Lemma removed_attrs m : bx_attrs b' !! m = if decide (m ∈ imap_keys (unwrap_or [] (cc_attrs cc))) then None else bx_attrs b !! m.
Proof.
  injection Hrun as <-. unfold remove_capture. set (b1 := fold_left _ (unwrap_or [] (cc_attrs cc)) b).
  destruct (remove_capture_class (unwrap_or [] (cc_props cc)) b1) as (-> & _).
  destruct (remove_capture_attrs (unwrap_or [] (cc_attrs cc)) b) as (_ & _ & _ & H4). apply H4.
Qed.
Lemma removed_meta : bx_meta b' = bx_meta b /\ bx_maps b' = bx_maps b.
Proof.
  injection Hrun as <-. unfold remove_capture. set (b1 := fold_left _ (unwrap_or [] (cc_attrs cc)) b).
  destruct (remove_capture_class (unwrap_or [] (cc_props cc)) b1) as (_ & -> & -> & _).
  destruct (remove_capture_attrs (unwrap_or [] (cc_attrs cc)) b) as (H1 & H2 & _). done.
Qed.
Lemma removed_api : api_box b'.
Proof. injection Hrun as <-. by apply remove_capture_api. Qed.
Lemma C14_gone n B' : n ∈ imap_keys (unwrap_or [] (cc_attrs cc)) -> generate_bundle digest o' b' = Some B' ->
  (forall s d, (forall l, s <> SLang KMeta l) -> s <> SPlain KAttributeMapping -> ~ bundle_says B' s n d) /\
  n ∉ map fst (cb_attrs (b_cb B')) /\ n ∉ cb_flagged (b_cb B').
Proof.
  intros Hn G. destruct (C02_proof o' Ho' digest b' (api_box_ok _ removed_api)) as (B2 & G2 & R). rewrite G in G2. injection G2 as <-.
  assert (E : bx_attrs b' !! n = None) by by rewrite removed_attrs, decide_True.
  split; [|split].
  - intros s d Hs Hm H. apply (bundle_says_box b' B') in H; [|done|done]. rewrite box_datum_attr, E in H by done. done.
  - intros H. apply elem_of_list_fmap in H as ([n' t] & -> & H). apply (br_types b' B' R) in H as (a & Ha & _). cbn in E. congruence.
  - intros H. apply (br_flags b' B' R) in H as (a & Ha & _). congruence.
Qed.
Lemma C14_rest B B' : generate_bundle digest o b = Some B -> generate_bundle digest o' b' = Some B' ->
  forall n, n ∉ imap_keys (unwrap_or [] (cc_attrs cc)) ->
  (forall s d, s <> SPlain KAttributeMapping -> bundle_says B' s n d <-> bundle_says B s n d) /\
  (forall t, (n, t) ∈ cb_attrs (b_cb B') <-> (n, t) ∈ cb_attrs (b_cb B)) /\ (n ∈ cb_flagged (b_cb B') <-> n ∈ cb_flagged (b_cb B)).
Proof.
  intros G G' n Hn. destruct (C02_proof o' Ho' digest b' (api_box_ok _ removed_api)) as (B2 & G2 & R'). rewrite G' in G2. injection G2 as <-.
  destruct (C02_proof o Ho digest b (api_box_ok _ Hb)) as (B2 & G2 & R). rewrite G in G2. injection G2 as <-.
  assert (E : bx_attrs b' !! n = bx_attrs b !! n) by by rewrite removed_attrs, decide_False.
  split; [|split].
  - intros s d Hm. rewrite (bundle_says_box b' B'), (bundle_says_box b B) by done. unfold box_datum. by rewrite E, (proj1 removed_meta).
  - intros t. rewrite (br_types b' B' R'), (br_types b B R). by rewrite E.
  - rewrite (br_flags b' B' R'), (br_flags b B R). by rewrite E.
Qed.
Lemma C14_readd n t b2 : n ∈ imap_keys (unwrap_or [] (cc_attrs cc)) ->
  apply_command from1 (Some b') (Command CAdd (OCaptureBase (CapContent (Some [(n, t)]) None None))) = Ok b2 ->
  bx_attrs b2 !! n = Some (set_type t (attr_new n)).
Proof.
  intros Hn [= <-]. cbn. unfold add_attribute. cbn. rewrite removed_attrs, decide_True by done. apply lookup_insert.
Qed.
End C14.

(** ** Builds *)
Section Build.
Variable digest : json -> string.
Variable from1 : string -> option string.
Variable os : nat -> order.
Hypothesis Hos : forall i, order_ok (os i).
Lemma from_ast_base_of from a st : base_of (os (S (length (ast_commands a)))) from st ->
  from_ast digest from1 os from a = from_ast_base digest from1 os st (is_some_b from) (from ≫= b_said) a.
Proof. unfold from_ast. intros [|B b H]; [done|]. rewrite H. done. Qed.
Lemma base_of_some from a r : from_ast digest from1 os from a = r -> r <> BuildPanic -> exists st, base_of (os (S (length (ast_commands a)))) from st.
Proof.
  unfold from_ast. destruct from as [B|]; [|intros _ _; eexists; constructor].
  destruct (load _ B) as [b|] eqn:E; [|intros <-; done]. intros _ _. exists (Some b). by constructor.
Qed.
Lemma base_of_ok from a st : base_of (os (S (length (ast_commands a)))) from st -> st_ok st.
Proof. intros [|B b H] x; [done|]. intros [= <-]. by eapply load_api. Qed.
Lemma line_meta_eq from a i : line_meta (is_some_b from) a i = command_line from a i.
Proof. unfold line_meta, command_line, unwrap_or, default_meta. by destruct from. Qed.
Lemma report_ext cm cm' l : (forall i, cm i = cm' i) -> forall i, report cm i l = report cm' i l.
Proof. intros H. induction l as [|r l IH]; intros i; [done|]. cbn. by rewrite H, IH. Qed.

Lemma C12_err from a st es : base_of (os (S (length (ast_commands a)))) from st -> Forall command_ok (ast_commands a) ->
  from_ast digest from1 os from a = BuildErr es <->
  (forall r, r ∈ outcomes from1 st (ast_commands a) -> is_panic r = false) /\ es <> [] /\
  es = report (command_line from a) 0 (outcomes from1 st (ast_commands a)).
Proof.
  intros Hb Hc. rewrite (from_ast_base_of from a st Hb).
  assert (Hrep : report (line_meta (is_some_b from) a) 0 (outcomes from1 st (ast_commands a)) = report (command_line from a) 0 (outcomes from1 st (ast_commands a))).
  { apply report_ext. apply line_meta_eq. }
  split.
  - intros H. apply base_err in H as (H1 & H2 & H3). rewrite Hrep in H3. rewrite Forall_forall in H1. done.
  - intros (H1 & H2 & H3). assert (H1' : Forall (fun r => is_panic r = false) (outcomes from1 st (ast_commands a))) by by apply Forall_forall.
    assert (Hne : is_Some st \/ ast_commands a <> []). { right. intros E. rewrite E in H3. done. }
    pose proof (base_total from1 digest os st (is_some_b from) (from ≫= b_said) a Hos Hc (base_of_ok from a st Hb) H1' Hne) as T.
    destruct (from_ast_base _ _ _ _ _ _ _) as [B ss|es'|] eqn:E; [| |done].
    + apply base_ok in E as (E & _). exfalso. apply H2. rewrite H3. by apply report_ok.
    + apply base_err in E as (_ & _ & E). rewrite Hrep in E. congruence.
Qed.
Lemma C12_ok from a st : base_of (os (S (length (ast_commands a)))) from st -> Forall command_ok (ast_commands a) ->
  (exists B ss, from_ast digest from1 os from a = BuildOk B ss) <->
  (forall r, r ∈ outcomes from1 st (ast_commands a) -> is_ok r = true) /\ (is_Some from \/ ast_commands a <> []).
Proof.
  intros Hb Hc. rewrite (from_ast_base_of from a st Hb).
  assert (Hst : is_Some st <-> is_Some from). { destruct Hb; split; intros [? ?]; try done; by eexists. }
  split.
  - intros (B & ss & H). pose proof H as H'. apply base_ok in H as (H1 & H2 & b & H3 & _). rewrite Forall_forall in H1. split; [done|].
    destruct (ast_commands a); [|by right]. left. apply Hst. cbn in H3. by eexists.
  - intros [H1 H2]. assert (H1' : Forall (fun r => is_ok r = true) (outcomes from1 st (ast_commands a))) by by apply Forall_forall.
    assert (Hp : Forall (fun r => is_panic r = false) (outcomes from1 st (ast_commands a))).
    { eapply Forall_impl; [exact H1'|]. by intros []. }
    rewrite <- Hst in H2.
    pose proof (base_total from1 digest os st (is_some_b from) (from ≫= b_said) a Hos Hc (base_of_ok from a st Hb) Hp H2) as T.
    destruct (from_ast_base _ _ _ _ _ _ _) as [B ss|es'|] eqn:E; [eauto| |done].
    apply base_err in E as (_ & E1 & E). exfalso. apply E1. rewrite E. by apply report_ok.
Qed.
Lemma report_elem cm l : forall i e, e ∈ report cm i l <-> exists j es m, l !! j = Some (Err es) /\ m ∈ es /\ e = BErr (cm_line (cm (i + j)%nat)) (cm_raw (cm (i + j)%nat)) m.
Proof.
  induction l as [|r l IH]; intros i e; cbn; [split; [by intros ?%elem_of_nil|by intros (j & es & m & ? & _)]|].
  rewrite elem_of_app, IH. split.
  - intros [H|(j & es & m & H1 & H2 & H3)].
    + destruct r as [b|es|]; try (by apply elem_of_nil in H). apply elem_of_list_fmap in H as (m & -> & H). exists 0, es, m.
      rewrite Nat.add_0_r. done.
    + exists (S j), es, m. rewrite Nat.add_succ_r. done.
  - intros (j & es & m & H1 & H2 & H3). destruct j as [|j].
    + left. injection H1 as ->. rewrite Nat.add_0_r in H3. apply elem_of_list_fmap. eauto.
    + right. exists j, es, m. rewrite Nat.add_succ_r in H3. done.
Qed.
Lemma C12_lines from a st es : base_of (os (S (length (ast_commands a)))) from st -> Forall command_ok (ast_commands a) ->
  from_ast digest from1 os from a = BuildErr es ->
  (forall e, e ∈ es <-> exists i ms m, outcomes from1 st (ast_commands a) !! i = Some (Err ms) /\ m ∈ ms /\
     e = BErr (cm_line (command_line from a i)) (cm_raw (command_line from a i)) m) /\
  (forall i ms, outcomes from1 st (ast_commands a) !! i = Some (Err ms) -> ms <> []).
Proof.
  intros Hb Hc H. apply (C12_err from a st es Hb Hc) in H as (_ & _ & ->). split.
  - intros e. apply report_elem.
  - intros i ms H. apply elem_of_list_lookup_2 in H. by apply outcomes_err in H.
Qed.
Lemma state_after_cons st c cs : state_after from1 st (c :: cs) = state_after from1 (after st (apply_command from1 st c)) cs.
Proof. done. Qed.
Lemma chain_index cs : forall i parent st steps, chain from1 digest os i parent st cs steps ->
  length steps = length cs /\ forall j s, steps !! j = Some s ->
    cs !! j = Some (bs_cmd s) /\
    bs_parent s = match j with 0 => parent | S j' => p ← steps !! j'; b_said (bs_result p) end /\
    exists b, state_after from1 st (take (S j) cs) = Some b /\ generate_bundle digest (os (i + j)%nat) b = Some (bs_result s).
Proof.
  induction cs as [|c cs IH]; intros i parent st [|s steps]; cbn [chain]; try done.
  intros (E1 & E2 & b & E3 & E4 & E5). destruct (IH _ _ _ _ E5) as [H1 H2]. split; [cbn; by rewrite H1|].
  intros [|j] s' Hs; cbn in Hs.
  - injection Hs as <-. split; [by subst|]. split; [done|]. exists b. rewrite Nat.add_0_r. cbn. rewrite E3. done.
  - destruct (H2 j s' Hs) as (G1 & G2 & b' & G3 & G4). split; [done|]. split.
    + rewrite G2. by destruct j.
    + exists b'. rewrite Nat.add_succ_r. split; [|done]. cbn [take]. rewrite state_after_cons, E3. done.
Qed.
Lemma C13_chain from a st B steps : base_of (os (S (length (ast_commands a)))) from st ->
  from_ast digest from1 os from a = BuildOk B steps ->
  length steps = length (ast_commands a) /\
  (forall i s, steps !! i = Some s ->
     ast_commands a !! i = Some (bs_cmd s) /\
     bs_parent s = match i with 0 => from ≫= b_said | S j => p ← steps !! j; b_said (bs_result p) end /\
     exists b, state_after from1 st (take (S i) (ast_commands a)) = Some b /\ generate_bundle digest (os i) b = Some (bs_result s)) /\
  exists b, state_after from1 st (ast_commands a) = Some b /\ generate_bundle digest (os (length (ast_commands a))) b = Some B.
Proof.
  intros Hb. rewrite (from_ast_base_of from a st Hb). intros H. apply base_ok in H as (H1 & H2 & H3).
  apply chain_index in H2 as [H4 H5]. split; [done|]. split; [|done]. intros i s Hs. apply (H5 i s Hs).
Qed.
Lemma C13_last from a st B steps s b : Forall command_ok (ast_commands a) -> base_of (os (S (length (ast_commands a)))) from st ->
  from_ast digest from1 os from a = BuildOk B steps -> last steps = Some s ->
  state_after from1 st (ast_commands a) = Some b -> frames_consistent b -> no_collision digest (b_ovs B) ->
  bundle_json (bs_result s) = bundle_json B /\ b_said (bs_result s) = b_said B.
Proof.
  intros Hc Hb H Hl Hst Hf Hcol. assert (Hok : st_ok (Some b)). { rewrite <- Hst. apply state_after_ok; [done|]. by eapply base_of_ok. }
  apply (C13_chain from a st) in H as (H1 & H2 & b' & H3 & H4); [|done]. rewrite Hst in H3. injection H3 as <-.
  rewrite last_lookup in Hl. destruct (H2 _ _ Hl) as (_ & _ & b' & G1 & G2).
  assert (E : take (S (Nat.pred (length steps))) (ast_commands a) = ast_commands a).
  { apply take_ge. rewrite H1. lia. }
  rewrite E, Hst in G1. injection G1 as <-.
  assert (Hbo : box_ok b) by by apply api_box_ok, Hok.
  destruct (bundle_json_equiv digest _ _ b b B (bs_result s) (Hos _) (Hos _) Hbo Hbo (box_equiv_refl b) Hf H4 G2 Hcol) as (E1 & E2 & _). done.
Qed.

Lemma C11_types from a B steps : Forall command_ok (ast_commands a) ->
  (forall B0, from = Some B0 -> NoDup (map fst (cb_attrs (b_cb B0)))) ->
  from_ast digest from1 os from a = BuildOk B steps ->
  NoDup (map fst (cb_attrs (b_cb B))) /\
  forall n t, (n, t) ∈ cb_attrs (b_cb B) <-> fold_left replay_types (ast_commands a) (base_types from) !! n = Some t.
Proof.
  intros Hc Hnd H. destruct (base_of_some from a _ H) as [st Hb]; [done|].
  assert (Hok := base_of_ok from a st Hb).
  rewrite (from_ast_base_of from a st Hb) in H. apply base_ok in H as (H1 & _ & b & H2 & H3).
  assert (Hb' : api_box b). { apply (state_after_ok from1 (ast_commands a) st Hc Hok). done. }
  destruct (C02_proof _ (Hos (length (ast_commands a))) digest b (api_box_ok b Hb')) as (B2 & G2 & R). rewrite H3 in G2. injection G2 as <-.
  split; [apply R|]. intros n t. rewrite (br_types b B R).
  assert (E : forall n, box_types (unwrap_or box_new st) n = base_types from !! n).
  { intros m. destruct Hb as [|B0 b0 Hl]; cbn; [by unfold box_types; cbn; rewrite lookup_empty|].
    rewrite <- imap_get_map. apply (load_types (os (S (length (ast_commands a)))) (Hos _) B0 b0); [by apply Hnd|done]. }
  pose proof (run_types from1 (ast_commands a) st (base_types from) Hc Hok E H1 n) as T. rewrite H2 in T. cbn in T. rewrite <- T.
  unfold box_types. split.
  - intros (x & -> & Hx). done.
  - destruct (bx_attrs b !! n) as [x|]; [|done]. cbn. eauto.
Qed.
Lemma C39_class from a B steps : Forall command_ok (ast_commands a) -> from_ast digest from1 os from a = BuildOk B steps ->
  cb_class (b_cb B) = fold_left replay_class (ast_commands a) (match from with Some B0 => cb_class (b_cb B0) | None => "" end).
Proof.
  intros Hc H. destruct (base_of_some from a _ H) as [st Hb]; [done|].
  assert (Hok := base_of_ok from a st Hb).
  rewrite (from_ast_base_of from a st Hb) in H. apply base_ok in H as (H1 & _ & b & H2 & H3).
  assert (Hb' : api_box b). { apply (state_after_ok from1 (ast_commands a) st Hc Hok). done. }
  destruct (C02_proof _ (Hos (length (ast_commands a))) digest b (api_box_ok b Hb')) as (B2 & G2 & R). rewrite H3 in G2. injection G2 as <-.
  rewrite (br_class b B R). pose proof (run_class from1 (ast_commands a) st Hc Hok H1) as T. rewrite H2 in T. cbn in T. rewrite T.
  f_equal. destruct Hb as [|B0 b0 Hl]; [done|]. cbn [unwrap_or]. apply load_parts in Hl as (m & _ & _ & _ & -> & _); [done|apply Hos].
Qed.
End Build.

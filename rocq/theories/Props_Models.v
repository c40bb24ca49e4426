(** C45: the version graph in the store. *)
From Verif Require Import Spec_Models Facade_proofs Props_Facade Props_Storage Props_Relations Props_Dag Condition_proofs Props_History Props_Refs Props_Bundle Props_Build Build Spec_Bundle Props_Crash Crash Text.
Local Open Scope list_scope.

Lemma prefixed_record l r : prefixed_all l = Ok r -> r = record l /\ Forall (fun s => (String.length s <= 255)%nat) l.
Proof.
  revert r. induction l as [|s l IH]; intros r H; cbn [prefixed_all] in H; [injection H as <-; done|]. inv_ok H. inv_ok H. injection H as <-.
  destruct (IH _ E0) as [-> HF]. unfold len_prefixed in E. destruct (Nat.leb_spec (String.length s) 255); [|discriminate]. injection E as <-. split; [done|by constructor].
Qed.
Lemma parent_record p r : parent_bytes p = Ok r -> r = record [unwrap_or "" p].
Proof.
  destruct p as [p|]; cbn [parent_bytes]; intros H; [|injection H as <-; done]. unfold len_prefixed in H.
  destruct (String.length p <=? 255)%nat; [|discriminate]. injection H as <-. cbn [record unwrap_or]. by rewrite append_nil_r.
Qed.

Lemma node_is n v : node_bytes n = Ok v -> (nd_said n, v) = node_record n.
Proof.
  unfold node_bytes, node_record. intros H. inv_ok H. inv_ok H. injection H as <-. apply parent_record in E as ->. cbn [record]. rewrite append_nil_r. unfold len_prefixed in E0.
  destruct (String.length (nd_digest n) <=? 255)%nat; [|discriminate]. injection E0 as <-. by rewrite append_nil_r.
Qed.
Lemma bnode_is n v : bnode_bytes n = Ok v -> v = record (unwrap_or "" (bn_parent n) :: bn_cb n :: bn_ovs n).
Proof.
  unfold bnode_bytes. intros H. inv_ok H. inv_ok H. injection H as <-. apply parent_record in E as ->. apply prefixed_record in E0 as [-> _]. cbn [record]. by rewrite append_nil_r.
Qed.
Definition write_all (ws : list (string * string)) (d : mem) : mem := fold_left (fun d w => ins2 NsCore (model_key w.1) w.2 d) ws d.
Lemma write_all_app a b d : write_all (a ++ b) d = write_all b (write_all a d).
Proof. apply fold_left_app. Qed.
Lemma store_node_is n d d' : store_node n d = Ok d' -> d' = write_all (match n with Some n => [node_record n] | None => [] end) d.
Proof.
  destruct n as [n|]; cbn [store_node]; intros H; [|by injection H as <-]. inv_ok H. rewrite mem_ins2 in H. injection H as <-. apply node_is in E.
  unfold write_all. cbn [fold_left]. by rewrite <- E.
Qed.
Lemma store_model_is m d d' : store_model d m = Ok d' -> d' = write_all (model_records m) d.
Proof.
  unfold store_model. rewrite mem_ins2. cbn [obind]. intros H. inv_ok H. inv_ok H. inv_ok H. rewrite mem_ins2 in H. injection H as <-.
  apply store_node_is in E as ->. apply store_node_is in E0 as ->. apply bnode_is in E1 as ->. unfold model_records.
  change (?x :: ?y ++ ?z ++ ?w) with ([x] ++ y ++ z ++ w). rewrite !write_all_app. done.
Qed.
Lemma store_models_is ms : forall d d', fold_left (fun acc m => let! d := acc in store_model d m) ms (Ok d) = Ok d' -> d' = write_all (concat (map model_records ms)) d.
Proof.
  induction ms as [|m ms IH]; intros d d' H; cbn [fold_left] in H; [by injection H as <-|]. cbn [obind] in H. cbn [map concat]. rewrite write_all_app.
  destruct (store_model d m) as [d1|e|] eqn:E; [|exfalso; revert H; apply fold_panic; done|exfalso; revert H; apply fold_panic; done].
  apply store_model_is in E as <-. by apply IH.
Qed.
Lemma model_key_inj a b : model_key a = model_key b -> a = b.
Proof. intros H. unfold model_key in H. cbn in H. congruence. Qed.
Lemma write_all_entry ws : forall d k, (exists v, last_written ws k v /\ entry (write_all ws d) NsCore (model_key k) = Some v) \/
  ((forall v, (k, v) ∉ ws) /\ entry (write_all ws d) NsCore (model_key k) = entry d NsCore (model_key k)).
Proof.
  induction ws as [|[k0 v0] ws IH]; intros d k; [right; split; [intros v H; by apply elem_of_nil in H|done]|].
  unfold write_all. cbn [fold_left fst snd]. fold (write_all ws (ins2 NsCore (model_key k0) v0 d)).
  destruct (IH (ins2 NsCore (model_key k0) v0 d) k) as [(v & (pre & post & -> & Hp) & E)|[Hn E]].
  - left. exists v. split; [by exists ((k0, v0) :: pre), post|done].
  - rewrite E, entry_ins. destruct (decide (k0 = k)) as [ -> |N].
    + left. exists v0. rewrite bool_decide_eq_true_2 by done. split; [by exists [], ws|done].
    + right. rewrite bool_decide_eq_false_2 by (intros [_ X]; by apply model_key_inj in X). split; [|done].
      intros v H. apply elem_of_cons in H as [H|H]; [congruence|by apply (Hn v)].
Qed.

Lemma last_unique ws k v w : last_written ws k v -> last_written ws k w -> v = w.
Proof.
  intros (pre & post & E1 & N1) (pre' & post' & E2 & N2). rewrite E1 in E2.
  apply app_eq_inv in E2 as [(l & -> & E2)|(l & -> & E2)].
  - destruct l as [|x l]; cbn in E2; [by injection E2|]. exfalso. injection E2 as _ E2. apply (N2 v). rewrite E2. apply elem_of_app. right. left.
  - destruct l as [|x l]; cbn in E2; [by injection E2|]. exfalso. injection E2 as _ E2. apply (N1 w). rewrite E2. apply elem_of_app. right. left.
Qed.

(** After a build, the record under a name is the last one the version graph gives it; other records are as before. *)
Theorem C45_stored_graph : forall from1 to1 listing to_text hash B steps f f' B' ms,
  build from1 to1 listing to_text hash B steps f = Ok (f', B') -> build_core_db_model from1 to1 to_text hash steps = Ok ms ->
  forall k, (exists v, last_written (concat (map model_records ms)) k v /\ entry (fa_db f') NsCore (("core_model." +:+ k)%string) = Some v) \/
    ((forall v, (k, v) ∉ concat (map model_records ms)) /\ entry (fa_db f') NsCore (("core_model." +:+ k)%string) = entry (fa_db f) NsCore (("core_model." +:+ k)%string)).
Proof.
  intros f1 t1 ls tt hs B steps f f' B' ms H Hm k. unfold build in H. inv_ok H. inv_ok H. inv_ok H. inv_ok H. inv_ok H. injection H as <- <-.
  apply build_cache_mem in E as [D1 _]. apply build_meta_mem in E0 as [D2 _]. destruct (build_steps_effect _ _ _ _ E1) as (_ & I2 & _). apply add_relations_only in E2.
  unfold build_models in E3. rewrite Hm in E3. cbn [obind] in E3. apply store_models_is in E3 as ->. cbn [fa_db with_db].
  destruct (write_all_entry (concat (map model_records ms)) v2 k) as [X|[Hn E]]; [by left|right]. split; [done|]. change ("core_model." +:+ k)%string with (model_key k).
  rewrite E, E2, I2, D2, D1 by done. done.
Qed.
Print Assumptions C45_stored_graph.
(** A record says which texts it holds. *)
Theorem C45_record_unique : forall l l', Forall (fun s => (String.length s <= 255)%nat) l -> Forall (fun s => (String.length s <= 255)%nat) l' -> record l = record l' -> l = l'.
Proof.
  induction l as [|s l IH]; intros [|s' l'] HF HF' H; cbn [record] in H; try done. apply Forall_cons in HF as [H1 HF], HF' as [H1' HF'].
  cbn in H. assert (El : ascii_of_nat (String.length s) = ascii_of_nat (String.length s')) by congruence.
  assert (En : String.length s = String.length s') by (rewrite <- (nat_ascii _ H1), <- (nat_ascii _ H1'); by f_equal).
  assert (Er : (s +:+ record l = s' +:+ record l')%string) by congruence.
  pose proof (split_at_app s (record l)) as S1. pose proof (split_at_app s' (record l')) as S2. rewrite <- Er, <- En, S1 in S2.
  assert (s = s' /\ record l = record l') as [-> E] by (split; congruence). f_equal. by apply IH.
Qed.
Print Assumptions C45_record_unique.
(** The bundle of a step, unless a later record has its SAID: parent, capture base and overlays.  The parent is the step
    before, nothing for the first step (also when the build started from a base). *)
Theorem C45_bundle_record : forall from1 to1 listing to_text hash B steps f f' B' i s k, codes_ok from1 to1 ->
  Forall (fun s => saids_present (bs_result s)) steps ->
  build from1 to1 listing to_text hash B steps f = Ok (f', B') -> steps !! i = Some s -> b_said (bs_result s) = Some k ->
  (forall j s', (i < j)%nat -> steps !! j = Some s' -> (forall r, ~ has_role (bs_result s') k r) /\ hash (to_text (command_json (bs_cmd s'))) <> k) ->
  exists c ovs, cb_said (b_cb (bs_result s)) = Some c /\ map ov_said (b_ovs (bs_result s)) = map Some ovs /\
    entry (fa_db f') NsCore (("core_model." +:+ k)%string) =
      Some (record (unwrap_or "" (p ← (match i with 0 => None | S j => steps !! j end); b_said (bs_result p)) :: c :: ovs)).
Proof.
  intros f1 t1 ls tt hs B steps f f' B' i s k Hc Hp Hb Hi Ek Hlater.
  destruct (C30_version_dag f1 t1 tt hs steps Hc Hp) as (ms & Em & Hlen & Hms).
  assert (exists m, ms !! i = Some m) as [m Hm] by (apply lookup_lt_is_Some_2; rewrite Hlen; by eapply lookup_lt_Some).
  destruct (Hms i s m Hi Hm) as (_ & Es & Epar & Ecb & Eov & _). exists (bn_cb (rm_bundle m)), (bn_ovs (rm_bundle m)). split; [done|]. split; [done|].
  rewrite <- Epar. assert (Ekk : bn_said (rm_bundle m) = k) by congruence.
  set (v := record (unwrap_or "" (bn_parent (rm_bundle m)) :: bn_cb (rm_bundle m) :: bn_ovs (rm_bundle m))).
  assert (Hpost : forall w, (k, w) ∉ concat (map model_records (drop (S i) ms))).
  { intros w Hin. apply elem_of_list_In, in_concat in Hin as (ws & Hws & Hin). apply in_map_iff in Hws as (m' & <- & Hm'). apply elem_of_list_In, elem_of_list_lookup in Hm' as [j Hj].
    rewrite lookup_drop in Hj. assert (exists s', steps !! (S i + j)%nat = Some s') as [s' Hs'] by (apply lookup_lt_is_Some_2; rewrite <- Hlen; by eapply lookup_lt_Some).
    destruct (Hlater (S i + j)%nat s') as [Hr Hh]; [lia|done|]. destruct (Hms _ _ _ Hs' Hj) as (Ec & Eb & _ & _ & _ & Hcb & Hov).
    unfold model_records in Hin. rewrite Ec in Hin. cbn [cmo_digest cmo_json] in Hin. destruct Hin as [E|Hin]; [injection E as E _; by apply Hh|].
    apply in_app_or in Hin as [Hin|Hin]; [|apply in_app_or in Hin as [Hin|Hin]].
    - destruct (rm_cb m') as [n|]; [|done]. destruct Hin as [E|[]]. destruct Hcb as (_ & E' & _). injection E as E _. apply (Hr RCapture). right. left. split; [done|congruence].
    - destruct (rm_ov m') as [n|]; [|done]. destruct Hin as [E|[]]. destruct Hov as (kk & l & Ho & _). injection E as E _.
      destruct Ho as (t & ct & pre & ov & post & _ & _ & _ & Eo & _ & _ & Esaid & _). apply (Hr (ROverlay (ot_kind (ov_type ov)))). right. right. exists ov.
      split; [rewrite Eo; apply elem_of_app; right; left|]. split; [congruence|done].
    - destruct Hin as [E|[]]. injection E as E _. apply (Hr RBundle). left. split; [done|congruence]. }
  assert (Hlast : last_written (concat (map model_records ms)) k v).
  { rewrite <- (take_drop_middle ms i m Hm). rewrite map_app, concat_app. cbn [map concat]. unfold model_records at 2. rewrite Ekk. fold v.
    set (a1 := match rm_cb m with Some n => [node_record n] | None => [] end). set (a2 := match rm_ov m with Some n => [node_record n] | None => [] end).
    exists (concat (map model_records (take i ms)) ++ (cmo_digest (rm_cmd m), cmo_json (rm_cmd m)) :: a1 ++ a2), (concat (map model_records (drop (S i) ms))).
    split; [|done]. rewrite <- !app_assoc. cbn [app]. rewrite <- !app_assoc. done. }
  destruct (C45_stored_graph f1 t1 ls tt hs B steps f f' B' ms Hb Em k) as [(w & Hw & E)|[Hn _]].
  - rewrite E. f_equal. apply (last_unique _ _ _ _ Hw Hlast).
  - exfalso. destruct Hlast as (pre & post & E & _). apply (Hn v). rewrite E. apply elem_of_app. right. left.
Qed.
Print Assumptions C45_bundle_record.
(** A build of four steps: the record of the second one. *)
Example C45_hypotheses_met : exists B steps f s k, ex_build B steps facade_new = Ok (f, B) /\ codes_ok ex_from1 ex_to1 /\ Forall (fun s => saids_present (bs_result s)) steps /\
  length steps = 4%nat /\ steps !! 1%nat = Some s /\ b_said (bs_result s) = Some k /\
  (forall j s', (1 < j)%nat -> steps !! j = Some s' -> (forall r, ~ has_role (bs_result s') k r) /\ ex_hash (ex_to_text (command_json (bs_cmd s'))) <> k).
Proof.
  assert (H : match ex_ast None (mk_ast (ex_first ++ ex_second)) with BuildOk B st => match ex_build B st facade_new with Ok _ =>
    (length st =? 4)%nat && forallb (fun s => present_check (bs_result s)) st &&
    match st !! 1%nat with Some s => match b_said (bs_result s) with Some k =>
      forallb (fun s' => negb (String.eqb (ex_hash (ex_to_text (command_json (bs_cmd s')))) k) && forallb (fun y => negb (String.eqb y.1 k)) (members (bs_result s'))) (drop 2 st)
    | None => false end | None => false end | _ => false end | _ => false end = true) by (vm_compute; reflexivity).
  revert H. generalize (ex_ast None (mk_ast (ex_first ++ ex_second))). intros r H. destruct r as [B st| |]; [|discriminate H|discriminate H].
  destruct (ex_build B st facade_new) as [[f B']| |] eqn:E; [|discriminate H|discriminate H]. pose proof (proj1 (build_effect _ _ _ _ _ _ _ _ _ _ E)) as ->.
  apply andb_true_iff in H as [H H3]. apply andb_true_iff in H as [H1 H2]. destruct (st !! 1%nat) as [s|] eqn:Es; [|discriminate H3]. destruct (b_said (bs_result s)) as [k|] eqn:Ek; [|discriminate H3].
  exists B, st, f, s, k. split; [exact E|]. split; [exact ex_codes_ok|]. split.
  { apply Forall_forall. intros x Hx. apply elem_of_list_In in Hx. rewrite forallb_forall in H2. assert (HF : Forall saids_present [bs_result x]) by (apply present_check_ok; cbn [forallb]; rewrite (H2 _ Hx); reflexivity). by apply Forall_inv in HF. }
  split; [by apply Nat.eqb_eq|]. split; [done|]. split; [done|]. intros j s' Hj Hs'.
  assert (Hin : In s' (drop 2 st)). { apply elem_of_list_In, elem_of_list_lookup. exists (j - 2)%nat. rewrite lookup_drop. by replace (2 + (j - 2))%nat with j by lia. }
  rewrite forallb_forall in H3. apply H3 in Hin. apply andb_true_iff in Hin as [X1 X2]. apply negb_true_iff, String.eqb_neq in X1. split; [|done].
  intros rr Hr. apply members_role, elem_of_list_In in Hr. rewrite forallb_forall in X2. apply X2 in Hr. cbn [fst] in Hr. by rewrite String.eqb_refl in Hr.
Qed.

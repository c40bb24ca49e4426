(** What a build writes. *)
From Verif Require Import Base Condition_proofs Condition_spec_proofs Spec_Facade Props_Storage Props_Relations Codec_proofs Props_Codec BundleCodec_proofs Props_BundleCodec Props_Dag.

#[global] Arguments mem_insert : simpl never.
#[global] Arguments mem_get : simpl never.
#[global] Arguments object_new : simpl never.
#[global] Arguments rel_or_new : simpl never.
#[global] Arguments rel_insert : simpl never.
Lemma obind_ok {A B} (x : outcome A) (f : A -> outcome B) y : obind x f = Ok y -> exists a, x = Ok a /\ f a = Ok y.
Proof. destruct x; cbn; try discriminate. eauto. Qed.
Lemma unwrap_ok {A} (x : option A) a : unwrap_some x = Ok a -> x = Some a.
Proof. destruct x; cbn; [by intros [= ->]|discriminate]. Qed.
Ltac inv_ok H := let a := fresh "v" in let E := fresh "E" in apply obind_ok in H as (a & E & H).
Lemma entry_get2 d n k : entry d n k = get2 d n k. Proof. done. Qed.
Lemma get_entry n k d : mem_get n k d = Ok (entry d n k). Proof. apply mem_get2. Qed.
Lemma entry_ins n k v d n' k' : entry (ins2 n k v d) n' k' = if bool_decide (n = n' /\ k = k') then Some v else entry d n' k'.
Proof. apply get2_ins2. Qed.
Lemma entry_other n k v d n' k' : n <> n' -> entry (ins2 n k v d) n' k' = entry d n' k'.
Proof. intros H. rewrite entry_ins, bool_decide_eq_false_2; [done|]. by intros [? _]. Qed.
(** Writes to one namespace. *)
Definition only (n : namespace) (d d' : mem) : Prop := forall n' k, n' <> n -> entry d' n' k = entry d n' k.
Lemma only_refl n d : only n d d. Proof. done. Qed.
Lemma only_ins n k v d : only n d (ins2 n k v d).
Proof. intros n' k' H. by apply entry_other. Qed.
Lemma only_trans n d d' d'' : only n d d' -> only n d' d'' -> only n d d''.
Proof. intros H H' n' k Hn. rewrite H', H; done. Qed.

(** ** Relations touch only the relation table. *)
Section Rel.
Variable listing : string -> list oobject -> list oobject.
Lemma meta_ovs_only ovs : forall d d', insert_ov_metadata ovs d = Ok d' -> only NsRelations d d'.
Proof.
  induction ovs as [|ov ovs IH]; intros d d' H; cbn in H; [injection H as <-; done|]. destruct (ov_said ov); [|discriminate].
  rewrite mem_ins2 in H. cbn in H. eapply only_trans; [apply only_ins|by apply IH].
Qed.
Lemma rel_insert_only r k d d' : rel_insert listing r k d = Ok d' -> only NsRelations d d'.
Proof. unfold rel_insert. intros H. inv_ok H. rewrite mem_ins2 in H. injection H as <-. apply only_ins. Qed.
Lemma rel_overlays_only bs cs ovs : forall st st', rel_overlays listing bs cs ovs st = Ok st' -> only NsRelations st.1.1 st'.1.1.
Proof.
  induction ovs as [|ov ovs IH]; intros st st' H; cbn in H; [injection H as <-; done|]. destruct (ov_said ov); [|discriminate].
  inv_ok H. inv_ok H. inv_ok H. inv_ok H. inv_ok H. apply IH in H. eapply only_trans; [eapply rel_insert_only; exact E3|exact H].
Qed.
Lemma add_relations_only B d d' : add_relations listing B d = Ok d' -> only NsRelations d d'.
Proof.
  unfold add_relations. intros H. inv_ok H. assert (O : only NsRelations d v).
  { unfold insert_metadata in E. destruct (b_said B), (cb_said (b_cb B)); try discriminate. rewrite mem_ins2 in E. cbn [obind] in E.
    rewrite mem_ins2 in E. cbn [obind] in E. apply meta_ovs_only in E. eapply only_trans; [|exact E]. eapply only_trans; apply only_ins. }
  destruct (b_said B), (cb_said (b_cb B)); try discriminate. inv_ok H. inv_ok H. inv_ok H. inv_ok H. inv_ok H. inv_ok H.
  apply rel_overlays_only in E4. apply rel_insert_only in E5, H. cbn [fst] in E4.
  eapply only_trans; [exact O|]. eapply only_trans; [exact E4|]. eapply only_trans; eassumption.
Qed.
(** The relation table after [add_relations] depends only on the relation table before. *)
Definition agree (d d' : mem) : Prop := forall k, entry d NsRelations k = entry d' NsRelations k.
Lemma agree_ins k v d d' : agree d d' -> agree (ins2 NsRelations k v d) (ins2 NsRelations k v d').
Proof. intros H k'. rewrite !entry_ins. by destruct (bool_decide _). Qed.
Lemma agree_new d d' s : agree d d' -> object_new d s = object_new d' s.
Proof. intros H. unfold object_new, object_type. rewrite !get_entry. by rewrite H. Qed.
Lemma agree_rel d d' s : agree d d' -> rel_or_new d s = rel_or_new d' s.
Proof. intros H. unfold rel_or_new, explore. rewrite !get_entry. by rewrite H, !(agree_new d d') by done. Qed.
Lemma agree_insert d d' r k x : agree d d' -> rel_insert listing r k d = Ok x -> exists x', rel_insert listing r k d' = Ok x' /\ agree x x'.
Proof.
  unfold rel_insert. intros H E. inv_ok E. rewrite E0. cbn [obind]. rewrite mem_ins2 in *. injection E as <-. eexists. split; [done|]. by apply agree_ins.
Qed.
Lemma agree_meta ovs : forall d d' x, agree d d' -> insert_ov_metadata ovs d = Ok x -> exists x', insert_ov_metadata ovs d' = Ok x' /\ agree x x'.
Proof.
  induction ovs as [|ov ovs IH]; intros d d' x H E; cbn in *; [injection E as <-; by exists d'|]. destruct (ov_said ov); [|discriminate].
  rewrite mem_ins2 in *. cbn [obind] in *. eapply IH; [|exact E]. by apply agree_ins.
Qed.
Lemma agree_overlays bs cs ovs : forall d d' r1 r2 x, agree d d' -> rel_overlays listing bs cs ovs (d, r1, r2) = Ok x ->
  exists d2, rel_overlays listing bs cs ovs (d', r1, r2) = Ok (d2, x.1.2, x.2) /\ agree x.1.1 d2.
Proof.
  induction ovs as [|ov ovs IH]; intros d d' r1 r2 x H E; cbn in *; [injection E as <-; by exists d'|]. destruct (ov_said ov) as [s|]; [|discriminate].
  inv_ok E. inv_ok E. inv_ok E. inv_ok E. inv_ok E. rewrite <- (agree_new d d') by done. rewrite E0. cbn [obind].
  rewrite <- (agree_rel d d') by done. rewrite E1. cbn [obind]. rewrite <- !(agree_new d d') by done. rewrite E2. cbn [obind]. rewrite E3. cbn [obind].
  destruct (agree_insert _ _ _ _ _ H E4) as (x' & Ex & Ha). rewrite Ex. cbn [obind]. by apply (IH v3).
Qed.
Lemma agree_add B d d' x : agree d d' -> add_relations listing B d = Ok x -> exists x', add_relations listing B d' = Ok x' /\ agree x x'.
Proof.
  unfold add_relations. intros H E. inv_ok E.
  assert (M : exists v', insert_metadata B d' = Ok v' /\ agree v v').
  { unfold insert_metadata in *. destruct (b_said B), (cb_said (b_cb B)); try discriminate. rewrite !mem_ins2 in *. cbn [obind] in *.
    rewrite !mem_ins2 in *. cbn [obind] in *. eapply agree_meta; [|exact E0]. by apply agree_ins, agree_ins. }
  destruct M as (v' & Ev & Ha). rewrite Ev. cbn [obind]. destruct (b_said B), (cb_said (b_cb B)); try discriminate.
  inv_ok E. inv_ok E. inv_ok E. inv_ok E. inv_ok E. inv_ok E. rewrite <- !(agree_rel v v') by done. rewrite <- !(agree_new v v') by done.
  rewrite E1. cbn [obind]. rewrite E2. cbn [obind]. rewrite E3. cbn [obind]. rewrite E4. cbn [obind].
  destruct (agree_overlays _ _ _ _ _ _ _ _ Ha E5) as (d2 & E5' & Ha2). rewrite E5'. cbn [obind fst snd].
  destruct (agree_insert _ _ _ _ _ Ha2 E6) as (d3 & E6' & Ha3). rewrite E6'. cbn [obind]. by apply (agree_insert _ _ _ _ _ Ha3).
Qed.
End Rel.

(** ** Storing *)
Section Store.
Variables from1 to1 : string -> option string.
Variable listing : string -> list oobject -> list oobject.
Variable to_text : json -> string.
Variable hash : string -> string.

Lemma op_key_inj a b : op_key a = op_key b -> a = b.
Proof.
  unfold op_key. intros H. apply append_inj_l in H. revert b H. induction a as [|c a IH]; intros [|d b] H; [done|..].
  - exfalso. apply (f_equal String.length) in H. cbn in H. rewrite length_append in H. cbn in H. lia.
  - exfalso. apply (f_equal String.length) in H. cbn in H. rewrite length_append in H. cbn in H. lia.
  - cbn in H. injection H as -> H. by rewrite (IH _ H).
Qed.
Lemma store_overlays_only ovs : forall d d', store_overlays to_text ovs d = Ok d' -> only NsObjects d d'.
Proof.
  induction ovs as [|ov ovs IH]; intros d d' H; cbn in H; [injection H as <-; done|]. inv_ok H. rewrite mem_ins2 in H. cbn in H.
  eapply only_trans; [apply only_ins|by apply IH].
Qed.
Lemma store_node_only n d d' : store_node n d = Ok d' -> only NsCore d d'.
Proof. destruct n as [n|]; cbn; [|by intros [= <-]]. intros H. inv_ok H. rewrite mem_ins2 in H. injection H as <-. apply only_ins. Qed.
Lemma store_model_only m d d' : store_model d m = Ok d' -> only NsCore d d'.
Proof.
  unfold store_model. intros H. rewrite mem_ins2 in H. cbn [obind] in H. inv_ok H. inv_ok H. inv_ok H. rewrite mem_ins2 in H. injection H as <-.
  apply store_node_only in E, E0. eapply only_trans; [apply only_ins|]. eapply only_trans; [exact E|]. eapply only_trans; [exact E0|]. apply only_ins.
Qed.
Lemma fold_panic {A} {B} (f : B -> A -> outcome B) l (x : outcome B) : (forall y, x <> Ok y) ->
  forall y, fold_left (fun acc m => let! d := acc in f d m) l x <> Ok y.
Proof.
  intros H. revert x H. induction l as [|a l IH]; intros x H y; cbn; [apply H|]. apply IH. intros z. destruct x; cbn; try done. by destruct (H a0).
Qed.
Lemma build_models_only steps d d' : build_models from1 to1 to_text hash steps d = Ok d' -> only NsCore d d'.
Proof.
  unfold build_models. intros H. inv_ok H. clear E. revert d H. induction v as [|m ms IH]; intros d H; cbn in H; [injection H as <-; done|].
  destruct (store_model d m) as [d1|e|] eqn:E; [|exfalso; eapply fold_panic; [|exact H]; done..].
  eapply only_trans; [eapply store_model_only; exact E|by apply IH].
Qed.

(** One step. *)
Lemma build_step_effect s f f' : build_step to_text s f = Ok f' ->
  exists r k, op_encode to_text (bs_parent s) (bs_cmd s) = Ok r /\ b_said (bs_result s) = Some k /\
  (forall n key, entry (fa_db f') n key = if bool_decide (NsOCA = n /\ op_key k = key) then Some r else entry (fa_db f) n key) /\
  (forall n key, n <> NsObjects -> entry (fa_cache f') n key = if bool_decide (NsBundles = n /\ k = key) then Some (to_text (bundle_json (bs_result s))) else entry (fa_cache f) n key) /\
  fa_bundles f' = fa_bundles f /\ fa_captures f' = fa_captures f /\ fa_fts f' = fa_fts f.
Proof.
  unfold build_step. intros H. inv_ok H. inv_ok H. rewrite mem_ins2 in H. cbn [obind] in H. rewrite mem_ins2 in H. cbn [obind] in H.
  inv_ok H. rewrite mem_ins2 in H. cbn [obind] in H. inv_ok H. injection H as <-. exists v, v0.
  split; [done|]. split; [by apply unwrap_ok|]. cbn [fa_db fa_cache with_db with_cache fa_bundles fa_captures fa_fts]. split; [intros; apply entry_ins|]. split; [|done].
  intros n key Hn. rewrite (store_overlays_only _ _ _ E2) by done. rewrite entry_other by done. apply entry_ins.
Qed.
(** The last step with SAID [k]. *)
Definition step_of (k : string) (l : list bstep) (s : bstep) : Prop :=
  exists pre post, l = pre ++ s :: post /\ b_said (bs_result s) = Some k /\ forall s', s' ∈ post -> b_said (bs_result s') <> Some k.
Lemma step_of_cons k s0 l s : step_of k l s -> step_of k (s0 :: l) s.
Proof. intros (pre & post & -> & H). by exists (s0 :: pre), post. Qed.
Lemma step_of_or k l : (exists s, step_of k l s) \/ forall s, s ∈ l -> b_said (bs_result s) <> Some k.
Proof.
  induction l as [|s l IH]; [right; intros s Hs; by apply elem_of_nil in Hs|]. destruct IH as [(s' & Hs)|IH]; [left; exists s'; by apply step_of_cons|].
  destruct (decide (b_said (bs_result s) = Some k)) as [E|N].
  - left. exists s, [], l. done.
  - right. intros s' Hs. apply elem_of_cons in Hs as [->|Hs]; [done|by apply IH].
Qed.
Lemma build_steps_effect l : forall f f', build_steps to_text l f = Ok f' ->
  (forall s, s ∈ l -> is_Some (b_said (bs_result s))) /\
  (forall n key, n <> NsOCA -> entry (fa_db f') n key = entry (fa_db f) n key) /\
  (forall n key, n <> NsObjects -> n <> NsBundles -> entry (fa_cache f') n key = entry (fa_cache f) n key) /\
  (forall k s, step_of k l s -> exists r, op_encode to_text (bs_parent s) (bs_cmd s) = Ok r /\ entry (fa_db f') NsOCA (op_key k) = Some r /\
     entry (fa_cache f') NsBundles k = Some (to_text (bundle_json (bs_result s)))) /\
  (forall k, (forall s, s ∈ l -> b_said (bs_result s) <> Some k) ->
     entry (fa_db f') NsOCA (op_key k) = entry (fa_db f) NsOCA (op_key k) /\ entry (fa_cache f') NsBundles k = entry (fa_cache f) NsBundles k) /\
  fa_bundles f' = fa_bundles f /\ fa_captures f' = fa_captures f /\ fa_fts f' = fa_fts f.
Proof.
  induction l as [|s l IH]; intros f f' H; cbn in H.
  - injection H as <-. split; [intros s Hs; by apply elem_of_nil in Hs|]. split; [done|]. split; [done|]. split; [|done].
    intros k s (pre & post & E & _). by destruct pre.
  - inv_ok H. destruct (build_step_effect _ _ _ E) as (r & k0 & Er & Ek & D & C & T1 & T2 & T3).
    destruct (IH _ _ H) as (I1 & I2 & I3 & I4 & I5 & U1 & U2 & U3). split.
    { intros s' Hs. apply elem_of_cons in Hs as [->|Hs]; [by exists k0|by apply I1]. }
    split; [intros n key Hn; rewrite I2 by done; rewrite D, bool_decide_eq_false_2; [done|]; by intros [<- _]|].
    split; [intros n key Hn Hn'; rewrite I3 by done; rewrite C by done; rewrite bool_decide_eq_false_2; [done|]; by intros [<- _]|].
    split; [|split; [|rewrite U1, U2, U3; done]].
    + intros k s' (pre & post & El & Hk & Hp). destruct pre as [|s0 pre]; injection El as -> ->.
      * exists r. split; [done|]. rewrite Hk in Ek. injection Ek as <-. destruct (I5 k Hp) as [X1 X2]. rewrite X1, X2.
        rewrite D, C by done. rewrite !bool_decide_eq_true_2 by done. done.
      * apply I4. by exists pre, post.
    + intros k Hn. destruct (I5 k) as [X1 X2]; [intros s' Hs; apply Hn; by right|]. rewrite X1, X2, D. rewrite C by done.
      assert (k0 <> k) by (intros ->; by apply (Hn s (elem_of_list_here _ _))).
      rewrite !bool_decide_eq_false_2; [done| |]; intros [_ Hx]; [done|by apply op_key_inj in Hx].
Qed.
Lemma build_cache_mem B f f' : build_cache to_text B f = Ok f' -> fa_db f' = fa_db f /\ fa_cache f' = fa_cache f.
Proof. unfold build_cache. destruct (b_said B), (cb_said (b_cb B)); by intros [= <-]. Qed.
Lemma build_meta_mem B f f' : build_meta B f = Ok f' -> fa_db f' = fa_db f /\ fa_cache f' = fa_cache f.
Proof.
  unfold build_meta. destruct (omap (meta_row _) (b_ovs B)); [by intros [= <-]|]. destruct (b_said B); by intros [= <-].
Qed.
(** The whole build. *)
Lemma build_effect B steps f f' B' : build from1 to1 listing to_text hash B steps f = Ok (f', B') ->
  B' = B /\ (forall s, s ∈ steps -> is_Some (b_said (bs_result s))) /\
  (forall key, entry (fa_db f') NsReferences key = entry (fa_db f) NsReferences key) /\
  (forall k s, step_of k steps s -> exists r, op_encode to_text (bs_parent s) (bs_cmd s) = Ok r /\ entry (fa_db f') NsOCA (op_key k) = Some r /\
     entry (fa_cache f') NsBundles k = Some (to_text (bundle_json (bs_result s)))) /\
  (forall k, (forall s, s ∈ steps -> b_said (bs_result s) <> Some k) ->
     entry (fa_db f') NsOCA (op_key k) = entry (fa_db f) NsOCA (op_key k) /\ entry (fa_cache f') NsBundles k = entry (fa_cache f) NsBundles k).
Proof.
  unfold build. intros H. inv_ok H. inv_ok H. inv_ok H. inv_ok H. inv_ok H. injection H as <- <-. split; [done|].
  apply build_cache_mem in E as [D1 C1]. apply build_meta_mem in E0 as [D2 C2]. rewrite <- D1, <- C1, <- D2, <- C2.
  destruct (build_steps_effect _ _ _ E1) as (I1 & I2 & I3 & I4 & I5 & _). apply add_relations_only in E2. apply build_models_only in E3.
  split; [done|]. cbn [fa_db fa_cache with_db].
  assert (O : forall key, entry v3 NsOCA key = entry (fa_db v1) NsOCA key) by (intros key; by rewrite E3, E2).
  split; [intros key; rewrite E3, E2, I2; done|]. split.
  - intros k s Hs. destruct (I4 k s Hs) as (r & X1 & X2 & X3). exists r. by rewrite O.
  - intros k Hn. rewrite O. by apply I5.
Qed.
End Store.

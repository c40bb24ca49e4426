(** What a history of builds leaves in the stores: objects, bundles, tables (lemmas for C43). *)
From Verif Require Import Spec_Index Props_Storage Facade_proofs Props_Facade Props_Codec Props_BundleCodec Spec_Crash Props_Crash BundleCodec_proofs.
Local Open Scope list_scope.

Section Objects.
Variables from1 to1 : string -> option string.
Variable listing : string -> list oobject -> list oobject.
Variable to_text : json -> string.
Variable hash : string -> string.
Lemma store_overlays_objects ovs : forall d d', store_overlays to_text ovs d = Ok d' -> forall k,
  (exists ov, ov ∈ ovs /\ ov_said ov = Some k /\ entry d' NsObjects k = Some (to_text (overlay_json ov))) \/
  ((forall ov, ov ∈ ovs -> ov_said ov <> Some k) /\ entry d' NsObjects k = entry d NsObjects k).
Proof.
  induction ovs as [|ov ovs IH]; intros d d' H k; cbn [store_overlays] in H.
  - injection H as <-. right. split; [intros ov Hin; by apply elem_of_nil in Hin|done].
  - inv_ok H. apply unwrap_ok in E. rewrite mem_ins2 in H. cbn [obind] in H. destruct (IH _ _ H k) as [(ov' & Hin & Hk & He)|[Hn He]].
    + left. exists ov'. split; [by right|done].
    + rewrite entry_ins in He. destruct (decide (v = k)) as [ -> |N].
      * left. exists ov. rewrite bool_decide_eq_true_2 in He by done. split; [left|done].
      * right. rewrite bool_decide_eq_false_2 in He by (intros [_ ?]; done). split; [|done].
        intros ov' Hin. apply elem_of_cons in Hin as [ -> |Hin]; [rewrite E; congruence|by apply Hn].
Qed.
Lemma step_objects s f f' : build_step to_text s f = Ok f' -> forall k,
  (exists o, object_in (bs_result s) k o /\ entry (fa_cache f') NsObjects k = Some (to_text (object_json o))) \/
  ((forall o, ~ object_in (bs_result s) k o) /\ entry (fa_cache f') NsObjects k = entry (fa_cache f) NsObjects k).
Proof.
  unfold build_step. intros H k. inv_ok H. inv_ok H. rewrite mem_ins2 in H. cbn [obind] in H. rewrite mem_ins2 in H. cbn [obind] in H.
  inv_ok H. rewrite mem_ins2 in H. cbn [obind] in H. inv_ok H. injection H as <-. cbn [fa_cache with_cache]. apply unwrap_ok in E1.
  destruct (store_overlays_objects _ _ _ E2 k) as [(ov & Hin & Hk & He)|[Hn He]].
  - left. exists (FOverlay ov). split; [right; by exists ov|done].
  - rewrite entry_ins in He. destruct (decide (v1 = k)) as [ -> |N].
    + left. exists (FCapture (b_cb (bs_result s))). rewrite bool_decide_eq_true_2 in He by done. split; [by left|done].
    + right. rewrite bool_decide_eq_false_2 in He by (intros [_ ?]; done). rewrite entry_other in He by done. split; [|done].
      intros o [[Hk _]|(ov & Hin & Hk & _)]; [congruence|by apply (Hn ov)].
Qed.
Lemma steps_objects l : forall f f', build_steps to_text l f = Ok f' -> forall k,
  (exists s o, s ∈ l /\ object_in (bs_result s) k o /\ entry (fa_cache f') NsObjects k = Some (to_text (object_json o))) \/
  ((forall s o, s ∈ l -> ~ object_in (bs_result s) k o) /\ entry (fa_cache f') NsObjects k = entry (fa_cache f) NsObjects k).
Proof.
  induction l as [|s l IH]; intros f f' H k; cbn in H.
  - injection H as <-. right. split; [intros s o Hs; by apply elem_of_nil in Hs|done].
  - inv_ok H. destruct (IH _ _ H k) as [(s' & o & Hs & Ho & He)|[Hn He]]; [left; exists s', o; split; [by right|done]|].
    destruct (step_objects _ _ _ E k) as [(o & Ho & He')|[Hn' He']]; rewrite He, He'; [left; exists s, o; split; [left|done]|right].
    split; [|done]. intros s' o Hs. apply elem_of_cons in Hs as [ -> |Hs]; [apply Hn'|by apply Hn].
Qed.
Lemma build_objects B steps f f' B' : build from1 to1 listing to_text hash B steps f = Ok (f', B') -> forall k,
  (exists s o, s ∈ steps /\ object_in (bs_result s) k o /\ entry (fa_cache f') NsObjects k = Some (to_text (object_json o))) \/
  ((forall s o, s ∈ steps -> ~ object_in (bs_result s) k o) /\ entry (fa_cache f') NsObjects k = entry (fa_cache f) NsObjects k).
Proof.
  unfold build. intros H k. inv_ok H. inv_ok H. inv_ok H. inv_ok H. inv_ok H. injection H as <- <-. cbn [fa_cache with_db].
  apply build_cache_mem in E as [_ C1]. apply build_meta_mem in E0 as [_ C2]. rewrite <- C1, <- C2. by apply steps_objects.
Qed.
(** The tables. *)
Definition meta_rows (B : bundle) : list fts_row := omap (meta_row (unwrap_or "" (b_said B))) (b_ovs B).
Lemma build_tables B steps f f' B' : build from1 to1 listing to_text hash B steps f = Ok (f', B') ->
  exists s c, b_said B = Some s /\ cb_said (b_cb B) = Some c /\
  fa_bundles f' = table_insert s (to_text (bundle_json B)) (fa_bundles f) /\ fa_captures f' = table_insert c (to_text (cb_json (b_cb B))) (fa_captures f) /\
  fa_fts f' = fold_left (fun t r => fts_insert r t) (meta_rows B) (fa_fts f).
Proof.
  unfold build. intros H. inv_ok H. inv_ok H. inv_ok H. inv_ok H. inv_ok H. injection H as <- <-. cbn [fa_bundles fa_captures fa_fts with_db].
  destruct (build_steps_effect _ _ _ _ E1) as (_ & _ & _ & _ & _ & T1 & T2 & T3). rewrite T1, T2, T3.
  unfold build_cache in E. destruct (b_said B) as [s|] eqn:Es; [|by destruct (cb_said (b_cb B))]. destruct (cb_said (b_cb B)) as [c|]; [|done]. injection E as <-.
  exists s, c. split; [done|]. split; [done|]. unfold meta_rows. rewrite Es. unfold build_meta in E0. rewrite Es in E0.
  destruct (omap (meta_row (unwrap_or "" (Some s))) (b_ovs B)) as [|r rows] eqn:Er; injection E0 as <-; done.
Qed.

Definition listed (h : list (bundle * list bstep)) : list (string * string) := map (fun x => (unwrap_or "" (b_said x.1), to_text (bundle_json x.1))) h.
Definition listed_bases (h : list (bundle * list bstep)) : list (string * string) :=
  map (fun x => (unwrap_or "" (cb_said (b_cb x.1)), to_text (cb_json (b_cb x.1)))) h.
Record held (h : list (bundle * list bstep)) (f : facade) : Prop := {
  he_objects : forall k, (exists B o, stepped h B /\ object_in B k o /\ entry (fa_cache f) NsObjects k = Some (to_text (object_json o))) \/
    ((forall B o, stepped h B -> ~ object_in B k o) /\ entry (fa_cache f) NsObjects k = None);
  he_bundles : forall k, (exists B, stepped h B /\ b_said B = Some k /\ entry (fa_cache f) NsBundles k = Some (to_text (bundle_json B))) \/
    ((forall B, stepped h B -> b_said B <> Some k) /\ entry (fa_cache f) NsBundles k = None);
  he_relations : relations_of listing (map fst h) f;
  he_listed : fa_bundles f = inserts (listed h) [];
  he_bases : fa_captures f = inserts (listed_bases h) [];
  he_saids : forall B, final h B -> is_Some (b_said B) /\ is_Some (cb_said (b_cb B));
  he_rows : forall r, r ∈ fa_fts f -> exists B, final h B /\ r ∈ meta_rows B;
  he_spoken : forall B r, final h B -> r ∈ meta_rows B -> exists r', r' ∈ fa_fts f /\ ft_said r' = ft_said r /\ ft_lang r' = ft_lang r }.
Lemma stepped_app h B steps X : stepped (h ++ [(B, steps)]) X <-> stepped h X \/ exists s, s ∈ steps /\ bs_result s = X.
Proof.
  split.
  - intros (R & st & s & Hin & Hs & E). apply elem_of_app in Hin as [Hin|Hin]; [left; by exists R, st, s|].
    apply elem_of_list_singleton in Hin. injection Hin as -> ->. right. by exists s.
  - intros [(R & st & s & Hin & Hs & E)|(s & Hs & E)]; [exists R, st, s|exists B, steps, s]; (split; [apply elem_of_app|done]); [by left|right; left].
Qed.
Lemma final_app h B steps X : final (h ++ [(B, steps)]) X <-> final h X \/ X = B.
Proof.
  split.
  - intros (st & Hin). apply elem_of_app in Hin as [Hin|Hin]; [left; by exists st|]. apply elem_of_list_singleton in Hin. injection Hin as -> ->. by right.
  - intros [(st & Hin)| -> ]; [exists st|exists steps]; apply elem_of_app; [by left|right; left].
Qed.
Lemma fts_keep rows : forall t r, r ∈ t -> r ∈ fold_left (fun t r => fts_insert r t) rows t.
Proof.
  induction rows as [|x rows IH]; intros t r Hr; [done|]. cbn [fold_left]. apply IH. destruct (C29_search_index x t) as ((new & E) & _). rewrite E.
  apply elem_of_app. by left.
Qed.
Lemma fts_rows rows : forall t r, r ∈ fold_left (fun t r => fts_insert r t) rows t -> r ∈ t \/ r ∈ rows.
Proof.
  induction rows as [|x rows IH]; intros t r Hr; [by left|]. cbn [fold_left] in Hr. destruct (IH _ _ Hr) as [H|H]; [|right; by right].
  unfold fts_insert in H. destruct (existsb _ t); [by left|]. apply elem_of_app in H as [H|H]; [by left|]. apply elem_of_list_singleton in H as ->. right. left.
Qed.
Lemma fts_covers rows : forall t r, r ∈ rows -> exists r', r' ∈ fold_left (fun t r => fts_insert r t) rows t /\ ft_said r' = ft_said r /\ ft_lang r' = ft_lang r.
Proof.
  induction rows as [|x rows IH]; intros t r Hr; [by apply elem_of_nil in Hr|]. apply elem_of_cons in Hr as [ -> |Hr]; [|by apply IH].
  cbn [fold_left]. destruct (C29_search_index x t) as (_ & _ & H). apply elem_of_list_In, in_map_iff in H as (r' & E & Hin). injection E as E1 E2.
  exists r'. split; [apply fts_keep; by apply elem_of_list_In|done].
Qed.
Lemma builds_held h f : builds from1 to1 listing to_text hash h f -> held h f.
Proof.
  induction 1 as [|h f n s d Hb IH E|h f B steps f' Hb IH E].
  - split; try done.
    + intros k. right. split; [|done]. intros B o (R & st & s & Hin & _). by apply elem_of_nil in Hin.
    + intros k. right. split; [|done]. intros B (R & st & s & Hin & _). by apply elem_of_nil in Hin.
    + by exists ∅.
    + intros B (st & Hin). by apply elem_of_nil in Hin.
    + intros r Hr. by apply elem_of_nil in Hr.
    + intros B r (st & Hin). by apply elem_of_nil in Hin.
  - rewrite mem_ins2 in E. injection E as <-. destruct IH as [H1 H2 (d & Ed & Hd) H4 H5 H6 H7 H8]. split; try done.
    exists d. split; [done|]. intros k. cbn [fa_db with_db]. rewrite entry_other by done. apply Hd.
  - destruct IH as [H1 H2 H3 H4 H5 H6 H7 H8]. destruct (build_tables _ _ _ _ _ E) as (bs & cs & Ebs & Ecs & T1 & T2 & T3).
    pose proof (build_effect _ _ _ _ _ _ _ _ _ _ E) as (_ & _ & _ & Ef1 & Ef2). split.
    + intros k. destruct (build_objects _ _ _ _ _ E k) as [(s & o & Hs & Ho & He)|[Hn He]].
      * left. exists (bs_result s), o. split; [apply stepped_app; right; by exists s|done].
      * destruct (H1 k) as [(X & o & Hx & Ho & He')|[Hn' He']]; rewrite He, He'; [left; exists X, o; split; [apply stepped_app; by left|done]|right].
        split; [|done]. intros X o Hx. apply stepped_app in Hx as [Hx|(s & Hs & <-)]; [by apply Hn'|by apply Hn].
    + intros k. destruct (step_of_or k steps) as [(s & Hk)|Hn].
      * destruct (Ef1 k s Hk) as (r & _ & _ & He). destruct (step_of_elem _ _ _ Hk) as [Hs Es]. left. exists (bs_result s). split; [apply stepped_app; right; by exists s|done].
      * destruct (Ef2 k Hn) as [_ He]. destruct (H2 k) as [(X & Hx & Ho & He')|[Hn' He']]; rewrite He, He'; [left; exists X; split; [apply stepped_app; by left|done]|right].
        split; [|done]. intros X Hx. apply stepped_app in Hx as [Hx|(s & Hs & <-)]; [by apply Hn'|by apply Hn].
    + rewrite map_app. cbn [map fst]. by eapply C44_relations_of_builds.
    + rewrite T1, H4. unfold listed, inserts. rewrite map_app, fold_left_app. cbn. by rewrite Ebs.
    + rewrite T2, H5. unfold listed_bases, inserts. rewrite map_app, fold_left_app. cbn. by rewrite Ecs.
    + intros X Hx. apply final_app in Hx as [Hx| -> ]; [by apply H6|]. by rewrite Ebs, Ecs.
    + intros r Hr. rewrite T3 in Hr. destruct (fts_rows _ _ _ Hr) as [Hr'|Hr'].
      * destruct (H7 r Hr') as (X & Hx & Hm). exists X. split; [apply final_app; by left|done].
      * exists B. split; [apply final_app; by right|done].
    + intros X r Hx Hr. rewrite T3. apply final_app in Hx as [Hx| -> ]; [|by apply fts_covers].
      destruct (H8 X r Hx Hr) as (r' & Hr' & E1). exists r'. split; [by apply fts_keep|done].
Qed.
End Objects.

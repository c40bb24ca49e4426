(** Stopping and repeating a build: the other stores, and the whole. *)
From Verif Require Import Base Condition_proofs Spec_Crash Props_Storage Props_Relations Facade_proofs Crash_proofs Crash_redo.

(** Computations whose writes and result do not depend on the stores. *)
Definition oval {A} (x : outcome (facade * A)) : outcome A := let! y := x in Ok y.2.
Definition uniform {A} (m : tr A) : Prop := forall f g, (m f).1 = (m g).1 /\ oval (m f).2 = oval (m g).2.
Lemma uniform_ret {A} (a : A) : uniform (tret a). Proof. done. Qed.
Lemma uniform_read {A} (x : outcome A) : uniform (tread (fun _ => x)). Proof. intros f g. split; [done|]. rewrite !trd2. by destruct x. Qed.
Lemma uniform_write w : uniform (twrite w). Proof. done. Qed.
Lemma uniform_bind {A B} (m : tr A) (k : A -> tr B) : uniform m -> (forall a, uniform (k a)) -> uniform (tbind m k).
Proof.
  intros Hm Hk f g. destruct (Hm f g) as [M1 M2]. rewrite !tb1, !tb2, M1. unfold oval in M2.
  destruct (m f).2 as [[f' a]|e|], (m g).2 as [[g' b]|e'|]; cbn [obind fst snd] in *; try discriminate; [|by split; [|congruence]..].
  injection M2 as <-. destruct (Hk a f' g') as [K1 K2]. by rewrite K1.
Qed.
Create HintDb uniform. #[global] Hint Resolve uniform_ret uniform_read uniform_write uniform_bind : uniform.

(** ** The stores without the relations *)
Definition plain (w : write) : bool := match w with WDb NsRelations _ _ => false | _ => true end.
Lemma same_refl f : same_but_relations f f. Proof. by split. Qed.
Lemma same_sym f g : same_but_relations f g -> same_but_relations g f. Proof. intros [? ? ? ? ?]. split; intros; symmetry; auto. Qed.
Lemma same_trans f g h : same_but_relations f g -> same_but_relations g h -> same_but_relations f h.
Proof. intros [A1 A2 A3 A4 A5] [B1 B2 B3 B4 B5]. split; [intros n k Hn; by rewrite A1, B1|intros n k; by rewrite A2, B2|congruence..]. Qed.
Lemma put_same w f g : same_but_relations f g -> same_but_relations (put w f) (put w g).
Proof.
  intros [H1 H2 H3 H4 H5]. destruct w as [n k v|n k v|k v|k v|r]; [rewrite !put_db|rewrite !put_cache|cbn [put]..]; split;
    cbn [fa_db fa_cache fa_bundles fa_captures fa_fts with_db with_cache]; intros; rewrite ?entry_ins, ?H2, ?H3, ?H4, ?H5; auto.
  by rewrite H1.
Qed.
Lemma puts_same ws : forall f g, same_but_relations f g -> same_but_relations (puts ws f) (puts ws g).
Proof. induction ws as [|w ws IH]; intros f g H; [done|]. cbn. apply IH. by apply put_same. Qed.
Lemma put_relation w f : plain w = false -> same_but_relations (put w f) f.
Proof.
  destruct w as [[] k v| | | |]; try discriminate. intros _. rewrite put_db. split; try done. intros n k' Hn. cbn [fa_db with_db]. by apply entry_other.
Qed.
Lemma put_plain w f k : plain w = true -> entry (fa_db (put w f)) NsRelations k = entry (fa_db f) NsRelations k.
Proof. intros H. destruct w as [n k' v|n k' v|k' v|k' v|r]; [rewrite put_db|rewrite put_cache|done..]; [|done]. cbn [fa_db with_db]. apply entry_other. by destruct n. Qed.
Lemma puts_plain ws f k : Forall (fun w => plain w = true) ws -> entry (fa_db (puts ws f)) NsRelations k = entry (fa_db f) NsRelations k.
Proof. revert f. induction ws as [|w ws IH]; intros f H; [done|]. apply Forall_cons in H as [Hw H]. cbn. rewrite IH by done. by apply put_plain. Qed.
Lemma puts_filter ws : forall f, same_but_relations (puts ws f) (puts (List.filter plain ws) f).
Proof.
  induction ws as [|w ws IH]; intros f; [apply same_refl|]. cbn [puts fold_left List.filter]. destruct (plain w) eqn:E; [apply IH|].
  eapply same_trans; [apply IH|]. apply puts_same. by apply put_relation.
Qed.

(** What is in the store after some writes: key-value entries by the last write, table rows by the first. *)
Definition db_key (n : namespace) (k : string) (w : write) : option string :=
  match w with WDb n' k' v => if bool_decide (n' = n /\ k' = k) then Some v else None | _ => None end.
Definition cache_key (n : namespace) (k : string) (w : write) : option string :=
  match w with WCache n' k' v => if bool_decide (n' = n /\ k' = k) then Some v else None | _ => None end.
Definition latest (key : write -> option string) (ws : list write) (x : option string) : option string :=
  fold_left (fun acc w => match key w with Some v => Some v | None => acc end) ws x.
Lemma latest_db n k ws : forall f, entry (fa_db (puts ws f)) n k = latest (db_key n k) ws (entry (fa_db f) n k).
Proof.
  induction ws as [|w ws IH]; intros f; [done|]. cbn [puts fold_left]. rewrite IH. unfold latest at 2. cbn [fold_left]. unfold latest. f_equal.
  destruct w as [n' k' v|n' k' v|k' v|k' v|r]; [rewrite put_db|rewrite put_cache|done..]; [|done]. cbn [fa_db with_db db_key]. rewrite entry_ins. by case_bool_decide.
Qed.
Lemma latest_cache n k ws : forall f, entry (fa_cache (puts ws f)) n k = latest (cache_key n k) ws (entry (fa_cache f) n k).
Proof.
  induction ws as [|w ws IH]; intros f; [done|]. cbn [puts fold_left]. rewrite IH. unfold latest at 2. cbn [fold_left]. unfold latest. f_equal.
  destruct w as [n' k' v|n' k' v|k' v|k' v|r]; [rewrite put_db|rewrite put_cache|done..]; [done|]. cbn [fa_cache with_cache cache_key]. rewrite entry_ins. by case_bool_decide.
Qed.
Lemma latest_cases key ws : (forall x, latest key ws x = x) \/ exists v, forall x, latest key ws x = Some v.
Proof.
  induction ws as [|w ws IH] using rev_ind; [by left|]. unfold latest in *. setoid_rewrite fold_left_app. cbn [fold_left].
  destruct (key w) as [v|]; [right; by exists v|exact IH].
Qed.
Lemma latest_idem key ws x : latest key ws (latest key ws x) = latest key ws x.
Proof. destruct (latest_cases key ws) as [H|[v H]]; by rewrite !H. Qed.
Definition bundle_rows (ws : list write) (t : table) : table := fold_left (fun t w => match w with WBundle k v => table_insert k v t | _ => t end) ws t.
Definition capture_rows (ws : list write) (t : table) : table := fold_left (fun t w => match w with WCapture k v => table_insert k v t | _ => t end) ws t.
Definition fts_rows (ws : list write) (t : list fts_row) : list fts_row := fold_left (fun t w => match w with WFts r => fts_insert r t | _ => t end) ws t.
Lemma rows_bundles ws : forall f, fa_bundles (puts ws f) = bundle_rows ws (fa_bundles f).
Proof. induction ws as [|w ws IH]; intros f; [done|]. cbn [puts fold_left]. rewrite IH. unfold bundle_rows. cbn [fold_left]. f_equal. destruct w; rewrite ?put_db, ?put_cache; done. Qed.
Lemma rows_captures ws : forall f, fa_captures (puts ws f) = capture_rows ws (fa_captures f).
Proof. induction ws as [|w ws IH]; intros f; [done|]. cbn [puts fold_left]. rewrite IH. unfold capture_rows. cbn [fold_left]. f_equal. destruct w; rewrite ?put_db, ?put_cache; done. Qed.
Lemma rows_fts ws : forall f, fa_fts (puts ws f) = fts_rows ws (fa_fts f).
Proof. induction ws as [|w ws IH]; intros f; [done|]. cbn [puts fold_left]. rewrite IH. unfold fts_rows. cbn [fold_left]. f_equal. destruct w; rewrite ?put_db, ?put_cache; done. Qed.
(** A fold of inserts that keep a row once it is there. *)
Lemma fold_idem {T X : Type} (ins : T -> X -> T) (has : T -> X -> Prop) :
  (forall t x, has (ins t x) x) -> (forall t x y, has t y -> has (ins t x) y) -> (forall t x, has t x -> ins t x = t) ->
  forall l t, fold_left ins l (fold_left ins l t) = fold_left ins l t.
Proof.
  intros H1 H2 H3. assert (Hk : forall l t y, has t y -> has (fold_left ins l t) y) by (induction l as [|x l IH]; intros t y H; cbn; auto).
  assert (Hn : forall l t, (forall x, x ∈ l -> has t x) -> fold_left ins l t = t).
  { induction l as [|x l IH]; intros t H; [done|]. cbn. rewrite H3 by (apply H; left). apply IH. intros y Hy. apply H. by right. }
  intros l t. apply Hn. intros x Hx. revert t. induction Hx as [x l|x y l Hx IH]; intros t; cbn; [apply Hk, H1|apply IH].
Qed.
Lemma table_ins_mem k v t : imap_mem k (table_insert k v t) = true.
Proof.
  unfold table_insert. destruct (imap_mem k t) eqn:E; [done|]. unfold imap_mem in *. rewrite existsb_app. cbn. rewrite String.eqb_refl. apply orb_true_r.
Qed.
Lemma table_ins_keep k v t k' : imap_mem k' t = true -> imap_mem k' (table_insert k v t) = true.
Proof. intros H. unfold table_insert. destruct (imap_mem k t); [done|]. unfold imap_mem in *. rewrite existsb_app, H. done. Qed.
Lemma fts_ins_keep (p : fts_row -> bool) r t : existsb p t = true -> existsb p (fts_insert r t) = true.
Proof. intros H. unfold fts_insert. destruct (existsb _ t) in |- *; [exact H|]. by rewrite existsb_app, H. Qed.
Lemma puts_idem ws f : same_but_relations (puts ws (puts ws f)) (puts ws f).
Proof.
  split.
  - intros n k _. rewrite !latest_db. apply latest_idem.
  - intros n k. rewrite !latest_cache. apply latest_idem.
  - rewrite !rows_bundles. unfold bundle_rows.
    apply (fold_idem _ (fun t w => match w with WBundle k _ => imap_mem k t = true | _ => True end)).
    + intros t []; try done. apply table_ins_mem.
    + intros t x []; try done. destruct x; try done. apply table_ins_keep.
    + intros t []; try done. intros H. unfold table_insert. by rewrite H.
  - rewrite !rows_captures. unfold capture_rows.
    apply (fold_idem _ (fun t w => match w with WCapture k _ => imap_mem k t = true | _ => True end)).
    + intros t []; try done. apply table_ins_mem.
    + intros t x []; try done. destruct x; try done. apply table_ins_keep.
    + intros t []; try done. intros H. unfold table_insert. by rewrite H.
  - rewrite !rows_fts. unfold fts_rows.
    apply (fold_idem _ (fun t w => match w with WFts r => existsb (fun x => String.eqb (ft_said x) (ft_said r) && String.eqb (ft_lang x) (ft_lang r)) t = true | _ => True end)).
    + intros t []; try done. unfold fts_insert. destruct (existsb _ t) eqn:E; [done|]. rewrite existsb_app. cbn. rewrite !String.eqb_refl. apply orb_true_r.
    + intros t x []; try done. destruct x as [| | | |r']; try done. intros H. apply fts_ins_keep. exact H.
    + intros t []; try done. intros H. unfold fts_insert. by rewrite H.
Qed.
Lemma puts_again n ws f : same_but_relations (puts ws (puts (take n ws) f)) (puts ws f).
Proof.
  rewrite <- (take_drop n ws) at 1 3. rewrite !puts_app. apply puts_same. apply puts_idem.
Qed.
Lemma filter_take n (l : list write) : exists m, List.filter plain (take n l) = take m (List.filter plain l).
Proof.
  revert n. induction l as [|w l IH]; intros [|n]; cbn; try by exists 0%nat. destruct (IH n) as [m Hm]. destruct (plain w); [|by exists m].
  exists (S m). cbn. by rewrite Hm.
Qed.

(** ** One attempt *)
Section Attempt.
Variables from1 to1 : string -> option string.
Variable listing : string -> list oobject -> list oobject.
Variable to_text : json -> string.
Variable hash : string -> string.
Variable B : bundle.
Variable steps : list bstep.
Notation run := (t_build from1 to1 listing to_text hash B steps).
Notation again := (fun d d' : mem => forall k, entry d' NsRelations k = entry d NsRelations k).
(** States during and after the relation records are written. *)
Variables M F : mem -> Prop.
Hypothesis M_agree : forall d d', again d d' -> M d -> M d'.
Hypothesis F_agree : forall d d', again d d' -> F d -> F d'.
Hypothesis M_keeps : keeps (fun f => M (fa_db f)) (fun f => M (fa_db f)) (t_relations listing B) (fun _ f => M (fa_db f)).
Hypothesis M_finish : forall d, M d -> exists d', add_relations listing B d = Ok d' /\ F d'.
Variable f0 : facade.
Hypothesis Hok : is_ok (run f0).2 = true.

Lemma uniform_rows l : uniform (t_rows l). Proof. induction l; cbn; auto with uniform. Qed.
Lemma uniform_cache : uniform (t_cache to_text B). Proof. unfold t_cache. auto 10 with uniform. Qed.
Lemma uniform_meta : uniform (t_meta B). Proof. unfold t_meta. destruct (omap _ _); auto using uniform_rows with uniform. Qed.
Lemma uniform_overlays l : uniform (t_overlays to_text l). Proof. induction l; cbn; auto 10 with uniform. Qed.
Lemma uniform_steps l : uniform (t_steps to_text l).
Proof. induction l; cbn; [auto with uniform|]. apply uniform_bind; [|auto]. unfold t_step. auto 20 using uniform_overlays with uniform. Qed.
Lemma uniform_node n : uniform (t_node n). Proof. destruct n; cbn; auto with uniform. Qed.
Lemma uniform_model_list l : uniform (t_model_list l).
Proof. induction l; cbn; [auto with uniform|]. apply uniform_bind; [|auto]. unfold t_model. auto 20 using uniform_node with uniform. Qed.
Lemma uniform_models l : uniform (t_models from1 to1 to_text hash l).
Proof. unfold t_models. auto using uniform_model_list with uniform. Qed.
Notation P := (fun w => plain w = true).
Lemma plain_rows l : writes P (t_rows l).
Proof. induction l; cbn; [apply writes_ret|]. apply writes_bind; [by apply writes_write|auto]. Qed.
Lemma plain_cache : writes P (t_cache to_text B).
Proof. unfold t_cache. repeat (apply writes_bind; [first [apply writes_read|by apply writes_write]|intros ?]). by apply writes_write. Qed.
Lemma plain_meta : writes P (t_meta B).
Proof. unfold t_meta. destruct (omap _ _); [apply writes_ret|]. apply writes_bind; [apply writes_read|intros _; apply plain_rows]. Qed.
Lemma plain_overlays l : writes P (t_overlays to_text l).
Proof. induction l; cbn; [apply writes_ret|]. repeat (apply writes_bind; [first [apply writes_read|by apply writes_write]|intros ?]). auto. Qed.
Lemma plain_steps l : writes P (t_steps to_text l).
Proof.
  induction l; cbn; [apply writes_ret|]. apply writes_bind; [|auto]. unfold t_step.
  repeat (apply writes_bind; [first [apply writes_read|by apply writes_write]|intros ?]). apply plain_overlays.
Qed.
Lemma plain_node n : writes P (t_node n).
Proof. destruct n; cbn; [|apply writes_ret]. apply writes_bind; [apply writes_read|intros ?; by apply writes_write]. Qed.
Lemma plain_models l : writes P (t_models from1 to1 to_text hash l).
Proof.
  unfold t_models. apply writes_bind; [apply writes_read|]. intros ms. induction ms; cbn; [apply writes_ret|]. apply writes_bind; [|auto]. unfold t_model.
  repeat (apply writes_bind; [first [apply writes_read|by apply writes_write|apply plain_node]|intros ?]). by apply writes_write.
Qed.
Notation R := (fun w => plain w = false).
Lemma relations_ovmeta l : writes R (t_ov_metadata l).
Proof. induction l as [|ov l IH]; cbn; [apply writes_ret|]. destruct (ov_said ov); [|apply writes_read]. apply writes_bind; [by apply writes_write|auto]. Qed.
Lemma relations_relovs bs cs l : forall st, writes R (t_rel_overlays listing bs cs l st).
Proof.
  induction l as [|ov l IH]; intros st; cbn; [apply writes_ret|]. destruct (ov_said ov); [|apply writes_read].
  do 4 (apply writes_bind; [apply writes_read|intros ?]). apply writes_bind; [|intros ?; apply IH].
  unfold t_rel. apply writes_bind; [apply writes_read|intros ?; by apply writes_write].
Qed.
Lemma relations_relations : writes R (t_relations listing B).
Proof.
  unfold t_relations. apply writes_bind.
  - unfold t_metadata. destruct (b_said B), (cb_said (b_cb B)); try apply writes_read.
    repeat (apply writes_bind; [by apply writes_write|intros ?]). apply relations_ovmeta.
  - intros _. destruct (b_said B), (cb_said (b_cb B)); try apply writes_read. do 4 (apply writes_bind; [apply writes_read|intros ?]).
    apply writes_bind; [apply relations_relovs|intros ?].
    apply writes_bind; [|intros ?]; unfold t_rel; (apply writes_bind; [apply writes_read|intros ?; by apply writes_write]).
Qed.
Lemma keeps_plain {A} (m : tr A) : sound m -> writes P m -> keeps (fun f => M (fa_db f)) (fun f => M (fa_db f)) m (fun _ f => M (fa_db f)).
Proof.
  intros Hs Hm f Hf. assert (K : forall n, M (fa_db (puts (take n (m f).1) f))).
  { intros n. eapply M_agree; [|exact Hf]. intros k. apply puts_plain. apply Forall_take, Hm. }
  split; [exact K|]. intros g a E. rewrite (Hs _ _ _ E). rewrite <- (take_ge (m f).1 (length (m f).1)) by lia. apply K.
Qed.
Lemma keeps_build : keeps (fun f => M (fa_db f)) (fun f => M (fa_db f)) run (fun _ f => M (fa_db f)).
Proof.
  unfold t_build. set (Q := fun f => M (fa_db f)).
  apply (keeps_bind _ _ _ _ (fun _ => Q)); [unfold t_cache; auto 10 with sound|apply keeps_plain; [unfold t_cache; auto 10 with sound|apply plain_cache]|intros _].
  assert (Sm : sound (t_meta B)) by (unfold t_meta; destruct (omap _ _); auto using sound_rows with sound).
  apply (keeps_bind _ _ _ _ (fun _ => Q)); [exact Sm|apply keeps_plain; [exact Sm|apply plain_meta]|intros _].
  apply (keeps_bind _ _ _ _ (fun _ => Q)); [apply sound_steps|apply keeps_plain; [apply sound_steps|apply plain_steps]|intros _].
  apply (keeps_bind _ _ _ _ (fun _ => Q)); [apply sound_relations|apply M_keeps|intros _].
  assert (So : sound (t_models from1 to1 to_text hash steps)) by (unfold t_models; auto using sound_models with sound).
  apply (keeps_bind _ _ _ _ (fun _ => Q)); [exact So|apply keeps_plain; [exact So|apply plain_models]|intros _].
  by apply keeps_ret.
Qed.

(** The writes outside the relations, the same in every attempt. *)
Definition W1 : list write := (t_cache to_text B f0).1 ++ (t_meta B f0).1 ++ (t_steps to_text steps f0).1.
Definition W3 : list write := (t_models from1 to1 to_text hash steps f0).1.
Lemma oval_ok {A} (x y : outcome (facade * A)) : oval x = oval y -> is_ok x = true -> exists g a, y = Ok (g, a).
Proof. destruct x as [[g a]| |]; try discriminate. destruct y as [[g' a']| |]; try discriminate. intros _ _. by eexists _, _. Qed.
Lemma ok_inv {A} (x : outcome A) : is_ok x = true -> exists a, x = Ok a. Proof. destruct x; try discriminate. by eexists. Qed.
Lemma attempt f : M (fa_db f) -> exists Wr h, run f = (W1 ++ Wr ++ W3, Ok (h, B)) /\ Forall (fun w => plain w = false) Wr /\ F (fa_db h).
Proof.
  intros Hf. assert (Hall : is_ok (t_cache to_text B f0).2 = true /\ is_ok (t_meta B f0).2 = true /\ is_ok (t_steps to_text steps f0).2 = true /\
    is_ok (t_models from1 to1 to_text hash steps f0).2 = true).
  { pose proof Hok as X. unfold t_build in X. apply ok_inv in X as [x X].
    rewrite tb2 in X. apply obind_ok in X as ([f1 []] & E1 & X). cbn [fst snd] in X. rewrite E1. split; [done|].
    rewrite tb2 in X. apply obind_ok in X as ([f2 []] & E2 & X). cbn [fst snd] in X.
    rewrite tb2 in X. apply obind_ok in X as ([f3 []] & E3 & X). cbn [fst snd] in X.
    rewrite tb2 in X. apply obind_ok in X as ([f4 []] & E4 & X). cbn [fst snd] in X.
    rewrite tb2 in X. apply obind_ok in X as ([f5 []] & E5 & X). cbn [fst snd] in X.
    destruct (uniform_meta f1 f0) as [_ U2]. destruct (oval_ok _ _ U2 ltac:(by rewrite E2)) as (? & ? & ->). split; [done|].
    destruct (uniform_steps steps f2 f0) as [_ U3]. destruct (oval_ok _ _ U3 ltac:(by rewrite E3)) as (? & ? & ->). split; [done|].
    destruct (uniform_models steps f4 f0) as [_ U5]. destruct (oval_ok _ _ U5 ltac:(by rewrite E5)) as (? & ? & ->). done. }
  destruct Hall as (O1 & O2 & O3 & O5). unfold t_build.
  destruct (uniform_cache f0 f) as [V1 U1]. destruct (oval_ok _ _ U1 O1) as (f1 & [] & E1).
  destruct (uniform_meta f0 f1) as [V2 U2]. destruct (oval_ok _ _ U2 O2) as (f2 & [] & E2).
  destruct (uniform_steps steps f0 f2) as [V3 U3]. destruct (oval_ok _ _ U3 O3) as (f3 & [] & E3).
  assert (Mf3 : M (fa_db f3)).
  { pose proof (sound_steps to_text steps) as S3. rewrite (S3 _ _ _ E3).
    assert (S2 : sound (t_meta B)) by (unfold t_meta; destruct (omap _ _); auto using sound_rows with sound). rewrite (S2 _ _ _ E2).
    assert (S1 : sound (t_cache to_text B)) by (unfold t_cache; auto 10 with sound). rewrite (S1 _ _ _ E1).
    eapply M_agree; [|exact Hf]. intros k. rewrite puts_plain by apply plain_steps. rewrite puts_plain by apply plain_meta. apply puts_plain, plain_cache. }
  destruct (M_finish _ Mf3) as (d4 & E4 & Ff).
  destruct (uniform_models steps f0 (with_db d4 f3)) as [V5 U5]. destruct (oval_ok _ _ U5 O5) as (f5 & [] & E5).
  assert (S5 : sound (t_models from1 to1 to_text hash steps)) by (unfold t_models; auto using sound_models with sound).
  exists (t_relations listing B f3).1, f5. split; [|split].
  - assert (E4' : (t_relations listing B f3).2 = Ok (with_db d4 f3, tt)) by (rewrite runs_relations; unfold lift_db; by rewrite E4).
    apply injective_projections; cbn [fst snd].
    + unfold W1, W3. rewrite tb1, E1. cbn [fst snd]. rewrite tb1, E2. cbn [fst snd]. rewrite tb1, E3. cbn [fst snd]. rewrite tb1, E4'. cbn [fst snd].
      rewrite tb1, E5. cbn [fst snd tret]. rewrite V1, V2, V3, V5, app_nil_r, <- !app_assoc. done.
    + rewrite tb2, E1. cbn [obind fst snd]. rewrite tb2, E2. cbn [obind fst snd]. rewrite tb2, E3. cbn [obind fst snd]. rewrite tb2, E4'. cbn [obind fst snd].
      rewrite tb2, E5. done.
  - apply relations_relations.
  - eapply F_agree; [|exact Ff]. intros k. rewrite (S5 _ _ _ E5), puts_plain by apply plain_models. done.
Qed.
Lemma filter_all (Q : write -> bool) l : Forall (fun w => Q w = true) l -> List.filter Q l = l.
Proof. induction 1 as [|w l H _ IH]; [done|]. cbn. by rewrite H, IH. Qed.
Lemma filter_none (Q : write -> bool) l : Forall (fun w => Q w = false) l -> List.filter Q l = [].
Proof. induction 1 as [|w l H _ IH]; [done|]. cbn. by rewrite H. Qed.
Lemma attempt_plain Wr : Forall (fun w => plain w = false) Wr -> List.filter plain (W1 ++ Wr ++ W3) = W1 ++ W3.
Proof.
  intros H. rewrite !List.filter_app, (filter_none _ Wr H), (filter_all _ W1), (filter_all _ W3); [done| |].
  - apply plain_models.
  - unfold W1. rewrite !Forall_app. split; [apply plain_cache|split; [apply plain_meta|apply plain_steps]].
Qed.
Lemma retried_inv g : M (fa_db f0) -> retried from1 to1 listing to_text hash B steps f0 g ->
  M (fa_db g) /\ same_but_relations (puts (W1 ++ W3) g) (puts (W1 ++ W3) f0).
Proof.
  intros H0 H. induction H as [|g g' H [IM IS] [n ->]]; [split; [done|apply same_refl]|]. split; [apply (keeps_build g IM)|].
  destruct (attempt g IM) as (Wr & h & E & HR & _). rewrite E. cbn [fst]. destruct (filter_take n (W1 ++ Wr ++ W3)) as [m Hm].
  rewrite (attempt_plain _ HR) in Hm. eapply same_trans; [|exact IS].
  eapply same_trans; [apply puts_same, puts_filter|]. rewrite Hm. apply puts_again.
Qed.
Lemma retried_done g : M (fa_db f0) -> retried from1 to1 listing to_text hash B steps f0 g ->
  exists h h', (run f0).2 = Ok (h, B) /\ (run g).2 = Ok (h', B) /\ same_but_relations h' h /\ F (fa_db h) /\ F (fa_db h').
Proof.
  intros H0 H. destruct (retried_inv g H0 H) as [IM IS]. destruct (attempt f0 H0) as (Wr & h & E & HR & Fh). destruct (attempt g IM) as (Wr' & h' & E' & HR' & Fh').
  exists h, h'. rewrite E, E'. cbn [snd]. split; [done|]. split; [done|]. split; [|done].
  pose proof (sound_build from1 to1 listing to_text hash B steps) as So.
  assert (X : h = puts (W1 ++ Wr ++ W3) f0) by (pose proof (So f0 h B) as Y; rewrite E in Y; by apply Y).
  assert (X' : h' = puts (W1 ++ Wr' ++ W3) g) by (pose proof (So g h' B) as Y; rewrite E' in Y; by apply Y).
  rewrite X, X'. eapply same_trans; [apply puts_filter|]. rewrite (attempt_plain _ HR').
  eapply same_trans; [exact IS|]. apply same_sym. eapply same_trans; [apply puts_filter|]. rewrite (attempt_plain _ HR). apply same_refl.
Qed.
End Attempt.

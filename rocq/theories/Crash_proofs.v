(** The traced build is the build; what its writes are. *)
From Verif Require Import Base Condition_proofs Spec_Facade Props_Storage Props_Relations Facade_proofs Crash.

Lemma put_db n k v f : put (WDb n k v) f = with_db (ins2 n k v (fa_db f)) f.
Proof. cbn [put]. by rewrite mem_ins2. Qed.
Lemma put_cache n k v f : put (WCache n k v) f = with_cache (ins2 n k v (fa_cache f)) f.
Proof. cbn [put]. by rewrite mem_ins2. Qed.
Lemma puts_app l l' f : puts (l ++ l') f = puts l' (puts l f).
Proof. apply fold_left_app. Qed.
Lemma tb2 {A B} (m : tr A) (k : A -> tr B) f : (tbind m k f).2 = let! x := (m f).2 in (k x.2 x.1).2.
Proof. unfold tbind. cbv zeta. by destruct (m f).2. Qed.
Lemma tw2 w f : (twrite w f).2 = Ok (put w f, tt). Proof. done. Qed.
Lemma trd2 {A} (g : facade -> outcome A) f : (tread g f).2 = let! a := g f in Ok (f, a).
Proof. cbn. by destruct (g f). Qed.
Lemma trt2 {A} (a : A) f : (tret a f).2 = Ok (f, a). Proof. done. Qed.
Lemma tb1 {A B} (m : tr A) (k : A -> tr B) f : (tbind m k f).1 = (m f).1 ++ match (m f).2 with Ok x => (k x.2 x.1).1 | _ => [] end.
Proof. unfold tbind. cbv zeta. destruct (m f).2; cbn; by rewrite ?app_nil_r. Qed.

(** The final state is the one after all the writes. *)
Definition sound {A} (m : tr A) : Prop := forall f g a, (m f).2 = Ok (g, a) -> g = puts (m f).1 f.
Lemma sound_ret {A} (a : A) : sound (tret a). Proof. intros f g x [= <- <-]. done. Qed.
Lemma sound_read {A} (g : facade -> outcome A) : sound (tread g).
Proof. intros f h x H. rewrite trd2 in H. apply obind_ok in H as (a & _ & [= <- <-]). done. Qed.
Lemma sound_write w : sound (twrite w). Proof. intros f g x [= <- <-]. done. Qed.
Lemma sound_bind {A B} (m : tr A) (k : A -> tr B) : sound m -> (forall a, sound (k a)) -> sound (tbind m k).
Proof.
  intros Hm Hk f g b H. rewrite tb2 in H. apply obind_ok in H as ([h a] & E & H). cbn [fst snd] in H.
  rewrite tb1, E. cbn [fst snd]. rewrite puts_app. rewrite <- (Hm _ _ _ E). exact (Hk a _ _ _ H).
Qed.
Create HintDb sound. #[global] Hint Resolve sound_ret sound_read sound_write sound_bind : sound.

(** Every write made satisfies [Q]. *)
Definition writes {A} (Q : write -> Prop) (m : tr A) : Prop := forall f, Forall Q (m f).1.
Lemma writes_ret {A} Q (a : A) : writes Q (tret a). Proof. intros f. constructor. Qed.
Lemma writes_read {A} Q (g : facade -> outcome A) : writes Q (tread g). Proof. intros f. constructor. Qed.
Lemma writes_write (Q : write -> Prop) w : Q w -> writes Q (twrite w). Proof. intros H f. by repeat constructor. Qed.
Lemma writes_bind {A B} Q (m : tr A) (k : A -> tr B) : writes Q m -> (forall a, writes Q (k a)) -> writes Q (tbind m k).
Proof. intros Hm Hk f. rewrite tb1. apply Forall_app. split; [apply Hm|]. destruct (m f).2; [apply Hk|constructor..]. Qed.
(** A bind whose continuation is known to run on a value of the read. *)
Lemma writes_bind_read {A B} Q (g : outcome A) (k : A -> tr B) : (forall a, g = Ok a -> writes Q (k a)) -> writes Q (tbind (tread (fun _ => g)) k).
Proof. intros Hk f. rewrite tb1. cbn. destruct g as [a| |]; cbn; [by apply Hk|constructor..]. Qed.
Lemma writes_imp {A} (Q Q' : write -> Prop) (m : tr A) : (forall w, Q w -> Q' w) -> writes Q m -> writes Q' m.
Proof. intros H Hm f. eapply Forall_impl; [apply Hm|exact H]. Qed.

Section Build.
Variable from1 to1 : string -> option string.
Variable listing : string -> list oobject -> list oobject.
Variable to_text : json -> string.
Variable hash : string -> string.
Notation ov_writes := (t_overlays to_text).
Notation step_writes := (t_steps to_text).

Lemma sound_rows l : sound (t_rows l). Proof. induction l; cbn; auto with sound. Qed.
Lemma sound_overlays l : sound (t_overlays to_text l). Proof. induction l; cbn; auto 10 with sound. Qed.
Lemma sound_steps l : sound (t_steps to_text l).
Proof. induction l; cbn; [auto with sound|]. apply sound_bind; [|auto]. unfold t_step. auto 20 using sound_overlays with sound. Qed.
Lemma sound_ovmeta l : sound (t_ov_metadata l).
Proof. induction l as [|ov l IH]; cbn; [auto with sound|]. destruct (ov_said ov); auto with sound. Qed.
Lemma sound_rel r k : sound (t_rel listing r k). Proof. unfold t_rel. auto with sound. Qed.
Lemma sound_relovs bs cs l : forall st, sound (t_rel_overlays listing bs cs l st).
Proof. induction l as [|ov l IH]; intros st; cbn; [auto with sound|]. destruct (ov_said ov); [|auto with sound]. auto 20 using sound_rel with sound. Qed.
Lemma sound_relations B : sound (t_relations listing B).
Proof.
  unfold t_relations, t_metadata. apply sound_bind.
  - destruct (b_said B), (cb_said (b_cb B)); auto using sound_ovmeta with sound.
  - intros u. destruct (b_said B), (cb_said (b_cb B)); auto 20 using sound_relovs, sound_rel with sound.
Qed.
Lemma sound_node n : sound (t_node n). Proof. destruct n; cbn; auto with sound. Qed.
Lemma sound_models l : sound (t_model_list l).
Proof. induction l; cbn; [auto with sound|]. apply sound_bind; [|auto]. unfold t_model. auto 20 using sound_node with sound. Qed.
Lemma sound_build B steps : sound (t_build from1 to1 listing to_text hash B steps).
Proof.
  unfold t_build. apply sound_bind; [unfold t_cache; auto 10 with sound|intros _].
  apply sound_bind; [unfold t_meta; destruct (omap _ _); auto using sound_rows with sound|intros _].
  apply sound_bind; [apply sound_steps|intros _]. apply sound_bind; [apply sound_relations|intros _].
  apply sound_bind; [|auto with sound]. unfold t_models. auto using sound_models with sound.
Qed.

(** ** The outcome *)
Definition lift (x : outcome facade) : outcome (facade * unit) := let! f := x in Ok (f, tt).
Definition lift_db (x : outcome mem) (f : facade) : outcome (facade * unit) := let! d := x in Ok (with_db d f, tt).
Ltac tstep := rewrite ?tb2, ?tw2, ?trd2, ?trt2; cbn [obind fst snd].
Lemma runs_cache B f : (t_cache to_text B f).2 = lift (build_cache to_text B f).
Proof. unfold t_cache, build_cache, lift. repeat tstep. destruct (b_said B); cbn [unwrap_some]; [|by destruct (cb_said _)]. repeat tstep.
  destruct (cb_said (b_cb B)); cbn [unwrap_some]; [|done]. repeat tstep. done. Qed.
Lemma runs_rows l : forall f, (t_rows l f).2 = Ok (Facade (fa_db f) (fa_cache f) (fa_bundles f) (fa_captures f) (fold_left (fun t r => fts_insert r t) l (fa_fts f)), tt).
Proof. induction l as [|r l IH]; intros f; cbn [t_rows]; [by destruct f|]. repeat tstep. by rewrite IH. Qed.
Lemma runs_meta B f : (t_meta B f).2 = lift (build_meta B f).
Proof.
  unfold t_meta, build_meta, lift. destruct (omap _ _) as [|r l]; [done|]. repeat tstep. destruct (b_said B); [|done]. cbn [unwrap_some]. repeat tstep. by rewrite runs_rows.
Qed.
Lemma runs_overlays l : forall f, (t_overlays to_text l f).2 = let! d := store_overlays to_text l (fa_cache f) in Ok (with_cache d f, tt).
Proof.
  induction l as [|ov l IH]; intros f; cbn [t_overlays store_overlays]; [by destruct f|]. repeat tstep. destruct (ov_said ov); [|done]. cbn [unwrap_some obind].
  repeat tstep. rewrite IH, put_cache, mem_ins2. cbn [obind fa_cache with_cache]. by destruct (store_overlays _ _ _).
Qed.
Lemma runs_step s f : (t_step to_text s f).2 = lift (build_step to_text s f).
Proof.
  unfold t_step, build_step, lift. repeat tstep. destruct (op_encode _ _ _); [|done..]. cbn [obind fst snd]. repeat tstep.
  destruct (b_said (bs_result s)); [|done]. cbn [unwrap_some obind fst snd]. repeat tstep. rewrite !mem_ins2. cbn [obind].
  destruct (cb_said (b_cb (bs_result s))); [|done]. cbn [unwrap_some obind fst snd]. repeat tstep.
  rewrite runs_overlays. rewrite put_db, !put_cache. rewrite mem_ins2. cbn [obind fa_cache fa_db with_cache with_db]. by destruct (store_overlays _ _ _).
Qed.
Lemma runs_steps l : forall f, (t_steps to_text l f).2 = lift (build_steps to_text l f).
Proof.
  induction l as [|s l IH]; intros f; cbn [t_steps build_steps]; [done|]. repeat tstep. rewrite runs_step. unfold lift.
  destruct (build_step to_text s f); cbn [obind fst snd]; [|done..]. apply IH.
Qed.
Lemma runs_ovmeta l : forall f, (t_ov_metadata l f).2 = lift_db (insert_ov_metadata l (fa_db f)) f.
Proof.
  induction l as [|ov l IH]; intros f; cbn [t_ov_metadata insert_ov_metadata]; [by destruct f|]. destruct (ov_said ov); [|done].
  repeat tstep. rewrite IH, put_db, mem_ins2. unfold lift_db. cbn [obind fa_db with_db]. by destruct (insert_ov_metadata _ _).
Qed.
Lemma runs_metadata B f : (t_metadata B f).2 = lift_db (insert_metadata B (fa_db f)) f.
Proof.
  unfold t_metadata, insert_metadata, lift_db. destruct (b_said B), (cb_said (b_cb B)); try done. repeat tstep.
  rewrite runs_ovmeta, !put_db, !mem_ins2. cbn [obind fa_db with_db]. rewrite mem_ins2. cbn [obind]. unfold lift_db. by destruct (insert_ov_metadata _ _).
Qed.
Lemma runs_rel r k f : (t_rel listing r k f).2 = lift_db (rel_insert listing r k (fa_db f)) f.
Proof.
  unfold t_rel, rel_insert, lift_db. repeat tstep. destruct (rel_encode _); [|done..]. cbn [obind fst snd]. repeat tstep. by rewrite put_db, mem_ins2.
Qed.
Lemma runs_relovs bs cs l : forall st f, (t_rel_overlays listing bs cs l st f).2 =
  let! x := rel_overlays listing bs cs l (fa_db f, st.1, st.2) in Ok (with_db x.1.1 f, (x.1.2, x.2)).
Proof.
  induction l as [|ov l IH]; intros st f; cbn [t_rel_overlays rel_overlays]; [by destruct st, f|]. destruct (ov_said ov); [|done]. cbn [fst snd].
  repeat tstep. destruct (object_new (fa_db f) s) as [o| |]; [|done..]. cbn [obind fst snd].
  repeat tstep. destruct (rel_or_new (fa_db f) s) as [vr| |]; [|done..]. cbn [obind fst snd].
  repeat tstep. destruct (object_new (fa_db f) bs) as [ob| |]; [|done..]. cbn [obind fst snd].
  repeat tstep. destruct (object_new (fa_db f) cs) as [oc| |]; [|done..]. cbn [obind fst snd].
  repeat tstep. rewrite runs_rel. unfold lift_db. destruct (rel_insert _ _ _ _) as [d| |]; [|done..]. cbn [obind fst snd]. rewrite IH.
  cbn [fa_db with_db fst snd]. by destruct (rel_overlays _ _ _ _ _).
Qed.
Lemma runs_relations B f : (t_relations listing B f).2 = lift_db (add_relations listing B (fa_db f)) f.
Proof.
  unfold t_relations, add_relations. tstep. rewrite runs_metadata. unfold lift_db at 1. destruct (insert_metadata B (fa_db f)) as [d| |]; [|done..].
  cbn [obind fst snd]. destruct (b_said B) as [bs|], (cb_said (b_cb B)) as [cs|]; try done.
  rewrite tb2, trd2. cbn [fa_db with_db]. destruct (rel_or_new d bs) as [br| |]; [|done..]. cbn [obind fst snd].
  rewrite tb2, trd2. cbn [fa_db with_db]. destruct (object_new d cs) as [oc| |]; [|done..]. cbn [obind fst snd].
  rewrite tb2, trd2. cbn [fa_db with_db]. destruct (rel_or_new d cs) as [cr| |]; [|done..]. cbn [obind fst snd].
  rewrite tb2, trd2. cbn [fa_db with_db]. destruct (object_new d bs) as [ob| |]; [|done..]. cbn [obind fst snd].
  rewrite tb2, runs_relovs. cbn [fa_db with_db fst snd]. destruct (rel_overlays _ _ _ _ _) as [x| |]; [|done..]. cbn [obind fst snd].
  rewrite tb2, runs_rel. unfold lift_db. cbn [fa_db with_db]. destruct (rel_insert _ _ _ _) as [d2| |]; [|done..]. cbn [obind fst snd].
  rewrite runs_rel. unfold lift_db. cbn [fa_db with_db]. by destruct (rel_insert _ _ _ _).
Qed.
Lemma runs_node n f : (t_node n f).2 = lift_db (store_node n (fa_db f)) f.
Proof.
  unfold lift_db. destruct n as [n|]; cbn [t_node store_node]; [|by destruct f]. repeat tstep. destruct (node_bytes n); [|done..]. cbn [obind fst snd]. repeat tstep.
  by rewrite put_db, mem_ins2.
Qed.
Lemma runs_model m f : (t_model m f).2 = lift_db (store_model (fa_db f) m) f.
Proof.
  unfold t_model, store_model, lift_db. repeat tstep. rewrite mem_ins2, put_db. cbn [obind].
  rewrite runs_node. unfold lift_db. cbn [fa_db with_db]. destruct (store_node (rm_cb m) _); [|done..]. cbn [obind fst snd]. tstep.
  rewrite runs_node. unfold lift_db. cbn [fa_db with_db]. destruct (store_node (rm_ov m) _); [|done..]. cbn [obind fst snd]. repeat tstep.
  destruct (bnode_bytes _); [|done..]. cbn [obind fst snd]. repeat tstep. by rewrite put_db, mem_ins2.
Qed.
Lemma fold_fail {X} (g : mem -> X -> outcome mem) l (x : outcome mem) : is_ok x = false -> fold_left (fun acc m => let! d := acc in g d m) l x = x.
Proof. intros H. induction l as [|y l IH]; [done|]. cbn [fold_left]. destruct x; [done| |]; exact IH. Qed.
Lemma runs_model_list l : forall f, (t_model_list l f).2 = lift_db (fold_left (fun acc m => let! d := acc in store_model d m) l (Ok (fa_db f))) f.
Proof.
  induction l as [|m l IH]; intros f; cbn [t_model_list fold_left]; [by destruct f|]. tstep. rewrite runs_model. unfold lift_db at 1.
  destruct (store_model (fa_db f) m); cbn [obind fst snd]; [|by rewrite fold_fail..]. rewrite IH. unfold lift_db. cbn [fa_db with_db]. by destruct (fold_left _ _ _).
Qed.
Lemma runs_models steps f : (t_models from1 to1 to_text hash steps f).2 = lift_db (build_models from1 to1 to_text hash steps (fa_db f)) f.
Proof.
  unfold t_models, build_models. repeat tstep. destruct (build_core_db_model _ _ _ _ _); [|done..]. cbn [obind fst snd]. apply runs_model_list.
Qed.
Lemma runs_build B steps f : (t_build from1 to1 listing to_text hash B steps f).2 = build from1 to1 listing to_text hash B steps f.
Proof.
  unfold t_build, build. tstep. rewrite runs_cache. unfold lift. destruct (build_cache to_text B f) as [f1| |]; [|done..]. cbn [obind fst snd].
  tstep. rewrite runs_meta. unfold lift. destruct (build_meta B f1) as [f2| |]; [|done..]. cbn [obind fst snd].
  tstep. rewrite runs_steps. unfold lift. destruct (build_steps to_text steps f2) as [f3| |]; [|done..]. cbn [obind fst snd].
  tstep. rewrite runs_relations. unfold lift_db. destruct (add_relations _ _ _) as [d4| |]; [|done..]. cbn [obind fst snd].
  tstep. rewrite runs_models. unfold lift_db. cbn [fa_db with_db]. by destruct (build_models _ _ _ _ _ _).
Qed.
End Build.

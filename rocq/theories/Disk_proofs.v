(** The keys a facade build inserts are file names. *)
From Verif Require Import Base Spec_Disk Files_proofs Condition_proofs Facade_proofs Crash_proofs Crash_again Spec_Facade Spec_Relations Props_Storage Props_Relations Props_Crash Spec_Total Props_Total Spec_Bundle Props_Bundle Build Build_proofs Props_Build Dag Spec_Dag.
Local Open Scope list_scope.

Lemma get_in : forall s i c, String.get i s = Some c -> c ∈ list_ascii_of_string s.
Proof. induction s as [|a s IH]; intros [|i] c H; cbn in *; try discriminate; [injection H as ->; left|right; by apply (IH i)]. Qed.
Lemma in_get : forall s c, c ∈ list_ascii_of_string s -> exists i, String.get i s = Some c.
Proof. induction s as [|a s IH]; intros c H; cbn in H; [by apply elem_of_nil in H|]. apply elem_of_cons in H as [ -> |H]; [by exists 0|]. destruct (IH c H) as [i Hi]. by exists (S i). Qed.
Lemma ascii_app : forall a b, list_ascii_of_string (a +:+ b) = list_ascii_of_string a ++ list_ascii_of_string b.
Proof. induction a as [|c a IH]; intros b; cbn; [done|]. by rewrite <- IH. Qed.
Definition safe_char (c : ascii) : bool := negb (Ascii.eqb c "/") && negb (Ascii.eqb c zero).
Lemma safe_name k : Forall (fun c => safe_char c = true) (list_ascii_of_string k) -> k <> "" -> k <> "." -> k <> ".." -> String.length k <= 255 -> file_name k.
Proof.
  intros H H1 H2 H3 H4. rewrite Forall_forall in H. split; try done; intros i F; apply get_in, H in F; discriminate F.
Qed.
Lemma id_safe s : id_text s -> Forall (fun c => safe_char c = true) (list_ascii_of_string s).
Proof.
  intros [_ H _]. apply Forall_forall. intros c Hc. apply in_get in Hc as [i Hi]. destruct (H i c Hi) as (H1 & _ & H2). unfold safe_char.
  rewrite (proj2 (Ascii.eqb_neq _ _) H1), (proj2 (Ascii.eqb_neq _ _) H2). done.
Qed.
Lemma id_name s : id_text s -> file_name s.
Proof.
  intros H. pose proof H as [H1 H2 H3]. apply safe_name; [by apply id_safe|done|..|lia].
  - intros ->. by destruct (H2 0 "."%char eq_refl) as (_ & ? & _).
  - intros ->. by destruct (H2 0 "."%char eq_refl) as (_ & ? & _).
Qed.
Lemma long_name k : Forall (fun c => safe_char c = true) (list_ascii_of_string k) -> 3 <= String.length k <= 255 -> file_name k.
Proof. intros H L. apply safe_name; [done|intros -> ; cbn in L; lia..|lia]. Qed.
Lemma op_name s : id_text s -> file_name (op_key s).
Proof.
  intros H. pose proof (id_safe s H). apply long_name; unfold op_key; [|rewrite !length_append; destruct H as [_ _ H]; cbn; lia].
  rewrite !ascii_app. apply Forall_app. split; [by repeat constructor|]. apply Forall_app. split; [done|by repeat constructor].
Qed.
Lemma meta_name s : id_text s -> file_name (meta_key s).
Proof.
  intros H. pose proof (id_safe s H). apply long_name; unfold meta_key; [|rewrite !length_append; destruct H as [_ _ H]; cbn; lia].
  rewrite !ascii_app. apply Forall_app. split; [done|by repeat constructor].
Qed.
Lemma model_name s : id_text s -> file_name (model_key s).
Proof.
  intros H. pose proof (id_safe s H). apply long_name; unfold model_key; [|rewrite !length_append; destruct H as [_ _ H]; cbn; lia].
  rewrite !ascii_app. apply Forall_app. split; [by repeat constructor|done].
Qed.

Definition fits (w : Crash.write) : Prop := match w with WDb _ k _ | WCache _ k _ => file_name k | _ => True end.
Definition good (B : bundle) : Prop := forall t r, has_role B t r -> id_text t.
Lemma good_bundle B s : good B -> b_said B = Some s -> id_text s. Proof. intros G H. apply (G s RBundle). by left. Qed.
Lemma good_capture B s : good B -> cb_said (b_cb B) = Some s -> id_text s. Proof. intros G H. apply (G s RCapture). by right; left. Qed.
Lemma good_overlay B ov s : good B -> ov ∈ b_ovs B -> ov_said ov = Some s -> id_text s.
Proof. intros G H E. apply (G s (ROverlay (ot_kind (ov_type ov)))). right. right. by exists ov. Qed.
Lemma writes_bind_value {A B} Q (m : tr A) (k : A -> tr B) : writes Q m -> (forall f g a, (m f).2 = Ok (g, a) -> writes Q (k a)) -> writes Q (tbind m k).
Proof. intros Hm Hk f. rewrite tb1. apply Forall_app. split; [apply Hm|]. destruct (m f).2 as [[g a]| |] eqn:E; [by eapply Hk|constructor..]. Qed.
Lemma writes_bind_reads {A B} Q (g : facade -> outcome A) (k : A -> tr B) : (forall f a, g f = Ok a -> writes Q (k a)) -> writes Q (tbind (tread g) k).
Proof. intros Hk. apply writes_bind_value; [apply writes_read|]. intros f h a H. rewrite trd2 in H. apply obind_ok in H as (x & E & [= _ <-]). by apply (Hk f). Qed.

Section Build.
Variables from1 to1 : string -> option string.
Variable listing : string -> list oobject -> list oobject.
Variable to_text : json -> string.
Variable hash : string -> string.
Hypothesis Hhash : forall t, id_text (hash t).

Lemma fits_rows l : writes fits (t_rows l).
Proof. induction l; cbn; [apply writes_ret|]. apply writes_bind; [by apply writes_write|auto]. Qed.
Lemma fits_cache B : writes fits (t_cache to_text B).
Proof. unfold t_cache. repeat (apply writes_bind; [first [apply writes_read|by apply writes_write]|intros ?]). by apply writes_write. Qed.
Lemma fits_meta B : writes fits (t_meta B).
Proof. unfold t_meta. destruct (omap _ _); [apply writes_ret|]. apply writes_bind; [apply writes_read|intros _; apply fits_rows]. Qed.
Lemma fits_overlays l : (forall ov s, ov ∈ l -> ov_said ov = Some s -> id_text s) -> writes fits (t_overlays to_text l).
Proof.
  induction l as [|ov l IH]; intros H; cbn; [apply writes_ret|]. apply writes_bind_read. intros s Hs. apply unwrap_ok in Hs.
  apply writes_bind; [apply writes_write; cbn; apply id_name, (H ov s); [left|done]|intros _]. apply IH. intros o t Ho. apply H. by right.
Qed.
Lemma fits_step s : good (bs_result s) -> writes fits (t_step to_text s).
Proof.
  intros G. unfold t_step. apply writes_bind; [apply writes_read|intros i]. apply writes_bind_read. intros b Hb. apply unwrap_ok in Hb.
  pose proof (good_bundle _ _ G Hb) as Ib. apply writes_bind; [apply writes_write; by apply op_name|intros _]. apply writes_bind; [apply writes_write; by apply id_name|intros _].
  apply writes_bind_read. intros c Hc. apply unwrap_ok in Hc. apply writes_bind; [apply writes_write; apply id_name; by eapply good_capture|intros _].
  apply fits_overlays. intros ov t Ho Ht. by eapply good_overlay.
Qed.
Lemma fits_steps l : Forall (fun s => good (bs_result s)) l -> writes fits (t_steps to_text l).
Proof. induction 1; cbn; [apply writes_ret|]. apply writes_bind; [by apply fits_step|auto]. Qed.
Lemma fits_ovmeta l : (forall ov s, ov ∈ l -> ov_said ov = Some s -> id_text s) -> writes fits (t_ov_metadata l).
Proof.
  induction l as [|ov l IH]; intros H; cbn; [apply writes_ret|]. destruct (ov_said ov) as [s|] eqn:E; [|apply writes_read].
  apply writes_bind; [apply writes_write; apply meta_name, (H ov s); [left|done]|intros _]. apply IH. intros o t Ho. apply H. by right.
Qed.
Lemma fits_rel r k : id_text k -> writes fits (t_rel listing r k).
Proof. intros H. unfold t_rel. apply writes_bind; [apply writes_read|intros v]. apply writes_write. by apply id_name. Qed.
Lemma fits_relovs bs cs l : (forall ov s, ov ∈ l -> ov_said ov = Some s -> id_text s) -> forall st, writes fits (t_rel_overlays listing bs cs l st).
Proof.
  induction l as [|ov l IH]; intros H st; cbn; [apply writes_ret|]. destruct (ov_said ov) as [s|] eqn:E; [|apply writes_read].
  do 4 (apply writes_bind; [apply writes_read|intros ?]). apply writes_bind; [apply fits_rel, (H ov s); [left|done]|intros _]. apply IH. intros o t Ho. apply H. by right.
Qed.
Lemma relovs_base bs cs l : forall st f g st', (t_rel_overlays listing bs cs l st f).2 = Ok (g, st') -> st'.1.1 = st.1.1 /\ st'.2.1 = st.2.1.
Proof.
  induction l as [|ov l IH]; intros st f g st' H; cbn [t_rel_overlays] in H; [injection H as _ <-; done|]. destruct (ov_said ov) as [s|]; [|discriminate H].
  do 5 (rewrite tb2 in H; apply obind_ok in H as (? & _ & H)). apply IH in H. cbn [fst snd] in H. done.
Qed.
Lemma new_said db s r : rel_or_new db s = Ok r -> oo_said r.1 = s.
Proof.
  unfold rel_or_new. destruct (explore db s) as [[x|]| |] eqn:E; cbn [obind]; try discriminate.
  - intros [= <-]. unfold explore in E. destruct (mem_get NsRelations s db) as [[v|]| |]; try discriminate E.
    destruct (rel_decode v) as [l| |]; [|discriminate E|discriminate E]. cbn [obind] in E. unfold object_new in E. destruct (object_type db s) as [k| |]; [|discriminate E|discriminate E].
    cbn [obind] in E. injection E as <-. done.
  - unfold object_new. destruct (object_type db s) as [k| |]; cbn [obind]; try discriminate. intros [= <-]. done.
Qed.
Lemma fits_relations B : good B -> writes fits (t_relations listing B).
Proof.
  intros G. unfold t_relations. apply writes_bind.
  - unfold t_metadata. destruct (b_said B) as [bs|] eqn:Eb; [|apply writes_read]. destruct (cb_said (b_cb B)) as [cs|] eqn:Ec; [|apply writes_read].
    apply writes_bind; [apply writes_write; apply meta_name; by eapply good_bundle|intros _]. apply writes_bind; [apply writes_write; apply meta_name; by eapply good_capture|intros _].
    apply fits_ovmeta. intros ov s Ho Hs. by eapply good_overlay.
  - intros _. destruct (b_said B) as [bs|] eqn:Eb; [|apply writes_read]. destruct (cb_said (b_cb B)) as [cs|] eqn:Ec; [|apply writes_read].
    apply writes_bind_reads. intros f1 br Hbr. apply writes_bind; [apply writes_read|intros oc]. apply writes_bind_reads. intros f2 cr Hcr. apply writes_bind; [apply writes_read|intros ob].
    apply writes_bind_value; [apply fits_relovs; intros ov s Ho Hs; by eapply good_overlay|]. intros f g st H. apply relovs_base in H. cbn [fst snd] in H. destruct H as [H1 H2].
    apply writes_bind; [apply fits_rel; rewrite H1, (new_said _ _ _ Hbr); by eapply good_bundle|intros _]. apply fits_rel. rewrite H2, (new_said _ _ _ Hcr). by eapply good_capture.
Qed.
Definition good_model (m : rmodel) : Prop :=
  id_text (cmo_digest (rm_cmd m)) /\ (forall n, rm_cb m = Some n -> id_text (nd_said n)) /\ (forall n, rm_ov m = Some n -> id_text (nd_said n)) /\ id_text (bn_said (rm_bundle m)).
Lemma good_dag_step st s st' m : good (bs_result s) -> dag_step from1 to1 to_text hash st s = Ok (st', m) -> good_model m.
Proof.
  intros G H. unfold dag_step in H. cbv zeta in H. apply obind_ok in H as (x & E & H).
  assert (X : (forall n, x.1.2 = Some n -> id_text (nd_said n)) /\ (forall n, x.2 = Some n -> id_text (nd_said n))).
  { destruct (cmd_obj (bs_cmd s)) as [c|c|t ct].
    - apply obind_ok in E as (c' & Ec & E). apply unwrap_ok in Ec. injection E as <-. cbn. split; [|done]. intros n [= <-]. cbn. by eapply good_capture.
    - injection E as <-. cbn. done.
    - destruct (find_overlay _ _ _) as [ov|] eqn:Ef; [|injection E as <-; cbn; done]. apply obind_ok in E as (key & _ & E). apply obind_ok in E as (sv & Es & E).
      apply unwrap_ok in Es. injection E as <-. cbn. split; [done|]. intros n [= <-]. cbn. apply List.find_some in Ef as [Ef _]. eapply good_overlay; [done|by apply elem_of_list_In|done]. }
  apply obind_ok in H as (bs & Eb & H). apply unwrap_ok in Eb. apply obind_ok in H as (cs & _ & H). apply obind_ok in H as (os & _ & H). injection H as <- <-.
  destruct X as [X1 X2]. split; [apply Hhash|]. split; [done|]. split; [done|]. cbn. by eapply good_bundle.
Qed.
Lemma good_dag l : forall st ms, Forall (fun s => good (bs_result s)) l -> dag_steps from1 to1 to_text hash st l = Ok ms -> Forall good_model ms.
Proof.
  induction l as [|s l IH]; intros st ms HF H; cbn [dag_steps] in H; [injection H as <-; constructor|]. apply Forall_cons in HF as [Hs HF].
  apply obind_ok in H as ([st' m] & E & H). apply obind_ok in H as (r & E' & H). injection H as <-. constructor; [by eapply good_dag_step|by eapply IH].
Qed.
Lemma fits_node n : (forall x, n = Some x -> id_text (nd_said x)) -> writes fits (t_node n).
Proof. destruct n as [n|]; intros H; cbn; [|apply writes_ret]. apply writes_bind; [apply writes_read|intros ?]. apply writes_write. by apply model_name, H. Qed.
Lemma fits_models l : Forall (fun s => good (bs_result s)) l -> writes fits (t_models from1 to1 to_text hash l).
Proof.
  intros HF. unfold t_models. apply writes_bind_read. intros ms H. apply good_dag in H; [|done]. clear HF. induction H as [|m ms (H1 & H2 & H3 & H4) _ IH]; cbn; [apply writes_ret|].
  apply writes_bind; [|auto]. unfold t_model. apply writes_bind; [apply writes_write; by apply model_name|intros _]. apply writes_bind; [by apply fits_node|intros _].
  apply writes_bind; [by apply fits_node|intros _]. apply writes_bind; [apply writes_read|intros v]. apply writes_write. by apply model_name.
Qed.
Lemma fits_build B steps : good B -> Forall (fun s => good (bs_result s)) steps -> writes fits (t_build from1 to1 listing to_text hash B steps).
Proof.
  intros G HF. unfold t_build. apply writes_bind; [apply fits_cache|intros _]. apply writes_bind; [apply fits_meta|intros _]. apply writes_bind; [by apply fits_steps|intros _].
  apply writes_bind; [by apply fits_relations|intros _]. apply writes_bind; [by apply fits_models|intros _; apply writes_ret].
Qed.
End Build.

Section File.
Variable digest : json -> string.
Variables from1 to1 : string -> option string.
Variable listing : string -> list oobject -> list oobject.
Variables said_ok digits lang_ok : string -> bool.
Variable standard_read : string -> option string.
Variable to_text : json -> string.
Variable of_text : string -> option json.
Variable hash : string -> string.
Hypothesis Hdigest : forall j, id_text (digest j).
Hypothesis Hhash : forall t, id_text (hash t).
Notation validate := (validate_ast digest from1 said_ok digits lang_ok standard_read of_text).
Notation build_file := (build_ast digest from1 to1 listing said_ok digits lang_ok standard_read to_text of_text hash).
Notation t_val := (t_validate digest from1 said_ok digits lang_ok standard_read of_text).
Notation t_file := (t_build_ast digest from1 to1 listing said_ok digits lang_ok standard_read to_text of_text hash).
Lemma good_generated o b B : generate_bundle digest o b = Some B -> good B.
Proof. intros G t r H. destruct (generated_hashed _ _ _ _ _ _ G H) as (j & _ & -> & _). apply Hdigest. Qed.
Lemma good_from_ast os from a B steps : from_ast digest from1 os from a = BuildOk B steps -> good B /\ Forall (fun s => good (bs_result s)) steps.
Proof.
  intros H. destruct (base_of_some _ _ _ _ _ _ H) as [st Hb]; [done|]. destruct (C13_step_chain _ _ _ _ _ _ _ _ Hb H) as (_ & Hs & b & _ & G).
  split; [by eapply good_generated|]. apply Forall_forall. intros s Hin. apply elem_of_list_lookup in Hin as [i Hi]. destruct (Hs i s Hi) as (_ & _ & b' & _ & G'). by eapply good_generated.
Qed.
Lemma fits_validate os a f g r : name_fits a -> validate os a f = Ok (g, r) -> Forall fits (t_val os a f).1.
Proof.
  intros Hn H. destruct r as [B steps]. destruct (validate_writes _ _ _ _ _ _ _ _ _ _ _ _ _ H) as [( -> & _)|(n & s & -> & _ & En & _)]; [constructor|]. constructor; [by apply Hn|constructor].
Qed.
Lemma fits_file os a f : name_fits a -> Forall fits (t_file os a f).1.
Proof.
  intros Hn. destruct (validate os a f) as [[f1 [B steps]]| |] eqn:E.
  2,3: rewrite validate_none by (by rewrite E); constructor.
  erewrite validate_some by exact E. apply Forall_app. split; [by eapply fits_validate|].
  destruct (validate_from _ _ _ _ _ _ _ _ _ _ _ _ _ E) as (from & a' & _ & Ha & _). apply good_from_ast in Ha as [G1 G2]. by apply fits_build.
Qed.
Notation written := (Spec_Disk.written digest from1 to1 listing said_ok digits lang_ok standard_read to_text of_text hash).
Lemma written_fits ws f : written ws f -> Forall fits ws /\ f = puts ws facade_new.
Proof.
  induction 1 as [|ws f os a g r H [IH ->] Hn E|ws f os a g B H [IH ->] Hn E|ws f os a i H [IH ->] Hn]; [done|..].
  - split; [apply Forall_app; split; [done|by eapply fits_validate]|]. rewrite puts_app. eapply sound_validate. rewrite runs_validate. exact E.
  - split; [apply Forall_app; split; [done|by apply fits_file]|]. rewrite puts_app. eapply sound_file. rewrite runs_file. exact E.
  - split; [apply Forall_app; split; [done|apply Forall_take; by apply fits_file]|]. by rewrite puts_app.
Qed.
End File.

(** ** The stores and the disk *)
Section Two.
Variable cwd : list string.
Lemma walk_there l t n k : l <> [] -> Forall file_name l -> usable l t -> file_name k -> t !! (ns_name n :: rev l) = Some None -> walk t (start cwd (path_of l)) (comps (path_of l)) = AtDir (rev l).
Proof.
  intros Hl Hn U Hk F. destruct (usable_insert cwd l Hl Hn t n k "" U Hk) as (t' & Ht & _). destruct (insert_spec _ _ _ _ _ _ _ Hk Ht) as (_ & t1 & b & Ha & _).
  rewrite (usable_at cwd l Hl Hn _ _ Ha) in Ha. eapply walk_back; [by apply d_plain|exact Ha|]. destruct U as [Us _ _ _]. destruct (Us _ _ _ F) as [E|E].
  - apply (f_equal (@List.length string)) in E. rewrite rev_length in E. by destruct l.
  - by apply sane_suffix.
Qed.
Lemma get_lookup l t n k : l <> [] -> Forall file_name l -> usable l t -> file_name k ->
  file_get cwd (Some (path_of l)) n k t = Ok (match t !! (k :: ns_name n :: rev l) with Some x => x | None => None end).
Proof.
  intros Hl Hn U Hk. rewrite get_spec by (try done; by apply path_nul). destruct U as [Us Uw Un Uk].
  assert (Hno : forall x, t !! (ns_name n :: rev l) = x -> x <> Some None -> t !! (k :: ns_name n :: rev l) = None).
  { intros x Hx Hx1. destruct (t !! (k :: ns_name n :: rev l)) as [y|] eqn:E; [|done]. destruct (Us _ _ _ E) as [F|F]; [done|]. congruence. }
  destruct (walk t (start cwd (path_of l)) (comps (path_of l))) as [b|p v|p| |] eqn:E.
  - rewrite (usable_at cwd l Hl Hn _ _ E). destruct (t !! (ns_name n :: rev l)) as [[v|]|] eqn:En; [|done|].
    + by rewrite (Hno _ eq_refl).
    + by rewrite (Hno _ eq_refl).
  - destruct (usable_insert cwd l Hl Hn t n k "" (Build_usable _ _ Us Uw Un Uk) Hk) as (t' & Ht & _). unfold file_insert, path_exists in Ht. rewrite locate_ns in Ht by (by apply path_nul). rewrite E in Ht. discriminate Ht.
  - assert (Hb : t !! (k :: ns_name n :: rev l) = None); [|by rewrite Hb]. destruct (t !! (k :: ns_name n :: rev l)) as [y|] eqn:Ey; [|done]. exfalso.
    destruct (Us _ _ _ Ey) as [F|F]; [done|]. assert (W : walk t (start cwd (path_of l)) (comps (path_of l)) = AtDir (rev l)) by (apply (walk_there l t n k); [done|done|by split|done|done]). congruence.
  - assert (Hb : t !! (k :: ns_name n :: rev l) = None); [|by rewrite Hb]. destruct (t !! (k :: ns_name n :: rev l)) as [y|] eqn:Ey; [|done]. exfalso.
    destruct (Us _ _ _ Ey) as [F|F]; [done|]. assert (W : walk t (start cwd (path_of l)) (comps (path_of l)) = AtDir (rev l)) by (apply (walk_there l t n k); [done|done|by split|done|done]). congruence.
  - destruct (usable_insert cwd l Hl Hn t n k "" (Build_usable _ _ Us Uw Un Uk) Hk) as (t' & Ht & _). unfold file_insert, path_exists in Ht. rewrite locate_ns in Ht by (by apply path_nul). rewrite E in Ht. discriminate Ht.
Qed.
Lemma insert_lookup l n k v t : l <> [] -> Forall file_name l -> usable l t -> file_name k -> exists t', file_insert cwd (Some (path_of l)) n k v t = Ok t' /\ usable l t' /\
  t' !! (k :: ns_name n :: rev l) = Some (Some v) /\
  forall q, q <> k :: ns_name n :: rev l -> t' !! q = t !! q \/ (t !! q = None /\ t' !! q = Some None /\ q `suffix_of` ns_name n :: rev l).
Proof.
  intros Hl Hn U Hk. destruct (usable_insert cwd l Hl Hn t n k v U Hk) as (t' & H & U'). exists t'. split; [done|]. split; [done|].
  destruct (insert_changes cwd _ (d_plain l Hl Hn) _ _ _ _ _ Hk H) as (b & Hb & C).
  rewrite (usable_at cwd l Hl Hn _ _ Hb) in C. split.
  - destruct (insert_spec _ _ _ _ _ _ _ Hk H) as (Hd & t1 & b1 & Ha & Hn1 & Hf & -> & _). rewrite (usable_at cwd l Hl Hn _ _ Ha). apply lookup_insert.
  - intros q Hq. destruct (C q) as [E|[E|E]]; [by left|done|by right].
Qed.
Lemma below {A} (p q x : list A) : (x ++ p) `suffix_of` q -> p `suffix_of` q.
Proof. intros [y ->]. exists (y ++ x). by rewrite app_assoc. Qed.
Lemma insert_apart l1 l2 n k v t : l1 <> [] -> Forall file_name l1 -> ~ rev l1 `suffix_of` rev l2 -> ~ rev l2 `suffix_of` rev l1 -> usable l1 t -> usable l2 t -> file_name k ->
  exists t', file_insert cwd (Some (path_of l1)) n k v t = Ok t' /\ usable l1 t' /\ usable l2 t' /\
  t' !! (k :: ns_name n :: rev l1) = Some (Some v) /\
  (forall n' k', (n', k') <> (n, k) -> t' !! (k' :: ns_name n' :: rev l1) = t !! (k' :: ns_name n' :: rev l1)) /\
  (forall n' k', t' !! (k' :: ns_name n' :: rev l2) = t !! (k' :: ns_name n' :: rev l2)).
Proof.
  intros Hl Hn A1 A2 U1 U2 Hk. destruct (insert_lookup l1 n k v t Hl Hn U1 Hk) as (t' & E & U1' & Hv & C). exists t'. split; [done|]. split; [done|].
  assert (D : forall n' k', t' !! (k' :: ns_name n' :: rev l2) = t !! (k' :: ns_name n' :: rev l2)).
  { intros n' k'. destruct (C (k' :: ns_name n' :: rev l2)) as [F|(_ & _ & F)].
    - intros F. injection F as _ _ F. apply A1. by rewrite F.
    - done.
    - exfalso. apply suffix_cons_inv in F as [F|F]; [injection F as _ F; apply A2; rewrite <- F; by exists [ns_name n']|]. apply A2. by apply (below _ _ [k'; ns_name n']). }
  split; [|split; [done|split; [|done]]].
  - destruct U2 as [Us Uw Un Uk]. split; [by destruct U1'|..].
    + intros p x Hp Hx. destruct (decide (p = k :: ns_name n :: rev l1)) as [ -> |N]; [exfalso; apply A1; by apply (below _ _ [k; ns_name n])|].
      destruct (C p N) as [F|(_ & F & _)]; [rewrite F in Hx; by eapply Uw|congruence].
    + intros m x Hx. destruct (decide (ns_name m :: rev l2 = k :: ns_name n :: rev l1)) as [F|N]; [injection F as _ F; exfalso; apply A1; rewrite F; by exists [ns_name n]|].
      destruct (C _ N) as [F|(_ & F & _)]; [rewrite F in Hx; by eapply Un|congruence].
    + intros m k'. rewrite D. apply Uk.
  - intros n' k' N. destruct (C (k' :: ns_name n' :: rev l1)) as [F|(_ & _ & F)]; [|done|].
    + intros F. injection F as F1 F2. apply N. by rewrite F1, (Files_proofs.ns_inj _ _ F2).
    + exfalso. apply suffix_length in F. cbn in F. lia.
Qed.
Notation shown t l m := (forall n k, file_name k -> file_get cwd (Some (path_of l)) n k t = mem_get n k m).
Lemma shown_insert l n k v t t' m : l <> [] -> Forall file_name l -> usable l t -> usable l t' -> shown t l m -> t' !! (k :: ns_name n :: rev l) = Some (Some v) ->
  (forall n' k', (n', k') <> (n, k) -> t' !! (k' :: ns_name n' :: rev l) = t !! (k' :: ns_name n' :: rev l)) -> shown t' l (ins2 n k v m).
Proof.
  intros Hl Hn U U' S Hv Ho n' k' Hk. rewrite get_lookup by done. rewrite mem_get2, get2_ins2. case_bool_decide as E.
  - destruct E as [<- <-]. by rewrite Hv.
  - rewrite Ho; [|intros F; apply E; by injection F as -> ->]. rewrite <- (mem_get2 n' k' m), <- S by done. by rewrite get_lookup.
Qed.
Lemma shown_same l t t' m : l <> [] -> Forall file_name l -> usable l t -> usable l t' -> shown t l m ->
  (forall n' k', t' !! (k' :: ns_name n' :: rev l) = t !! (k' :: ns_name n' :: rev l)) -> shown t' l m.
Proof. intros Hl Hn U U' S Ho n' k' Hk. rewrite get_lookup by done. rewrite Ho. rewrite <- S by done. by rewrite get_lookup. Qed.
Lemma on_disk_snoc d1 d2 ws w t : on_disk cwd d1 d2 (ws ++ [w]) t = let! t1 := on_disk cwd d1 d2 ws t in insert_on_disk cwd d1 d2 w t1.
Proof. unfold on_disk. rewrite fold_left_app. done. Qed.
Lemma on_disk_all l1 l2 t : fresh_dir t l1 -> fresh_dir t l2 -> sane_disk t -> ~ rev l1 `suffix_of` rev l2 -> ~ rev l2 `suffix_of` rev l1 -> forall ws, Forall fits ws ->
  exists t', on_disk cwd (path_of l1) (path_of l2) ws t = Ok t' /\ usable l1 t' /\ usable l2 t' /\ shown t' l1 (fa_db (puts ws facade_new)) /\ shown t' l2 (fa_cache (puts ws facade_new)).
Proof.
  intros F1 F2 Hs A1 A2. pose proof (fd_some _ _ F1) as L1. pose proof (fd_some _ _ F2) as L2. pose proof (fd_names _ _ F1) as N1. pose proof (fd_names _ _ F2) as N2.
  induction ws as [|w ws IH] using rev_ind; intros H.
  - exists t. pose proof (fresh_usable l1 t Hs F1) as U1. pose proof (fresh_usable l2 t Hs F2) as U2. split; [done|]. split; [done|]. split; [done|]. split; intros n k Hk; rewrite get_lookup by done.
    + pose proof (fd_empty _ _ F1 (ns_name n) [k]) as G. cbn [app] in G. by rewrite G.
    + pose proof (fd_empty _ _ F2 (ns_name n) [k]) as G. cbn [app] in G. by rewrite G.
  - apply Forall_app in H as [H Hw]. pose proof (Forall_inv Hw) as Hw1. clear Hw. destruct (IH H) as (t1 & E1 & U1 & U2 & S1 & S2). clear IH. rewrite on_disk_snoc, E1. cbn [obind]. rewrite puts_app. cbn [puts fold_left].
    set (f := puts ws facade_new) in *. destruct w as [n k v|n k v|k v|k v|r]; cbn [insert_on_disk fits] in *.
    + destruct (insert_apart l1 l2 n k v t1) as (t2 & E2 & V1 & V2 & Hv & Ho & Hp); try done. exists t2. rewrite put_db. cbn [fa_db fa_cache with_db]. split; [done|]. split; [done|]. split; [done|]. split.
      * by apply (shown_insert l1 n k v t1 t2 (fa_db f)).
      * by apply (shown_same l2 t1 t2 (fa_cache f)).
    + destruct (insert_apart l2 l1 n k v t1) as (t2 & E2 & V1 & V2 & Hv & Ho & Hp); try done. exists t2. rewrite put_cache. cbn [fa_db fa_cache with_cache]. split; [done|]. split; [done|]. split; [done|]. split.
      * by apply (shown_same l1 t1 t2 (fa_db f)).
      * by apply (shown_insert l2 n k v t1 t2 (fa_cache f)).
    + by exists t1.
    + by exists t1.
    + by exists t1.
Qed.
End Two.

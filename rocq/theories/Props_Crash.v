(** C44: the facade's stores when the process stops during a build, and when the build is run again. *)
From Verif Require Import Base Condition_proofs Spec_Bundle Spec_Build Spec_Refs Spec_Crash Props_Storage Props_Relations Codec_proofs Props_Codec BundleCodec_proofs
  Props_BundleCodec Props_Bundle Props_Build Props_Dag Inj_digest Facade_proofs Props_Facade History_proofs Props_History Props_Refs Crash_proofs Crash_redo Crash_again.

(** ** The traced build is the build *)
Theorem C44_writes_are_the_build : forall from1 to1 listing to_text hash B steps f,
  (t_build from1 to1 listing to_text hash B steps f).2 = build from1 to1 listing to_text hash B steps f /\
  (forall g B', build from1 to1 listing to_text hash B steps f = Ok (g, B') -> g = puts (t_build from1 to1 listing to_text hash B steps f).1 f).
Proof.
  intros. split; [apply runs_build|]. intros g B' H. rewrite <- runs_build in H. by apply sound_build in H.
Qed.
Print Assumptions C44_writes_are_the_build.

Section File.
Variable digest : json -> string.
Variables from1 to1 : string -> option string.
Variable listing : string -> list oobject -> list oobject.
Variables said_ok digits lang_ok : string -> bool.
Variable standard_read : string -> option string.
Variable to_text : json -> string.
Variable of_text : string -> option json.
Variable hash : string -> string.
Notation t_val := (t_validate digest from1 said_ok digits lang_ok standard_read of_text).
Notation val := (validate_ast digest from1 said_ok digits lang_ok standard_read of_text).
Notation t_file := (t_build_ast digest from1 to1 listing said_ok digits lang_ok standard_read to_text of_text hash).
Notation file := (build_ast digest from1 to1 listing said_ok digits lang_ok standard_read to_text of_text hash).
Notation run := (t_build from1 to1 listing to_text hash).
Lemma runs_validate os a f : (t_val os a f).2 = val os a f.
Proof.
  unfold t_validate, validate_ast. rewrite tb2, trd2. destruct (check_base _ _ _ _ _ _ a) as [x| |]; [|done..]. cbn [obind fst snd].
  rewrite tb2, trd2. destruct (resolve _ _ _) as [cs| |]; [|done..]. cbn [obind fst snd].
  destruct (from_ast _ _ _ _ _) as [B steps|es|]; [|done..]. destruct (ast_meta x.2 !! "name") as [n|]; [|done].
  rewrite tb2, trd2. destruct (b_said B); [|done]. cbn [unwrap_some obind fst snd]. rewrite tb2. cbn [twrite snd obind fst].
  by rewrite put_db, mem_ins2.
Qed.
Lemma sound_validate os a : sound (t_val os a).
Proof.
  unfold t_validate. apply sound_bind; [apply sound_read|intros x]. apply sound_bind; [apply sound_read|intros cs].
  destruct (from_ast _ _ _ _ _); [|apply sound_read..]. destruct (ast_meta x.2 !! "name"); auto with sound.
Qed.
Lemma runs_file os a f : (t_file os a f).2 = file os a f.
Proof.
  unfold t_build_ast, build_ast. rewrite tb2, runs_validate. destruct (val os a f) as [[f1 [B steps]]| |]; [|done..]. cbn [obind fst snd]. apply runs_build.
Qed.
Lemma sound_file os a : sound (t_file os a).
Proof. unfold t_build_ast. apply sound_bind; [apply sound_validate|intros x; apply sound_build]. Qed.
(** The writes of validation: at most the registration of the name. *)
Lemma validate_writes os a f f1 B steps : val os a f = Ok (f1, (B, steps)) ->
  ((t_val os a f).1 = [] /\ f1 = f /\ ast_meta a !! "name" = None) \/
  exists n s, (t_val os a f).1 = [WDb NsReferences n s] /\ f1 = put (WDb NsReferences n s) f /\ ast_meta a !! "name" = Some n /\ b_said B = Some s.
Proof.
  intros H. assert (Em : forall x, check_base said_ok digits lang_ok standard_read of_text (fa_cache f) a = Ok x -> ast_meta x.2 = ast_meta a).
  { intros x. unfold check_base. destruct (ast_commands a) as [|[[] [| [[s|n]] |]] r]; intros Hx; try (injection Hx as <-; done); [|discriminate].
    destruct (get_bundle _ _ _ _ _ _ s); [injection Hx as <-; done..|discriminate]. }
  unfold validate_ast in H. unfold t_validate. rewrite tb1. cbn [tread fst app]. rewrite trd2.
  destruct (check_base _ _ _ _ _ _ a) as [x| |] eqn:Ex; try discriminate. cbn [obind fst snd] in H |- *. specialize (Em x eq_refl).
  rewrite tb1. cbn [tread fst app]. rewrite trd2. destruct (resolve _ _ _) as [cs| |]; try discriminate. cbn [obind fst snd] in H |- *.
  destruct (from_ast _ _ _ _ _) as [B' st|es|]; try discriminate. rewrite <- Em.
  destruct (ast_meta x.2 !! "name") as [n|]; [|injection H as <- <- <-; by left]. right.
  destruct (b_said B') as [s|] eqn:Es; [|discriminate]. cbn [unwrap_some obind] in H. rewrite mem_ins2 in H. cbn [obind] in H. injection H as <- <- <-.
  exists n, s. split; [|split; [by rewrite put_db|done]]. rewrite tb1. cbn [tread fst app]. rewrite trd2. cbn. done.
Qed.
Lemma validate_none os a f : is_ok (val os a f) = false -> (t_file os a f).1 = [].
Proof.
  intros H. unfold t_build_ast. rewrite tb1, runs_validate. assert (E : (t_val os a f).1 = []).
  { unfold validate_ast in H. unfold t_validate. rewrite tb1. cbn [tread fst app]. rewrite trd2.
    destruct (check_base _ _ _ _ _ _ a) as [x| |]; [|done..]. cbn [obind fst snd] in H |- *. rewrite tb1. cbn [tread fst app]. rewrite trd2.
    destruct (resolve _ _ _) as [cs| |]; [|done..]. cbn [obind fst snd] in H |- *. destruct (from_ast _ _ _ _ _) as [B' st|es|]; [|done..].
    destruct (ast_meta x.2 !! "name") as [n|]; [|done]. destruct (b_said B') as [s|]; [|done]. cbn [unwrap_some obind] in H. rewrite mem_ins2 in H. done. }
  rewrite E. destruct (val os a f); [done|done|done].
Qed.
Lemma validate_some os a f f1 B steps : val os a f = Ok (f1, (B, steps)) -> (t_file os a f).1 = (t_val os a f).1 ++ (run B steps f1).1.
Proof. intros H. unfold t_build_ast. rewrite tb1, runs_validate, H. done. Qed.
Lemma stopped_file os a f g : stopped (t_file os a) f g ->
  g = f \/ exists f1 B steps, val os a f = Ok (f1, (B, steps)) /\ stopped (run B steps) f1 g.
Proof.
  intros [n ->]. destruct (val os a f) as [[f1 [B steps]]| |] eqn:E.
  2,3: left; rewrite validate_none by (by rewrite E); by rewrite take_nil.
  rewrite (validate_some _ _ _ _ _ _ E). destruct (validate_writes _ _ _ _ _ _ E) as [(Ew & -> & _)|(m & s & Ew & Ef & _)]; rewrite Ew.
  - right. exists f, B, steps. split; [done|]. by exists n.
  - destruct n as [|n]; [by left|]. right. exists f1, B, steps. split; [done|]. exists n. cbn. by rewrite Ef.
Qed.
End File.
Theorem C44_writes_are_the_file_build : forall digest from1 to1 listing said_ok digits lang_ok standard_read to_text of_text hash os a f,
  let t := t_build_ast digest from1 to1 listing said_ok digits lang_ok standard_read to_text of_text hash os a in
  let b := build_ast digest from1 to1 listing said_ok digits lang_ok standard_read to_text of_text hash os a in
  (t f).2 = b f /\ (forall g B', b f = Ok (g, B') -> g = puts (t f).1 f).
Proof. intros. split; [apply runs_file|]. intros g B' H. subst b. rewrite <- runs_file in H. by apply sound_file in H. Qed.
Print Assumptions C44_writes_are_the_file_build.

(** ** What is kept *)
Section Keep.
Variables from1 to1 : string -> option string.
Variable listing : string -> list oobject -> list oobject.
Variable to_text : json -> string.
Variable hash : string -> string.
Variable B : bundle.
Variable steps : list bstep.
Notation run := (t_build from1 to1 listing to_text hash B steps).
Definition kept_write (w : write) : Prop :=
  match w with
  | WDb NsOCA key v => exists s k, s ∈ steps /\ b_said (bs_result s) = Some k /\ key = op_key k
  | WDb NsReferences _ _ => False
  | WCache NsBundles k v => exists s, s ∈ steps /\ b_said (bs_result s) = Some k /\ v = to_text (bundle_json (bs_result s))
  | _ => True
  end.
Lemma kept_build : writes kept_write run.
Proof.
  unfold t_build. apply writes_bind.
  { unfold t_cache. repeat (apply writes_bind; [first [apply writes_read|by apply writes_write]|intros ?]). by apply writes_write. }
  intros _. apply writes_bind.
  { unfold t_meta. destruct (omap _ _) as [|r l]; [apply writes_ret|]. apply writes_bind; [apply writes_read|intros _]. generalize (r :: l). clear.
    induction l as [|r l IH]; [apply writes_ret|]. cbn. apply writes_bind; [by apply writes_write|auto]. }
  intros _. apply writes_bind.
  { assert (G : forall l, (forall s, s ∈ l -> s ∈ steps) -> writes kept_write (t_steps to_text l)); [|by apply G].
    induction l as [|s l IH]; intros Hl; cbn; [apply writes_ret|]. apply writes_bind; [|intros _; apply IH; intros x Hx; apply Hl; by right]. unfold t_step.
    apply writes_bind; [apply writes_read|intros inp]. apply writes_bind_read. intros k Hk. apply unwrap_ok in Hk.
    apply writes_bind; [apply writes_write; exists s, k; split; [apply Hl; left|done]|intros _].
    apply writes_bind; [apply writes_write; exists s; split; [apply Hl; left|done]|intros _].
    apply writes_bind; [apply writes_read|intros c]. apply writes_bind; [by apply writes_write|intros _].
    clear. induction (b_ovs (bs_result s)) as [|ov l IH]; cbn; [apply writes_ret|]. apply writes_bind; [apply writes_read|intros ?].
    apply writes_bind; [by apply writes_write|auto]. }
  intros _. apply writes_bind.
  { eapply writes_imp; [|apply (relations_relations listing B)]. intros [[] k v|[] k v|k v|k v|r]; cbn; done. }
  intros _. apply writes_bind; [|intros _; apply writes_ret].
  unfold t_models. apply writes_bind; [apply writes_read|]. intros ms. induction ms as [|m ms IH]; cbn; [apply writes_ret|]. apply writes_bind; [|auto]. unfold t_model.
  assert (N : forall n, writes kept_write (t_node n)) by (intros [n|]; cbn; [apply writes_bind; [apply writes_read|intros ?; by apply writes_write]|apply writes_ret]).
  apply writes_bind; [by apply writes_write|intros _]. apply writes_bind; [apply N|intros _]. apply writes_bind; [apply N|intros _].
  apply writes_bind; [apply writes_read|intros ?]. by apply writes_write.
Qed.
Lemma kept_puts ws : Forall kept_write ws -> forall f,
  (forall k, entry (fa_cache (puts ws f)) NsBundles k = entry (fa_cache f) NsBundles k \/
     exists s, s ∈ steps /\ b_said (bs_result s) = Some k /\ entry (fa_cache (puts ws f)) NsBundles k = Some (to_text (bundle_json (bs_result s)))) /\
  (forall k, (forall s, s ∈ steps -> b_said (bs_result s) <> Some k) ->
     entry (fa_db (puts ws f)) NsOCA (op_key k) = entry (fa_db f) NsOCA (op_key k) /\ entry (fa_cache (puts ws f)) NsBundles k = entry (fa_cache f) NsBundles k) /\
  (forall k, entry (fa_db (puts ws f)) NsReferences k = entry (fa_db f) NsReferences k).
Proof.
  induction 1 as [|w ws Hw _ IH]; intros f; [split; [by left|done]|]. cbn [puts fold_left]. destruct (IH (put w f)) as (I1 & I2 & I3). fold (puts ws (put w f)).
  assert (P1 : forall k, entry (fa_cache (put w f)) NsBundles k = entry (fa_cache f) NsBundles k \/
     exists s, s ∈ steps /\ b_said (bs_result s) = Some k /\ entry (fa_cache (put w f)) NsBundles k = Some (to_text (bundle_json (bs_result s)))).
  { intros k. destruct w as [n k' v|n k' v|k' v|k' v|r]; try by left; rewrite ?put_db. rewrite put_cache. cbn [fa_cache with_cache]. rewrite entry_ins.
    case_bool_decide as E; [|by left]. destruct E as [-> ->]. destruct Hw as (s & Hs & Hk & ->). right. by exists s. }
  assert (P2 : forall k, (forall s, s ∈ steps -> b_said (bs_result s) <> Some k) ->
     entry (fa_db (put w f)) NsOCA (op_key k) = entry (fa_db f) NsOCA (op_key k) /\ entry (fa_cache (put w f)) NsBundles k = entry (fa_cache f) NsBundles k).
  { intros k Hn. split; [|destruct (P1 k) as [E|(s & Hs & Hk & _)]; [done|by destruct (Hn s Hs)]].
    destruct w as [n k' v|n k' v|k' v|k' v|r]; rewrite ?put_db, ?put_cache; try done. cbn [fa_db with_db]. rewrite entry_ins.
    case_bool_decide as E; [|done]. destruct E as [-> ->]. destruct Hw as (s & k2 & Hs & Hk & E). apply op_key_inj in E as <-. by destruct (Hn s Hs). }
  assert (P3 : forall k, entry (fa_db (put w f)) NsReferences k = entry (fa_db f) NsReferences k).
  { intros k. destruct w as [n k' v|n k' v|k' v|k' v|r]; rewrite ?put_db, ?put_cache; try done. cbn [fa_db with_db]. rewrite entry_ins.
    case_bool_decide as E; [|done]. destruct E as [-> ->]. destruct Hw. }
  split; [|split].
  - intros k. destruct (I1 k) as [E|H]; [rewrite E; apply P1|by right].
  - intros k Hn. destruct (I2 k Hn) as [-> ->]. by apply P2.
  - intros k. by rewrite I3.
Qed.
Lemma kept_retried f g : retried from1 to1 listing to_text hash B steps f g ->
  (forall k, entry (fa_cache g) NsBundles k = entry (fa_cache f) NsBundles k \/
     exists s, s ∈ steps /\ b_said (bs_result s) = Some k /\ entry (fa_cache g) NsBundles k = Some (to_text (bundle_json (bs_result s)))) /\
  (forall k, (forall s, s ∈ steps -> b_said (bs_result s) <> Some k) ->
     entry (fa_db g) NsOCA (op_key k) = entry (fa_db f) NsOCA (op_key k) /\ entry (fa_cache g) NsBundles k = entry (fa_cache f) NsBundles k) /\
  (forall k, entry (fa_db g) NsReferences k = entry (fa_db f) NsReferences k).
Proof.
  intros H. induction H as [|g g' H (I1 & I2 & I3) [n ->]]; [split; [by left|done]|].
  destruct (kept_puts (take n (run g).1) ltac:(apply Forall_take, kept_build) g) as (K1 & K2 & K3). split; [|split].
  - intros k. destruct (K1 k) as [->|H']; [apply I1|by right].
  - intros k Hn. destruct (K2 k Hn) as [-> ->]. by apply I2.
  - intros k. by rewrite K3.
Qed.
End Keep.

(** Wherever the build stops, and however often it is tried and stopped: every SAID fetches what it fetched before the build, or
    the complete bundle of a step of the build with that SAID. *)
Theorem C44_stop_keeps_bundles : forall from1 to1 listing said_ok digits lang_ok standard_read to_text of_text hash B steps f g,
  text_ok to_text of_text -> digits_class digits ->
  (forall s, s ∈ steps -> bundle_readable said_ok digits lang_ok (bs_result s) /\ groups_sorted (bs_result s) /\ shallow (bundle_json (bs_result s))) ->
  retried from1 to1 listing to_text hash B steps f g ->
  let fetch := get_bundle said_ok digits lang_ok standard_read of_text in
  forall k, fetch (fa_cache g) k = fetch (fa_cache f) k \/
    exists s Bk, s ∈ steps /\ b_said (bs_result s) = Some k /\ fetch (fa_cache g) k = Ok Bk /\ bundle_json Bk = bundle_json (bs_result s) /\ b_said Bk = Some k.
Proof.
  intros f1 t1 ls so dg lo sr tt ot hs B steps f g Ht Hd Hs Hr fetch k. destruct (kept_retried _ _ _ _ _ _ _ _ _ Hr) as (K1 & _ & _).
  destruct (K1 k) as [E|(s & Hin & Hk & E)]; [left; subst fetch; rewrite !fetch_entry; by rewrite E|right].
  destruct (Hs s Hin) as (Hr' & Hg & Hx). destruct (fetch_written so dg lo sr tt ot Ht Hd _ _ _ Hr' Hg Hx E) as (Bk & F & J & S & _).
  exists s, Bk. rewrite Hk in S. done.
Qed.
Print Assumptions C44_stop_keeps_bundles.
(** ... and the history of a bundle that no step of the build replaces stays as it was. *)
Theorem C44_stop_keeps_histories : forall from1 to1 listing said_ok digits lang_ok standard_read to_text of_text hash B steps f g,
  consistent said_ok digits lang_ok standard_read of_text (fa_cache f) ->
  retried from1 to1 listing to_text hash B steps f g ->
  forall n k L, get_steps said_ok digits lang_ok standard_read of_text n f k = Some (Ok L) ->
  (forall s s', s ∈ L -> s' ∈ steps -> b_said (bs_result s) <> b_said (bs_result s')) ->
  get_steps said_ok digits lang_ok standard_read of_text n g k = Some (Ok L).
Proof.
  intros f1 t1 ls so dg lo sr tt ot hs B steps f g Hc Hr n k L H Hn. destruct (kept_retried _ _ _ _ _ _ _ _ _ Hr) as (_ & K2 & _).
  unfold get_steps in *. destruct (steps_loop _ _ _ _ _ n f k) as [[l|e|]|] eqn:E; try discriminate. injection H as <-.
  rewrite (loop_frame _ _ _ _ _ n f g Hc k l E); [done|]. intros k' Hk'. apply K2. intros s Hs Ek.
  apply elem_of_list_In, in_map_iff in Hk' as (s' & Es & Hin). apply (Hn s' s); [|done|congruence].
  apply elem_of_list_In, in_rev. rewrite rev_involutive. done.
Qed.
Print Assumptions C44_stop_keeps_histories.

(** ** Running the build again *)
Theorem C44_redo : forall from1 to1 listing to_text hash Bs B steps f g h,
  listing_ok listing -> Forall saids_present (Bs ++ [B]) -> saids_sane (Bs ++ [B]) -> relations_of listing Bs f ->
  retried from1 to1 listing to_text hash B steps f g ->
  build from1 to1 listing to_text hash B steps f = Ok (h, B) ->
  exists h', build from1 to1 listing to_text hash B steps g = Ok (h', B) /\ same_but_relations h' h /\
    forall k, (forall B' t r, B' ∈ Bs ++ [B] -> has_role B' t r -> k <> (t +:+ ".metadata")%string) ->
      same_explored (explore (fa_db h') k) (explore (fa_db h) k).
Proof.
  intros from1 to1 listing to_text hash Bs B steps f g h Hl Hp Hsane (d & Ed & Hd) Hr Hb.
  set (Cs := Bs ++ [B]) in *. set (kind := kind_in Cs). pose (S := fun s => exists B r, B ∈ Cs /\ has_role B s r).
  pose proof Hsane as (Hone & Hlen & Hmeta).
  assert (HK : forall B, B ∈ Cs -> kinds_match kind B) by (intros B' HB s r Hsr; by apply (kind_in_role Cs B')).
  assert (SF : forall s, S s -> fine kind s).
  { intros s (B' & r & HB & Hsr). split; [|by eapply Hlen]. rewrite (HK B' HB s r Hsr). apply shown_byte. }
  assert (SM : forall s s', S s -> S s' -> s <> meta_key s') by (intros s s' (B1 & r & HB & Hsr) (B2 & r' & HB' & Hr'); exact (Hmeta _ _ _ _ _ _ HB HB' Hsr Hr')).
  assert (HB : B ∈ Cs) by (apply elem_of_app; right; left).
  destruct (history_rows listing Cs Bs Hl Hp Hsane) as (d' & E' & R & K & O); [apply Forall_forall; intros B' HB'; apply elem_of_app; by left|].
  unfold history in E'. rewrite Ed in E'. injection E' as <-. fold kind in R, K.
  set (D := fun s => exists B, B ∈ Bs /\ in_bundle B s) in *. set (P0 := fun s t => exists B, B ∈ Bs /\ linked B s t) in *.
  assert (H0 : forall s, S s -> row kind (fa_db f) s (D s) (P0 s)) by (intros s Hs; apply (row_same _ d); [apply Hd|by apply R]).
  assert (PS : forall s t, P0 s t -> S t).
  { intros s t (B' & HB' & Hlk). exists B'. assert (exists r, has_role B' t r) as [r Hr'] by (destruct Hlk; by eexists).
    exists r. split; [apply elem_of_app; by left|done]. }
  assert (BP : saids_present B) by exact (proj1 (Forall_forall _ _) Hp _ HB).
  assert (BI : forall s, in_bundle B s -> S s) by (intros s [r Hs]; by exists B, r).
  assert (BO : forall s r r', has_role B s r -> has_role B s r' -> r = r') by (intros s r r'; exact (Hone B B s r r' HB HB)).
  set (M := mid kind S B (fa_db f) D P0). set (F := finished kind S B (fa_db f) D P0).
  assert (M0 : M (fa_db f)) by by apply mid_start.
  assert (Hok : is_ok (t_build from1 to1 listing to_text hash B steps f).2 = true) by (rewrite runs_build, Hb; done).
  destruct (retried_done from1 to1 listing to_text hash B steps M F) with (f0 := f) (g := g) as (h1 & h' & X1 & X2 & X3 & F1 & F2); [..|done|done|].
  - intros d1 d2 E. by apply mid_agree.
  - intros d1 d2 E. by apply finished_agree.
  - by apply (keeps_relations listing Hl kind S SF SM B BP (HK B HB) BI (fa_db f) D P0).
  - intros d1 Hm. apply (mid_finish listing Hl kind S SF SM B BP (HK B HB) BI BO (fa_db f) D P0 PS d1 Hm).
  - done.
  - rewrite runs_build in X1, X2. rewrite Hb in X1. injection X1 as <-. exists h'. split; [done|]. split; [done|].
    intros k Hk. assert (Kn : forall s x, F x -> S s -> D s \/ in_bundle B s -> known kind x s).
    { intros s x (_ & FK & _) Ss [(B' & HB' & Hi)|Hi]; apply FK; [right|by left]. split; [done|]. unfold known. rewrite Hd. by apply (K B'). }
    destruct F1 as (R1 & K1 & O1), F2 as (R2 & K2 & O2). unfold explore. rewrite !mem_get2.
    destruct (imap_get k (concat (map members Cs))) as [r|] eqn:Eg.
    + assert (Ss : S k).
      { apply Upd_proofs.imap_get_elem in Eg. apply elem_of_list_In, in_concat in Eg as (m & Hm & Eg).
        apply in_map_iff in Hm as (B' & <- & HB'). exists B', r. split; [by apply elem_of_list_In|]. by apply members_role, elem_of_list_In. }
      destruct (R1 k Ss) as [(D1 & v & l & Hg & Hv & Hn & Hx)|(D1 & _ & Hg)]; destruct (R2 k Ss) as [(D2 & v' & l' & Hg' & Hv' & Hn' & Hx')|(D2 & _ & Hg')];
        try (exfalso; tauto); rewrite Hg, Hg'; [|done].
      rewrite Hv, Hv'. cbn [obind]. rewrite !(known_type kind _ k) by (by apply SF || by apply Kn). cbn. split; [done|].
      apply NoDup_Permutation; [done|done|]. intros x. rewrite Hx, Hx'. done.
    + assert (Ns : ~ S k).
      { intros (B' & r & HB' & Hsr). pose proof (proj1 (Upd_proofs.imap_get_none _ _) Eg) as N. apply N. apply elem_of_list_In, in_map_iff. exists (k, r). split; [done|].
        apply in_concat. exists (members B'). split; [apply in_map, elem_of_list_In, HB'|]. apply elem_of_list_In. by apply members_role. }
      assert (Nm : forall s, S s -> k <> meta_key s) by (intros s (B' & r & HB' & Hsr); by apply (Hk B' s r)).
      rewrite (O1 k Ns Nm), (O2 k Ns Nm). assert (En : get2 (fa_db f) NsRelations k = None) by (rewrite <- entry_get2, Hd; exact (O k Ns Nm)). by rewrite En.
Qed.
Print Assumptions C44_redo.

(** ** Running an OCAfile again *)
Lemma resolve_agree said_ok find find' cs : (forall c n, c ∈ cs -> mentions c n -> find n = find' n) -> resolve said_ok find cs = resolve said_ok find' cs.
Proof.
  intros H. induction cs as [|c cs IH]; [done|]. cbn [resolve]. rewrite IH by (intros c' n Hc; apply H; by right). clear IH.
  assert (E : resolve_cmd said_ok find c = resolve_cmd said_ok find' c); [|by rewrite E]. specialize (H c).
  assert (HN : forall n, mentions c n -> resolve_name said_ok find n = resolve_name said_ok find' n) by (intros n Hn; unfold resolve_name; rewrite (H n); [done|left|done]).
  clear H. destruct c as [k ob]. destruct k; try done. destruct ob as [[[l|] p fl]|b|[kd v] [a [p|]]]; try done.
  - cbn [resolve_cmd]. assert (E : resolve_attrs said_ok find l = resolve_attrs said_ok find' l); [|by rewrite E].
    assert (HN' : forall x t n, (x, t) ∈ l -> named_type t n -> resolve_name said_ok find n = resolve_name said_ok find' n).
    { intros x t n Hin Ht. apply HN. left. exists l, x, t. split; [by exists p, fl|done]. }
    clear HN. induction l as [|[x t] l IH]; [done|]. cbn [resolve_attrs]. rewrite IH by (intros y u n Hin; apply (HN' y); by right). clear IH.
    assert (E : resolve_attr said_ok find t = resolve_attr said_ok find' t); [|by rewrite E].
    assert (HN : forall n, named_type t n -> resolve_name said_ok find n = resolve_name said_ok find' n) by (intros n; apply (HN' x); left).
    destruct t as [[s|n]|u|[[s|n]|u|u|]|]; try done; cbn [resolve_attr]; (rewrite (HN n); [done|]); by (left + right).
  - destruct (decide (kd = KLink)) as [->|N]; [|by destruct kd]. cbn [resolve_cmd]. destruct (imap_get "target" p) as [w|] eqn:E; [|done].
    destruct w as [[s|n]|w|w|w]; try done. rewrite (HN n); [done|]. right. apply Props_Refs.get_split in E as (pre & post & E & Hp).
    exists p, pre, post. split; [by exists v, a|done].
Qed.
Section FileRedo.
Variable digest : json -> string.
Variables from1 to1 : string -> option string.
Variable listing : string -> list oobject -> list oobject.
Variables said_ok digits lang_ok : string -> bool.
Variable standard_read : string -> option string.
Variable to_text : json -> string.
Variable of_text : string -> option json.
Variable hash : string -> string.
Notation val := (validate_ast digest from1 said_ok digits lang_ok standard_read of_text).
Notation t_file := (t_build_ast digest from1 to1 listing said_ok digits lang_ok standard_read to_text of_text hash).
Notation file := (build_ast digest from1 to1 listing said_ok digits lang_ok standard_read to_text of_text hash).
Notation run := (t_build from1 to1 listing to_text hash).
Notation fetch := (get_bundle said_ok digits lang_ok standard_read of_text).
Variable os : nat -> order.
Variable a : ast.
Hypothesis Hself : forall n c, ast_meta a !! "name" = Some n -> c ∈ ast_commands a -> ~ mentions c n.
Lemma validate_agree f f1 B steps g : val os a f = Ok (f1, (B, steps)) ->
  (forall k, from_said a = Some k -> fetch (fa_cache g) k = fetch (fa_cache f) k) ->
  (forall n, ast_meta a !! "name" <> Some n -> entry (fa_db g) NsReferences n = entry (fa_db f) NsReferences n) ->
  exists g1, val os a g = Ok (g1, (B, steps)).
Proof.
  intros H Hb Hn. unfold validate_ast in *.
  assert (Eb : check_base said_ok digits lang_ok standard_read of_text (fa_cache g) a = check_base said_ok digits lang_ok standard_read of_text (fa_cache f) a).
  { unfold check_base. unfold from_said in Hb. destruct (ast_commands a) as [|[[] [|[[s|n]]|]] r]; try done. by rewrite Hb. }
  rewrite Eb. destruct (check_base _ _ _ _ _ _ a) as [x| |] eqn:Ex; try discriminate. cbn [obind] in *. cbv zeta in *.
  assert (Hc : forall c, c ∈ ast_commands x.2 -> c ∈ ast_commands a).
  { unfold check_base in Ex. destruct (ast_commands a) as [|[[] [|[[s|n]]|]] r] eqn:Ea; try (injection Ex as <-; cbn [snd]; by rewrite Ea); [|discriminate].
    destruct (get_bundle _ _ _ _ _ _ s); [injection Ex as <-; cbn; by right..|discriminate]. }
  rewrite (resolve_agree said_ok (find_ref (fa_db g)) (find_ref (fa_db f))).
  2:{ intros c n Hin Hm. unfold find_ref. rewrite !mem_get2. apply Hn. intros E. by apply (Hself n c E (Hc _ Hin)). }
  destruct (resolve _ _ _) as [cs| |]; try discriminate. cbn [obind] in *. destruct (from_ast _ _ _ _ _) as [B' st|es|]; try discriminate.
  destruct (ast_meta x.2 !! "name") as [n|]; [|injection H as _ <- <-; by eexists]. destruct (b_said B'); [|discriminate]. cbn [unwrap_some obind] in *.
  rewrite mem_ins2 in *. cbn [obind] in *. injection H as _ <- <-. by eexists.
Qed.
Lemma ins2_same n k v (d : mem) : entry d n k = Some v -> ins2 n k v d = d.
Proof.
  intros H. unfold entry in H. unfold ins2. destruct (d !! ns_name n) as [s|] eqn:E; [|discriminate]. cbn in H.
  cbn. rewrite (insert_id s k v H). by apply insert_id.
Qed.
Variables f f1 : facade.
Variable B : bundle.
Variable steps : list bstep.
Hypothesis Hval : val os a f = Ok (f1, (B, steps)).
Hypothesis Hbase : forall s, s ∈ steps -> b_said (bs_result s) <> from_said a.
(** A stopped state validates like the first one, without a further write. *)
Lemma retried_validates g : retried from1 to1 listing to_text hash B steps f1 g -> val os a g = Ok (g, (B, steps)).
Proof.
  intros Hr. destruct (kept_retried _ _ _ _ _ _ _ _ _ Hr) as (_ & K2 & K3).
  pose proof (validate_writes digest from1 said_ok digits lang_ok standard_read of_text os a f f1 B steps Hval) as HW.
  assert (Hc1 : fa_cache f1 = fa_cache f) by (destruct HW as [(_ & -> & _)|(n & s & _ & -> & _)]; [done|by rewrite put_db]).
  destruct (validate_agree f f1 B steps g Hval) as [g1 Hg].
  - intros k Hk. rewrite !fetch_entry. destruct (K2 k) as [_ ->]; [intros s Hs E; apply (Hbase s Hs); congruence|]. by rewrite Hc1.
  - intros n Hn. rewrite K3. destruct HW as [(_ & -> & _)|(m & s & _ & -> & Hm & _)]; [done|]. rewrite put_db. cbn [fa_db with_db]. rewrite entry_ins.
    case_bool_decide as E; [|done]. destruct E as [_ ->]. done.
  - rewrite Hg. destruct (validate_writes digest from1 said_ok digits lang_ok standard_read of_text os a g g1 B steps Hg) as [(_ & -> & _)|(n & s & _ & -> & Hn & Hs)]; [done|].
    rewrite put_db, ins2_same; [by destruct g|]. rewrite K3. destruct HW as [(_ & _ & E)|(m & s' & _ & -> & Hm & Hs')]; [congruence|].
    rewrite put_db. cbn [fa_db with_db]. rewrite entry_ins, bool_decide_eq_true_2; [congruence|split; [done|congruence]].
Qed.
Lemma retried_file_inv g : retried_file digest from1 to1 listing said_ok digits lang_ok standard_read to_text of_text hash os a f g ->
  g = f \/ retried from1 to1 listing to_text hash B steps f1 g.
Proof.
  intros H. induction H as [|g g' H IH Hs]; [by left|]. destruct (stopped_file _ _ _ _ _ _ _ _ _ _ _ _ _ _ _ Hs) as [->|(g1 & B' & st & Hv & Hst)]; [done|].
  right. destruct IH as [->|IH].
  - rewrite Hval in Hv. injection Hv as <- <- <-. econstructor; [constructor|exact Hst].
  - rewrite (retried_validates g IH) in Hv. injection Hv as <- <- <-. by econstructor.
Qed.
End FileRedo.
(** If an OCAfile does not refer to its own name and its base is not one of the bundles it makes, then running it again after
    any number of stopped runs succeeds and leaves the stores as one complete run does. *)
Theorem C44_redo_file : forall digest from1 to1 listing said_ok digits lang_ok standard_read to_text of_text hash os a Bs f f1 B steps g h,
  let build := build_ast digest from1 to1 listing said_ok digits lang_ok standard_read to_text of_text hash os a in
  listing_ok listing -> Forall saids_present (Bs ++ [B]) -> saids_sane (Bs ++ [B]) -> relations_of listing Bs f ->
  (forall n c, ast_meta a !! "name" = Some n -> c ∈ ast_commands a -> ~ mentions c n) ->
  validate_ast digest from1 said_ok digits lang_ok standard_read of_text os a f = Ok (f1, (B, steps)) ->
  (forall s, s ∈ steps -> b_said (bs_result s) <> from_said a) ->
  build f = Ok (h, B) ->
  retried_file digest from1 to1 listing said_ok digits lang_ok standard_read to_text of_text hash os a f g ->
  exists h', build g = Ok (h', B) /\ same_but_relations h' h /\
    forall k, (forall B' t r, B' ∈ Bs ++ [B] -> has_role B' t r -> k <> (t +:+ ".metadata")%string) ->
      same_explored (explore (fa_db h') k) (explore (fa_db h) k).
Proof.
  intros digest from1 to1 listing so dg lo sr tt ot hs os a Bs f f1 B steps g h build Hl Hp Hsane (d & Ed & Hd) Hself Hval Hbase Hb Hr.
  assert (Er : forall k, entry (fa_db f1) NsRelations k = entry d NsRelations k).
  { intros k. destruct (validate_writes digest from1 so dg lo sr ot os a f f1 B steps Hval) as [(_ & -> & _)|(n & s & _ & -> & _)]; [apply Hd|].
    rewrite put_db. cbn [fa_db with_db]. rewrite entry_other by done. apply Hd. }
  assert (Hb1 : Facade.build from1 to1 listing tt hs B steps f1 = Ok (h, B)) by (subst build; unfold build_ast in Hb; rewrite Hval in Hb; exact Hb).
  destruct (retried_file_inv digest from1 to1 listing so dg lo sr tt ot hs os a Hself f f1 B steps Hval Hbase g Hr) as [->|Hg].
  - exists h. split; [done|]. split; [apply same_refl|]. intros k _. destruct (explore (fa_db h) k) as [[[o l]|]| |]; done.
  - destruct (C44_redo from1 to1 listing tt hs Bs B steps f1 g h Hl Hp Hsane ltac:(exists d; done) Hg Hb1) as (h' & E & X). exists h'. split; [|exact X].
    subst build. unfold build_ast. rewrite (retried_validates digest from1 to1 listing so dg lo sr tt ot hs os a Hself f f1 B steps Hval Hbase g Hg). exact E.
Qed.
Print Assumptions C44_redo_file.

(** A completed build extends the builds whose relations are recorded: the hypothesis of [C44_redo] holds after any history. *)
Theorem C44_relations_of_builds : forall from1 to1 listing to_text hash Bs B steps f h B',
  relations_of listing Bs f -> build from1 to1 listing to_text hash B steps f = Ok (h, B') -> relations_of listing (Bs ++ [B]) h.
Proof.
  intros from1 to1 listing to_text hash Bs B steps f h B' (d & Ed & Hd) H. unfold build in H. inv_ok H. inv_ok H. inv_ok H. inv_ok H. inv_ok H. injection H as <- <-.
  apply build_cache_mem in E as [D1 _]. apply build_meta_mem in E0 as [D2 _]. destruct (build_steps_effect _ _ _ _ E1) as (_ & I2 & _).
  destruct (agree_add listing B (fa_db v1) d v2) as (x & Ex & Ag); [|done|].
  - intros k. rewrite I2 by done. rewrite D2, D1. apply Hd.
  - exists x. rewrite fold_left_app, Ed. cbn [fold_left obind]. split; [done|]. intros k. cbn [fa_db with_db]. apply build_models_only in E3. rewrite E3 by done. apply Ag.
Qed.
Print Assumptions C44_relations_of_builds.
Lemma file_relations_of digest from1 to1 listing said_ok digits lang_ok standard_read to_text of_text hash os a Bs f h B :
  relations_of listing Bs f -> build_ast digest from1 to1 listing said_ok digits lang_ok standard_read to_text of_text hash os a f = Ok (h, B) ->
  relations_of listing (Bs ++ [B]) h.
Proof.
  intros (d & Ed & Hd) H. unfold build_ast in H. apply obind_ok in H as ([f1 [B1 steps]] & Hv & H). cbn [fst snd] in H.
  pose proof (build_effect _ _ _ _ _ _ _ _ _ _ H) as [-> _]. eapply C44_relations_of_builds; [|exact H]. exists d. split; [done|].
  intros k. destruct (validate_writes digest from1 said_ok digits lang_ok standard_read of_text os a f f1 B1 steps Hv) as [(_ & -> & _)|(n & s & _ & -> & _)]; [apply Hd|].
  rewrite put_db. cbn [fa_db with_db]. rewrite entry_other by done. apply Hd.
Qed.
Lemma relations_of_new listing : relations_of listing [] facade_new. Proof. by exists ∅. Qed.

(** ** Concrete cases *)
(** A checker for [saids_sane]. *)
#[local] Instance role_dec : EqDecision role. Proof. solve_decision. Defined.
Definition sane_check (Bs : list bundle) : bool :=
  let m := concat (map members Bs) in
  forallb (fun x => (String.length x.1 <=? 255)%nat && forallb (fun y => implb (String.eqb x.1 y.1) (bool_decide (x.2 = y.2)) && negb (String.eqb x.1 (y.1 +:+ ".metadata")%string)) m) m.
Lemma sane_check_ok Bs : sane_check Bs = true -> saids_sane Bs.
Proof.
  unfold sane_check. cbv zeta. intros H. rewrite forallb_forall in H.
  assert (Hm : forall B s r, B ∈ Bs -> has_role B s r -> In (s, r) (concat (map members Bs))).
  { intros B s r HB Hr. apply in_concat. exists (members B). split; [by apply in_map, elem_of_list_In|]. by apply elem_of_list_In, members_role. }
  split; [|split].
  - intros B B' s r r' HB HB' Hr Hr'. apply Hm in Hr, Hr'; [|done..]. specialize (H _ Hr). apply andb_true_iff in H as [_ H]. rewrite forallb_forall in H.
    specialize (H _ Hr'). apply andb_true_iff in H as [H _]. cbn [fst snd] in H. rewrite String.eqb_refl in H. by apply bool_decide_eq_true in H.
  - intros B s r HB Hr. apply Hm in Hr; [|done]. specialize (H _ Hr). apply andb_true_iff in H as [H _]. by apply Nat.leb_le in H.
  - intros B B' s s' r r' HB HB' Hr Hr'. apply Hm in Hr, Hr'; [|done..]. specialize (H _ Hr). apply andb_true_iff in H as [_ H]. rewrite forallb_forall in H.
    specialize (H _ Hr'). apply andb_true_iff in H as [_ H]. cbn [fst snd] in H. apply negb_true_iff in H. by apply String.eqb_neq in H.
Qed.
Definition present_check (B : bundle) : bool := is_some_b (b_said B) && is_some_b (cb_said (b_cb B)) && forallb (fun ov => is_some_b (ov_said ov)) (b_ovs B).
Lemma present_check_ok Bs : forallb present_check Bs = true -> Forall saids_present Bs.
Proof.
  intros H. rewrite forallb_forall in H. apply Forall_forall. intros B HB. apply elem_of_list_In in HB. specialize (H _ HB). unfold present_check in H.
  apply andb_true_iff in H as [H H3]. apply andb_true_iff in H as [H1 H2]. rewrite forallb_forall in H3.
  assert (O : forall (x : option string), is_some_b x = true -> is_Some x) by (intros [x|] Hx; [by eexists|discriminate]).
  split; [by apply O|]. split; [by apply O|]. apply Forall_forall. intros ov Hov. by apply O, H3, elem_of_list_In.
Qed.
Definition ex_trace := t_build_ast ex_digest ex_from1 ex_to1 ex_listing ex_said_ok ascii_digits ex_lang_ok (fun _ => None) ex_to_text ex_of_text ex_hash (fun _ => ord1).
Definition ex_one := ex_build_one (fun _ => ord1).
Definition ex_v1 : ast := ex_named "v" ex_first.
Definition ex_v2 : ast := ex_named "v" (ex_first ++ ex_second).
(** The second file is stopped while its relation records are written: its stores are neither the old nor the new ones. *)
Example C44_hypotheses_met : exists f B1 f1 B2 steps h g,
  relations_of ex_listing [B1] f /\ Forall saids_present ([B1] ++ [B2]) /\ saids_sane ([B1] ++ [B2]) /\ listing_ok ex_listing /\
  (forall n c, ast_meta ex_v2 !! "name" = Some n -> c ∈ ast_commands ex_v2 -> ~ mentions c n) /\
  ex_validate (fun _ => ord1) ex_v2 f = Ok (f1, (B2, steps)) /\ (forall s, s ∈ steps -> b_said (bs_result s) <> from_said ex_v2) /\
  ex_one ex_v2 f = Ok (h, B2) /\ stopped (ex_trace ex_v2) f g /\ fa_db g <> fa_db f /\ fa_db g <> fa_db h /\ fa_cache g = fa_cache h /\ fa_cache f <> fa_cache h.
Proof.
  assert (H : match ex_one ex_v1 facade_new with Ok (f, B1) =>
    match ex_validate (fun _ => ord1) ex_v2 f, ex_one ex_v2 f with Ok (f1, (B2, steps)), Ok (h, B2') =>
      let g := puts (take 23 (ex_trace ex_v2 f).1) f in
      sane_check [B1; B2] && forallb present_check [B1; B2] && forallb (fun s => is_some_b (b_said (bs_result s))) steps &&
      bool_decide (fa_cache g = fa_cache h) && negb (bool_decide (fa_cache f = fa_cache h)) &&
      negb (bool_decide (fa_db g = fa_db f)) && negb (bool_decide (fa_db g = fa_db h))
    | _, _ => false end | _ => false end = true).
  { vm_compute. reflexivity. }
  assert (HR : forall h B, ex_one ex_v1 facade_new = Ok (h, B) -> relations_of ex_listing [B] h).
  { intros h B. apply (file_relations_of ex_digest ex_from1 ex_to1 ex_listing ex_said_ok ascii_digits ex_lang_ok (fun _ => None) ex_to_text ex_of_text ex_hash
      (fun _ => ord1) ex_v1 [] facade_new h B (relations_of_new _)). }
  assert (HV : forall f h B x, ex_one ex_v2 f = Ok (h, B) -> ex_validate (fun _ => ord1) ex_v2 f = Ok x -> x.2.1 = B).
  { intros f h B x. unfold ex_one, ex_build_one, build_ast, ex_validate. generalize (validate_ast ex_digest ex_from1 ex_said_ok ascii_digits ex_lang_ok (fun _ => None) ex_of_text (fun _ => ord1) ex_v2 f).
    intros v Hb ->. cbn [obind] in Hb. by apply build_effect in Hb as [-> _]. }
  assert (HN : forall n c, ast_meta ex_v2 !! "name" = Some n -> c ∈ ast_commands ex_v2 -> ~ mentions c n).
  { intros n c _ Hc. apply elem_of_list_In in Hc. destruct Hc as [<-|[<-|[<-|[<-|[]]]]].
    - intros [(l & x & t & (p & fl & E) & Hin & Hn)|(p & pre & post & (v & y & E) & _)]; [|discriminate E]. injection E as <- _ _.
      apply elem_of_list_singleton in Hin. injection Hin as -> ->. by destruct Hn.
    - intros [(l & x & t & (p & fl & E) & Hin & Hn)|(p & pre & post & (v & y & E) & _)]; [|discriminate E]. injection E as <- _ _.
      apply elem_of_list_singleton in Hin. injection Hin as -> ->. by destruct Hn.
    - intros [(l & x & t & (p & fl & E) & Hin & Hn)|(p & pre & post & (v & y & E) & _)]; discriminate E.
    - intros [(l & x & t & (p & fl & E) & Hin & Hn)|(p & pre & post & (v & y & E) & _)]; discriminate E. }
  assert (HF : from_said ex_v2 = None) by reflexivity.
  revert H HR HV HN HF. generalize (ex_one ex_v1), (ex_one ex_v2), (ex_validate (fun _ => ord1) ex_v2), (ex_trace ex_v2). generalize ex_v2. intros v2 run1 run2 val2 T. clear.
  intros H HR HV HN HF. destruct (run1 facade_new) as [[f B1]| |] eqn:E1; [|discriminate H|discriminate H].
  destruct (val2 f) as [[f1 [B2 steps]]| |] eqn:Ev; [|discriminate H|discriminate H]. destruct (run2 f) as [[h B2']| |] eqn:E2; [|discriminate H|discriminate H].
  cbv zeta in H. assert (B2 = B2') as <- by (by apply (HV f h B2' (f1, (B2, steps)))).
  exists f, B1, f1, B2, steps, h, (puts (take 23 (T f).1) f). rewrite HF.
  repeat rewrite andb_true_iff in H. destruct H as ((((((H1 & H2) & H3) & H4) & H5) & H6) & H7).
  rewrite forallb_forall in H3. apply negb_true_iff, bool_decide_eq_false in H5, H6, H7. apply bool_decide_eq_true in H4.
  split; [by apply HR|]. split; [by apply present_check_ok|]. split; [by apply sane_check_ok|]. split; [by intros k l|]. split; [exact HN|].
  split; [exact Ev|]. split; [intros s Hs; apply elem_of_list_In in Hs; specialize (H3 s Hs); by destruct (b_said (bs_result s))|].
  split; [exact E2|]. split; [by exists 23%nat|]. done.
Qed.
Definition ex_stop (n : nat) (a : ast) (f : facade) : facade := puts (take n (ex_trace a f).1) f.
Lemma ex_stop_stopped n a f : stopped (ex_trace a) f (ex_stop n a f). Proof. by exists n. Qed.

(** ** What stopping does break *)
(** After the second write the listing shows a bundle that cannot be fetched (nor explored). *)
Theorem C44_listed_not_stored_refuted : exists g k, stopped (ex_trace ex_v1) facade_new g /\ k ∈ (fa_bundles g).*1 /\
  is_ok (ex_fetch (fa_cache g) k) = false /\ explore (fa_db g) k = Ok None.
Proof.
  assert (H : match (fa_bundles (ex_stop 2 ex_v1 facade_new)).*1 with k :: _ => negb (is_ok (ex_fetch (fa_cache (ex_stop 2 ex_v1 facade_new)) k)) &&
    match explore (fa_db (ex_stop 2 ex_v1 facade_new)) k with Ok None => true | _ => false end | _ => false end = true) by (vm_compute; reflexivity).
  exists (ex_stop 2 ex_v1 facade_new). pose proof (ex_stop_stopped 2 ex_v1 facade_new) as HS. revert H HS. generalize (ex_stop 2 ex_v1 facade_new). intros g H HS.
  destruct ((fa_bundles g).*1) as [|k l]; [discriminate H|]. exists k. apply andb_true_iff in H as [H1 H2]. apply negb_true_iff in H1.
  split; [exact HS|]. split; [left|]. split; [exact H1|]. destruct (explore (fa_db g) k) as [[x|]| |]; [discriminate H2|done|discriminate H2|discriminate H2].
Qed.
Print Assumptions C44_listed_not_stored_refuted.
(** The record of a step is written before its bundle: reading the history of that SAID then panics. *)
Theorem C44_record_before_bundle_refuted : exists g k, stopped (ex_trace ex_v1) facade_new g /\ is_some_b (entry (fa_db g) NsOCA (op_key k)) = true /\
  forall n, ex_history (S n) g k = Some Panic.
Proof.
  assert (H : match b_said (match ex_one ex_v1 facade_new with Ok (_, B) => B | _ => C21_b1 end), get_op ex_said_ok ex_of_text (fa_db (ex_stop 7 ex_v1 facade_new))
      (unwrap_or "" (b_said (match ex_one ex_v1 facade_new with Ok (_, B) => B | _ => C21_b1 end))) with
    Some k, Ok (p, _) => ex_said_ok k && negb (String.eqb p k) && negb (is_ok (ex_fetch (fa_cache (ex_stop 7 ex_v1 facade_new)) k)) &&
      is_some_b (entry (fa_db (ex_stop 7 ex_v1 facade_new)) NsOCA (op_key k)) | _, _ => false end = true) by (vm_compute; reflexivity).
  exists (ex_stop 7 ex_v1 facade_new). pose proof (ex_stop_stopped 7 ex_v1 facade_new) as HS. revert H HS. generalize (ex_stop 7 ex_v1 facade_new).
  generalize (match ex_one ex_v1 facade_new with Ok (_, B) => B | _ => C21_b1 end). intros B g H HS.
  destruct (b_said B) as [k|]; [|discriminate H]. cbn [unwrap_or] in H. exists k.
  destruct (get_op ex_said_ok ex_of_text (fa_db g) k) as [[p c]| |] eqn:Eo; [|discriminate H|discriminate H].
  repeat rewrite andb_true_iff in H. destruct H as (((H1 & H2) & H3) & H4). apply negb_true_iff in H2, H3. split; [exact HS|]. split; [exact H4|].
  intros n. unfold ex_history, get_steps. cbn [steps_loop]. rewrite Eo, H2, H1. cbn [negb]. fold (ex_fetch (fa_cache g) k).
  unfold ex_fetch in *. destruct (get_bundle _ _ _ _ _ _ k); [discriminate H3|done|done].
Qed.
Print Assumptions C44_record_before_bundle_refuted.
(** The name is registered first: it then names a SAID that is stored nowhere. *)
Theorem C44_named_not_stored_refuted : exists g k, stopped (ex_trace ex_v1) facade_new g /\ find_ref (fa_db g) "v" = Some k /\ is_ok (ex_fetch (fa_cache g) k) = false.
Proof.
  assert (H : match find_ref (fa_db (ex_stop 1 ex_v1 facade_new)) "v" with Some k => negb (is_ok (ex_fetch (fa_cache (ex_stop 1 ex_v1 facade_new)) k)) | None => false end = true)
    by (vm_compute; reflexivity).
  exists (ex_stop 1 ex_v1 facade_new). pose proof (ex_stop_stopped 1 ex_v1 facade_new) as HS. revert H HS. generalize (ex_stop 1 ex_v1 facade_new). intros g H HS.
  destruct (find_ref (fa_db g) "v") as [k|]; [|discriminate H]. exists k. apply negb_true_iff in H. done.
Qed.
Print Assumptions C44_named_not_stored_refuted.
(** A file that refers to its own name (its last version) gives another bundle when it is run again. *)
Definition ex_own : ast := ex_named "v" [add_attrs [("a", NVal TText); ("old", NRef (RName "v"))]].
Theorem C44_own_name_refuted : exists f g h B h' B', stopped (ex_trace ex_own) f g /\ ex_one ex_own f = Ok (h, B) /\ ex_one ex_own g = Ok (h', B') /\ b_said B <> b_said B'.
Proof.
  assert (H : match ex_one ex_v1 facade_new with Ok (f, _) => match ex_one ex_own f, ex_one ex_own (ex_stop 1 ex_own f) with
    Ok (_, B), Ok (_, B') => negb (bool_decide (b_said B = b_said B')) | _, _ => false end | _ => false end = true) by (vm_compute; reflexivity).
  pose proof (ex_stop_stopped 1 ex_own) as HS. revert H HS. generalize (ex_one ex_v1), (ex_one ex_own), (ex_stop 1 ex_own). intros r1 r2 st H HS.
  destruct (r1 facade_new) as [[f B1]| |]; [|discriminate H|discriminate H]. exists f, (st f). specialize (HS f).
  destruct (r2 f) as [[h B]| |]; [|discriminate H|discriminate H]. destruct (r2 (st f)) as [[h' B']| |]; [|discriminate H|discriminate H].
  apply negb_true_iff, bool_decide_eq_false in H. by exists h, B, h', B'.
Qed.
Print Assumptions C44_own_name_refuted.

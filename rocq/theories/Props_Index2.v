(** C43 on files and on concrete histories. *)
From Verif Require Import Spec_Index Index_proofs Props_Index Props_Storage Facade_proofs Props_Facade Props_Codec Props_BundleCodec BundleCodec_proofs Sort_proofs Props_Relations
  Spec_Crash Props_Crash Checkers Props_Bundle Props_History Props_Refs Spec_Bundle Spec_Build Build_proofs Run_proofs Bundle_proofs Determinism_proofs Box_proofs Load_proofs Props_Build Build Props_Dag Spec_Dag.
Local Open Scope list_scope.

Lemma overlay_json_said ov ov' : overlay_json ov = overlay_json ov' -> ov_said ov = ov_said ov'.
Proof.
  intros H. assert (J : jopt (ov_said ov) = jopt (ov_said ov')).
  { apply (f_equal (fun j => match j with JObj ((_, x) :: _) => x | _ => JNull end)) in H. unfold overlay_json, overlay_json_d in H.
    destruct (ov_body ov), (ov_body ov'); exact H. }
  destruct (ov_said ov), (ov_said ov'); cbn in J; congruence.
Qed.
(** What the builder returns is a sound entry of a history: the last step gave the same bundle, with the same objects. *)
Theorem C43_results_of_files : forall digest from1 os from a st B steps b, (forall i, order_ok (os i)) ->
  Forall command_ok (ast_commands a) -> base_of (os (S (length (ast_commands a)))) from st -> ast_commands a <> [] ->
  from_ast digest from1 os from a = BuildOk B steps ->
  state_after from1 st (ast_commands a) = Some b -> frames_consistent b -> no_collision digest (b_ovs B) ->
  exists s, s ∈ steps /\ b_said (bs_result s) = b_said B /\ bundle_json (bs_result s) = bundle_json B /\
    forall k o, object_in B k o -> exists o', object_in (bs_result s) k o' /\ same_object o o'.
Proof.
  intros dig f1 os from a st B steps b Hos Hc Hb Hne H Hst Hf Hcol.
  assert (Hok : Run_proofs.st_ok (Some b)). { rewrite <- Hst. apply state_after_ok; [done|]. by eapply base_of_ok. }
  apply (C13_chain dig f1 os from a st) in H as (H1 & H2 & b' & H3 & H4); [|done]. rewrite Hst in H3. injection H3 as <-.
  destruct (last steps) as [s|] eqn:Hl; [|exfalso; apply last_None in Hl; subst steps; by destruct (ast_commands a)].
  rewrite last_lookup in Hl. destruct (H2 _ _ Hl) as (_ & _ & b' & G1 & G2).
  assert (E : take (S (Nat.pred (length steps))) (ast_commands a) = ast_commands a) by (apply take_ge; rewrite H1; lia).
  rewrite E, Hst in G1. injection G1 as <-. assert (Hbo : box_ok b) by by apply api_box_ok, Hok.
  destruct (bundle_json_equiv dig _ _ b b B (bs_result s) (Hos _) (Hos _) Hbo Hbo (box_equiv_refl b) Hf H4 G2 Hcol) as (E1 & E2 & E3 & E4).
  exists s. split; [by apply elem_of_list_lookup_2 in Hl|]. split; [done|]. split; [done|]. intros k o [[Hk -> ]|(ov & Hov & Hk & -> )].
  - exists (FCapture (b_cb (bs_result s))). split; [left; split; [congruence|done]|]. split; [|done]. cbn.
    unfold bundle_json, bundle_json_d in E1. apply (f_equal (fun j => match j with JObj (_ :: (_, x) :: _) => x | _ => JNull end)) in E1. exact E1.
  - assert (Hin : overlay_json ov ∈ map overlay_json (b_ovs (bs_result s))) by (rewrite <- E4; apply elem_of_list_In, in_map, elem_of_list_In, Hov).
    apply elem_of_list_In, in_map_iff in Hin as (ov' & Ej & Hin). exists (FOverlay ov'). split; [right; exists ov'; split; [by apply elem_of_list_In|]; split; [|done]|split; [by cbn|done]].
    rewrite <- Hk. by apply overlay_json_said.
Qed.
Print Assumptions C43_results_of_files.

(** ** Concrete histories *)
Definition objs (B : bundle) : list (option string * fetched) := (cb_said (b_cb B), FCapture (b_cb B)) :: map (fun ov => (ov_said ov, FOverlay ov)) (b_ovs B).
Lemma objs_in B s o : object_in B s o <-> (Some s, o) ∈ objs B.
Proof.
  unfold objs. rewrite elem_of_cons. split.
  - intros [[E -> ]|(ov & Hov & E & -> )]; [left; by rewrite E|right]. apply elem_of_list_In, in_map_iff. exists ov. rewrite E. split; [done|by apply elem_of_list_In].
  - intros [E|H]; [left; by injection E as -> ->|]. right. apply elem_of_list_In, in_map_iff in H as (ov & E & H). injection E as E1 E2. exists ov. split; [by apply elem_of_list_In|done].
Qed.
Definition json_eqb (x y : json) : bool := String.eqb (ex_to_text x) (ex_to_text y).
Lemma json_eqb_ok x y : json_eqb x y = true -> x = y.
Proof. intros H. apply String.eqb_eq in H. pose proof (ex_text_all x) as E. rewrite H, ex_text_all in E. by injection E. Qed.
Definition obj_eqb (x y : fetched) : bool := json_eqb (object_json x) (object_json y) && match x, y with FCapture _, FCapture _ | FOverlay _, FOverlay _ => true | _, _ => false end.
Lemma obj_eqb_ok x y : obj_eqb x y = true -> same_object x y.
Proof. intros H. apply andb_true_iff in H as [H1 H2]. split; [by apply json_eqb_ok|by destruct x, y]. Qed.
Definition all_of (h : list (bundle * list bstep)) : list bundle := map fst h ++ concat (map (fun x => map bs_result x.2) h).
Lemma all_of_in h B : final h B \/ stepped h B -> In B (all_of h).
Proof.
  intros [(st & H)|(R & st & s & H & Hs & <-)]; apply in_or_app; [left|right].
  - apply in_map_iff. exists (B, st). split; [done|by apply elem_of_list_In].
  - apply in_concat. exists (map bs_result st). split; [|apply in_map, elem_of_list_In, Hs]. apply in_map_iff. exists (R, st). split; [done|by apply elem_of_list_In].
Qed.
Definition sound_check (h : list (bundle * list bstep)) : bool :=
  let all := all_of h in
  forallb (fun B => bundle_simple ex_said_ok ex_lang_ok B && shallow_b (bundle_json B)) all &&
  forallb (fun x => existsb (fun s => bool_decide (b_said (bs_result s) = b_said x.1) && json_eqb (bundle_json (bs_result s)) (bundle_json x.1) &&
    forallb (fun o => existsb (fun o' => bool_decide (o.1 = o'.1) && obj_eqb o.2 o'.2) (objs (bs_result s))) (objs x.1)) x.2) h &&
  forallb (fun B => forallb (fun B' => implb (bool_decide (b_said B = b_said B')) (json_eqb (bundle_json B) (bundle_json B'))) all) all &&
  forallb (fun B => forallb (fun B' => forallb (fun o => forallb (fun o' => implb (bool_decide (o.1 = o'.1)) (obj_eqb o.2 o'.2)) (objs B')) (objs B)) all) all &&
  forallb present_check (map fst h) && sane_check (map fst h).
Lemma sound_check_ok h : sound_check h = true -> sound ex_said_ok ascii_digits ex_lang_ok h.
Proof.
  unfold sound_check. cbv zeta. intros H. repeat rewrite andb_true_iff in H. destruct H as (((((H1 & H2) & H3) & H4) & H5) & H6).
  rewrite forallb_forall in H1, H2, H3, H4. split.
  - intros B HB. specialize (H1 B (all_of_in _ _ HB)). apply andb_true_iff in H1 as [X1 X2]. destruct (bundle_simple_ok ex_said_ok ascii_digits ex_lang_ok B eq_refl X1) as [Y1 Y2]. split; [exact Y1|]. split; [exact Y2|by apply shallow_ok].
  - intros B [st Hst]. pose proof Hst as Hin. apply elem_of_list_In in Hin. specialize (H2 _ Hin). cbn [fst snd] in H2. apply existsb_exists in H2 as (s & Hs & H2).
    apply andb_true_iff in H2 as [H2 O]. apply andb_true_iff in H2 as [E1 E2]. apply bool_decide_eq_true in E1. apply json_eqb_ok in E2. exists (bs_result s).
    split; [exists B, st, s; split; [done|]; split; [by apply elem_of_list_In|done]|]. split; [done|]. split; [done|]. intros k o Ho. apply objs_in, elem_of_list_In in Ho. rewrite forallb_forall in O. specialize (O _ Ho).
    apply existsb_exists in O as ([k' o'] & Hin' & O). cbn [fst snd] in O. apply andb_true_iff in O as [O1 O2]. apply bool_decide_eq_true in O1. subst k'.
    exists o'. split; [by apply objs_in, elem_of_list_In|by apply obj_eqb_ok].
  - intros B B' HB HB' E. specialize (H3 _ (all_of_in _ _ HB)). rewrite forallb_forall in H3. specialize (H3 _ (all_of_in _ _ HB')).
    rewrite bool_decide_eq_true_2 in H3 by done. by apply json_eqb_ok.
  - intros B B' k o o' HB HB' Ho Ho'. specialize (H4 _ (all_of_in _ _ HB)). rewrite forallb_forall in H4. specialize (H4 _ (all_of_in _ _ HB')).
    rewrite forallb_forall in H4. apply objs_in, elem_of_list_In in Ho, Ho'. specialize (H4 _ Ho). rewrite forallb_forall in H4. specialize (H4 _ Ho'). cbn [fst snd] in H4.
    rewrite bool_decide_eq_true_2 in H4 by done. by apply obj_eqb_ok.
  - by apply present_check_ok.
  - by apply sane_check_ok.
Qed.
Notation ex_builds := (builds ex_from1 ex_to1 ex_listing ex_to_text ex_hash).
Definition ex_meta : list command := [add_ov KMeta [] [("lang", VVal "en"); ("name", VVal "Box"); ("description", VVal "A box")]].
Lemma ex_builds_two B1 s1 f1 B2 s2 f2 B1' B2' : ex_build B1 s1 facade_new = Ok (f1, B1') -> ex_build B2 s2 f1 = Ok (f2, B2') -> ex_builds [(B1, s1); (B2, s2)] f2.
Proof.
  intros E1 E2. pose proof (proj1 (build_effect _ _ _ _ _ _ _ _ _ _ E1)) as ->. pose proof (proj1 (build_effect _ _ _ _ _ _ _ _ _ _ E2)) as ->.
  apply (builds_one _ _ _ _ _ [(B1, s1)] f1 B2 s2 f2); [|exact E2]. apply (builds_one _ _ _ _ _ [] facade_new B1 s1 f1); [constructor|exact E1].
Qed.
(** Two builds, the first with a meta overlay; searching anything finds the first bundle.  The capture base of the first
    step is in neither result: it is stored, and asking for it panics. *)
Example C43_hypotheses_met : exists h f B s o, ex_builds h f /\ sound ex_said_ok ascii_digits ex_lang_ok h /\ length h = 2%nat /\ length (fa_fts f) = 1%nat /\
  listing_ok ex_listing /\ hits_ok (fun _ _ rows => Ok (take 1 rows)) /\
  stepped h B /\ object_in B s o /\ (forall B r, final h B -> ~ has_role B s r) /\ (forall B t r, final h B -> has_role B t r -> t <> (s +:+ ".metadata")%string).
Proof.
  assert (H : match ex_ast None (mk_ast (ex_first ++ ex_meta)), ex_ast None (mk_ast (ex_first ++ ex_second)) with BuildOk B1 s1, BuildOk B2 s2 =>
    match ex_build B1 s1 facade_new with Ok (f1, _) => match ex_build B2 s2 f1 with Ok (f2, _) =>
      match s1 with x :: _ => match cb_said (b_cb (bs_result x)) with Some k => 
        sound_check [(B1, s1); (B2, s2)] && (length (fa_fts f2) =? 1)%nat &&
        forallb (fun y => negb (String.eqb y.1 k) && negb (String.eqb y.1 (k +:+ ".metadata")%string)) (members B1 ++ members B2)
      | None => false end | [] => false end | _ => false end | _ => false end | _, _ => false end = true) by (vm_compute; reflexivity).
  revert H. generalize (ex_ast None (mk_ast (ex_first ++ ex_meta))), (ex_ast None (mk_ast (ex_first ++ ex_second))). intros r1 r2 H.
  destruct r1 as [B1 s1| |]; [|discriminate H|discriminate H]. destruct r2 as [B2 s2| |]; [|discriminate H|discriminate H].
  destruct (ex_build B1 s1 facade_new) as [[f1 B1']| |] eqn:E1; [|discriminate H|discriminate H]. destruct (ex_build B2 s2 f1) as [[f2 B2']| |] eqn:E2; [|discriminate H|discriminate H].
  destruct s1 as [|x s1]; [discriminate H|]. destruct (cb_said (b_cb (bs_result x))) as [k|] eqn:Ek; [|discriminate H].
  repeat rewrite andb_true_iff in H. destruct H as ((H1 & H2) & H3). rewrite forallb_forall in H3. apply Nat.eqb_eq in H2.
  exists [(B1, x :: s1); (B2, s2)], f2, (bs_result x), k, (FCapture (b_cb (bs_result x))).
  split; [exact (ex_builds_two _ _ _ _ _ _ _ _ E1 E2)|]. split; [by apply sound_check_ok|]. split; [done|]. split; [exact H2|]. split; [by intros k' l|].
  split.
  { intros l q rows hs E. injection E as <-. split; [intros r Hr; apply elem_of_take in Hr as (i & Hi & _); by apply elem_of_list_lookup_2 in Hi|].
    destruct rows as [|r rows]; [apply NoDup_nil_2|]. cbn. rewrite take_0. apply NoDup_singleton. }
  split; [exists B1, (x :: s1), x; split; [left|]; split; [left|done]|]. split; [by left|].
  assert (HM : forall B t r, final [(B1, x :: s1); (B2, s2)] B -> has_role B t r -> t <> k /\ t <> (k +:+ ".metadata")%string).
  { intros B t r [st Hin] Hr. assert (Hin' : In (t, r) (members B1 ++ members B2)).
    { apply in_or_app. apply members_role, elem_of_list_In in Hr. apply elem_of_list_In in Hin. destruct Hin as [E|[E|[]]]; injection E as <- _; auto. }
    specialize (H3 _ Hin'). cbn [fst] in H3. apply andb_true_iff in H3 as [X1 X2]. apply negb_true_iff, String.eqb_neq in X1, X2. done. }
  split; [intros B r HB Hr; exact (proj1 (HM B k r HB Hr) eq_refl)|]. intros B t r HB Hr. exact (proj2 (HM B t r HB Hr)).
Qed.
(** A step's objects are stored; the claim that every stored object can be asked for is false. *)
Theorem C43_stored_objects_refuted : exists h f s, ex_builds h f /\ sound ex_said_ok ascii_digits ex_lang_ok h /\ is_some_b (entry (fa_cache f) NsObjects s) = true /\
  get_objects ex_said_ok ascii_digits ex_lang_ok (fun _ => None) ex_of_text f [s] = Panic.
Proof.
  destruct C43_hypotheses_met as (h & f & B & s & o & Hb & Hs & _ & _ & Hl & _ & HB & Ho & Hn & Hm). exists h, f, s. split; [exact Hb|]. split; [exact Hs|].
  by apply (C43_step_object_panics ex_from1 ex_to1 ex_listing ex_said_ok ascii_digits ex_lang_ok (fun _ => None) ex_to_text ex_of_text ex_hash h f B s o).
Qed.
Print Assumptions C43_stored_objects_refuted.
(** A file without commands, or with only a base that is not stored, makes the build panic. *)
Theorem C43_empty_file_panics : forall digest from1 to1 listing said_ok digits lang_ok standard_read to_text of_text hash os a f,
  ast_commands a = [] \/ (exists k, ast_commands a = [Command CFrom (OBundle (BundleContent (RSaid k)))] /\ entry (fa_cache f) NsBundles k = None) ->
  build_ast digest from1 to1 listing said_ok digits lang_ok standard_read to_text of_text hash os a f = Panic.
Proof.
  intros dig f1 t1 ls so dg lo sr tt ot hs os a f [E|(k & E & Hk)]; unfold build_ast, validate_ast, check_base; rewrite E.
  - cbn [obind snd fst ast_commands]. rewrite E. done.
  - rewrite fetch_entry, Hk. done.
Qed.
Print Assumptions C43_empty_file_panics.

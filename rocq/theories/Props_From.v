(** C26: FROM. *)
From Verif Require Import Base Ast Bundle Spec_Bundle Build Spec_Build Text Facade Spec_Facade Spec_BundleCodec Spec_Refs Facade_proofs Props_Storage Run_proofs Build_proofs Incremental_proofs
  BundleCodec_proofs Props_BundleCodec Props_Bundle Props_Build Props_Codec Props_Dag Props_Facade Props_History Props_Refs Stored_proofs.

(** The AST [a] with FROM [r] in front. *)
Definition from_cmd (r : ref_value) : command := Command CFrom (OBundle (BundleContent r)).
Definition with_from (r : ref_value) (a : ast) : ast := Ast (ast_version a) (from_cmd r :: ast_commands a) (ast_cmeta a) (ast_meta a).
Definition not_from_first (a : ast) : Prop := forall c rest, ast_commands a = c :: rest -> cmd_kind c <> CFrom.

(** Commands without names to resolve are left as they are. *)
Lemma resolve_plain said_ok find cs : (forall c n, c ∈ cs -> ~ mentions c n) -> resolve said_ok find cs = Ok cs.
Proof.
  assert (T : forall t, (forall n, ~ named_type t n) -> resolve_attr said_ok find t = Ok t).
  { intros t H. destruct t as [[s|n]|v|u|]; try done; [by destruct (H n); left|]. destruct u as [[s|n]|v|u|]; try done. by destruct (H n); right. }
  assert (L : forall l, (forall a t n, (a, t) ∈ l -> ~ named_type t n) -> resolve_attrs said_ok find l = Ok l).
  { induction l as [|[a t] l IH]; intros H; [done|]. cbn. rewrite T by (intros n; apply (H a); left). cbn. rewrite IH; [done|]. intros a' t' n Hin. apply (H a'). by right. }
  induction cs as [|c cs IH]; intros H; [done|]. cbn [resolve]. assert (C : resolve_cmd said_ok find c = Ok c).
  { assert (Hc : forall n, ~ mentions c n) by (intros n; apply H; left). destruct c as [[] [[[l|] p fl]|b|[kd v] [a [p|]]]]; try done; try (by destruct kd).
    - cbn. rewrite L; [done|]. intros a t n Hin Hn. apply (Hc n). left. exists l, a, t. split; [by exists p, fl|done].
    - destruct kd; try done. cbn. destruct (imap_get "target" p) as [[[s|n]|w|w|w]|] eqn:E; try done. apply get_split in E as (pre & post & -> & Hp).
      destruct (Hc n). right. exists (pre ++ ("target", VRef (RName n)) :: post), pre, post. split; [by exists v, a|done]. }
  rewrite C. cbn [obind]. rewrite IH; [done|]. intros c' n Hin. apply H. by right.
Qed.

(** ** A stored base *)
(** Build [a1], then the AST "FROM <SAID of the result>" followed by the commands of [a2]: the outcome is that of building the
    commands of [a1] and [a2] from scratch. *)
Theorem C26_builds_on_stored_base : forall digest from1 to1 listing said_ok digits lang_ok standard_read to_text of_text hash os1 os2 os3 a1 a2 a12 B1 steps1 f f1 B1' k,
  text_ok to_text of_text -> digits_class digits -> (forall i, order_ok (os1 i)) -> (forall i, order_ok (os2 i)) -> (forall i, order_ok (os3 i)) ->
  ast_commands a12 = ast_commands a1 ++ ast_commands a2 -> Forall command_ok (ast_commands a12) -> framings_agree (ast_commands a12) ->
  (forall c n, c ∈ ast_commands a2 -> ~ mentions c n) ->
  from_ast digest from1 os1 None a1 = BuildOk B1 steps1 -> build from1 to1 listing to_text hash B1 steps1 f = Ok (f1, B1') -> b_said B1 = Some k ->
  no_collision digest (b_ovs B1) -> bundle_readable said_ok digits lang_ok B1 -> groups_sorted B1 -> shallow (bundle_json B1) ->
  (forall s s', s ∈ steps1 -> s' ∈ steps1 -> digest (bundle_json_d (JStr dummy_said) (bs_result s)) = digest (bundle_json_d (JStr dummy_said) (bs_result s')) ->
     bundle_json_d (JStr dummy_said) (bs_result s) = bundle_json_d (JStr dummy_said) (bs_result s')) ->
  match validate_ast digest from1 said_ok digits lang_ok standard_read of_text os2 (with_from (RSaid k) a2) f1, from_ast digest from1 os3 None a12 with
  | Ok (_, (B, _)), BuildOk B' _ => no_collision digest (b_ovs B) -> bundle_json B = bundle_json B' /\ b_said B = b_said B'
  | Err es, BuildErr es' => es = map be_msg es'
  | Panic, BuildPanic => True
  | _, _ => False
  end.
Proof.
  intros dig f1 t1 ls so dg lo sr tt ot hs os1 os2 os3 a1 a2 a12 B1 steps1 f fb B1' k Ht Hd O1 O2 O3 Ea Hok Hag Hn HA HB Hk Hnc Hr Hg Hx Hc.
  assert (F : get_bundle so dg lo sr ot (fa_cache fb) k = Ok (bundle_read B1)).
  { pose proof Hok as Hok'. rewrite Ea in Hok'. apply Forall_app in Hok' as [K1 _]. assert (Hu := agree_uniform _ Hag Hok). rewrite Ea in Hu at 2. apply Forall_app in Hu as [U1 _].
    destruct (first_part dig f1 os1 a1 B1 steps1 _ O1 K1 U1 HA) as (b1 & Hne & _ & Es & _ & _ & T1). assert (Z : base_of (os1 (S (length (ast_commands a1)))) None None) by constructor.
    destruct (C13_step_chain _ _ _ _ _ _ _ _ Z HA) as (Hl & _). destruct (last steps1) as [s|] eqn:El.
    2:{ exfalso. apply last_None in El. subst. cbn in Hl. by destruct (ast_commands a1). }
    destruct (C13_last_step_is_result _ _ _ _ _ _ _ _ _ _ O1 K1 Z HA El Es) as [J S]; [by eapply uniform_consistent, T1|done|].
    destruct (step_of_or k steps1) as [(s' & Hs')|N].
    2:{ exfalso. apply (N s); [|congruence]. apply last_Some in El as [l' ->]. apply elem_of_app. right. left. }
    destruct (build_effect _ _ _ _ _ _ _ _ _ _ HB) as (_ & _ & _ & I & _). destruct (I k s' Hs') as (r & _ & _ & E). apply step_of_elem in Hs' as [Hin' Ek'].
    assert (Ej : bundle_json (bs_result s') = bundle_json (bs_result s)).
    { apply (steps_saids _ _ _ _ _ _ _ _ Z HA Hc); [done| |congruence]. apply last_Some in El as [l' ->]. apply elem_of_app. right. left. }
    rewrite fetch_entry, E, Ej, J. unfold read_bundle, parse_text. rewrite Ht by done. rewrite (bundle_round so dg lo sr Hd B1 Hr). done. }
  pose proof (C26_proof dig f1 os1 os2 os3 a1 a2 a12 B1 steps1 O1 O2 O3 Ea Hok Hag HA Hg) as R.
  unfold validate_ast, check_base. cbn [ast_commands with_from from_cmd]. rewrite F. cbn [obind fst snd ast_commands ast_version ast_cmeta ast_meta].
  rewrite resolve_plain by done. cbn [obind]. destruct a2 as [v2 c2 m2 e2]. unfold with_from. cbn [ast_version ast_cmeta ast_meta ast_commands] in *.
  destruct (from_ast dig f1 os2 (Some (bundle_read B1)) (Ast v2 c2 m2 e2)) as [B steps|es|] eqn:E2.
  - destruct (from_ast_said _ _ _ _ _ _ _ E2) as [j Ej]. unfold same_result in R. destruct (from_ast dig f1 os3 None a12) as [B' ss|es'|] eqn:E3; try done.
    + destruct (e2 !! "name") as [n|]; [|done]. rewrite Ej. cbn [unwrap_some obind]. rewrite mem_ins2. cbn [obind]. done.
  - unfold same_result in R. destruct (from_ast dig f1 os3 None a12) as [B' ss|es'|] eqn:E3; done.
  - unfold same_result in R. by destruct (from_ast dig f1 os3 None a12) as [B' ss|es'|] eqn:E3.
Qed.
Print Assumptions C26_builds_on_stored_base.

(** ** A FROM elsewhere than in first position is never accepted. *)
Theorem C26_later_from_rejected : forall digest from1 said_ok digits lang_ok standard_read of_text os a f pre r post,
  ast_commands a = pre ++ from_cmd r :: post -> pre <> [] ->
  forall x, validate_ast digest from1 said_ok digits lang_ok standard_read of_text os a f <> Ok x.
Proof.
  intros dig f1 so dg lo sr ot os a f pre r post E Hp [f' [B steps]] H. unfold validate_ast in H. inv_ok H. cbv zeta in H. inv_ok H.
  rename v into x. rename v0 into cs. rename E0 into Ec. rename E1 into Er.
  assert (In1 : from_cmd r ∈ ast_commands x.2).
  { unfold check_base in Ec. rewrite E in Ec. destruct pre as [|c0 pre]; [done|]. cbn [app] in Ec. assert (I0 : from_cmd r ∈ pre ++ from_cmd r :: post) by (apply elem_of_app; right; left).
    assert (I1 : from_cmd r ∈ ast_commands a) by (rewrite E; by right).
    destruct c0 as [[] [|[[s|n]]|]]; try done; try (injection Ec as <-; done). destruct (get_bundle _ _ _ _ _ _ _); try done; by injection Ec as <-. }
  assert (In2 : from_cmd r ∈ cs).
  { clear -In1 Er. revert cs Er. induction (ast_commands x.2) as [|c l IH]; intros cs Er; [by apply elem_of_nil in In1|]. cbn [resolve] in Er.
    inv_ok Er. inv_ok Er. injection Er as <-. apply elem_of_cons in In1 as [<-|In1].
    - unfold from_cmd in *. cbn in E. injection E as <-. left.
    - right. by apply IH. }
  destruct (from_ast _ _ _ _ _) as [B0 st0|es|] eqn:FA; try done.
  assert (K : forall st fr p, from_ast_base dig f1 os st fr p (Ast (ast_version x.2) cs (ast_cmeta x.2) (ast_meta x.2)) <> BuildOk B0 st0).
  { intros st fr p X. apply base_ok in X as (Hf & _). cbn [ast_commands] in Hf. clear -Hf In2. revert st Hf. induction cs as [|c l IH]; intros st Hf; [by apply elem_of_nil in In2|].
    cbn [outcomes] in Hf. apply Forall_cons in Hf as [Hf1 Hf2]. apply elem_of_cons in In2 as [<-|In2]; [done|by eapply IH]. }
  unfold from_ast in FA. destruct x.1 as [Bb|]; [|by eapply K]. destruct (load _ Bb); [by eapply K|done].
Qed.
Print Assumptions C26_later_from_rejected.

(** ** An unknown base is not reported: the commands are built from scratch. *)
Theorem C26_unknown_base_ignored : forall digest from1 said_ok digits lang_ok standard_read of_text os a f k,
  entry (fa_cache f) NsBundles k = None -> not_from_first a ->
  validate_ast digest from1 said_ok digits lang_ok standard_read of_text os (with_from (RSaid k) a) f =
  validate_ast digest from1 said_ok digits lang_ok standard_read of_text os a f.
Proof.
  intros dig f1 so dg lo sr ot os a f k He Hn. unfold validate_ast.
  assert (E1 : check_base so dg lo sr ot (fa_cache f) (with_from (RSaid k) a) = Ok (None, a)).
  { unfold check_base. cbn [ast_commands with_from from_cmd]. rewrite (C23_unknown_said so dg lo sr ot _ _ He). by destruct a. }
  assert (E2 : check_base so dg lo sr ot (fa_cache f) a = Ok (None, a)).
  { unfold check_base. destruct (ast_commands a) as [|[[] o] cs] eqn:E; try done. by destruct (Hn _ _ E). }
  by rewrite E1, E2.
Qed.
Print Assumptions C26_unknown_base_ignored.
(** "An unknown base is reported" is refuted. *)
Theorem C26_unknown_base_refuted : exists a k f' B, entry (fa_cache facade_new) NsBundles k = None /\
  ex_build_one (fun _ => ord1) (with_from (RSaid k) a) facade_new = Ok (f', B).
Proof.
  assert (H : match ex_build_one (fun _ => ord1) (with_from (RSaid "EUNKNOWN") ex_first_named) facade_new with Ok _ => true | _ => false end = true) by (vm_compute; reflexivity).
  destruct (ex_build_one (fun _ => ord1) (with_from (RSaid "EUNKNOWN") ex_first_named) facade_new) as [[f B]| |] eqn:E; [|discriminate H|discriminate H].
  exists ex_first_named, "EUNKNOWN", f, B. split; [vm_compute; reflexivity|exact E].
Qed.
Print Assumptions C26_unknown_base_refuted.
(** A base given by name aborts. *)
Theorem C26_named_base_panics : forall digest from1 said_ok digits lang_ok standard_read of_text os a f n,
  validate_ast digest from1 said_ok digits lang_ok standard_read of_text os (with_from (RName n) a) f = Panic.
Proof. done. Qed.
Print Assumptions C26_named_base_panics.

(** A concrete case: two commands, then two more FROM the stored result. *)
Definition ex_said_of (r : outcome (facade * (bundle * list bstep))) : option string := match r with Ok (_, (B, _)) => b_said B | _ => None end.
Example C26_example :
  match ex_ast None (mk_ast ex_first) with
  | BuildOk B1 steps1 => match ex_build B1 steps1 facade_new with
    | Ok (f1, _) => match b_said B1, ex_ast None (mk_ast (ex_first ++ ex_second)) with
      | Some k, BuildOk B12 _ => match ex_said_of (ex_validate (fun _ => ord1) (with_from (RSaid k) (mk_ast ex_second)) f1), b_said B12 with
        | Some x, Some y => String.eqb x y | _, _ => false end
      | _, _ => false end
    | _ => false end
  | _ => false end = true.
Proof. vm_compute. reflexivity. Qed.

(** Theorems about the facade: C40, C23, C22. *)
From Verif Require Import Base Condition_proofs Spec_Bundle Spec_Build Spec_Facade Props_Storage Props_Relations Codec_proofs Props_Codec BundleCodec_proofs Props_BundleCodec
  Props_Bundle Props_Build Props_Dag Tamper_proofs Inj_digest Facade_proofs.

(** ** C40: the operation record gives back the parent (no parent: the empty text) and the command. *)
Theorem C40_round_trip : forall said_ok to_text of_text parent c, text_ok to_text of_text ->
  command_ok c -> refs_valid said_ok c -> json_faithful said_ok c -> shallow (command_json c) -> (String.length (unwrap_or "" parent) <= 255)%nat ->
  exists r, op_encode to_text parent c = Ok r /\ op_decode said_ok of_text r = Ok (unwrap_or "" parent, c).
Proof.
  intros so tt ot parent c Ht Hc Hr Hf Hx Hl. apply (C19_round_trip so) in Hf as Hp; [|done..].
  assert (P : parse_text ot (command_parse so) "Failed to parse command" (tt (command_json c)) = Ok c) by (unfold parse_text; by rewrite Ht by done; rewrite Hp).
  destruct parent as [p|]; cbn in Hl.
  - exists (String (ascii_of_nat (String.length p)) p +:+ tt (command_json c))%string. unfold op_encode, len_prefixed.
    rewrite (proj2 (Nat.leb_le _ _) Hl). cbn [obind]. split; [done|]. cbn [op_decode append]. rewrite nat_ascii by done.
    rewrite split_at_app. rewrite P. done.
  - exists (String zero EmptyString +:+ tt (command_json c))%string. split; [done|]. cbn [append]. unfold op_decode. cbn [nat_of_ascii].
    change (nat_of_ascii zero) with 0. replace (split_at 0 (tt (command_json c))) with (Some (EmptyString, tt (command_json c))) by by destruct (tt _).
    by rewrite P.
Qed.
Print Assumptions C40_round_trip.
Theorem C40_injective : forall said_ok to_text of_text p p' c c' r, text_ok to_text of_text ->
  command_ok c -> refs_valid said_ok c -> json_faithful said_ok c -> shallow (command_json c) ->
  command_ok c' -> refs_valid said_ok c' -> json_faithful said_ok c' -> shallow (command_json c') ->
  op_encode to_text p c = Ok r -> op_encode to_text p' c' = Ok r -> unwrap_or "" p = unwrap_or "" p' /\ c = c'.
Proof.
  intros so tt ot p p' c c' r Ht Hc Hr Hf Hx Hc' Hr' Hf' Hx' E E'.
  assert (L : forall q d, op_encode tt q d = Ok r -> (String.length (unwrap_or "" q) <= 255)%nat).
  { intros [q|] d H; cbn; [|lia]. unfold op_encode, len_prefixed in H. destruct (Nat.leb_spec (String.length q) 255); [done|discriminate]. }
  destruct (C40_round_trip so tt ot p c) as (r1 & E1 & D1); try done; [by eapply L|]. destruct (C40_round_trip so tt ot p' c') as (r2 & E2 & D2); try done; [by eapply L|].
  rewrite E in E1. injection E1 as <-. rewrite E' in E2. injection E2 as <-. rewrite D1 in D2. by injection D2 as -> ->.
Qed.
Print Assumptions C40_injective.
Theorem C40_long_parent_panics : forall to_text p c, (255 < String.length p)%nat -> op_encode to_text (Some p) c = Panic.
Proof. intros tt p c H. unfold op_encode, len_prefixed. destruct (Nat.leb_spec (String.length p) 255); [lia|done]. Qed.
Print Assumptions C40_long_parent_panics.
Example C40_example : op_decode ex_said_ok ex_of_text (match op_encode ex_to_text (Some "EPARENT") C19_cmd with Ok r => r | _ => "" end) = Ok ("EPARENT", C19_cmd)
  /\ op_decode ex_said_ok ex_of_text (match op_encode ex_to_text None C19_cmd with Ok r => r | _ => "" end) = Ok ("", C19_cmd).
Proof. vm_compute. done. Qed.

(** ** C23 *)
Section C23.
Variable digest : json -> string.
Variables from1 to1 : string -> option string.
Variable listing : string -> list oobject -> list oobject.
Variables said_ok digits lang_ok : string -> bool.
Variable standard_read : string -> option string.
Variable to_text : json -> string.
Variable of_text : string -> option json.
Variable hash : string -> string.
Hypothesis Ht : text_ok to_text of_text.
Hypothesis Hd : digits_class digits.
Notation fetch := (get_bundle said_ok digits lang_ok standard_read of_text).

Lemma fetch_entry d k : fetch d k = match entry d NsBundles k with
  | Some t => read_bundle said_ok digits lang_ok standard_read of_text t
  | None => Err [("No OCA Bundle found for said: " +:+ k)%string] end.
Proof. unfold get_bundle. rewrite get_entry. by destruct (entry d NsBundles k). Qed.
Lemma fetch_written d k B : bundle_readable said_ok digits lang_ok B -> groups_sorted B -> shallow (bundle_json B) -> entry d NsBundles k = Some (to_text (bundle_json B)) ->
  exists B', fetch d k = Ok B' /\ bundle_json B' = bundle_json B /\ b_said B' = b_said B /\ bundle_same B B'.
Proof.
  intros Hr Hg Hx He. destruct (C06_round_trip said_ok digits lang_ok standard_read B Hd Hr Hg) as (B' & P & J & S & X & _).
  exists B'. rewrite fetch_entry, He. unfold read_bundle, parse_text. rewrite Ht by done. rewrite P. done.
Qed.
Lemma build_fetch B steps f f' B' : build from1 to1 listing to_text hash B steps f = Ok (f', B') ->
  (forall s, s ∈ steps -> bundle_readable said_ok digits lang_ok (bs_result s) /\ groups_sorted (bs_result s) /\ shallow (bundle_json (bs_result s))) ->
  (forall k s, step_of k steps s -> exists Bk, fetch (fa_cache f') k = Ok Bk /\ bundle_json Bk = bundle_json (bs_result s) /\
     b_said Bk = Some k /\ bundle_same (bs_result s) Bk) /\
  (forall k, (forall s, s ∈ steps -> b_said (bs_result s) <> Some k) -> fetch (fa_cache f') k = fetch (fa_cache f) k).
Proof.
  intros H Hs. destruct (build_effect _ _ _ _ _ _ _ _ _ _ H) as (_ & _ & _ & I & O). split.
  - intros k s Hk. destruct (I k s Hk) as (r & _ & _ & E). destruct Hk as (pre & post & -> & Es & _).
    destruct (Hs s) as (Hr & Hg & Hx); [apply elem_of_app; right; left|]. destruct (fetch_written _ _ _ Hr Hg Hx E) as (Bk & F & J & S & X).
    exists Bk. rewrite Es in S. done.
  - intros k Hn. rewrite !fetch_entry. by destruct (O k Hn) as [_ ->].
Qed.
End C23.
Lemma step_of_elem k l s : step_of k l s -> s ∈ l /\ b_said (bs_result s) = Some k.
Proof. intros (pre & post & -> & H & _). split; [apply elem_of_app; right; left|done]. Qed.

(** After a build every SAID of its steps fetches a bundle with the content of that step's bundle, and the returned
    bundle is the one given; all other SAIDs fetch what they did before. *)
Theorem C23_build_then_fetch : forall from1 to1 listing said_ok digits lang_ok standard_read to_text of_text hash B steps f f' B',
  text_ok to_text of_text -> digits_class digits ->
  build from1 to1 listing to_text hash B steps f = Ok (f', B') ->
  (forall s, s ∈ steps -> bundle_readable said_ok digits lang_ok (bs_result s) /\ groups_sorted (bs_result s) /\ shallow (bundle_json (bs_result s))) ->
  (forall s s', s ∈ steps -> s' ∈ steps -> b_said (bs_result s) = b_said (bs_result s') -> bundle_json (bs_result s) = bundle_json (bs_result s')) ->
  let fetch := get_bundle said_ok digits lang_ok standard_read of_text in
  B' = B /\
  (forall s, s ∈ steps -> exists k Bk, b_said (bs_result s) = Some k /\ fetch (fa_cache f') k = Ok Bk /\
     bundle_json Bk = bundle_json (bs_result s) /\ b_said Bk = Some k /\ bundle_same (bs_result s) Bk) /\
  (forall k, (forall s, s ∈ steps -> b_said (bs_result s) <> Some k) -> fetch (fa_cache f') k = fetch (fa_cache f) k).
Proof.
  intros f1 t1 ls so dg lo sr tt ot hs B steps f f' B' Ht Hd H Hs Hc fetch. destruct (build_effect _ _ _ _ _ _ _ _ _ _ H) as (-> & Hk & _).
  split; [done|]. destruct (build_fetch _ _ _ so dg lo sr _ ot _ Ht Hd _ _ _ _ _ H Hs) as [I O]. split; [|exact O].
  intros s Hin. destruct (Hk s Hin) as [k Ek]. exists k. destruct (step_of_or k steps) as [(s' & Hs')|N]; [|by destruct (N s Hin)].
  destruct (I k s' Hs') as (Bk & F & J & S & X). exists Bk. split; [done|]. split; [done|].
  apply step_of_elem in Hs' as [Hin' Ek']. assert (Ej : bundle_json (bs_result s') = bundle_json (bs_result s)) by (apply Hc; congruence).
  split; [congruence|]. split; [done|]. symmetry in Ej. rewrite <- J in Ej. unfold bundle_json in Ej. by apply bundle_json_same in Ej as [_ ?].
Qed.
Print Assumptions C23_build_then_fetch.
(** A SAID that was never stored is an error. *)
Theorem C23_unknown_said : forall said_ok digits lang_ok standard_read of_text d k, entry d NsBundles k = None ->
  get_bundle said_ok digits lang_ok standard_read of_text d k = Err [("No OCA Bundle found for said: " +:+ k)%string].
Proof. intros. rewrite fetch_entry. by rewrite H. Qed.
Print Assumptions C23_unknown_said.
(** What is stored carries the SAID it is stored under, after any build. *)
Theorem C23_consistent : forall from1 to1 listing said_ok digits lang_ok standard_read to_text of_text hash B steps f f' B',
  text_ok to_text of_text -> digits_class digits ->
  build from1 to1 listing to_text hash B steps f = Ok (f', B') ->
  (forall s, s ∈ steps -> bundle_readable said_ok digits lang_ok (bs_result s) /\ groups_sorted (bs_result s) /\ shallow (bundle_json (bs_result s))) ->
  consistent said_ok digits lang_ok standard_read of_text (fa_cache f) -> consistent said_ok digits lang_ok standard_read of_text (fa_cache f').
Proof.
  intros f1 t1 ls so dg lo sr tt ot hs B steps f f' B' Ht Hd H Hs Hc k Bk F.
  destruct (build_fetch _ _ _ so dg lo sr _ ot _ Ht Hd _ _ _ _ _ H Hs) as [I O]. destruct (step_of_or k steps) as [(s & Hk)|N].
  - destruct (I k s Hk) as (B2 & F2 & _ & S & _). rewrite F in F2. by injection F2 as ->.
  - rewrite (O k N) in F. by apply Hc.
Qed.
Print Assumptions C23_consistent.
(** Steps that come from [from_ast] with equal SAIDs have equal JSON, unless the digest collides on them. *)
Lemma steps_saids digest from1 os from a st B steps : base_of (os (S (length (ast_commands a)))) from st ->
  from_ast digest from1 os from a = BuildOk B steps ->
  (forall s s', s ∈ steps -> s' ∈ steps -> digest (bundle_json_d (JStr dummy_said) (bs_result s)) = digest (bundle_json_d (JStr dummy_said) (bs_result s')) ->
     bundle_json_d (JStr dummy_said) (bs_result s) = bundle_json_d (JStr dummy_said) (bs_result s')) ->
  forall s s', s ∈ steps -> s' ∈ steps -> b_said (bs_result s) = b_said (bs_result s') -> bundle_json (bs_result s) = bundle_json (bs_result s').
Proof.
  intros Hb H Hc. destruct (C13_step_chain _ _ _ _ _ _ _ _ Hb H) as (_ & X & _).
  assert (G : forall s, s ∈ steps -> b_said (bs_result s) = Some (digest (bundle_json_d (JStr dummy_said) (bs_result s)))).
  { intros s Hs. apply elem_of_list_lookup in Hs as [i Hi]. destruct (X i s Hi) as (_ & _ & b & _ & Hg).
    by destruct (C03_generated_saids_verify _ _ _ _ Hg) as [? _]. }
  intros s s' Hs Hs' E. pose proof E as E0. rewrite (G s Hs), (G s' Hs') in E. injection E as E. apply (Hc _ _ Hs Hs') in E.
  unfold bundle_json. rewrite <- E0. unfold bundle_json_d in *. apply (f_equal (fun j => match j with JObj l => l | _ => [] end)) in E.
  apply cons_inj in E as [_ E]. by rewrite E.
Qed.
(** From the AST: the result of a build with at least one command can be fetched by its own SAID. *)
Theorem C23_result_fetchable : forall digest from1 to1 listing said_ok digits lang_ok standard_read to_text of_text hash os f a f1 B steps f' B' st b,
  text_ok to_text of_text -> digits_class digits -> (forall i, order_ok (os i)) ->
  from_ast digest from1 os f a = BuildOk B steps ->
  build from1 to1 listing to_text hash B steps f1 = Ok (f', B') ->
  base_of (os (S (length (ast_commands a)))) f st -> Forall command_ok (ast_commands a) -> ast_commands a <> [] ->
  state_after from1 st (ast_commands a) = Some b -> frames_consistent b -> no_collision digest (b_ovs B) ->
  (forall s, s ∈ steps -> bundle_readable said_ok digits lang_ok (bs_result s) /\ groups_sorted (bs_result s) /\ shallow (bundle_json (bs_result s))) ->
  (forall s s', s ∈ steps -> s' ∈ steps -> digest (bundle_json_d (JStr dummy_said) (bs_result s)) = digest (bundle_json_d (JStr dummy_said) (bs_result s')) ->
     bundle_json_d (JStr dummy_said) (bs_result s) = bundle_json_d (JStr dummy_said) (bs_result s')) ->
  exists k Bk, b_said B' = Some k /\ get_bundle said_ok digits lang_ok standard_read of_text (fa_cache f') k = Ok Bk /\
    bundle_json Bk = bundle_json B' /\ bundle_same B' Bk.
Proof.
  intros dig f1 t1 ls so dg lo sr tt ot hs os fr a fc B steps f' B' st b Ht Hd Ho HA H Hb Hok Hne Hst Hf Hn Hs Hc.
  pose proof (steps_saids _ _ _ _ _ _ _ _ Hb HA Hc) as Hj.
  destruct (C23_build_then_fetch f1 t1 ls so dg lo sr tt ot hs B steps fc f' B' Ht Hd H Hs Hj) as (-> & I & _).
  destruct (C13_step_chain _ _ _ _ _ _ _ _ Hb HA) as (Hl & _). destruct (last steps) as [s|] eqn:El.
  - destruct (C13_last_step_is_result _ _ _ _ _ _ _ _ _ _ Ho Hok Hb HA El Hst Hf Hn) as [J S].
    destruct (I s) as (k & Bk & Ek & F & Ej & Es & _). { apply last_Some in El as [l' ->]. apply elem_of_app. right. left. }
    exists k, Bk. rewrite <- S. split; [done|]. split; [done|]. split; [congruence|]. assert (E : bundle_json B = bundle_json Bk) by congruence.
    unfold bundle_json in E. by apply bundle_json_same in E as [_ ?].
  - exfalso. apply last_None in El. subst. cbn in Hl. by destruct (ast_commands a).
Qed.
Print Assumptions C23_result_fetchable.

(** C32: the versioned build. *)
From Verif Require Import Base Spec_Bundle Spec_Build Spec_VBuild Upd_proofs Effect_proofs Command_proofs Bundle_proofs Box_proofs Determinism_proofs Run_proofs Build_proofs
  Incremental_proofs Condition_proofs Tamper_proofs Facade_proofs Spec_BundleCodec BundleCodec_proofs Props_BundleCodec Props_Bundle Props_Build Props_Codec Props_Dag Props_Facade Props_History Stored_proofs Load_proofs VBuild_proofs Inj_digest Text Checkers.

(** Rejected commands drop the state in both of two similar runs. *)
Lemma run_restarting from1 M cs : forall b1 b2, tracked M b1 b2 -> Forall command_ok cs -> Forall (cmd_uniform M) cs ->
  Forall2 same_outcome (outcomes_restarting from1 (Some b1) cs) (outcomes_restarting from1 (Some b2) cs) /\
  exists b1' b2', state_restarting from1 (Some b1) cs = Some b1' /\ state_restarting from1 (Some b2) cs = Some b2' /\ tracked M b1' b2'.
Proof.
  induction cs as [|c cs IH]; intros b1 b2 T Hc Hu; [split; [constructor|by exists b1, b2]|].
  apply Forall_cons in Hc as [Hc Hcs]. apply Forall_cons in Hu as [Hu Hus].
  destruct (apply_tracked from1 M b1 b2 c T Hc Hu) as (H & b1' & b2' & E1 & E2 & T').
  cbn [outcomes_restarting]. unfold state_restarting. cbn [fold_left]. fold (state_restarting from1).
  destruct (apply_command from1 (Some b1) c) as [x1|e1|] eqn:A1, (apply_command from1 (Some b2) c) as [x2|e2|] eqn:A2; try done; cbn [restart after] in *.
  - injection E1 as ->. injection E2 as ->. destruct (IH b1' b2' T' Hcs Hus) as (G1 & G2). split; [by constructor|done].
  - destruct (IH box_new box_new (new_tracked M) Hcs Hus) as (G1 & G2). split; [by constructor|done].
  - destruct (IH box_new box_new (new_tracked M) Hcs Hus) as (G1 & G2). split; [by constructor|done].
Qed.
Lemma fresh_restarting from1 c cs : state_restarting from1 None (c :: cs) = state_restarting from1 (Some box_new) (c :: cs).
Proof. done. Qed.
Lemma tracked_restarting from1 M cs b : Forall command_ok cs -> Forall (cmd_uniform M) cs -> state_restarting from1 None cs = Some b -> tracked M b b.
Proof.
  intros Hc Hu E. destruct cs as [|c cs]; [done|]. rewrite fresh_restarting in E.
  destruct (run_restarting from1 M (c :: cs) _ _ (new_tracked M) Hc Hu) as (_ & x & y & X & Y & T). rewrite E in X, Y. injection X as <-. by injection Y as <-.
Qed.
Lemma app_restarting from1 st c1 c2 : state_restarting from1 st (c1 ++ c2) = state_restarting from1 (state_restarting from1 st c1) c2.
Proof. apply fold_left_app. Qed.
Lemma outcomes_restarting_app from1 c1 c2 : forall st, outcomes_restarting from1 st (c1 ++ c2) = outcomes_restarting from1 st c1 ++ outcomes_restarting from1 (state_restarting from1 st c1) c2.
Proof. induction c1 as [|c c1 IH]; intros st; [done|]. cbn [app outcomes_restarting]. by rewrite IH. Qed.
(** Without rejections this is the ordinary run. *)
Lemma no_rejection from1 cs : forall st, Forall (fun r => is_ok r = true) (outcomes from1 st cs) ->
  outcomes_restarting from1 st cs = outcomes from1 st cs /\ state_restarting from1 st cs = state_after from1 st cs.
Proof.
  induction cs as [|c cs IH]; intros st H; [done|]. cbn [outcomes outcomes_restarting] in *. apply Forall_cons in H as [H1 H2].
  unfold state_restarting, state_after. cbn [fold_left]. fold (state_restarting from1). fold (state_after from1).
  destruct (apply_command from1 st c) as [b|e|]; try done. cbn [after restart] in *. destruct (IH _ H2) as [-> E]. split; [done|exact E].
Qed.

Section C32.
Variable digest : json -> string.
Variable from1 : string -> option string.
Variables said_ok digits lang_ok : string -> bool.
Variable standard_read : string -> option string.
Variable to_text : json -> string.
Variable of_text : string -> option json.
Notation vbuild := (versioned_build digest from1 said_ok digits lang_ok standard_read to_text of_text).

Lemma success os cs m : plain_saids digest -> (forall i n, order_ok (os i n)) -> no_from cs -> Forall command_ok cs ->
  (exists d B, vbuild os cs (Some m) = (d, Ok B)) <->
  cs <> [] /\ (forall r, r ∈ outcomes_restarting from1 None cs -> is_panic r = false) /\ forall c, c ∈ cs -> (String.length (to_text (command_json c)) <= 255)%nat.
Proof.
  intros Hp Ho Hn Hc. split.
  - intros (d & B & H). split; [by intros ->|]. apply vloop_ok in H as (ss & m' & _ & Hch & _ & _ & Hpa & _); [|done|done]. split; [by apply Forall_forall|]. by eapply vchain_lengths.
  - intros (Hne & Hpa & Hl). apply vloop_total; try done; [by right|]. by apply Forall_forall.
Qed.
Lemma records os cs m d B : plain_saids digest -> (forall i n, order_ok (os i n)) -> no_from cs -> Forall command_ok cs -> framings_agree cs ->
  (forall B', run_bundle digest from1 os cs B' -> no_collision digest (b_ovs B')) ->
  vbuild os cs (Some m) = (d, Ok B) ->
  exists steps m', d = Some m' /\ length steps = length cs /\
  (forall i s, steps !! i = Some s -> cs !! i = Some (bs_cmd s) /\
     bs_parent s = match i with 0 => None | S j => p ← steps !! j; b_said (bs_result p) end /\
     exists b, state_restarting from1 None (take (S i) cs) = Some b /\ generate_bundle digest (os i 0) b = Some (bs_result s)) /\
  recorded to_text m m' steps /\
  exists b, state_restarting from1 None cs = Some b /\ generate_bundle digest (os (length cs) 0) b = Some B.
Proof.
  intros Hp Ho Hn Hc Hag Hnc H. apply vloop_ok in H as (ss & m' & -> & Hch & Hr & _ & _ & Hb); [|done|done].
  apply vchain_index in Hch as [L X]. exists ss, m'. split; [done|]. split; [done|]. split; [|done].
  intros i s Hi. destruct (X i s Hi) as (E & P & b & Eb & G). cbn [Nat.add] in *. split; [done|]. split; [|by exists b].
  destruct i as [|j]; [exact P|]. destruct (ss !! j) as [p|] eqn:Ej.
  2:{ apply lookup_ge_None in Ej. apply lookup_lt_Some in Hi. lia. }
  destruct (X j p Ej) as (_ & _ & b' & Eb' & G'). rewrite Eb' in P. destruct P as (P & GP & ->). cbn.
  assert (Hu := agree_uniform _ Hag Hc). assert (T : tracked (M_of cs) b' b').
  { apply (tracked_restarting from1 _ (take (S j) cs)); [by apply Forall_take|by apply Forall_take|done]. }
  assert (Bo : box_ok b') by apply api_box_ok, T.
  destruct (bundle_json_equiv digest (os j 0) (os (S j) 1) b' b' (bs_result p) P) as (_ & -> & _); try done.
  - eapply uniform_consistent, T.
  - apply Hnc. by exists (S j), j, b'.
Qed.
Lemma same_json B B' : b_said B = Some (digest (bundle_json_d (JStr dummy_said) B)) -> b_said B' = b_said B -> bundle_json_d (JStr dummy_said) B = bundle_json_d (JStr dummy_said) B' ->
  bundle_json B = bundle_json B'.
Proof.
  intros G E0 E. unfold bundle_json. rewrite <- E0. unfold bundle_json_d in *. apply (f_equal (fun j => match j with JObj l => l | _ => [] end)) in E.
  apply cons_inj in E as [_ E]. by rewrite E.
Qed.
Lemma resume os1 os2 os3 c1 c2 m m1 B1 k : text_ok to_text of_text -> digits_class digits -> plain_saids digest ->
  (forall i n, order_ok (os1 i n)) -> (forall i n, order_ok (os2 i n)) -> (forall i n, order_ok (os3 i n)) ->
  no_from (c1 ++ c2) -> Forall command_ok (c1 ++ c2) -> framings_agree (c1 ++ c2) ->
  vbuild os1 c1 (Some m) = (Some m1, Ok B1) -> b_said B1 = Some k -> run_injective digest from1 os1 c1 -> no_collision digest (b_ovs B1) ->
  bundle_readable said_ok digits lang_ok B1 -> groups_sorted B1 -> shallow (bundle_json B1) ->
  match vbuild os2 (from_command (RSaid k) :: c2) (Some m1), vbuild os3 (c1 ++ c2) (Some m) with
  | (_, Ok B), (_, Ok B') => no_collision digest (b_ovs B) -> bundle_json B = bundle_json B' /\ b_said B = b_said B'
  | (_, Panic), (_, Panic) => True
  | _, _ => False
  end.
Proof.
  intros Ht Hd Hp O1 O2 O3 Hn Hc Hag H1 Hk Hinj Hnc1 Hr Hg Hsh. assert (Hu := agree_uniform _ Hag Hc). set (M := M_of (c1 ++ c2)) in *.
  apply Forall_app in Hc as [K1 K2]. apply Forall_app in Hu as [U1 U2].
  assert (N1 : no_from c1) by (intros c Hin; apply Hn, elem_of_app; by left). assert (N2 : no_from c2) by (intros c Hin; apply Hn, elem_of_app; by right).
  pose proof H1 as H1'. apply vloop_ok in H1' as (ss & m' & [= <-] & Hch & Hrec & Hss & Hpa1 & b1 & Eb1 & G1); [|done|done].
  pose proof (vchain_lengths _ _ _ _ _ _ _ _ Hch) as L1. apply vchain_index in Hch as [L X].
  assert (T1 := tracked_restarting from1 M c1 b1 K1 U1 Eb1).
  assert (Hne : c1 <> []) by by intros ->.
  assert (F : m1 !! vbundle_key k = Some (to_text (bundle_json B1))).
  { assert (RB : run_bundle digest from1 os1 c1 B1) by (exists (length c1), (0 + length c1), b1; by rewrite firstn_all).
    assert (RS : forall s, s ∈ ss -> run_bundle digest from1 os1 c1 (bs_result s)).
    { intros s Hs. apply elem_of_list_lookup in Hs as [i Hi]. destruct (X i s Hi) as (_ & _ & b & Eb & G). by exists (S i), (0 + i), b. }
    destruct (last_with_or k ss) as [(s & Hs)|N].
    - pose proof (rc_bundle _ _ _ _ Hrec k s Hs) as E. destruct Hs as (pre & post & Ess & Es & _). change (vbundle_key k) with ("oca." +:+ k)%string. rewrite E. do 2 f_equal.
      assert (Hin : s ∈ ss) by (rewrite Ess; apply elem_of_app; right; left).
      assert (S1 : forall B, run_bundle digest from1 os1 c1 B -> b_said B = Some (digest (bundle_json_d (JStr dummy_said) B))) by (intros B (i & n & b & _ & G); by apply (gen_said _ _ _ _ G)).
      symmetry. apply same_json; [by apply S1|congruence|]. apply Hinj; [done|by apply RS|]. rewrite (S1 B1) in Hk by done. rewrite (S1 (bs_result s)) in Es by by apply RS. congruence.
    - exfalso. destruct (last ss) as [s|] eqn:El.
      2:{ apply last_None in El. subst. by destruct c1. }
      assert (Hin : s ∈ ss) by (apply last_Some in El as [l' ->]; apply elem_of_app; right; left).
      rewrite last_lookup in El. destruct (X _ _ El) as (_ & _ & b & Eb & G). rewrite L in Eb. replace (S (Nat.pred (length c1))) with (length c1) in Eb by (destruct c1; [done|cbn; lia]).
      rewrite firstn_all, Eb1 in Eb. injection Eb as <-.
      assert (Bo : box_ok b1) by apply api_box_ok, T1.
      destruct (bundle_json_equiv digest (os1 (0 + length c1) 0) (os1 (0 + Nat.pred (length ss)) 0) b1 b1 B1 (bs_result s)) as (_ & E & _); try done; [eapply uniform_consistent, T1|].
      apply (N s Hin). congruence. }
  assert (R1 : bundle_right b1 B1).
  { destruct (C02_proof (os1 (0 + length c1) 0) (O1 _ _) digest b1 (api_box_ok _ (tk_api1 M _ _ T1))) as (B1' & G1' & R1). rewrite G1 in G1'. by injection G1' as <-. }
  destruct (stored_tracked M (os2 0 0) B1 b1 (O2 _ _) T1 R1 Hg) as (b1' & Lb & T).
  destruct (run_restarting from1 M c2 b1 b1' T K2 U2) as (Fo & x & y & Ex & Ey & Txy).
  assert (E2 : vbuild os2 (from_command (RSaid k) :: c2) (Some m1) = vloop digest from1 said_ok digits lang_ok standard_read to_text of_text os2 1 (Some b1') c2 (Some m1)).
  { unfold versioned_build. cbn [vloop]. unfold vstep, from_command, vfrom. cbn [cmd_kind cmd_obj v_get obind]. rewrite F. unfold read_bundle, parse_text.
    rewrite Ht by done. rewrite (bundle_round said_ok digits lang_ok standard_read Hd B1 Hr). by rewrite Lb. }
  assert (Ex' : state_restarting from1 None (c1 ++ c2) = Some x) by by rewrite app_restarting, Eb1.
  assert (Eo : outcomes_restarting from1 None (c1 ++ c2) = outcomes_restarting from1 None c1 ++ outcomes_restarting from1 (Some b1) c2) by by rewrite outcomes_restarting_app, Eb1.
  assert (Sb : Run_proofs.st_ok (Some b1')) by (intros ? [= <-]; apply T).
  assert (Kc : Forall command_ok (c1 ++ c2)) by by apply Forall_app.
  rewrite E2. destruct (vloop digest from1 said_ok digits lang_ok standard_read to_text of_text os2 1 (Some b1') c2 (Some m1)) as [d2 [B2|e2|]] eqn:V2.
  - apply vloop_ok in V2 as (ss2 & m2 & _ & Hch2 & _ & _ & Hpa2 & y' & Ey' & Gy); [|done|done]. rewrite Ey in Ey'. injection Ey' as <-.
    pose proof (vchain_lengths _ _ _ _ _ _ _ _ Hch2) as L2.
    destruct (vbuild os3 (c1 ++ c2) (Some m)) as [d3 [B3|e3|]] eqn:V3.
    + apply vloop_ok in V3 as (ss3 & m3 & _ & _ & _ & _ & _ & x' & Ex'' & Gx); [|done|done]. rewrite Ex' in Ex''. injection Ex'' as <-. intros Hnc.
      assert (Q : box_equiv y x) by (eapply sim_equiv; [apply box_sim_sym, Txy|apply Txy|apply Txy]).
      destruct (bundle_json_equiv digest (os2 (1 + length c2) 0) (os3 (0 + length (c1 ++ c2)) 0) y x B2 B3) as (J1 & J2 & _); try done.
      * by apply api_box_ok, Txy.
      * by apply api_box_ok, Txy.
      * eapply uniform_consistent, Txy.
    + exfalso. by apply vloop_never_err in V3.
    + destruct (proj2 (success os3 (c1 ++ c2) m Hp O3 Hn Kc)) as (d & B & V); [|by rewrite V3 in V]. split; [by destruct c1|]. split.
      * apply Forall_forall. rewrite Eo. apply Forall_app. split; [done|]. by apply (same_panics _ _ Fo).
      * intros c Hin. apply elem_of_app in Hin as [Hin|Hin]; [by apply L1|by apply L2].
  - exfalso. by apply vloop_never_err in V2.
  - destruct (vbuild os3 (c1 ++ c2) (Some m)) as [d3 [B3|e3|]] eqn:V3; [|by apply vloop_never_err in V3|done].
    apply vloop_ok in V3 as (ss3 & m3 & _ & Hch3 & _ & _ & Hpa3 & _); [|done|done]. pose proof (vchain_lengths _ _ _ _ _ _ _ _ Hch3) as L3.
    rewrite Eo in Hpa3. apply Forall_app in Hpa3 as [_ Hpa3]. apply (same_panics _ _ Fo) in Hpa3.
    destruct (vloop_total digest from1 said_ok digits lang_ok standard_read to_text of_text os2 c2 Hp O2 N2 K2) with (i := 1) (st := Some b1') (m := m1) as (d & B & V); try done; [|by left; eexists|by rewrite V2 in V].
    intros c Hin. apply L3, elem_of_app. by right.
Qed.
End C32.

(** ** When it succeeds *)
(** Commands other than FROM, an opened store: a bundle comes back exactly when there is a command, none of the commands panics,
    and every command fits in 255 bytes of JSON. *)
Theorem C32_success_exactly : forall digest from1 said_ok digits lang_ok standard_read to_text of_text os cs m,
  plain_saids digest -> (forall i n, order_ok (os i n)) -> no_from cs -> Forall command_ok cs ->
  (exists d B, versioned_build digest from1 said_ok digits lang_ok standard_read to_text of_text os cs (Some m) = (d, Ok B)) <->
  cs <> [] /\ (forall r, r ∈ outcomes_restarting from1 None cs -> is_panic r = false) /\ forall c, c ∈ cs -> (String.length (to_text (command_json c)) <= 255)%nat.
Proof. intros. by apply success. Qed.
Print Assumptions C32_success_exactly.
(** ** What is recorded *)
(** One step per command, chained by SAIDs; step [i] holds the bundle of the state after commands 0..i; for every SAID the store
    has the operation record (parent and command, each with a length byte) and the bundle of the last step with it; every other
    key is as before. *)
Theorem C32_operations_recorded : forall digest from1 said_ok digits lang_ok standard_read to_text of_text os cs m d B,
  plain_saids digest -> (forall i n, order_ok (os i n)) -> no_from cs -> Forall command_ok cs -> framings_agree cs ->
  (forall B', run_bundle digest from1 os cs B' -> no_collision digest (b_ovs B')) ->
  versioned_build digest from1 said_ok digits lang_ok standard_read to_text of_text os cs (Some m) = (d, Ok B) ->
  exists steps m', d = Some m' /\ length steps = length cs /\
  (forall i s, steps !! i = Some s -> cs !! i = Some (bs_cmd s) /\
     bs_parent s = match i with 0 => None | S j => p ← steps !! j; b_said (bs_result p) end /\
     exists b, state_restarting from1 None (take (S i) cs) = Some b /\ generate_bundle digest (os i 0) b = Some (bs_result s)) /\
  recorded to_text m m' steps /\
  exists b, state_restarting from1 None cs = Some b /\ generate_bundle digest (os (length cs) 0) b = Some B.
Proof. intros. by eapply records. Qed.
Print Assumptions C32_operations_recorded.
(** A record determines the parent and the command's JSON. *)
Lemma counted_inj p p' t t' : (String.length p <= 255)%nat -> (String.length p' <= 255)%nat -> (counted p +:+ counted t)%string = (counted p' +:+ counted t')%string -> p = p' /\ t = t'.
Proof.
  intros L L' E. cbn [counted append] in E. injection E as E1 E2. assert (El : String.length p = String.length p').
  { rewrite <- (nat_ascii_embedding (String.length p)), <- (nat_ascii_embedding (String.length p')) by lia. by rewrite E1. }
  clear E1 L L'. revert p' El E2. induction p as [|c p IH]; intros [|c' p'] El E; try done.
  - cbn in E. by injection E as _ ->.
  - cbn in E. injection E as -> E. cbn in El. injection El as El. destruct (IH p' El E) as [-> ->]. done.
Qed.
Theorem C32_record_determines : forall to_text p p' c c', (forall j j' : json, to_text j = to_text j' -> j = j') -> (String.length p <= 255)%nat -> (String.length p' <= 255)%nat ->
  (counted p +:+ counted (to_text (command_json c)))%string = (counted p' +:+ counted (to_text (command_json c')))%string -> p = p' /\ command_json c = command_json c'.
Proof.
  intros tt p p' c c' Ht L L' E. apply counted_inj in E as [-> E]; [|done..]. split; [done|]. by apply Ht.
Qed.
Print Assumptions C32_record_determines.
(** ** Same result as the ordinary build, when that succeeds *)
Theorem C32_agrees_with_build : forall digest from1 said_ok digits lang_ok standard_read to_text of_text os os' a m d B B' steps,
  plain_saids digest -> (forall i n, order_ok (os i n)) -> (forall i, order_ok (os' i)) -> no_from (ast_commands a) -> Forall command_ok (ast_commands a) -> framings_agree (ast_commands a) ->
  versioned_build digest from1 said_ok digits lang_ok standard_read to_text of_text os (ast_commands a) (Some m) = (d, Ok B) ->
  from_ast digest from1 os' None a = BuildOk B' steps -> no_collision digest (b_ovs B) ->
  bundle_json B = bundle_json B' /\ b_said B = b_said B'.
Proof.
  intros dig f1 so dg lo sr tt ot os os' a m d B B' steps Hp Ho Ho' Hn Hc Hag HV HA Hnc. assert (Hu := agree_uniform _ Hag Hc).
  destruct (first_part dig f1 os' a B' steps _ Ho' Hc Hu HA) as (b1 & Hne & Hok & Es & G & R & T).
  apply vloop_ok in HV as (ss & m' & _ & _ & _ & _ & _ & b & Eb & Gb); [|done|done]. destruct (no_rejection f1 _ _ Hok) as [_ E]. rewrite E, Es in Eb. injection Eb as <-.
  assert (Bo : box_ok b1) by apply api_box_ok, T. cbn [Nat.add] in Gb.
  destruct (bundle_json_equiv dig (os (length (ast_commands a)) 0) (os' (length (ast_commands a))) b1 b1 B B') as (J & S & _); try done. eapply uniform_consistent, T.
Qed.
Print Assumptions C32_agrees_with_build.
(** ** Rejected commands *)
(** A rejected command is never reported ... *)
Theorem C32_errors_never_reported : forall digest from1 said_ok digits lang_ok standard_read to_text of_text os cs m d e, no_from cs ->
  versioned_build digest from1 said_ok digits lang_ok standard_read to_text of_text os cs (Some m) <> (d, Err e).
Proof. intros. by apply vloop_never_err. Qed.
Print Assumptions C32_errors_never_reported.
(** ... and it discards everything: the result is that of the commands after it. *)
Theorem C32_failed_command_discards : forall digest from1 said_ok digits lang_ok standard_read to_text of_text os pre c post es m d B,
  plain_saids digest -> no_from (pre ++ c :: post) -> apply_command from1 (state_restarting from1 None pre) c = Err es ->
  versioned_build digest from1 said_ok digits lang_ok standard_read to_text of_text os (pre ++ c :: post) (Some m) = (d, Ok B) ->
  exists b, state_restarting from1 (Some box_new) post = Some b /\ generate_bundle digest (os (length (pre ++ c :: post)) 0) b = Some B.
Proof.
  intros dig f1 so dg lo sr tt ot os pre c post es m d B Hp Hn He HV. apply vloop_ok in HV as (ss & m' & _ & _ & _ & _ & _ & b & Eb & Gb); [|done|done].
  exists b. split; [|exact Gb]. rewrite app_restarting in Eb. unfold state_restarting at 1 in Eb. cbn [fold_left] in Eb. rewrite He in Eb. exact Eb.
Qed.
Print Assumptions C32_failed_command_discards.
(** ** Failures *)
(** When a command panics or errs, the store holds exactly what the build of the commands before it leaves. *)
Theorem C32_failure_keeps_earlier_steps : forall digest from1 said_ok digits lang_ok standard_read to_text of_text os pre c post m d B d' x,
  plain_saids digest -> (forall i n, order_ok (os i n)) -> no_from pre -> Forall command_ok (pre ++ [c]) ->
  versioned_build digest from1 said_ok digits lang_ok standard_read to_text of_text os pre (Some m) = (d, Ok B) ->
  versioned_build digest from1 said_ok digits lang_ok standard_read to_text of_text os (pre ++ [c]) (Some m) = (d', x) -> is_ok x = false ->
  d' = d /\ versioned_build digest from1 said_ok digits lang_ok standard_read to_text of_text os (pre ++ c :: post) (Some m) = (d, x).
Proof.
  intros dig f1 so dg lo sr tt ot os pre c post m d B d' x Hp Ho Hn Hc HV HC Hx.
  pose proof HV as HV'. apply vloop_ok in HV' as (ss & m' & -> & _ & _ & _ & _ & b & Eb & _); [|done|done].
  unfold versioned_build in *. rewrite (vloop_prefix dig f1 so dg lo sr tt ot os pre c [] 0 None (Some m) (Some m') b B HV Hn ltac:(by eexists) Eb) in HC.
  rewrite (vloop_prefix dig f1 so dg lo sr tt ot os pre c post 0 None (Some m) (Some m') b B HV Hn ltac:(by eexists) Eb). cbn [Nat.add] in *.
  apply Forall_app in Hc as [Hpre Hc]. apply Forall_cons in Hc as [Hc _].
  assert (Sb : Run_proofs.st_ok (Some b)).
  { rewrite <- Eb. clear -Hpre. assert (Z : Run_proofs.st_ok None) by done. revert Z. generalize (@None obox). induction Hpre as [|y l Hy _ IH]; intros st Z; [done|].
    unfold state_restarting. cbn [fold_left]. apply IH. by apply restart_ok. }
  destruct (vstep dig f1 so dg lo sr tt ot os (length pre) (Some b) c (Some m')) as [d2 [b2|e|]] eqn:E.
  - exfalso. assert (Sb2 : api_box b2).
    { assert (cmd_kind c = CFrom \/ cmd_kind c <> CFrom) as [K|K] by (destruct (cmd_kind c); first [by left|by right]).
      - unfold vstep in E. rewrite K in E. injection E as _ E. unfold vfrom in E. destruct (cmd_obj c) as [|[[s|s]]|]; try done. cbn [v_get obind] in E.
        destruct (m' !! vbundle_key s) as [t|]; [|done]. destruct (read_bundle so dg lo sr ot t) as [B'|e|]; try done. apply unwrap_ok in E. by eapply Load_proofs.load_api in E.
      - apply vstep_ok in E as (E & _); [|done]. apply vbox_restart in E as [_ E]. by apply (restart_ok f1 (Some b) c Hc Sb). }
    cbn [vloop] in HC. cbn in HC. unfold vgenerate in HC.
    destruct (C02_proof (os (S (length pre)) 0) (Ho _ _) dig b2 (api_box_ok b2 Sb2)) as (B2 & G2 & _). rewrite G2 in HC. cbn in HC. injection HC as <- <-. done.
  - injection HC as <- <-. assert (d2 = Some m') as ->; [|done]. unfold vstep in E. destruct (cmd_kind c);
      try (destruct (vwork dig f1 tt (os (length pre) 0) (os (length pre) 1) (Some b) c) as [[[[? ?] ?] ?]|?|]); try done; apply (f_equal fst) in E; by cbn in E.
  - injection HC as <- <-. apply vstep_panic_db in E as ->. done.
Qed.
Print Assumptions C32_failure_keeps_earlier_steps.
(** A command of more than 255 bytes of JSON panics, whatever it says (no matter that it applies). *)
Theorem C32_long_command_panics : forall digest from1 said_ok digits lang_ok standard_read to_text of_text os cs m c,
  plain_saids digest -> no_from cs -> c ∈ cs -> (255 < String.length (to_text (command_json c)))%nat ->
  exists d, versioned_build digest from1 said_ok digits lang_ok standard_read to_text of_text os cs (Some m) = (d, Panic).
Proof.
  intros dig f1 so dg lo sr tt ot os cs m c Hp Hn Hin Hl. unfold versioned_build. destruct (vloop dig f1 so dg lo sr tt ot os 0 None cs (Some m)) as [d [B|e|]] eqn:E.
  - apply vloop_ok in E as (ss & m' & _ & Hch & _); [|done|done]. pose proof (vchain_lengths _ _ _ _ _ _ _ _ Hch c Hin). lia.
  - by apply vloop_never_err in E.
  - by exists d.
Qed.
Print Assumptions C32_long_command_panics.
Theorem C32_no_commands_panic : forall digest from1 said_ok digits lang_ok standard_read to_text of_text os d,
  versioned_build digest from1 said_ok digits lang_ok standard_read to_text of_text os [] d = (d, Panic).
Proof. done. Qed.
Print Assumptions C32_no_commands_panic.
(** A store that could not be opened: nothing is built. *)
Theorem C32_closed_store : forall digest from1 said_ok digits lang_ok standard_read to_text of_text os cs d x,
  versioned_build digest from1 said_ok digits lang_ok standard_read to_text of_text os cs None = (d, x) -> d = None /\ is_ok x = false.
Proof.
  intros dig f1 so dg lo sr tt ot os cs d x. unfold versioned_build. destruct cs as [|c cs]; [by intros [= <- <-]|]. cbn [vloop].
  assert (X : exists y, vstep dig f1 so dg lo sr tt ot os 0 None c None = (None, y) /\ is_ok y = false).
  { unfold vstep. assert (W : exists y : outcome obox, match vwork dig f1 tt (os 0 0) (os 0 1) None c with
        | Ok (b, s, r, B) => match v_insert (vop_key s) r None with
            | Ok d1 => match v_insert (vbundle_key s) (tt (bundle_json B)) d1 with Ok d2 => (d2, Ok b) | Err e => (d1, Err e) | Panic => (d1, Panic) end
            | Err e => (None, Err e) | Panic => (None, Panic) end
        | Err e => (None, Err e) | Panic => (None, Panic) end = (None, y) /\ is_ok y = false).
    { destruct (vwork dig f1 tt (os 0 0) (os 0 1) None c) as [[[[? ?] ?] ?]|?|]; cbn; by eexists. }
    destruct (cmd_kind c); try exact W. eexists. split; [reflexivity|]. unfold vfrom. by destruct (cmd_obj c) as [|[[s|s]]|]. }
  destruct X as ([b|e|] & -> & Hy); [done|intros [= <- <-]; done..].
Qed.
Print Assumptions C32_closed_store.
(** ** FROM *)
(** Building, and later "FROM <its SAID>" with further commands, is building all the commands at once: same bundle, or both panic. *)
Theorem C32_from_resumes : forall digest from1 said_ok digits lang_ok standard_read to_text of_text os1 os2 os3 c1 c2 m m1 B1 k,
  text_ok to_text of_text -> digits_class digits -> plain_saids digest ->
  (forall i n, order_ok (os1 i n)) -> (forall i n, order_ok (os2 i n)) -> (forall i n, order_ok (os3 i n)) ->
  no_from (c1 ++ c2) -> Forall command_ok (c1 ++ c2) -> framings_agree (c1 ++ c2) ->
  versioned_build digest from1 said_ok digits lang_ok standard_read to_text of_text os1 c1 (Some m) = (Some m1, Ok B1) -> b_said B1 = Some k ->
  run_injective digest from1 os1 c1 -> no_collision digest (b_ovs B1) ->
  bundle_readable said_ok digits lang_ok B1 -> groups_sorted B1 -> shallow (bundle_json B1) ->
  match versioned_build digest from1 said_ok digits lang_ok standard_read to_text of_text os2 (from_command (RSaid k) :: c2) (Some m1),
        versioned_build digest from1 said_ok digits lang_ok standard_read to_text of_text os3 (c1 ++ c2) (Some m) with
  | (_, Ok B), (_, Ok B') => no_collision digest (b_ovs B) -> bundle_json B = bundle_json B' /\ b_said B = b_said B'
  | (_, Panic), (_, Panic) => True
  | _, _ => False
  end.
Proof. intros dig f1 so dg lo sr tt ot os1 os2 os3 c1 c2 m m1 B1 k. exact (resume dig f1 so dg lo sr tt ot os1 os2 os3 c1 c2 m m1 B1 k). Qed.
Print Assumptions C32_from_resumes.
(** FROM a name, or a SAID that is not stored, ends the build with an error. *)
Theorem C32_from_unresolved : forall digest from1 said_ok digits lang_ok standard_read to_text of_text os cs m,
  (forall n, versioned_build digest from1 said_ok digits lang_ok standard_read to_text of_text os (from_command (RName n) :: cs) (Some m) = (Some m, Err ["Not implemented"])) /\
  (forall k, m !! ("oca." +:+ k)%string = None ->
     versioned_build digest from1 said_ok digits lang_ok standard_read to_text of_text os (from_command (RSaid k) :: cs) (Some m) = (Some m, Err ["OCA not found"])).
Proof.
  intros dig f1 so dg lo sr tt ot os cs m. split; [done|]. intros k H. unfold versioned_build. cbn [vloop]. unfold vstep, from_command, vfrom. cbn [cmd_kind cmd_obj v_get obind].
  change (vbundle_key k) with ("oca." +:+ k)%string. by rewrite H.
Qed.
Print Assumptions C32_from_unresolved.

(** ** Concrete cases *)
Definition ex_vbuild := versioned_build ex_digest ex_from1 ex_said_ok ascii_digits ex_lang_ok (fun _ => None) ex_to_text ex_of_text (fun _ _ => ord1).
(** The documented expectation, a rejected command does not discard the state built so far, is refuted: attribute "a" is lost, the build reports
    success (the ordinary build reports the error). *)
Definition reject_cmds : list command := [add_attrs [("a", NVal TText)]; add_ov KUnit [("b", VVal "g")] []; add_attrs [("c", NVal TText)]].
Theorem C32_failed_command_refuted : exists d B, ex_vbuild reject_cmds (Some ∅) = (d, Ok B) /\ map fst (cb_attrs (b_cb B)) = ["c"] /\
  from_ast ex_digest ex_from1 (fun _ => ord1) None (mk_ast reject_cmds) = BuildErr [BErr 0 "unknown" "Undefined attribute: b"].
Proof.
  assert (H : match ex_vbuild reject_cmds (Some ∅) with (_, Ok B) => bool_decide (map fst (cb_attrs (b_cb B)) = ["c"]) | _ => false end = true) by (vm_compute; reflexivity).
  destruct (ex_vbuild reject_cmds (Some ∅)) as [d [B|e|]]; try done. apply bool_decide_eq_true in H. exists d, B. split; [done|]. split; [done|]. vm_compute. reflexivity.
Qed.
Print Assumptions C32_failed_command_refuted.

Lemma pos_text_length p : String.length (pos_text p) = Pos.size_nat p.
Proof. induction p as [p IH|p IH|]; cbn; by rewrite ?IH. Qed.
Lemma pos_text_chars p s : pos_text p <> (s +:+ ".operation")%string.
Proof.
  revert s. induction p as [p IH|p IH|]; intros s E; destruct s as [|c s]; cbn in E; try discriminate; injection E as _ E; try (by apply (IH s)).
  by destruct s.
Qed.
Lemma hash_n_small s : forall h, (h < 1000000007)%N -> (hash_n s h < 1000000007)%N.
Proof. induction s as [|c s IH]; intros h H; [done|]. cbn [hash_n]. apply IH. apply N.mod_lt. done. Qed.
Lemma ex_plain : plain_saids ex_digest.
Proof.
  split.
  - intros j. unfold ex_digest. rewrite pos_text_length. assert (H : (hash_n (inj_digest j) 7 < 1000000007)%N) by by apply hash_n_small.
    set (n := hash_n (inj_digest j) 7) in *. clearbody n. assert (L : (N.succ_pos n < 1073741824)%positive) by (destruct n; cbn; lia).
    apply Pos.size_nat_monotone in L. change (Pos.size_nat 1073741824) with 31 in L. lia.
  - intros j j'. apply pos_text_chars.
Qed.

(** All the bundles of a run with one iteration order, and a check for collisions among them. *)
Definition run_list (cs : list command) : list bundle :=
  omap (fun i => state_restarting ex_from1 None (take i cs) ≫= generate_bundle ex_digest ord1) (seq 0 (S (length cs))).
Definition injective_on (js : list json) : bool :=
  forallb (fun a => forallb (fun b => implb (String.eqb (ex_digest a) (ex_digest b)) (String.eqb (inj_digest a) (inj_digest b))) js) js.
Lemma injective_on_ok js a b : injective_on js = true -> a ∈ js -> b ∈ js -> ex_digest a = ex_digest b -> a = b.
Proof.
  unfold injective_on. intros H Ha Hb E. rewrite forallb_forall in H. specialize (H a (proj1 (elem_of_list_In _ _) Ha)). rewrite forallb_forall in H.
  specialize (H b (proj1 (elem_of_list_In _ _) Hb)). rewrite E, String.eqb_refl in H. cbn in H. apply String.eqb_eq in H. by apply inj_digest_inj.
Qed.
Lemma run_list_ok cs B : run_bundle ex_digest ex_from1 (fun _ _ => ord1) cs B -> B ∈ run_list cs.
Proof.
  intros (i & n & b & Es & G). apply elem_of_list_omap. exists (Nat.min i (length cs)). split; [apply elem_of_seq; lia|].
  assert (E : take (Nat.min i (length cs)) cs = take i cs). { destruct (Nat.le_gt_cases i (length cs)); [by rewrite Nat.min_l|]. rewrite Nat.min_r by lia. rewrite firstn_all. symmetry. apply take_ge. lia. }
  rewrite E, Es. exact G.
Qed.
Definition bundle_body (B : bundle) : json := bundle_json_d (JStr dummy_said) B.
Definition run_check (cs : list command) : bool :=
  injective_on (map bundle_body (run_list cs)) && forallb (fun B => injective_on (map (overlay_json_d (JStr dummy_said)) (b_ovs B))) (run_list cs).
Lemma run_check_ok cs : run_check cs = true -> run_injective ex_digest ex_from1 (fun _ _ => ord1) cs /\
  forall B, run_bundle ex_digest ex_from1 (fun _ _ => ord1) cs B -> no_collision ex_digest (b_ovs B).
Proof.
  intros H. apply andb_true_iff in H as [H1 H2]. split.
  - intros B B' HB HB'. apply (injective_on_ok _ _ _ H1); apply elem_of_list_fmap_1; by apply run_list_ok.
  - intros B HB x y Hx Hy. rewrite forallb_forall in H2. specialize (H2 B (proj1 (elem_of_list_In _ _) (run_list_ok _ _ HB))). apply (injective_on_ok _ _ _ H2); by apply elem_of_list_fmap_1.
Qed.
Lemma no_framings cs : forallb (fun c => match cmd_obj c with OOverlay (OType KAttributeFraming _) _ => false | _ => true end) cs = true -> framings_agree cs.
Proof. intros H c1 c2 ct1 ct2 id H1 _ (v & ->). rewrite forallb_forall in H. by specialize (H _ (proj1 (elem_of_list_In _ _) H1)). Qed.
(** The hypotheses of C32_operations_recorded and C32_from_resumes are met, with two commands and then two more. *)
Example C32_hypotheses_met : exists m1 B1 k, plain_saids ex_digest /\ order_ok ord1 /\ no_from (ex_first ++ ex_second) /\
  Forall command_ok (ex_first ++ ex_second) /\ framings_agree (ex_first ++ ex_second) /\ ex_vbuild ex_first (Some ∅) = (Some m1, Ok B1) /\ b_said B1 = Some k /\
  run_injective ex_digest ex_from1 (fun _ _ => ord1) ex_first /\ no_collision ex_digest (b_ovs B1) /\ bundle_readable ex_said_ok ascii_digits ex_lang_ok B1 /\ groups_sorted B1 /\ shallow (bundle_json B1) /\
  (forall B, run_bundle ex_digest ex_from1 (fun _ _ => ord1) ex_first B -> no_collision ex_digest (b_ovs B)) /\
  match ex_vbuild (from_command (RSaid k) :: ex_second) (Some m1), ex_vbuild (ex_first ++ ex_second) (Some ∅) with
  | (Some m2, Ok B), (_, Ok B') => b_said B = b_said B' /\ size m2 = 8
  | _, _ => False
  end.
Proof.
  assert (H : match ex_vbuild ex_first (Some ∅) with (Some m1, Ok B1) => match b_said B1 with Some k =>
      (bundle_simple ex_said_ok ex_lang_ok B1 && shallow_b (bundle_json B1)) && match ex_vbuild (from_command (RSaid k) :: ex_second) (Some m1), ex_vbuild (ex_first ++ ex_second) (Some ∅) with
        | (Some m2, Ok B), (_, Ok B') => bool_decide (b_said B = b_said B') && (size m2 =? 8)%nat | _, _ => false end && injective_on (map (overlay_json_d (JStr dummy_said)) (b_ovs B1))
    | None => false end | _ => false end = true) by (vm_compute; reflexivity).
  assert (R : run_check ex_first = true) by (vm_compute; reflexivity). apply run_check_ok in R as [R1 R2].
  destruct (ex_vbuild ex_first (Some ∅)) as [[m1|] [B1|e|]]; try done. destruct (b_said B1) as [k|] eqn:Ek; [|done].
  apply andb_true_iff in H as [H H3]. apply andb_true_iff in H as [H1 H2]. apply andb_true_iff in H1 as [H1 H1x]. apply shallow_ok in H1x. destruct (bundle_simple_ok ex_said_ok ascii_digits ex_lang_ok B1 eq_refl H1) as [Q1 Q2].
  exists m1, B1, k. split; [exact ex_plain|]. split; [apply ord1_ok|]. split.
  { intros c Hc. assert (X : forallb (fun c => match cmd_kind c with CFrom => false | _ => true end) (ex_first ++ ex_second) = true) by reflexivity.
    rewrite forallb_forall in X. specialize (X c (proj1 (elem_of_list_In _ _) Hc)). intros E. by rewrite E in X. }
  split.
  { assert (X : forallb (command_simple) (ex_first ++ ex_second) = true) by reflexivity.
    apply Forall_forall. intros c Hc. rewrite forallb_forall in X. by apply (command_simple_ok ex_said_ok c (X c (proj1 (elem_of_list_In _ _) Hc))). }
  split; [by apply no_framings|]. split; [done|]. split; [done|]. split; [done|]. split.
  { intros x y Hx Hy. apply (injective_on_ok _ _ _ H3); by apply elem_of_list_fmap_1. }
  split; [done|]. split; [done|]. split; [done|]. split; [done|].
  clear -H2. revert H2. generalize (ex_vbuild (ex_first ++ ex_second) (Some ∅)). generalize (ex_vbuild (from_command (RSaid k) :: ex_second) (Some m1)). clear. intros r2 r3 H2.
  destruct r2 as [[m2|] [B|e|]]; try done. destruct r3 as [d [B'|e|]]; try done.
  apply andb_true_iff in H2 as [H2 H4]. apply bool_decide_eq_true in H2. apply Nat.eqb_eq in H4. done.
Qed.
(** A command of more than 255 bytes. *)
Definition long_cmd : command := add_attrs [("an attribute with a rather long name, spelled out", NVal TText); ("another attribute, whose name is just as long as that", NVal TText)].
Example C32_long_example : match ex_vbuild [add_attrs [("a", NVal TText)]; long_cmd] (Some ∅) with (Some m, Panic) => (size m =? 2)%nat | _ => false end = true /\
  (255 < String.length (ex_to_text (command_json long_cmd)))%nat.
Proof. split; [vm_compute; reflexivity|]. apply Nat.ltb_lt. vm_compute. reflexivity. Qed.

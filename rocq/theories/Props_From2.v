(** C26 for any base: after any history of validations and builds, FROM a bundle that is there is the same as repeating its commands. *)
From Verif Require Import Base Ast Bundle Spec_Bundle Build Spec_Build Text Facade Spec_Facade Spec_BundleCodec Spec_Ast Spec_Refs Spec_Total Spec_Export Facade_proofs Props_Storage Run_proofs Build_proofs
  Bundle_proofs Box_proofs Determinism_proofs Command_proofs Incremental_proofs Stored_proofs BundleCodec_proofs Props_BundleCodec Props_Bundle Props_Build Props_Codec Props_Dag Props_Facade
  History_proofs Props_History Props_Refs Props_From VBuild_proofs Replay_proofs.
Local Open Scope list_scope.

Theorem C26_any_base : forall digest from1 to1 listing said_ok digits lang_ok standard_read to_text of_text hash ss f,
  text_ok to_text of_text -> digits_class digits -> said_ok "" = false ->
  steps_run digest from1 to1 listing said_ok digits lang_ok standard_read to_text of_text hash ss f -> steps_fine digest said_ok digits lang_ok ss ->
  forall n k cs, get_ast said_ok digits lang_ok standard_read of_text n f k = Some (Ok cs) ->
  forall os os' a a', (forall i, order_ok (os i)) -> (forall i, order_ok (os' i)) -> ast_commands a' = cs ++ ast_commands a ->
  Forall command_ok (ast_commands a) -> framings_agree (map bs_cmd ss ++ ast_commands a) -> (forall c n, c ∈ ast_commands a -> ~ mentions c n) ->
  match validate_ast digest from1 said_ok digits lang_ok standard_read of_text os (with_from (RSaid k) a) f, from_ast digest from1 os' None a' with
  | Ok (_, (B, _)), BuildOk B' _ => no_collision digest (b_ovs B) -> bundle_json B = bundle_json B' /\ b_said B = b_said B'
  | Err es, BuildErr es' => es = map be_msg es'
  | Panic, BuildPanic => True
  | _, _ => False
  end.
Proof.
  intros dig f1 t1 ls so dg lo sr tt ot hs ss f Ht Hd He HR [Hst Hn Hag0] n k cs HA os os' a a' O2 O3 Ea Hok Hag Hm.
  assert (Hco : Forall command_ok (map bs_cmd ss ++ ast_commands a)).
  { apply Forall_app. split; [|done]. apply Forall_forall. intros c Hc. apply elem_of_list_fmap in Hc as (s & -> & Hs). by destruct (Hst s Hs) as [_ _ (? & _)]. }
  assert (Hu := agree_uniform _ Hag Hco). set (M := M_of (map bs_cmd ss ++ ast_commands a)) in *. apply Forall_app in Hu as [Hu Hu2].
  assert (Hall : storable_all so dg lo M ss). { intros s Hs. split; [by apply Hst|]. rewrite Forall_forall in Hu. apply Hu. by apply elem_of_list_fmap_1. }
  pose proof (recorded_run dig f1 t1 ls so dg lo sr tt ot hs Ht Hd M ss f HR Hall) as R.
  unfold get_ast, get_steps in HA. destruct (steps_loop so dg lo sr ot n f k) as [[L|e|]|] eqn:EL; [|discriminate..]. injection HA as HA. rewrite map_rev in HA. subst cs.
  destruct (replay dig f1 so dg lo sr tt ot Ht Hd M He ss f n R Hall Hn k L EL) as (s & b0 & b & Hin & Es & Hmd & T & Est & Hne & Hcok & Hout).
  assert (HF : exists B0, get_bundle so dg lo sr ot (fa_cache f) k = Ok B0).
  { destruct n as [|n]; cbn in EL; [discriminate|]. destruct (get_op so ot (fa_db f) k) as [[p c]|e|]; [|discriminate..]. destruct (String.eqb p k); [discriminate|].
    destruct (negb (so k)); [discriminate|]. destruct (get_bundle so dg lo sr ot (fa_cache f) k) as [B0|e|]; [by exists B0|discriminate..]. }
  destruct HF as [B0 HF]. destruct (read_base dig f1 so dg lo sr tt ot Ht Hd M ss f k k Hall R B0 HF eq_refl) as (s' & Hin' & Es' & EB).
  destruct (rc_just dig f1 tt M ss f R s' Hin') as (b1 & Hm1 & _).
  assert (T1 : tracked M b0 b1). { eapply tracked_trans; [exact T|]. apply (same_said_tracked dig so dg lo sr Hd M ss s s'); try done. congruence. }
  destruct (Hst s' Hin') as [_ Hg _].
  destruct (made_loads dig M s' b1 (os (S (length (ast_commands a)))) Hm1 Hg (O2 _)) as (b2 & Lb & T2). rewrite <- EB in Lb.
  assert (Rr : same_result dig (from_ast dig f1 os (Some B0) a) (from_ast dig f1 os' None a')).
  { apply (second_part dig f1 os os' (Ast "1.0.0" (rev (map bs_cmd L)) [] ∅) a a' B0 b0 b2 M); try done.
    - cbn [ast_commands]. intros X. apply (f_equal (@length _)) in X. rewrite rev_length, map_length in X. by destruct L.
    - eapply tracked_trans; [exact T1|exact T2]. }
  unfold validate_ast, check_base. cbn [ast_commands with_from from_cmd]. rewrite HF. cbn [obind fst snd ast_commands ast_version ast_cmeta ast_meta].
  rewrite resolve_plain by done. cbn [obind]. destruct a as [v2 c2 m2 e2]. unfold with_from. cbn [ast_version ast_cmeta ast_meta ast_commands] in *.
  destruct (from_ast dig f1 os (Some B0) (Ast v2 c2 m2 e2)) as [B steps|es|] eqn:E2.
  - destruct (from_ast_said _ _ _ _ _ _ _ E2) as [j Ej]. unfold same_result in Rr. destruct (from_ast dig f1 os' None a') as [B' ss'|es'|] eqn:E3; try done.
    destruct (e2 !! "name") as [nm|]; [|done]. rewrite Ej. cbn [unwrap_some obind]. rewrite mem_ins2. cbn [obind]. done.
  - unfold same_result in Rr. destruct (from_ast dig f1 os' None a') as [B' ss'|es'|] eqn:E3; done.
  - unfold same_result in Rr. by destruct (from_ast dig f1 os' None a') as [B' ss'|es'|] eqn:E3.
Qed.
Print Assumptions C26_any_base.

(** A base that was itself built FROM a base, and a further command. *)
From Verif Require Import Props_Export2 Props_OcaFile.
Theorem C26_any_base_met : exists ss f n k cs a, xp_run ss f /\ steps_fine ex_digest ex_said_ok ascii_digits ex_lang_ok ss /\
  get_ast ex_said_ok ascii_digits ex_lang_ok (fun _ => None) ex_of_text n f k = Some (Ok cs) /\ length cs = 3%nat /\ length (ast_commands a) = 1%nat /\
  Forall command_ok (ast_commands a) /\ framings_agree (map bs_cmd ss ++ ast_commands a) /\ (forall c n, c ∈ ast_commands a -> ~ mentions c n).
Proof.
  destruct C47_hypotheses_met as (f1 & B1 & s1 & f2 & B2 & s2 & k1 & k2 & cs1 & cs2 & _ & _ & _ & _ & _ & R2 & _ & F2 & _ & _ & _ & _ & _ & G2 & L2 & _).
  exists (s1 ++ s2), f2, 3, k2, cs2, (Ast "1.0.0" [Command CAdd (OCaptureBase (CapContent (Some [("z", NVal TText)]) None None))] [] ∅).
  split; [exact R2|]. split; [exact F2|]. split; [exact G2|]. split; [exact L2|]. split; [reflexivity|]. cbn [ast_commands]. split; [|split].
  - apply Forall_cons_2; [|apply Forall_nil_2]. split; [|done]. intros l El. injection El as <-. by apply (bool_decide_unpack _).
  - destruct F2 as [_ _ Hag]. intros c1 c2 ct1 ct2 id H1 H2 Q1 Q2. apply elem_of_app in H1 as [H1|H1], H2 as [H2|H2].
    + by apply (Hag c1 c2 ct1 ct2 id).
    + apply elem_of_list_singleton in H2 as ->. by destruct Q2 as [v Q2].
    + apply elem_of_list_singleton in H1 as ->. by destruct Q1 as [v Q1].
    + apply elem_of_list_singleton in H1 as ->. by destruct Q1 as [v Q1].
  - intros c n Hc. apply elem_of_list_singleton in Hc as ->. intros [(l & a & t & E & Hin & Hn)|(p & pre & post & E & _)].
    + destruct E as (p & fl & E). injection E as <- <- <-. apply elem_of_list_singleton in Hin. injection Hin as -> ->. by inversion Hn.
    + destruct E as (v & x & E). discriminate E.
Qed.
Print Assumptions C26_any_base_met.

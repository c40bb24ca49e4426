(** C63, continued: what the store answers for a bundle is what the history it lists for it says. *)
From Verif Require Import Base Ast Bundle Spec_Bundle Build Spec_Build Text Facade Spec_Facade Spec_BundleCodec Spec_Ast Spec_Refs Spec_Total Spec_Export Facade_proofs Props_Storage AstValidator AstValidator_proofs Props_Ast Run_proofs Build_proofs
  Bundle_proofs Box_proofs Determinism_proofs Command_proofs Incremental_proofs Stored_proofs BundleCodec_proofs Props_BundleCodec Props_Bundle Props_Build Props_Codec Props_Dag Props_Facade
  History_proofs Props_History Props_Refs Props_From VBuild_proofs Replay_proofs Props_Export Props_Export2 Props_From2 Spec_Last Props_Last Props_Last2 Spec_Texts Texts_proofs Props_Texts Props_Texts2.
Local Open Scope list_scope.

(** After any validations and builds: the bundle fetched by a SAID is, as JSON, one that can be read off the commands listed for
    that SAID. *)
Theorem C63_stored_history : forall digest from1 to1 listing said_ok digits lang_ok standard_read to_text of_text hash ss f,
  text_ok to_text of_text -> digits_class digits -> said_ok "" = false ->
  steps_run digest from1 to1 listing said_ok digits lang_ok standard_read to_text of_text hash ss f -> steps_fine digest said_ok digits lang_ok ss ->
  forall n k cs, get_ast said_ok digits lang_ok standard_read of_text n f k = Some (Ok cs) ->
  exists B0 B, get_bundle said_ok digits lang_ok standard_read of_text (fa_cache f) k = Ok B0 /\
    bundle_json B = bundle_json B0 /\ b_said B = Some k /\ reads_off from1 cs B.
Proof.
  intros dig f1 t1 ls so dg lo sr tt ot hs ss f Ht Hd He HR HF n k cs HA.
  destruct (C47_history_rebuilds dig f1 t1 ls so dg lo sr tt ot hs ss f Ht Hd He HR HF n k cs HA) as (B0 & HG & Q).
  destruct (Q (fun _ => ord1) (Ast "1.0.0" cs [] ∅) (fun _ => ord1_ok) eq_refl) as (B & steps & E & Ek & J). exists B0, B.
  split; [done|]. split; [done|]. split; [done|].
  apply (scratch_reads_off dig f1 (fun _ => ord1) (Ast "1.0.0" cs [] ∅) B steps (fun _ => ord1_ok)); [|exact E]. cbn [ast_commands].
  destruct HF as [Hst Hn Hag].
  assert (Hco : Forall command_ok (map bs_cmd ss)). { apply Forall_forall. intros c Hc. apply elem_of_list_fmap in Hc as (s & -> & Hs). by destruct (Hst s Hs) as [_ _ (? & _)]. }
  assert (Hu := agree_uniform _ Hag Hco). set (M := M_of (map bs_cmd ss)) in *.
  assert (Hall : storable_all so dg lo M ss). { intros s Hs. split; [by apply Hst|]. rewrite Forall_forall in Hu. apply Hu. by apply elem_of_list_fmap_1. }
  pose proof (recorded_run dig f1 t1 ls so dg lo sr tt ot hs Ht Hd M ss f HR Hall) as R.
  unfold get_ast, get_steps in HA. destruct (steps_loop so dg lo sr ot n f k) as [[L|e|]|] eqn:EL; [|discriminate..]. injection HA as HA. rewrite map_rev in HA. subst cs.
  by destruct (replay dig f1 so dg lo sr tt ot Ht Hd M He ss f n R Hall Hn k L EL) as (s & b0 & b & _ & _ & _ & _ & _ & _ & Hcok & _).
Qed.
Print Assumptions C63_stored_history.
Theorem C63_stored_history_met : exists ss f n k cs, xp_run ss f /\ steps_fine ex_digest ex_said_ok ascii_digits ex_lang_ok ss /\
  get_ast ex_said_ok ascii_digits ex_lang_ok (fun _ => None) ex_of_text n f k = Some (Ok cs) /\ length cs = 3%nat.
Proof. destruct C26_any_base_met as (ss & f & n & k & cs & a & H1 & H2 & H3 & H4 & _). by exists ss, f, n, k, cs. Qed.
Print Assumptions C63_stored_history_met.

(** Whatever texts were built: of every bundle they made, last or intermediate, the store lists the commands it can be read off. *)
Theorem C63_stored_texts : forall wide digest from1 to1 listing said_ok digits lang_ok standard_read to_text of_text hash h f,
  services digest from1 said_ok digits lang_ok to_text of_text ->
  texts_run wide digest from1 to1 listing said_ok digits lang_ok standard_read to_text of_text hash h f -> texts_fine digest h ->
  NoDup (map (fun s => b_said (bs_result s)) (steps_of h)) ->
  forall s B steps, (s, (B, steps)) ∈ h -> forall X k, X = B \/ X ∈ map bs_result steps -> b_said X = Some k ->
  exists N cs Y, (forall n, (N <= n)%nat -> get_ast said_ok digits lang_ok standard_read of_text n f k = Some (Ok cs)) /\
    bundle_json Y = bundle_json X /\ b_said Y = Some k /\ reads_off from1 cs Y.
Proof.
  intros wide dig f1 t1 ls so dg lo sr tt ot hs h f Hv HT Hf Hn s B steps Hin X k HX Ek.
  destruct (C53_fetch _ _ _ _ _ _ _ _ _ _ _ _ _ _ Hv HT Hf s B steps Hin X HX) as (k' & X0 & Ek' & HF & _ & J). rewrite Ek in Ek'. injection Ek' as <-.
  destruct (C53_history _ _ _ _ _ _ _ _ _ _ _ _ _ _ Hv HT Hf Hn s B steps Hin X k HX Ek) as (N & cs & HA & _). exists N, cs.
  pose proof Hv as [Ht Hd H1 Hj Hp He Hl].
  destruct (texts_inv wide dig f1 t1 ls so dg lo sr tt ot hs Ht Hd H1 Hj Hl h f HT) as (R & HS & _).
  destruct (C63_stored_history dig f1 t1 ls so dg lo sr tt ot hs (steps_of h) f Ht Hd He) with (n := N) (k := k) (cs := cs) as (B0 & Y & HG & JY & Ek2 & RO).
  - by apply used_steps.
  - apply (fine_all dig so dg lo h HS (tf_frames _ _ Hf)). apply Hf.
  - by apply HA.
  - exists Y. split; [done|]. rewrite HF in HG. injection HG as <-. split; [congruence|]. by split.
Qed.
Print Assumptions C63_stored_texts.

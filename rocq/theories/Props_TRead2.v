(** C49: concrete cases. *)
From Verif Require Import Base Ast Bundle Spec_Bundle Build Spec_Build Text Facade Spec_Facade Spec_Refs Spec_Total Facade_proofs Props_Codec Props_BundleCodec Props_Bundle Props_Build Props_Dag
  Props_History Props_Total Props_Total2 Checkers Peg OcaGrammar OcaFile Spec_OcaFile Props_OcaFile Spec_Read Props_Read TFile Spec_TRead Props_From Props_Export2 Props_TRead.
Local Open Scope list_scope.

Notation tr_parse := (parse_ocafile no_wide total_said_ok).
Notation tr_file := (file_steps tr_parse total_validate (build ex_from1 Props_Dag.ex_to1 ex_listing ex_to_text ex_hash)).
Notation tr_used := (used ex_digest ex_from1 Props_Dag.ex_to1 ex_listing total_said_ok ascii_digits ex_lang_ok (fun _ => None) ex_to_text ex_of_text ex_hash).
(** A language the build does not know, after the bundle of the first file. *)
Definition src_bad (k : string) : string := file_of ["FROM " +:+ k; "ADD LABEL en-US ATTRS a=" +:+ dq "A"]%string.
(** After a first file, a second one that is read and aborts: the hypotheses of C49_history_builds hold. *)
Example C49_hypotheses_met : exists B1 s1 f1 k, tr_used [(B1, s1)] f1 /\ b_said B1 = Some k /\ (forall x, x ∈ concat (map snd [(B1, s1)]) -> step_storable total_said_ok ascii_digits ex_lang_ok x) /\
  listing_ok ex_listing /\ Spec_Dag.codes_ok ex_from1 Props_Dag.ex_to1 /\ (forall t, short (ex_hash t)) /\ plain_digest ex_digest /\ (forall s, total_said_ok s = true -> short s) /\
  (forall j, total_said_ok (ex_digest j) = true) /\
  (exists a, tr_parse (src_bad k) = Ok a /\ length (ast_commands a) = 2%nat /\ total_validate a f1 = Panic) /\
  (exists a g B2 steps, tr_parse (src2 k) = Ok a /\ total_validate a f1 = Ok (g, (B2, steps)) /\ no_clash ex_digest ([B1] ++ [B2])).
Proof.
  assert (H : match tr_file src1 facade_new with Ok (f1, (B1, s1)) => match b_said B1 with Some k =>
    match tr_parse (src_bad k), tr_parse (src2 k) with Ok a, Ok a2 =>
      match total_validate a f1, total_validate a2 f1 with Panic, Ok (g, (B2, steps)) =>
        forallb (step_simple total_said_ok ex_lang_ok) s1 && ((length (ast_commands a) =? 2)%nat && clash_check [B1; B2]) | _, _ => false end
    | _, _ => false end | None => false end | _ => false end = true) by (vm_compute; reflexivity).
  destruct (tr_file src1 facade_new) as [[f1 [B1 s1]]| |] eqn:E1; [|discriminate H|discriminate H]. destruct (b_said B1) as [k|] eqn:Ek; [|discriminate H].
  destruct (tr_parse (src_bad k)) as [a| |] eqn:Ea; [|discriminate H|discriminate H]. destruct (tr_parse (src2 k)) as [a2| |] eqn:Ea2; [|discriminate H|discriminate H].
  destruct (total_validate a f1) as [| |] eqn:Ev; [discriminate H|discriminate H|]. destruct (total_validate a2 f1) as [[g [B2 steps]]| |] eqn:Ev2; [|discriminate H|discriminate H].
  apply andb_true_iff in H as [H1 H2]. apply andb_true_iff in H2 as [H2 H3].
  exists B1, s1, f1, k. split.
  { destruct (file_steps_ok _ _ _ _ _ _ _ _ E1) as (a1 & g1 & B' & _ & Hv & Hb). exact (us_build _ _ _ _ _ _ _ _ _ _ _ [] _ _ _ _ _ _ _ _ (us_new _ _ _ _ _ _ _ _ _ _ _) (fun i => ord1_ok) Hv Hb). }
  split; [exact Ek|]. split.
  { intros x Hx. cbn [map concat snd] in Hx. rewrite app_nil_r in Hx. rewrite forallb_forall in H1. apply elem_of_list_In in Hx. apply H1 in Hx. by apply step_simple_ok. }
  split; [by intros k' l|]. split; [exact ex_codes_ok|]. split; [exact ex_hash_short|]. split; [exact ex_plain_digest|]. split.
  { intros s Hs. apply andb_true_iff in Hs as [_ Hs]. by apply Nat.leb_le. }
  split.
  { intros j. unfold total_said_ok. apply andb_true_iff. split; [|apply Nat.leb_le; apply ex_plain_digest]. unfold ex_said_ok, ex_digest. by destruct (N.succ_pos _). }
  split; [exists a; split; [exact Ea|]; split; [by apply Nat.eqb_eq|exact Ev]|]. exists a2, g, B2, steps. split; [exact Ea2|]. split; [exact Ev2|]. by apply clash_check_ok.
Qed.
Print Assumptions C49_hypotheses_met.

Notation tb s := (match parse_transformation no_wide s with Ok a => Some (transformation_from_ast ex_digest a) | _ => None end).
(** Findings: a transformation with a source and no target, or with nothing but its kind, is read and aborts the build. *)
Theorem C49_no_target_refuted : tb (file_of ["--precompiler=transformation"; "--source=refs:EA"; "RENAME ATTRIBUTE a=b"])%string = Some Panic.
Proof. vm_compute. reflexivity. Qed.
Print Assumptions C49_no_target_refuted.
Theorem C49_kind_only_refuted : tb (file_of ["--precompiler=transformation"; "RENAME ATTRIBUTE a=b"])%string = Some Panic /\ tb "" = Some Panic.
Proof. vm_compute. split; reflexivity. Qed.
Print Assumptions C49_kind_only_refuted.
(** And one that is read and builds. *)
Example C49_transformation_example : exists T, tb (file_of ["--source=refs:EA"; "--target=refs:EB"; "RENAME ATTRIBUTE a=b c=d"; "LINK ATTRIBUTE e -> f"])%string = Some (Ok T) /\ length (tr_attrs T) = 3%nat.
Proof. eexists. split; [vm_compute; reflexivity|reflexivity]. Qed.

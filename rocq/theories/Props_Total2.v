(** C46: a concrete case. *)
From Verif Require Import Spec_Total Props_Total Props_VBuild Props_History Props_Dag Props_BundleCodec Props_Codec Props_Bundle Props_Build Build Spec_Build Text Facade_proofs Bundle Inj_digest Checkers.
Local Open Scope list_scope.

Definition hashed_list (B : bundle) : list json := bundle_json_d (JStr dummy_said) B :: cb_json_d (JStr dummy_said) (b_cb B) :: map (overlay_json_d (JStr dummy_said)) (b_ovs B).
Lemma hashed_listed B j : hashed B j -> j ∈ hashed_list B.
Proof. intros [| |ov Hov]; [left|right; left|right; right]. by apply elem_of_list_fmap_1. Qed.
Definition clash_check (Bs : list bundle) : bool := injective_on (concat (map hashed_list Bs)).
Lemma clash_check_ok Bs : clash_check Bs = true -> no_clash ex_digest Bs.
Proof.
  intros H B B' j j' HB HB' Hj Hj'.
  assert (X : forall B j, B ∈ Bs -> hashed B j -> j ∈ concat (map hashed_list Bs)).
  { intros B0 j0 H0 H1. apply elem_of_list_In, in_concat. exists (hashed_list B0). split; [by apply in_map, elem_of_list_In|by apply elem_of_list_In, hashed_listed]. }
  apply (injective_on_ok _ _ _ H); [by apply (X B)|by apply (X B')].
Qed.
Definition total_said_ok (s : string) : bool := ex_said_ok s && (String.length s <=? 255)%nat.
Notation total_build := (build_ast ex_digest ex_from1 ex_to1 ex_listing total_said_ok ascii_digits ex_lang_ok (fun _ => None) ex_to_text ex_of_text ex_hash (fun _ => ord1)).
Notation total_validate := (validate_ast ex_digest ex_from1 total_said_ok ascii_digits ex_lang_ok (fun _ => None) ex_of_text (fun _ => ord1)).
Notation total_after := (files_run ex_digest ex_from1 ex_to1 ex_listing total_said_ok ascii_digits ex_lang_ok (fun _ => None) ex_to_text ex_of_text ex_hash).
Lemma text_short p : (p < 1073741824)%positive -> short (pos_text p).
Proof. intros L. unfold short. rewrite pos_text_length. apply Pos.size_nat_monotone in L. change (Pos.size_nat 1073741824) with 31 in L. lia. Qed.
Lemma ex_hash_short t : short (ex_hash t).
Proof.
  apply text_short. assert (H : (hash_n t 7 < 1000000007)%N) by by apply hash_n_small. set (n := hash_n t 7) in *. clearbody n. destruct n; cbn; lia.
Qed.
Lemma pos_text_meta p s : pos_text p <> (s +:+ ".metadata")%string.
Proof.
  assert (D : forall p, forallb (fun c => negb (Ascii.eqb c ".")) (list_ascii_of_string (pos_text p)) = true) by (induction p0; cbn; auto).
  intros E. specialize (D p). rewrite E in D. clear E. induction s as [|c s IH]; [discriminate D|]. cbn in D. apply andb_true_iff in D as [_ D]. by apply IH.
Qed.
Lemma ex_plain_digest : plain_digest ex_digest.
Proof. split; [intros j; apply ex_plain|intros j j'; apply pos_text_meta]. Qed.
(** A second file, built on the first one's bundle. *)
Example C46_hypotheses_met : exists B1 f1 k, total_after [B1] f1 /\ b_said B1 = Some k /\ listing_ok ex_listing /\ codes_ok ex_from1 ex_to1 /\ (forall t, short (ex_hash t)) /\
  plain_digest ex_digest /\ (forall s, total_said_ok s = true -> short s) /\
  exists g B2 steps, total_validate (mk_ast (Command CFrom (OBundle (BundleContent (RSaid k))) :: ex_second)) f1 = Ok (g, (B2, steps)) /\ length steps = 2%nat /\ no_clash ex_digest ([B1] ++ [B2]).
Proof.
  assert (H : match total_build (mk_ast ex_first) facade_new with Ok (f1, B1) => match b_said B1 with Some k =>
    match total_validate (mk_ast (Command CFrom (OBundle (BundleContent (RSaid k))) :: ex_second)) f1 with Ok (g, (B2, steps)) => (length steps =? 2)%nat && clash_check [B1; B2] | _ => false end
    | None => false end | _ => false end = true) by (vm_compute; reflexivity).
  destruct (total_build (mk_ast ex_first) facade_new) as [[f1 B1]| |] eqn:E1; [|discriminate H|discriminate H]. destruct (b_said B1) as [k|] eqn:Ek; [|discriminate H].
  destruct (total_validate (mk_ast (Command CFrom (OBundle (BundleContent (RSaid k))) :: ex_second)) f1) as [[g [B2 steps]]| |] eqn:E2; [|discriminate H|discriminate H].
  apply andb_true_iff in H as [H1 H2]. exists B1, f1, k. split; [exact (after_build _ _ _ _ _ _ _ _ _ _ _ [] facade_new _ _ f1 B1 (after_new _ _ _ _ _ _ _ _ _ _ _) E1)|].
  split; [exact Ek|]. split; [by intros k' l|]. split; [exact ex_codes_ok|]. split; [exact ex_hash_short|]. split; [exact ex_plain_digest|]. split.
  { intros s Hs. apply andb_true_iff in Hs as [_ Hs]. by apply Nat.leb_le. }
  exists g, B2, steps. split; [exact E2|]. split; [by apply Nat.eqb_eq|]. by apply clash_check_ok.
Qed.
Print Assumptions C46_hypotheses_met.

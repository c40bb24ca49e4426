(** C54: the names of the iso namespace, all of them. *)
From Verif Require Import Spec_Standard Regex_proofs Standard_proofs Props_Standard Standard_full Condition_proofs.

(** A name of the iso namespace is accepted exactly if it is a start, and behind it a part, an edition, a version, languages,
    amendments, elements and a technical end, each of which may be missing. *)
Theorem C54_iso_full : forall urn v nss, urn (lower_str v) = Some ("iso", nss) ->
  read_standard urn v = Some (lower_str v) <-> exists h r, nss = h +:+ r /\ iso_start h /\ reads iso_parts r.
Proof.
  intros urn v nss Hu.
  assert (Hv : standard_validate urn (lower_str v) = if rx_match (iso_rx iso_rest) nss then Ok (lower_str v) else Err [nss +:+ " nss is invalid for " +:+ "iso" +:+ " namespace"]).
  { unfold standard_validate. rewrite Hu, iso_compiled. done. }
  unfold read_standard, standard_new. rewrite Hv. pose proof (C54_pattern_match (iso_rx iso_rest) nss) as Hm. change (list_ascii_of_string nss) with (la nss) in Hm.
  rewrite iso_means in Hm. setoid_rewrite rest_means in Hm. destruct (rx_match (iso_rx iso_rest) nss).
  - split; [intros _; by apply Hm|done].
  - split; [discriminate|]. intros H. by apply Hm in H.
Qed.
Print Assumptions C54_iso_full.
Lemma iso_parts_at p e v l a x t : reads s_part p -> reads s_edition e -> reads s_version v -> reads s_langs l -> reads s_amendments a ->
  reads s_elements x -> reads s_end t -> reads iso_parts (p +:+ e +:+ v +:+ l +:+ a +:+ x +:+ t).
Proof. intros. repeat (constructor; [done|]). done. Qed.
Lemma plain_digits c : in_ranges [("0", "9")]%char c = true -> reads s_digits (String c "").
Proof. intros H. change (String c "") with (String c "" +:+ ""). constructor; [by constructor|constructor]. Qed.
(** A dot of the pattern is any character: an edition of stage 20x30 is accepted. *)
Theorem C54_any_dot_refuted : forall urn v c, c <> newline ->
  urn (lower_str v) = Some ("iso", "std:iso:1" +:+ (":stage-20" +:+ String c "30:ed-1")) -> read_standard urn v = Some (lower_str v).
Proof.
  intros urn v c Hc Hu. apply (proj2 (C54_iso_full urn v _ Hu)). exists "std:iso:1", (":stage-20" +:+ String c "30:ed-1"). split; [done|]. split.
  { exists "std", "iso", "", "1". split; [done|]. split; [done|]. split; [left|]. split; [by left|]. done. }
  apply (iso_parts_at "" (":stage-20" +:+ String c "30:ed-1") "" "" "" "" ""); try by constructor.
  apply rd_some. apply (rd_seq _ _ (":stage-20" +:+ String c "30") ":ed-1").
  - apply rd_some. apply (rd_seq _ _ ":" ("stage-20" +:+ String c "30")); [by constructor|]. apply rd_right.
    apply (rd_seq _ _ "stage-" ("20" +:+ String c "30")); [by constructor|]. apply (rd_seq _ _ "2" ("0" +:+ String c "30")); [by constructor|].
    apply (rd_seq _ _ "0" (String c "30")); [by constructor|]. apply (rd_seq _ _ (String c "") "30"); [by constructor|].
    apply (rd_seq _ _ "3" "0"); [by constructor|]. apply (rd_seq _ _ "0" ""); [by constructor|apply rd_none].
  - apply (rd_seq _ _ ":ed-" "1"); [by constructor|]. by apply plain_digits.
Qed.
Print Assumptions C54_any_dot_refuted.
Theorem C54_iso_full_met : forall urn, urn "urn:iso:std:iso:9001:ed-5:en" = Some ("iso", "std:iso:9001:ed-5:en") ->
  (exists h r, "std:iso:9001:ed-5:en" = h +:+ r /\ iso_start h /\ reads iso_parts r) /\
  read_standard urn "urn:iso:std:iso:9001:ed-5:en" = Some "urn:iso:std:iso:9001:ed-5:en".
Proof.
  intros urn Hu. assert (E : exists h r, "std:iso:9001:ed-5:en" = h +:+ r /\ iso_start h /\ reads iso_parts r).
  { exists "std:iso:9001", ":ed-5:en". split; [done|]. split.
    - exists "std", "iso", "", "9001". split; [done|]. split; [done|]. split; [left|]. split; [by left|]. done.
    - apply (iso_parts_at "" ":ed-5" "" ":en" "" "" ""); try by constructor.
      + apply rd_some. apply (rd_seq _ _ "" ":ed-5"); [apply rd_none|]. apply (rd_seq _ _ ":ed-" "5"); [by constructor|]. by apply plain_digits.
      + apply rd_some. apply (rd_seq _ _ ":" "en"); [by constructor|]. apply rd_left, rd_left. by constructor. }
  split; [exact E|]. apply (C54_iso_full urn "urn:iso:std:iso:9001:ed-5:en" _ Hu). exact E.
Qed.
Print Assumptions C54_iso_full_met.

(** C53: concrete cases. *)
From Verif Require Import Base Ast Bundle Spec_Bundle Build Spec_Build Text Facade Spec_Facade Spec_Refs Spec_Total Facade_proofs Props_Codec Props_BundleCodec Props_Bundle Props_Build Props_Dag
  Props_History Props_Total Props_Total2 Checkers Peg OcaGrammar OcaFile Spec_OcaFile Props_OcaFile Spec_Read Props_Read TFile Spec_TRead Props_From Props_Export2 Props_TRead Props_TRead2 Spec_Texts Props_Texts.
Local Open Scope list_scope.

(** A check for commands that can be stored. *)
Definition storable_b (c : command) : bool :=
  match c with
  | Command CFrom (OBundle _) => true
  | Command _ (OOverlay (OType (KMeta | KEntryCode) _) _) => false
  | _ => command_simple c
  end.
Definition storable_deep (c : command) : bool := storable_b c && shallow_b (command_json c).
Lemma storable_b_ok said_ok c : storable_deep c = true -> storable_command said_ok c.
Proof.
  intros H. apply andb_true_iff in H as [H D]. assert (S : (exists b, c = Command CFrom (OBundle b)) \/ command_simple c = true).
  { destruct c as [k o]. unfold storable_b in H. destruct k, o as [cc|b'|[[] v] ct]; try discriminate H; try (right; exact H); try (left; by exists b'). }
  split.
  - destruct S as [[b ->]|S]; [intros v s []|]. apply (command_simple_ok said_ok) in S as (_ & _ & F & _). exact F.
  - intros ver ct k v E. subst c. discriminate H.
  - intros ver ct n l E. subst c. discriminate H.
  - by apply shallow_ok.
Qed.
Definition storable_ast_b (o : outcome ast) : bool := match o with Ok a => forallb storable_deep (ast_commands a) | _ => true end.
Lemma storable_text_ok wide said_ok s : storable_ast_b (parse_ocafile wide said_ok s) = true -> storable_text wide said_ok s.
Proof.
  unfold storable_text. generalize (parse_ocafile wide said_ok s). intros o H a ->. apply Forall_forall. intros c Hc. apply storable_b_ok. cbn [storable_ast_b] in H. rewrite forallb_forall in H. by apply H, elem_of_list_In.
Qed.
Notation storable_text_b s := (storable_ast_b (tr_parse s)).
Lemma ex_services : services ex_digest ex_from1 total_said_ok ascii_digits ex_lang_ok ex_to_text ex_of_text.
Proof.
  split; [exact ex_text_ok|exact ascii_digits_class|reflexivity| |exact ex_plain_digest|reflexivity|].
  - intros j. unfold total_said_ok. apply andb_true_iff. split; [|apply Nat.leb_le; apply ex_plain_digest]. unfold ex_said_ok, ex_digest. by destruct (N.succ_pos _).
  - intros c l. unfold ex_from1. destruct (String.eqb c "en"); [|done]. intros E. by injection E as <-.
Qed.
Notation tx_run := (texts_run no_wide ex_digest ex_from1 Props_Dag.ex_to1 ex_listing total_said_ok ascii_digits ex_lang_ok (fun _ => None) ex_to_text ex_of_text ex_hash).
Lemma tx_file h f s g B steps : tx_run h f -> storable_text_b s = true -> tr_file s f = Ok (g, (B, steps)) -> tx_run (h ++ [(s, (B, steps))]) g.
Proof.
  intros HR Hs H. destruct (file_steps_ok _ _ _ _ _ _ _ _ H) as (a & g1 & B' & Ea & Hv & Hb). eapply tr_build; [exact HR|intros i; exact ord1_ok|by apply storable_text_ok|exact Ea|exact Hv|exact Hb].
Qed.
Definition src_from (k : string) : string := ("FROM " +:+ k)%string.
(** Three texts, the second one built on the bundle of the first, the third one nothing but the bundle of the second. *)
Theorem C53_hypotheses_met : exists h f, tx_run h f /\ length h = 3%nat /\ length (steps_of h) = 3%nat /\ services ex_digest ex_from1 total_said_ok ascii_digits ex_lang_ok ex_to_text ex_of_text /\
  listing_ok ex_listing /\ texts_fine ex_digest h /\ NoDup (map (fun s => b_said (bs_result s)) (steps_of h)).
Proof.
  assert (H : match tr_file src1 facade_new with Ok (f1, (B1, s1)) => match b_said B1 with Some k1 =>
    match tr_file (src2 k1) f1 with Ok (f2, (B2, s2)) => match b_said B2 with Some k2 =>
      match tr_file (src_from k2) f2 with Ok (f3, (B3, s3)) =>
        let h := [(src1, (B1, s1)); (src2 k1, (B2, s2)); (src_from k2, (B3, s3))] in
        ((storable_text_b src1 && storable_text_b (src2 k1) && storable_text_b (src_from k2)) && (length (steps_of h) =? 3)%nat) &&
        ((clash_check (map bs_result (steps_of h)) && forallb no_framing (map bs_cmd (steps_of h))) && bool_decide (NoDup (map (fun s => b_said (bs_result s)) (steps_of h))))
      | _ => false end
    | None => false end | _ => false end | None => false end | _ => false end = true) by (vm_compute; reflexivity).
  destruct (tr_file src1 facade_new) as [[f1 [B1 s1]]| |] eqn:E1; [|discriminate H|discriminate H]. destruct (b_said B1) as [k1|] eqn:Ek1; [|discriminate H].
  destruct (tr_file (src2 k1) f1) as [[f2 [B2 s2]]| |] eqn:E2; [|discriminate H|discriminate H]. destruct (b_said B2) as [k2|] eqn:Ek2; [|discriminate H].
  destruct (tr_file (src_from k2) f2) as [[f3 [B3 s3]]| |] eqn:E3; [|discriminate H|discriminate H]. cbv zeta in H.
  apply andb_true_iff in H as [H1 H2]. apply andb_true_iff in H1 as [H1 H5]. apply andb_true_iff in H1 as [H1 H4]. apply andb_true_iff in H1 as [H1 H3]. apply andb_true_iff in H2 as [H2 H8]. apply andb_true_iff in H2 as [H6 H7].
  exists ((([] ++ [(src1, (B1, s1))]) ++ [(src2 k1, (B2, s2))]) ++ [(src_from k2, (B3, s3))]), f3.
  split; [eapply tx_file; [eapply tx_file; [eapply tx_file; [apply tr_new|exact H1|exact E1]|exact H3|exact E2]|exact H4|exact E3]|].
  split; [reflexivity|]. split; [by apply Nat.eqb_eq|]. split; [exact ex_services|]. split; [by intros k' l|]. split; [split; [by apply clash_check_ok|by apply no_framing_agree]|]. by apply bool_decide_eq_true in H8.
Qed.
Print Assumptions C53_hypotheses_met.

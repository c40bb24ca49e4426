(** C47: concrete cases. *)
From Verif Require Import Base Ast Bundle Spec_Bundle Build Spec_Build Text Facade Spec_Facade Spec_Refs Spec_Total Spec_Export Facade_proofs Props_VBuild Props_Codec Props_BundleCodec Props_Bundle Props_Build Props_Dag
  Props_History Props_Total2 Checkers Peg OcaGrammar OcaFile Spec_OcaFile Props_OcaFile ToAst Props_ToAst Export Spec_Writable Inj_digest Props_Export.
Local Open Scope list_scope.

Notation xp_validate := (validate_ast ex_digest ex_from1 ex_said_ok ascii_digits ex_lang_ok (fun _ => None) ex_of_text (fun _ => ord1)).
Notation xp_export := (export_file ex_said_ok ascii_digits ex_lang_ok (fun _ => None) ex_of_text).
Notation xp_run := (steps_run ex_digest ex_from1 ex_to1 ex_listing ex_said_ok ascii_digits ex_lang_ok (fun _ => None) ex_to_text ex_of_text ex_hash).
Notation xp_build := (build ex_from1 ex_to1 ex_listing ex_to_text ex_hash).
Notation xp_parse := (parse_ocafile no_wide ex_said_ok).
Definition file_steps (p : string -> outcome ast) (v : ast -> facade -> outcome (facade * (bundle * list bstep))) (b : bundle -> list bstep -> facade -> outcome (facade * bundle))
  (src : string) (f : facade) : outcome (facade * (bundle * list bstep)) :=
  let! a := p src in let! x := v a f in let! y := b x.2.1 x.2.2 x.1 in Ok (y.1, x.2).
Notation xp_file := (file_steps xp_parse xp_validate xp_build).
Definition src1 : string := file_of ["ADD ATTRIBUTE a=Text b=Array[Text]"; "ADD LABEL en ATTRS a=" +:+ dq "A"]%string.
Definition src2 (k : string) : string := file_of ["FROM " +:+ k; "ADD UNIT ATTRS a=" +:+ dq "g"]%string.
Definition src3 (k : string) : string := file_of ["FROM " +:+ k; "ADD ATTRIBUTE a=Numeric"]%string.

(** A check for some printable commands. *)
Fixpoint type_b (t : nattr) : bool := match t with NVal _ => true | NArr u => type_b u | _ => false end.
Definition name_b (k : string) : bool := negb (String.eqb k "") && all_chars attr_key_c k.
Definition plain_b (v : nvalue) : bool := match v with VVal s => quotable s | _ => false end.
Definition table_b {V} (ok : V -> bool) (l : imap V) : bool :=
  match l with [] => false | _ => bool_decide (NoDup (map fst l)) && forallb (fun kv => name_b kv.1 && ok kv.2) l end.
Definition printable_b (c : command) : bool :=
  match c with
  | Command CAdd (OCaptureBase (CapContent (Some l) None None)) => table_b type_b l
  | Command CAdd (OOverlay (OType KLabel _) (Content (Some ats) (Some [(k, VVal l)]))) => String.eqb k "lang" && String.eqb l "en" && table_b plain_b ats
  | Command CAdd (OOverlay (OType KUnit _) (Content (Some ats) (Some []))) => table_b plain_b ats
  | _ => false
  end.
Lemma type_b_ok t : type_b t = true -> type_ok no_wide ex_said_ok t.
Proof. induction t as [r|v|t IH|]; intros H; try discriminate H; constructor. by apply IH. Qed.
Lemma table_b_ok {V} (ok : V -> bool) (P : V -> Prop) l : (forall v, ok v = true -> P v) -> table_b ok l = true -> table_ok P l.
Proof.
  intros Hok H. destruct l as [|x l]; [discriminate H|]. cbn [table_b] in H. apply andb_true_iff in H as [H1 H2]. apply bool_decide_eq_true in H1.
  split; [done|]. split; [done|]. apply Forall_forall. intros kv Hin. rewrite forallb_forall in H2. apply elem_of_list_In in Hin. apply H2 in Hin.
  apply andb_true_iff in Hin as [Hn Hv]. apply andb_true_iff in Hn as [Hn1 Hn2]. split; [|by apply Hok]. split; [|done]. intros E. by rewrite E in Hn1.
Qed.
Lemma plain_b_ok v : plain_b v = true -> plain_ok v.
Proof. intros H. destruct v as [r|s|l|m]; try discriminate H. by exists s. Qed.
Lemma printable_b_ok c : printable_b c = true -> printable no_wide ex_said_ok c.
Proof.
  intros H. destruct c as [[] [[[l|] [ps|] [fl|]]|b|[k ver] [[ats|] [ps|]]]]; try discriminate H; try (destruct k; discriminate H).
  - apply pr_attrs. by apply (table_b_ok type_b); [exact type_b_ok|].
  - destruct k; try discriminate H; destruct ps as [|[x [r|l|l|m]] [|? ?]]; try discriminate H.
    + cbn [printable_b] in H. apply andb_true_iff in H as [H1 H2]. apply andb_true_iff in H1 as [H0 H1]. apply String.eqb_eq in H0 as ->. apply String.eqb_eq in H1 as ->.
      apply pr_lang; [by left|exists "e"%char, "n"%char; repeat split; by left|]. by apply (table_b_ok plain_b); [exact plain_b_ok|].
    + apply pr_plain; [tauto| |by right]. by apply (table_b_ok plain_b); [exact plain_b_ok|].
Qed.
Definition no_framing (c : command) : bool := match c with Command CAdd (OOverlay (OType KAttributeFraming _) _) => false | _ => true end.
Lemma no_framing_agree cs : forallb no_framing cs = true -> framings_agree cs.
Proof. intros H c1 c2 ct1 ct2 id H1 _ [v ->]. rewrite forallb_forall in H. apply elem_of_list_In in H1. apply H in H1. discriminate H1. Qed.
Lemma xp_fine ss : ex_simple ss && clash_check (map bs_result ss) && forallb no_framing (map bs_cmd ss) = true -> steps_fine ex_digest ex_said_ok ascii_digits ex_lang_ok ss.
Proof.
  intros H. apply andb_true_iff in H as [H H3]. apply andb_true_iff in H as [H1 H2]. split; [by apply ex_simple_ok|by apply clash_check_ok|by apply no_framing_agree].
Qed.
Lemma file_steps_ok p v b src f h B steps : file_steps p v b src f = Ok (h, (B, steps)) -> exists a g B', p src = Ok a /\ v a f = Ok (g, (B, steps)) /\ b B steps g = Ok (h, B').
Proof.
  intros H. unfold file_steps in H. apply obind_ok in H as (a & Ea & H). apply obind_ok in H as ([g [B0 s0]] & Ev & H). cbn [fst snd] in H. apply obind_ok in H as ([h' B'] & Eb & H).
  injection H as <- <- <-. by exists a, g, B'.
Qed.
Lemma xp_file_run src ss f h B steps : xp_run ss f -> xp_file src f = Ok (h, (B, steps)) -> xp_run (ss ++ steps) h /\
  exists a g B', xp_parse src = Ok a /\ xp_validate a f = Ok (g, (B, steps)) /\ xp_build B steps g = Ok (h, B').
Proof.
  intros HR H. destruct (file_steps_ok _ _ _ _ _ _ _ _ H) as (a & g & B' & Ea & Ev & Eb). split; [|by exists a, g, B']. eapply sr_build; [exact HR|intros i; exact ord1_ok|exact Ev|exact Eb].
Qed.

(** Two files, the second one built on the bundle of the first: the export of either meets the hypotheses. *)
Example C47_hypotheses_met : exists f1 B1 s1 f2 B2 s2 k1 k2 cs1 cs2,
  xp_file src1 facade_new = Ok (f1, (B1, s1)) /\ b_said B1 = Some k1 /\ xp_file (src2 k1) f1 = Ok (f2, (B2, s2)) /\ b_said B2 = Some k2 /\
  xp_run s1 f1 /\ xp_run (s1 ++ s2) f2 /\ steps_fine ex_digest ex_said_ok ascii_digits ex_lang_ok s1 /\ steps_fine ex_digest ex_said_ok ascii_digits ex_lang_ok (s1 ++ s2) /\
  s1 <> [] /\ NoDup (map (fun s => b_said (bs_result s)) s1) /\ Forall (printable no_wide ex_said_ok) (map bs_cmd s1) /\
  get_ast ex_said_ok ascii_digits ex_lang_ok (fun _ => None) ex_of_text 3 f1 k1 = Some (Ok cs1) /\ length cs1 = 2%nat /\
  get_ast ex_said_ok ascii_digits ex_lang_ok (fun _ => None) ex_of_text 3 f2 k2 = Some (Ok cs2) /\ length cs2 = 3%nat /\ Forall (printable no_wide ex_said_ok) cs2 /\ each_placed cs2.
Proof.
  assert (H : match xp_file src1 facade_new with Ok (f1, (B1, s1)) => match b_said B1 with Some k1 =>
    match xp_file (src2 k1) f1 with Ok (f2, (B2, s2)) => match b_said B2 with Some k2 =>
      match get_ast ex_said_ok ascii_digits ex_lang_ok (fun _ => None) ex_of_text 3 f1 k1, get_ast ex_said_ok ascii_digits ex_lang_ok (fun _ => None) ex_of_text 3 f2 k2, xp_export 3 f2 k2 false with
      | Some (Ok cs1), Some (Ok cs2), Some (Ok t) =>
        (ex_simple s1 && clash_check (map bs_result s1) && forallb no_framing (map bs_cmd s1)) &&
        ((ex_simple (s1 ++ s2) && clash_check (map bs_result (s1 ++ s2)) && forallb no_framing (map bs_cmd (s1 ++ s2))) &&
        ((length s1 =? 2)%nat && (bool_decide (NoDup (map (fun s => b_said (bs_result s)) s1)) && (forallb printable_b (map bs_cmd s1) && ((length cs1 =? 2)%nat && ((length cs2 =? 3)%nat &&
        (forallb printable_b cs2 && is_ok (xp_parse t))))))))
      | _, _, _ => false end
    | None => false end | _ => false end | None => false end | _ => false end = true) by (vm_compute; reflexivity).
  destruct (xp_file src1 facade_new) as [[f1 [B1 s1]]| |] eqn:E1; [|discriminate H|discriminate H]. destruct (b_said B1) as [k1|] eqn:Ek1; [|discriminate H].
  destruct (xp_file (src2 k1) f1) as [[f2 [B2 s2]]| |] eqn:E2; [|discriminate H|discriminate H]. destruct (b_said B2) as [k2|] eqn:Ek2; [|discriminate H].
  destruct (get_ast ex_said_ok ascii_digits ex_lang_ok (fun _ => None) ex_of_text 3 f1 k1) as [[cs1| |]|] eqn:G1; [|discriminate H..].
  destruct (get_ast ex_said_ok ascii_digits ex_lang_ok (fun _ => None) ex_of_text 3 f2 k2) as [[cs2| |]|] eqn:G2; [|discriminate H..].
  destruct (xp_export 3 f2 k2 false) as [[t| |]|] eqn:Et; [|discriminate H..].
  apply andb_true_iff in H as [H1 H]. apply andb_true_iff in H as [H2 H]. apply andb_true_iff in H as [H3 H]. apply andb_true_iff in H as [H4 H]. apply andb_true_iff in H as [H5 H].
  apply andb_true_iff in H as [H6 H]. apply andb_true_iff in H as [H7 H]. apply andb_true_iff in H as [H8 H9].
  assert (P : forall cs, forallb printable_b cs = true -> Forall (printable no_wide ex_said_ok) cs).
  { intros cs Hc. apply Forall_forall. intros c Hin. apply printable_b_ok. rewrite forallb_forall in Hc. by apply Hc, elem_of_list_In. }
  destruct (xp_file_run _ _ _ _ _ _ (sr_new _ _ _ _ _ _ _ _ _ _ _) E1) as [R1 _]. destruct (xp_file_run _ _ _ _ _ _ R1 E2) as [R2 _].
  exists f1, B1, s1, f2, B2, s2, k1, k2, cs1, cs2. split; [exact eq_refl|]. split; [exact Ek1|]. split; [exact E2|]. split; [exact Ek2|]. split; [exact R1|]. split; [exact R2|].
  split; [by apply xp_fine|]. split; [by apply xp_fine|]. split; [intros ->; discriminate H3|]. split; [by apply bool_decide_eq_true in H4|]. split; [by apply P|]. split; [exact G1|].
  split; [by apply Nat.eqb_eq|]. split; [exact G2|]. split; [by apply Nat.eqb_eq|]. split; [by apply P|].
  destruct (C47_export_builds no_wide ex_digest ex_from1 ex_to1 ex_listing ex_said_ok ascii_digits ex_lang_ok (fun _ => None) ex_to_text ex_of_text ex_hash (s1 ++ s2) f2
    ex_text_ok ascii_digits_class eq_refl R2 (xp_fine _ H2) 3 k2 cs2 G2 (P _ H8)) as (s & B0 & Hs & _ & Hp & _).
  apply Hp. specialize (Hs false). rewrite Et in Hs. injection Hs as <-. destruct (xp_parse t) as [b| |]; [by exists b|discriminate H9|discriminate H9].
Qed.
Print Assumptions C47_hypotheses_met.

(** Finding: a file may add an attribute that the bundle it starts from already has (the parser checks each file on its own);
    the export of such a bundle holds both commands, and the parser rejects it. *)
Theorem C47_readded_attribute_refuted : exists f1 B1 s1 f2 B2 s2 k1 k2 t,
  xp_file src1 facade_new = Ok (f1, (B1, s1)) /\ b_said B1 = Some k1 /\ xp_file (src3 k1) f1 = Ok (f2, (B2, s2)) /\ b_said B2 = Some k2 /\
  steps_fine ex_digest ex_said_ok ascii_digits ex_lang_ok (s1 ++ s2) /\ xp_export 3 f2 k2 true = Some (Ok t) /\ exists es, xp_parse t = Err es.
Proof.
  assert (H : match xp_file src1 facade_new with Ok (f1, (B1, s1)) => match b_said B1 with Some k1 =>
    match xp_file (src3 k1) f1 with Ok (f2, (B2, s2)) => match b_said B2 with Some k2 =>
      match xp_export 3 f2 k2 true with
      | Some (Ok t) => (ex_simple (s1 ++ s2) && clash_check (map bs_result (s1 ++ s2)) && forallb no_framing (map bs_cmd (s1 ++ s2))) && is_err (xp_parse t)
      | _ => false end
    | None => false end | _ => false end | None => false end | _ => false end = true) by (vm_compute; reflexivity).
  destruct (xp_file src1 facade_new) as [[f1 [B1 s1]]| |] eqn:E1; [|discriminate H|discriminate H]. destruct (b_said B1) as [k1|] eqn:Ek1; [|discriminate H].
  destruct (xp_file (src3 k1) f1) as [[f2 [B2 s2]]| |] eqn:E2; [|discriminate H|discriminate H]. destruct (b_said B2) as [k2|] eqn:Ek2; [|discriminate H].
  destruct (xp_export 3 f2 k2 true) as [[t| |]|] eqn:Et; [|discriminate H..]. apply andb_true_iff in H as [H1 H2].
  exists f1, B1, s1, f2, B2, s2, k1, k2, t. split; [exact eq_refl|]. split; [exact Ek1|]. split; [exact E2|]. split; [exact Ek2|]. split; [by apply xp_fine|]. split; [exact Et|].
  destruct (xp_parse t) as [b|es|]; [discriminate H2|by exists es|discriminate H2].
Qed.
Print Assumptions C47_readded_attribute_refuted.

(** A check for the bundles that can be written. *)
Definition names_b {V} (ok : V -> bool) (m : gmap string V) : bool :=
  match map_to_list m with [] => false | l => forallb (fun kv => name_b kv.1 && ok kv.2) l end.
Definition lang_b (l : string) : bool := match Props_ToAst.ex_to1 l with Some s => String.eqb s "en" || String.eqb s "pl" | None => true end.
Definition ecodes_b (e : ecodes) : bool :=
  match e with ECSai s => quotable s | ECArr l => forallb quotable l | ECObj g => bool_decide (NoDup (map fst g)) && forallb (fun x => quotable x.1 && forallb quotable x.2) g end.
Definition entries_b (e : entries) : bool := match e with EnSai s => quotable s | EnObj m => forallb (fun kv => quotable kv.1 && quotable kv.2) (map_to_list m) end.
Definition body_b (b : body) : bool :=
  match b with
  | BEncoding m => names_b (fun _ => true) m
  | BFormat m | BConformance m | BCardinality m | BUnit m => names_b quotable m
  | BMeta l m => lang_b l && names_b quotable m && negb (is_some_b (m !! "lang"))
  | BLabel l _ m _ | BInformation l m => lang_b l && names_b quotable m
  | BConditional c d => match map_to_list c with [] => false | l =>
      forallb (fun kv => name_b kv.1 && match d !! kv.1 with Some deps => match decode_condition kv.2 deps with Some t => quotable t | None => true end | None => true end) l end
  | BEntryCode m => names_b ecodes_b m
  | BEntry l m => lang_b l && names_b entries_b m
  | _ => true
  end.
Fixpoint type_r (t : nattr) : bool := match t with NVal _ => true | NArr u => type_r u | NRef (RSaid s) => ex_said_ok s && all_chars (char_c no_wide) s | _ => false end.
Definition writable_b (B : bundle) : bool := table_b type_r (cb_attrs (b_cb B)) && String.eqb (cb_class (b_cb B)) "" && forallb (fun ov => body_b (ov_body ov)) (b_ovs B).
Lemma type_r_ok t : type_r t = true -> type_ok no_wide ex_said_ok t.
Proof.
  induction t as [[s|n]|v|t IH|]; intros H; try discriminate H; constructor; [| |by apply IH]; cbn in H; apply andb_true_iff in H as [H1 H2]; [|done]. split; [|done]. intros E. by rewrite E in H1.
Qed.
Lemma name_b_ok n : name_b n = true -> name_ok n.
Proof. intros H. apply andb_true_iff in H as [H1 H2]. split; [|done]. intros E. by rewrite E in H1. Qed.
Lemma names_b_ok {V} (ok : V -> bool) (P : V -> Prop) m : (forall v, ok v = true -> P v) -> names_b ok m = true -> names_to P m.
Proof.
  intros Hok H. unfold names_b in H. split.
  - intros ->. rewrite map_to_list_empty in H. discriminate H.
  - intros n v Hv. apply elem_of_map_to_list in Hv. destruct (map_to_list m) as [|x l]; [discriminate H|]. rewrite forallb_forall in H. apply elem_of_list_In in Hv. apply H in Hv.
    apply andb_true_iff in Hv as [Hn Hv]. split; [by apply name_b_ok|by apply Hok].
Qed.
Lemma lang_b_ok l : lang_b l = true -> lang_writable Props_ToAst.ex_to1 l.
Proof.
  intros H s Hs. unfold lang_b in H. rewrite Hs in H. apply orb_true_iff in H as [H|H]; apply String.eqb_eq in H as ->; [exists "e"%char, "n"%char|exists "p"%char, "l"%char]; repeat split; by left.
Qed.
Lemma ecodes_b_ok e : ecodes_b e = true -> ecodes_writable e.
Proof.
  destruct e as [s|l|g]; cbn; intros H; [done|apply Forall_forall; intros x Hx; rewrite forallb_forall in H; by apply H, elem_of_list_In|].
  apply andb_true_iff in H as [H1 H2]. apply bool_decide_eq_true in H1. split; [done|]. apply Forall_forall. intros x Hx. rewrite forallb_forall in H2. apply elem_of_list_In in Hx. apply H2 in Hx.
  apply andb_true_iff in Hx as [A B]. split; [done|]. apply Forall_forall. intros y Hy. rewrite forallb_forall in B. by apply B, elem_of_list_In.
Qed.
Lemma entries_b_ok e : entries_b e = true -> entries_writable e.
Proof.
  destruct e as [s|m]; cbn; intros H; [done|]. intros k t Hk. apply elem_of_map_to_list in Hk. rewrite forallb_forall in H. apply elem_of_list_In in Hk. apply H in Hk. by apply andb_true_iff in Hk.
Qed.
Lemma body_b_ok b : body_b b = true -> body_writable Props_ToAst.ex_to1 b.
Proof.
  destruct b as [m|m|m|m|m|cm d|m|l m|l cats m cl|l m|l m|t m|meta m|m|l|l|m]; cbn [body_b body_writable]; intros H; try done.
  - by apply (names_b_ok (fun _ => true)).
  - by apply (names_b_ok quotable).
  - by apply (names_b_ok quotable).
  - by apply (names_b_ok quotable).
  - by apply (names_b_ok quotable).
  - split; [intros ->; rewrite map_to_list_empty in H; discriminate H|]. intros n x deps t Hx. apply elem_of_map_to_list in Hx. destruct (map_to_list cm) as [|y l]; [discriminate H|].
    rewrite forallb_forall in H. apply elem_of_list_In in Hx. apply H in Hx. apply andb_true_iff in Hx as [Hn Hv]. cbn [fst snd] in Hv. split; [by apply name_b_ok|]. intros E1 E2. by rewrite E1, E2 in Hv.
  - apply (names_b_ok ecodes_b); [exact ecodes_b_ok|done].
  - apply andb_true_iff in H as [H1 H2]. split; [by apply lang_b_ok|]. apply (names_b_ok entries_b); [exact entries_b_ok|done].
  - apply andb_true_iff in H as [H1 H2]. split; [by apply lang_b_ok|]. by apply (names_b_ok quotable).
  - apply andb_true_iff in H as [H1 H2]. split; [by apply lang_b_ok|]. by apply (names_b_ok quotable).
  - apply andb_true_iff in H as [H1 H3]. apply andb_true_iff in H1 as [H1 H2]. split; [by apply lang_b_ok|]. split; [by apply (names_b_ok quotable)|]. by destruct (m !! "lang").
Qed.
Lemma writable_b_ok B : writable_b B = true -> bundle_writable no_wide ex_said_ok Props_ToAst.ex_to1 B.
Proof.
  intros H. apply andb_true_iff in H as [H H3]. apply andb_true_iff in H as [H1 H2]. split; [by apply (table_b_ok type_r); [exact type_r_ok|]|by apply String.eqb_eq|].
  intros ov Hov. rewrite forallb_forall in H3. apply body_b_ok. apply elem_of_list_In in Hov. by apply (H3 ov).
Qed.

(** The box of [C07_example] without its classification. *)
Definition ex_ubox : obox := add_meta "eng" "name" "Test" (add_meta "pol" "name" "Proba" (add_attribute ex_t2 (add_attribute ex_t1 box_new))).
Lemma ubox_datum s n : box_datum ex_ubox s n = box_datum ex_tbox s n.
Proof. destruct s as [k|k l|t|f]; try reflexivity. Qed.
Example C47_bundle_example : api_box ex_ubox /\ no_links ex_ubox /\ no_framings ex_ubox /\ no_flags ex_ubox /\ Props_Reload.no_mappings ex_ubox /\ Props_Reload.no_category_labels ex_ubox /\
  groups_distinct ex_ubox /\ two_letter Props_ToAst.ex_to1 ex_from2 ex_ubox /\ no_lang_key ex_ubox /\
  exists B, generate_bundle inj_digest ord1 ex_ubox = Some B /\ bundle_writable no_wide ex_said_ok Props_ToAst.ex_to1 B /\ length (b_ovs B) = 14%nat /\
  match export_bundle Props_ToAst.ex_to1 ord2 B with Ok t => is_ok (xp_parse t) | _ => false end = true.
Proof.
  destruct C07_example as (_ & H1 & H2 & H3 & H4 & H5 & H6 & H7 & H8 & _).
  split; [|split; [exact H1|split; [exact H2|split; [exact H3|split; [exact H4|split; [exact H5|split; [exact H6|split; [|split]]]]]]]].
  - apply ab_meta, ab_meta, ab_add; [|left; by eexists|apply ab_add; [|left; by eexists|apply ab_new]].
    + apply aa_cond, aa_unit, aa_format, aa_conf, aa_ecodes, aa_entry, aa_type, aa_new.
    + apply aa_label, aa_label, aa_enc, aa_info, aa_card, aa_ecodes, aa_entry, aa_type, aa_new.
  - intros l (k & n & d & Hd). apply H7. exists k, n, d. by rewrite <- ubox_datum.
  - intros l. rewrite ubox_datum. apply H8.
  - assert (H : match generate_bundle inj_digest ord1 ex_ubox with
      | Some B => writable_b B && ((length (b_ovs B) =? 14)%nat && match export_bundle Props_ToAst.ex_to1 ord2 B with Ok t => is_ok (xp_parse t) | _ => false end)
      | None => false end = true) by (vm_compute; reflexivity).
    destruct (generate_bundle inj_digest ord1 ex_ubox) as [B|]; [|discriminate H]. apply andb_true_iff in H as [A H]. apply andb_true_iff in H as [C D].
    exists B. split; [exact eq_refl|]. split; [by apply writable_b_ok|]. split; [by apply Nat.eqb_eq|exact D].
Qed.
(** Finding: with a classification the exported text is not an OCAfile. *)
Theorem C47_classification_refuted : match generate_bundle inj_digest ord1 ex_tbox with
  | Some B => match export_bundle Props_ToAst.ex_to1 ord2 B with Ok t => is_err (xp_parse t) | _ => false end
  | None => false end = true.
Proof. vm_compute. reflexivity. Qed.
Print Assumptions C47_classification_refuted.

(** The line of each printable command, taken by the grammar and read back; then whole files. *)
From Coq Require Import Lia.
From Verif Require Export OcaLines.
From Verif Require Import Condition_proofs Bundle_proofs.

Section OcaCommands.
Variable wide : ascii -> bool.
Variable said_ok : string -> bool.
Local Notation sg := (sgrammar wide).
Local Notation takes := (takes sg).
Local Notation rejects := (rejects sg).
Local Notation table := (table wide).

Definition g_cmd : pe srule := PAlts [PRul Rfrom; PRul Radd; PRul Rmodify; PRul Rremove].
Lemma t_star_aws1 o r : stops aws_c (o +:+ r) -> takes false (PStar g_arg_ws) " " [] (o +:+ r).
Proof. intros H. apply (t_star sg false _ " " "" [] []); [by apply t_aws|]. by apply t_star0, r_aws. Qed.
Lemma t_add o ts r : stops aws_c (o +:+ r) -> takes false g_oca_object o ts r -> takes false g_cmd ("ADD " +:+ o) [Pair Radd ("ADD " +:+ o) ts] r.
Proof.
  intros Hs Ht. apply t_alt2; [by apply (r_run sg 20)|]. apply t_alt1. eapply t_conv; [eapply t_rul; [reflexivity|]|reflexivity|reflexivity].
  apply (t_seq sg false _ _ "ADD" (" " +:+ o) [] ts); [by apply t_liti|]. apply (t_seq sg false _ _ " " o [] ts); [by apply t_star_aws1|done].
Qed.
Lemma t_remove o ts r : stops aws_c (o +:+ r) -> takes false g_remove_oca_object o ts r -> takes false g_cmd ("REMOVE " +:+ o) [Pair Rremove ("REMOVE " +:+ o) ts] r.
Proof.
  intros Hs Ht. do 3 (apply t_alt2; [by apply (r_run sg 20)|]). eapply t_conv; [eapply t_rul; [reflexivity|]|reflexivity|reflexivity].
  apply (t_seq sg false _ _ "REMOVE" (" " +:+ o) [] ts); [by apply t_liti|]. apply (t_seq sg false _ _ " " o [] ts); [by apply t_star_aws1|done].
Qed.
Lemma t_assoc at_ a b c x ts r : takes at_ (PSeq a (PSeq b c)) x ts r -> takes at_ (PSeq (PSeq a b) c) x ts r.
Proof.
  unfold Takes.takes. intros H. inversion H; subst. match goal with K : ev _ _ (PSeq b c) _ _ |- _ => inversion K; subst end.
  rewrite <- (append_assoc c0 c1) in *. rewrite app_assoc. eapply ev_seq; [|eassumption]. eapply ev_seq; eassumption.
Qed.
(** A table behind its keyword. *)
Definition first_text (l : list item) : string := match l with i :: l' => it_text i +:+ items_text l' | [] => "" end.
Definition sep_ok (l : list item) (key : string) : Prop := all_chars ws_c key = true /\ l <> [] /\ (it_sep (hd (Item "" "" (Pair REOI "" [])) l) <> "" \/ key <> "").
Lemma t_keyed rp m l kw KW key rs r : table rp m l -> sg rs = (Compound, g_spaced (PRul rp)) -> sep_ok l key ->
  (forall r, takes false (PLitI kw) KW [] r) -> ends r ->
  takes false (PSeq (PSeq (PLitI kw) g_arg_ws) (PRul rs)) (KW +:+ key +:+ items_text l) [Pair rs (first_text l) (map it_tok l)] r.
Proof.
  intros Ht Hrs (Hk & Hl & Hsep) HKW Hr. apply t_assoc. apply (t_seq sg false _ _ KW _ [] _); [apply HKW|]. by eapply t_table.
Qed.
Lemma t_overlay rp m l name NAME kw KW key rs r : table rp m l -> sg rs = (Compound, g_spaced (PRul rp)) -> sep_ok l key ->
  (forall r, takes false (PLitI kw) KW [] r) -> (forall r, takes false (PLitI name) NAME [] r) -> stops aws_c KW -> KW <> "" -> ends r ->
  takes false (g_overlay name (PSeq (PLitI kw) g_arg_ws) (PRul rs)) (NAME +:+ " " +:+ KW +:+ key +:+ items_text l) [Pair rs (first_text l) (map it_tok l)] r.
Proof.
  intros Ht Hrs Hsep HKW HN HKs HKn Hr. apply (t_seq sg false _ _ NAME _ [] _); [apply HN|]. apply (t_seq sg false _ _ " " _ [] _).
  - apply t_aws; [done|done|]. rewrite append_assoc. by destruct KW.
  - by eapply t_keyed.
Qed.
Lemma alpha_aws c : alpha_c c = true -> aws_c c = false.
Proof. destruct c as [[] [] [] [] [] [] [] []]; vm_compute; done. Qed.
Lemma lang_starts lang r : lang_text_ok lang -> stops aws_c (lang +:+ r).
Proof. intros (a & b & Ha & Hb & [->|(c & d & _ & _ & ->)]); by apply alpha_aws. Qed.
Lemma t_lang_overlay rp m l name NAME kw KW key rs lang r : table rp m l -> sg rs = (Compound, g_spaced (PRul rp)) -> sep_ok l key -> lang_text_ok lang ->
  (forall r, takes false (PLitI kw) KW [] r) -> (forall r, takes false (PLitI name) NAME [] r) -> stops aws_c KW -> KW <> "" -> ends r ->
  takes false (g_lang_overlay name (PSeq (PLitI kw) g_arg_ws) (PRul rs)) (NAME +:+ " " +:+ lang +:+ " " +:+ KW +:+ key +:+ items_text l)
    [Pair Rlang lang []; Pair rs (first_text l) (map it_tok l)] r.
Proof.
  intros Ht Hrs Hsep Hlang HKW HN HKs HKn Hr. apply (t_seq sg false _ _ NAME _ [] _); [apply HN|]. apply (t_seq sg false _ _ " " _ [] _).
  { apply t_aws; [done|done|]. rewrite append_assoc. by apply lang_starts. }
  apply (t_seq sg false _ _ lang _ [_] _); [by apply t_lang|]. apply (t_seq sg false _ _ " " _ [] _).
  - apply t_aws; [done|done|]. rewrite append_assoc. by destruct KW.
  - by eapply t_keyed.
Qed.
Lemma plain_sep rp rv l key : all_chars ws_c key = true -> l <> [] -> sep_ok (plain_items rp rv l) key.
Proof. intros Hk Hl. destruct l as [|x l]; [done|]. split; [done|]. split; [done|]. by left. Qed.
Lemma code_sep l : l <> [] -> sep_ok (code_items l) "".
Proof. intros Hl. destruct l as [|x l]; [done|]. split; [done|]. split; [done|]. by left. Qed.
Lemma entry_sep_ok l : l <> [] -> sep_ok (entry_items l) " ".
Proof. intros Hl. destruct l as [|x l]; [done|]. split; [done|]. split; [done|]. by right. Qed.

(** ** One line *)
Definition line_ok (c : command) : Prop := exists text tok,
  command_text c = Some text /\ (forall r, ends r -> takes false g_cmd text [tok] r) /\ p_text tok = text /\ instruction said_ok tok = Ok (as_read c) /\
  (p_rule tok = Radd \/ p_rule tok = Rremove) /\ (exists o, text = ("ADD " +:+ o)%string \/ text = ("REMOVE " +:+ o)%string).
Lemma add_line c o ts : command_text c = Some ("ADD " +:+ o)%string -> (forall r, stops aws_c (o +:+ r)) -> (forall r, ends r -> takes false g_oca_object o ts r) ->
  add_instruction said_ok (Pair Radd ("ADD " +:+ o) ts) = Ok (as_read c) -> line_ok c.
Proof.
  intros Hc Hs Ht Hi. exists ("ADD " +:+ o)%string, (Pair Radd ("ADD " +:+ o) ts). split; [done|]. split; [intros r Hr; apply t_add; auto|].
  split; [done|]. split; [done|]. split; [by left|]. exists o. by left.
Qed.
Lemma remove_line c o ts : command_text c = Some ("REMOVE " +:+ o)%string -> (forall r, stops aws_c (o +:+ r)) -> (forall r, ends r -> takes false g_remove_oca_object o ts r) ->
  remove_instruction (Pair Rremove ("REMOVE " +:+ o) ts) = Ok (as_read c) -> line_ok c.
Proof.
  intros Hc Hs Ht Hi. exists ("REMOVE " +:+ o)%string, (Pair Rremove ("REMOVE " +:+ o) ts). split; [done|]. split; [intros r Hr; apply t_remove; auto|].
  split; [done|]. split; [done|]. split; [by right|]. exists o. by right.
Qed.
Local Tactic Notation "skip" integer(n) := do n (apply t_alt2; [apply (r_run sg 30); reflexivity|]).
Lemma ends_char r : ends r -> stops (char_c wide) r. Proof. by intros [s ->]. Qed.

Lemma types_line l : Forall (fun kt => type_ok wide said_ok kt.2) l -> types_text l = Some (attrs_line l).
Proof.
  induction 1 as [|[k t] l Ht Hl IH]; [done|]. cbn [types_text]. cbn [snd] in Ht. rewrite (type_text_ty wide said_ok t Ht), IH.
  unfold attrs_line. rewrite cat_cons. unfold attr_text. cbn [fst snd]. rewrite !append_assoc. reflexivity.
Qed.
Lemma line_attrs l : table_ok (type_ok wide said_ok) l -> line_ok (Command CAdd (OCaptureBase (CapContent (Some l) None None))).
Proof.
  intros (Hl & Hn & H). assert (Ht : Forall (fun kt => type_ok wide said_ok kt.2) l) by (eapply Forall_impl; [exact H|]; by intros ? []).
  eapply (add_line _ ("ATTRIBUTE" +:+ attrs_line l) [Pair Rattribute _ [Pair Rattr_pairs _ (map (fun kt => attr_tok kt.1 kt.2) l)]]).
  - cbn [command_text cmd_kind cmd_obj cc_attrs cc_props]. rewrite types_line; [|done]. cbn [option_map opt_text]. by rewrite append_nil_r.
  - done.
  - intros r Hr. unfold g_oca_object. cbn [PAlts]. skip 2. apply t_alt1. eapply t_conv; [eapply t_rul; [reflexivity|]|reflexivity|reflexivity].
    apply (t_seq sg false _ _ "ATTRIBUTE" _ [] _); [by apply t_liti|]. apply t_plus.
    + eapply t_conv; [eapply (t_star sg false _ (attrs_line l) "" [_] []); [|apply t_star0]| |reflexivity].
      * eapply t_attr_pairs; [done|exact H|by apply ends_char|by apply ends_aws].
      * eapply r_rul; [reflexivity|]. apply r_seq1, r_seq1, r_aws. by apply ends_aws.
      * by rewrite append_nil_r.
    + destruct l as [|x l]; [done|]. unfold attrs_line. by rewrite cat_cons.
  - unfold add_instruction. cbn [p_inner add_objects attribute_pairs]. rewrite (insert_attrs_fresh said_ok _ l []); [reflexivity| |done].
    apply Forall2_fmap_l, Forall_Forall2_diag. eapply Forall_impl; [exact Ht|]. intros [k t] Hkt. by apply (extract_attr_tok wide).
Qed.
Lemma char_no_quote c : char_c wide c = true -> Ascii.eqb "'" c = false /\ Ascii.eqb DQ c = false.
Proof.
  intros H. split; [destruct (Ascii.eqb "'" c) eqn:E|destruct (Ascii.eqb DQ c) eqn:E]; try done; apply Ascii.eqb_eq in E; subst; by vm_compute in H.
Qed.
Lemma char_aws c : char_c wide c = true -> aws_c c = false.
Proof.
  intros H. unfold aws_c, ws_c. destruct (is_c " " c) eqn:E1; [apply Ascii.eqb_eq in E1; subst; by vm_compute in H|].
  destruct (is_c TAB c) eqn:E2; [apply Ascii.eqb_eq in E2; subst; by vm_compute in H|].
  destruct (is_c BSL c) eqn:E3; [apply Ascii.eqb_eq in E3; subst; by vm_compute in H|done].
Qed.
Lemma line_class v : word_ok wide v \/ (exists w, v = (Q +:+ w +:+ Q)%string /\ quotable w = true) ->
  line_ok (Command CAdd (OCaptureBase (CapContent None (Some [("classification", VVal v)]) None))).
Proof.
  intros H. assert (T : exists inner, forall r, ends r -> takes false (PRul Rclassification_value) v [Pair Rclassification_value v inner] r).
  { destruct H as [Hw|(w & -> & Hw)].
    - exists (char_toks false v). intros r Hr. eapply t_conv; [eapply t_rul; [reflexivity|]|reflexivity|reflexivity]. apply t_alt2.
      + destruct Hw as [Hv Hc]. destruct v as [|c v]; [done|]. cbn [all_chars] in Hc. apply andb_prop in Hc as [Hc _]. destruct (char_no_quote c Hc) as [E1 E2].
        eapply r_rul; [reflexivity|]. apply r_alt; apply r_seq1; by apply r_lit1.
      + apply t_chars; [done|by apply ends_char].
    - exists [string_tok w]. intros r Hr. eapply t_conv; [eapply t_rul; [reflexivity|]|reflexivity|reflexivity]. by apply t_alt1, t_string. }
  destruct T as [inner T].
  eapply (add_line _ ("CLASSIFICATION " +:+ v) [Pair Rclassification _ [Pair Rclassification_value v inner]]).
  - reflexivity.
  - done.
  - intros r Hr. unfold g_oca_object. cbn [PAlts]. skip 3. apply t_alt1. eapply t_conv; [eapply t_rul; [reflexivity|]|reflexivity|reflexivity].
    apply (t_seq sg false _ _ "CLASSIFICATION" (" " +:+ v) [] _); [by apply t_liti|]. apply (t_seq sg false _ _ " " v [] _).
    + apply t_aws; [done|done|]. destruct H as [[Hv Hc]|(w & -> & _)]; [|done]. destruct v as [|c v]; [done|]. cbn [all_chars] in Hc. apply andb_prop in Hc as [Hc _]. by apply char_aws.
    + by apply T.
  - reflexivity.
Qed.
(** The lines the generator does not write: a base bundle and a flagged attribute. *)
Lemma line_flagged n : word_ok wide n -> exists tok, (forall r, ends r -> takes false g_cmd ("ADD FLAGGED_ATTRIBUTES " +:+ n) [tok] r) /\
  p_text tok = ("ADD FLAGGED_ATTRIBUTES " +:+ n)%string /\ instruction said_ok tok = Ok (Command CAdd (OCaptureBase (CapContent None None (Some [n])))) /\ p_rule tok = Radd.
Proof.
  intros Hw. pose proof Hw as [Hv Hc]. destruct n as [|c v]; [done|]. cbn [all_chars] in Hc. apply andb_prop in Hc as [Hc _]. destruct (char_no_quote c Hc) as [E1 E2].
  set (n := String c v) in *.
  assert (T : forall at_ r, ends r -> takes at_ (PRul Rkey_value) n [Pair Rkey_value n (char_toks false n)] r).
  { intros at_ r Hr. eapply t_conv; [eapply t_rul; [reflexivity|]|reflexivity|reflexivity]. apply t_alt2.
    - eapply r_rul; [reflexivity|]. apply r_alt; apply r_seq1; by apply r_lit1.
    - apply t_chars; [done|by apply ends_char]. }
  exists (Pair Radd ("ADD FLAGGED_ATTRIBUTES " +:+ n) [Pair Rflagged_attrs ("FLAGGED_ATTRIBUTES " +:+ n) [Pair Rlist_value n [Pair Rkey_value n (char_toks false n)]]]).
  split; [|done]. intros r Hr. apply (t_add ("FLAGGED_ATTRIBUTES " +:+ n)); [done|]. unfold g_oca_object. cbn [PAlts]. skip 16.
  eapply t_conv; [eapply t_rul; [reflexivity|]|reflexivity|reflexivity].
  apply (t_seq sg false _ _ "FLAGGED_ATTRIBUTES" (" " +:+ n) [] _); [by apply t_liti|]. apply (t_seq sg false _ _ " " n [] _).
  - apply t_aws; [done|done|]. by apply char_aws.
  - eapply t_conv; [eapply t_rul; [reflexivity|]|reflexivity|reflexivity].
    apply t_plus; [|done]. eapply t_conv; [eapply (t_star sg false _ n "" [_] [])|by rewrite append_nil_r|reflexivity].
    + apply (t_seq0 sg false _ _ _ [] _); [apply (t_oaws wide false ""); [done|]; by apply char_aws|].
      eapply t_conv; [apply (t_seq sg false _ _ n "" [Pair Rkey_value n (char_toks false n)] []); [by apply T|]|by rewrite append_nil_r|done]. apply (t_oaws wide false ""); [done|]. by apply ends_aws.
    + apply t_star0. apply (r_seq2 sg false _ _ "" [] r); [apply (t_oaws wide false ""); [done|]; by apply ends_aws|]. apply r_seq1. destruct Hr as [s ->].
      apply (r_run sg 30). reflexivity.
Qed.
Lemma line_from s : word_ok wide s -> said_ok s = true -> exists tok, (forall r, ends r -> takes false g_cmd ("FROM " +:+ s) [tok] r) /\
  p_text tok = ("FROM " +:+ s)%string /\ instruction said_ok tok = Ok (Command CFrom (OBundle (BundleContent (RSaid s)))) /\ p_rule tok = Rfrom.
Proof.
  intros Hw Hs. pose proof Hw as [Hv Hc]. destruct s as [|c v]; [done|]. cbn [all_chars] in Hc. apply andb_prop in Hc as [Hc _].
  set (s := String c v) in *. assert (Hws : ws_c c = false).
  { pose proof (char_aws c Hc) as H. unfold aws_c in H. by apply orb_false_iff in H as [H _]. }
  exists (Pair Rfrom ("FROM " +:+ s) [Pair Rfrom_said s (char_toks false s)]). split; [|split; [done|split; [|done]]].
  - intros r Hr. apply t_alt1. eapply t_conv; [eapply t_rul; [reflexivity|]|reflexivity|reflexivity].
    apply (t_seq sg false _ _ "FROM" (" " +:+ s) [] _); [by apply t_liti|]. apply (t_seq sg false _ _ " " s [] _); [by apply t_star_cls|].
    eapply t_conv; [eapply t_rul; [reflexivity|]|reflexivity|reflexivity]. apply (t_seq0 sg false _ _ _ [] _); [by apply (t_star_cls sg false _ "")|].
    apply t_chars; [done|by apply ends_char].
  - unfold instruction. cbn [p_rule]. unfold from_instruction. cbn [p_inner from_field obind]. by rewrite Hs.
Qed.
Lemma rotate_is {V} (k : string) (v : V) (ps : imap V) : ps <> [] -> ~ k ∈ map fst ps -> swap_remove k ((k, v) :: ps) = last_first ps.
Proof.
  intros Hp Hk. unfold swap_remove, imap_mem. cbn [existsb fst]. rewrite String.eqb_refl. cbn [orb rev]. unfold last_first.
  assert (Hk' : ~ k ∈ map fst (rev ps)). { intros Hin. apply Hk. rewrite map_rev in Hin. by apply elem_of_list_In, in_rev, elem_of_list_In in Hin. }
  assert (Hp' : rev ps <> []) by (intros E; apply Hp; by rewrite <- (rev_involutive ps), E). destruct (rev ps) as [|x r]; [done|]. clear Hp Hk.
  cbn [app]. cbn [map] in Hk'. destruct (String.eqb k x.1) eqn:E; [apply String.eqb_eq in E; subst; exfalso; apply Hk'; by left|].
  rewrite rev_app_distr. cbn [rev app map fst]. rewrite String.eqb_refl. f_equal.
  assert (Hr : ~ k ∈ map fst (rev r)). { intros Hin. apply Hk'. right. rewrite map_rev in Hin. by apply elem_of_list_In, in_rev, elem_of_list_In in Hin. }
  clear -Hr. induction (rev r) as [|y l IH]; [done|]. cbn [map] in *. destruct (String.eqb k y.1) eqn:E; [apply String.eqb_eq in E; subst; exfalso; apply Hr; by left|].
  f_equal. apply IH. intros Hin. apply Hr. by right.
Qed.
Lemma last_first_perm {A} (l : list A) : last_first l ≡ₚ l.
Proof.
  unfold last_first. pose proof (rev_involutive l) as E. destruct (rev l) as [|x r]; [by rewrite <- E|]. rewrite <- E. cbn [rev].
  by rewrite Permutation_app_comm.
Qed.
Lemma name_cat (a : string) : a <> "" -> forall b, (a +:+ b)%string <> "". Proof. by destruct a. Qed.

Lemma line_meta ver l ps ats : lang_text_ok l -> ~ "lang" ∈ map fst ps -> table_ok plain_ok ps -> no_props ats ->
  line_ok (Command CAdd (OOverlay (OType KMeta ver) (Content ats (Some (("lang", VVal l) :: ps))))).
Proof.
  intros Hl Hnl (Hp & Hn & H) Ha.
  assert (Hrot : Forall (fun kv => name_ok kv.1 /\ plain_ok kv.2) (last_first ps)) by (by rewrite (last_first_perm ps)).
  assert (Hrn : NoDup (map fst (last_first ps))) by (by rewrite (last_first_perm ps)).
  assert (Hrl : ~ "lang" ∈ map fst (last_first ps)) by (by rewrite (last_first_perm ps)).
  assert (Hrp : last_first ps <> []). { intros E. apply Hp. apply Permutation_nil_r. rewrite <- (last_first_perm ps), E. done. }
  destruct (plain_table_of _ Hrot) as (m & Em & Hm).
  assert (Hmn : m <> []) by (intros ->; by rewrite Em in Hrp).
  eapply (add_line _ ("META " +:+ l +:+ " " +:+ "PROPS" +:+ " " +:+ items_text (plain_items Rkey_pair Rkey_value m))
    [Pair Rmeta _ [Pair Rlang l []; Pair Rprop_key_pairs _ (map it_tok (plain_items Rkey_pair Rkey_value m))]]).
  - cbn [command_text cmd_kind cmd_obj overlay_text ot_kind ct_props opt_text]. rewrite rotate_is by done. unfold lang_text. cbn [imap_get String.eqb Ascii.eqb Bool.eqb].
    unfold props_text. destruct (last_first ps) as [|x y] eqn:E; [done|]. rewrite Em, plain_text, !append_assoc. reflexivity.
  - done.
  - intros r Hr. unfold g_oca_object. cbn [PAlts]. apply t_alt1. eapply t_conv; [eapply t_rul; [reflexivity|]|reflexivity|reflexivity].
    eapply (t_lang_overlay Rkey_pair (plain_map m) _ "meta" "META" "props" "PROPS"); [by apply plain_table|reflexivity|by apply plain_sep|done|..|done|done|done];
      intros; by apply t_liti.
  - unfold add_instruction. cbn [p_inner add_objects overlay_rule]. unfold extract_content. cbn [p_inner content_props content_attrs]. cbn [imap_insert].
    rewrite (insert_kvs_fresh _ (plain_map m) [("lang", VVal l)]).
    + cbn [obind as_read command_of]. rewrite Em. destruct Ha as [->| ->]; reflexivity.
    + apply Forall2_fmap_l. exact (tb_read _ _ _ _ (plain_table wide m Hm)).
    + rewrite <- Em. cbn [map app fst]. by constructor.
Qed.
Lemma line_lang k ver l ats : k = KLabel \/ k = KInformation -> lang_text_ok l -> table_ok plain_ok ats ->
  line_ok (Command CAdd (OOverlay (OType k ver) (Content (Some ats) (Some [("lang", VVal l)])))).
Proof.
  intros Hk Hl (Hp & Hn & H). destruct (plain_table_of _ H) as (m & -> & Hm). assert (Hmn : m <> []) by (by intros ->).
  destruct Hk as [-> | ->].
  - eapply (add_line _ ("LABEL " +:+ l +:+ " " +:+ "ATTRS" +:+ "" +:+ items_text (plain_items Rkey_pair Rkey_value m))
      [Pair Rlabel _ [Pair Rlang l []; Pair Rattr_key_pairs _ (map it_tok (plain_items Rkey_pair Rkey_value m))]]).
    + cbn [command_text cmd_kind cmd_obj overlay_text ot_kind ct_props ct_attrs opt_text]. unfold lang_text, attrs_text, swap_remove, imap_mem.
      cbn [imap_get String.eqb Ascii.eqb Bool.eqb existsb fst orb rev app upper_snake props_text]. rewrite plain_text, !append_assoc. reflexivity.
    + done.
    + intros r Hr. unfold g_oca_object. cbn [PAlts]. skip 1. apply t_alt1. eapply t_conv; [eapply t_rul; [reflexivity|]|reflexivity|reflexivity].
      eapply (t_lang_overlay Rkey_pair (plain_map m) _ "label" "LABEL" "attrs" "ATTRS"); [by apply plain_table|reflexivity|by apply plain_sep|done|..|done|done|done];
        intros; by apply t_liti.
    + unfold add_instruction. cbn [p_inner add_objects overlay_rule]. unfold extract_content. cbn [p_inner content_props content_attrs]. cbn [imap_insert].
      rewrite (insert_table wide Rkey_pair (plain_map m)); [reflexivity|by apply plain_table|done].
  - eapply (add_line _ ("INFORMATION " +:+ l +:+ " " +:+ "ATTRS" +:+ "" +:+ items_text (plain_items Rkey_pair Rkey_value m))
      [Pair Rinformation _ [Pair Rlang l []; Pair Rattr_key_pairs _ (map it_tok (plain_items Rkey_pair Rkey_value m))]]).
    + cbn [command_text cmd_kind cmd_obj overlay_text ot_kind ct_props ct_attrs opt_text]. unfold lang_text, attrs_text, swap_remove, imap_mem.
      cbn [imap_get String.eqb Ascii.eqb Bool.eqb existsb fst orb rev app upper_snake props_text]. rewrite plain_text, !append_assoc. reflexivity.
    + done.
    + intros r Hr. unfold g_oca_object. cbn [PAlts]. skip 4. apply t_alt1. eapply t_conv; [eapply t_rul; [reflexivity|]|reflexivity|reflexivity].
      eapply (t_lang_overlay Rkey_pair (plain_map m) _ "information" "INFORMATION" "attrs" "ATTRS"); [by apply plain_table|reflexivity|by apply plain_sep|done|..|done|done|done];
        intros; by apply t_liti.
    + unfold add_instruction. cbn [p_inner add_objects overlay_rule]. unfold extract_content. cbn [p_inner content_props content_attrs]. cbn [imap_insert].
      rewrite (insert_table wide Rkey_pair (plain_map m)); [reflexivity|by apply plain_table|done].
Qed.
(** The overlays of attributes without a language. *)
Lemma line_plain k ver ats ps : k = KCharacterEncoding \/ k = KFormat \/ k = KConformance \/ k = KCardinality \/ k = KConditional \/ k = KUnit ->
  table_ok plain_ok ats -> no_props ps -> line_ok (Command CAdd (OOverlay (OType k ver) (Content (Some ats) ps))).
Proof.
  intros Hk (Hp & Hn & H) Hps. destruct (plain_table_of _ H) as (m & -> & Hm). assert (Hmn : m <> []) by (by intros ->).
  assert (Gen : forall (ru rp rv rs : srule) NAME, (forall r, ends r -> takes false g_oca_object (NAME +:+ " " +:+ "ATTRS" +:+ "" +:+ items_text (plain_items rp rv m))
       [Pair ru (NAME +:+ " " +:+ "ATTRS" +:+ "" +:+ items_text (plain_items rp rv m)) [Pair rs (first_text (plain_items rp rv m)) (map it_tok (plain_items rp rv m))]] r) ->
     command_text (Command CAdd (OOverlay (OType k ver) (Content (Some (plain_map m)) ps))) = Some ("ADD " +:+ NAME +:+ " " +:+ "ATTRS" +:+ "" +:+ items_text (plain_items rp rv m))%string ->
     (forall r, stops aws_c (NAME +:+ r)) ->
     (add_objects said_ok [Pair ru (NAME +:+ " " +:+ "ATTRS" +:+ "" +:+ items_text (plain_items rp rv m)) [Pair rs (first_text (plain_items rp rv m)) (map it_tok (plain_items rp rv m))]] None
       = Ok (Some (OOverlay (OType k "1.1") (Content (Some (plain_map m)) (Some []))))) ->
     line_ok (Command CAdd (OOverlay (OType k ver) (Content (Some (plain_map m)) ps)))).
  { intros ru rp rv rs NAME Ht Hc Hs Ha. eapply add_line; [exact Hc|intros r; rewrite append_assoc; apply Hs|exact Ht|].
    unfold add_instruction. cbn [p_inner]. rewrite Ha. cbn [obind command_of as_read]. destruct Hps as [-> | ->]; destruct Hk as [-> |[-> |[-> |[-> |[-> | ->]]]]]; reflexivity. }
  assert (Read : forall ru t, extract_content said_ok (Pair ru t [Pair Rattr_key_pairs (first_text (plain_items Rkey_pair Rkey_value m)) (map it_tok (plain_items Rkey_pair Rkey_value m))])
     = Ok (Content (Some (plain_map m)) (Some []))).
  { intros ru t. unfold extract_content. cbn [p_inner content_props content_attrs]. rewrite (insert_table wide Rkey_pair (plain_map m)); [reflexivity|by apply plain_table|done]. }
  assert (Over : forall name NAME r, (forall r, takes false (PLitI name) NAME [] r) -> ends r ->
     takes false (g_overlay name g_attrs_key (PRul Rattr_key_pairs)) (NAME +:+ " " +:+ "ATTRS" +:+ "" +:+ items_text (plain_items Rkey_pair Rkey_value m))
       [Pair Rattr_key_pairs (first_text (plain_items Rkey_pair Rkey_value m)) (map it_tok (plain_items Rkey_pair Rkey_value m))] r).
  { intros name NAME r HN Hr. eapply (t_overlay Rkey_pair (plain_map m) _ name NAME "attrs" "ATTRS"); [by apply plain_table|reflexivity|by apply plain_sep| |done|done|done|done].
    intros; by apply t_liti. }
  destruct Hk as [-> |[-> |[-> |[-> |[-> | ->]]]]].
  - eapply (Gen Rcharacter_encoding Rkey_pair Rkey_value Rattr_key_pairs "CHARACTER_ENCODING"); [| |done|].
    + intros r Hr. unfold g_oca_object. cbn [PAlts]. skip 6. apply t_alt1. eapply t_conv; [eapply t_rul; [reflexivity|]|reflexivity|reflexivity]. apply Over; [|done]. intros; by apply t_liti.
    + cbn [command_text cmd_kind cmd_obj overlay_text ot_kind ct_props ct_attrs upper_snake attrs_text]. rewrite plain_text. destruct Hps as [-> | ->]; reflexivity.
    + cbn [add_objects overlay_rule]. by rewrite Read.
  - eapply (Gen Rformat Rkey_pair Rkey_value Rattr_key_pairs "FORMAT"); [| |done|].
    + intros r Hr. unfold g_oca_object. cbn [PAlts]. skip 8. apply t_alt1. eapply t_conv; [eapply t_rul; [reflexivity|]|reflexivity|reflexivity]. apply Over; [|done]. intros; by apply t_liti.
    + cbn [command_text cmd_kind cmd_obj overlay_text ot_kind ct_props ct_attrs upper_snake attrs_text]. rewrite plain_text. destruct Hps as [-> | ->]; reflexivity.
    + cbn [add_objects overlay_rule]. by rewrite Read.
  - eapply (Gen Rconformance Rkey_pair Rkey_value Rattr_key_pairs "CONFORMANCE"); [| |done|].
    + intros r Hr. unfold g_oca_object. cbn [PAlts]. skip 9. apply t_alt1. eapply t_conv; [eapply t_rul; [reflexivity|]|reflexivity|reflexivity]. apply Over; [|done]. intros; by apply t_liti.
    + cbn [command_text cmd_kind cmd_obj overlay_text ot_kind ct_props ct_attrs upper_snake attrs_text]. rewrite plain_text. destruct Hps as [-> | ->]; reflexivity.
    + cbn [add_objects overlay_rule]. by rewrite Read.
  - eapply (Gen Rcardinality Rkey_pair Rkey_value Rattr_key_pairs "CARDINALITY"); [| |done|].
    + intros r Hr. unfold g_oca_object. cbn [PAlts]. skip 11. apply t_alt1. eapply t_conv; [eapply t_rul; [reflexivity|]|reflexivity|reflexivity]. apply Over; [|done]. intros; by apply t_liti.
    + cbn [command_text cmd_kind cmd_obj overlay_text ot_kind ct_props ct_attrs upper_snake attrs_text]. rewrite plain_text. destruct Hps as [-> | ->]; reflexivity.
    + cbn [add_objects overlay_rule]. by rewrite Read.
  - eapply (Gen Rconditional Rkey_pair Rkey_value Rattr_key_pairs "CONDITION"); [| |done|].
    + intros r Hr. unfold g_oca_object. cbn [PAlts]. skip 10. apply t_alt1. eapply t_conv; [eapply t_rul; [reflexivity|]|reflexivity|reflexivity]. apply Over; [|done]. intros; by apply t_liti.
    + cbn [command_text cmd_kind cmd_obj overlay_text ot_kind ct_props ct_attrs upper_snake attrs_text]. rewrite plain_text. destruct Hps as [-> | ->]; reflexivity.
    + cbn [add_objects overlay_rule]. by rewrite Read.
  - eapply (Gen Runit Runit_key_pair Runit_value Runit_attr_key_pairs "UNIT"); [| |done|].
    + intros r Hr. unfold g_oca_object. cbn [PAlts]. skip 5. apply t_alt1. eapply t_conv; [eapply t_rul; [reflexivity|]|reflexivity|reflexivity].
      eapply (t_overlay Runit_key_pair (plain_map m) _ "unit" "UNIT" "attrs" "ATTRS"); [by apply unit_table|reflexivity|by apply plain_sep|..|done|done|done]; intros; by apply t_liti.
    + cbn [command_text cmd_kind cmd_obj overlay_text ot_kind ct_props ct_attrs upper_snake attrs_text]. rewrite unit_text. reflexivity.
    + cbn [add_objects overlay_rule]. unfold extract_content. cbn [p_inner content_props content_attrs]. rewrite (insert_table wide Runit_key_pair (plain_map m)); [reflexivity|by apply unit_table|done].
Qed.
Lemma line_codes ver ats ps : table_ok codes_ok ats -> no_props ps -> line_ok (Command CAdd (OOverlay (OType KEntryCode ver) (Content (Some ats) ps))).
Proof.
  intros (Hp & Hn & H) Hps. destruct (codes_of _ H) as (m & -> & Hm). assert (Hmn : m <> []) by (by intros ->).
  eapply (add_line _ ("ENTRY_CODE " +:+ "ATTRS" +:+ "" +:+ items_text (code_items m)) [Pair Rentry_code _ [Pair Rattr_entry_code_key_pairs _ (map it_tok (code_items m))]]).
  - cbn [command_text cmd_kind cmd_obj overlay_text ot_kind ct_props ct_attrs attrs_text]. rewrite codes_text. destruct Hps as [-> | ->]; reflexivity.
  - done.
  - intros r Hr. unfold g_oca_object. cbn [PAlts]. skip 12. apply t_alt1. eapply t_conv; [eapply t_rul; [reflexivity|]|reflexivity|reflexivity].
    eapply (t_overlay Rentry_code_key_pair (code_map m) _ "entry_code" "ENTRY_CODE" "attrs" "ATTRS"); [by apply code_table|reflexivity|by apply code_sep|..|done|done|done]; intros; by apply t_liti.
  - unfold add_instruction. cbn [p_inner add_objects overlay_rule]. unfold extract_content. cbn [p_inner content_props content_attrs].
    rewrite (insert_table wide Rentry_code_key_pair (code_map m)); [|by apply code_table|done]. destruct Hps as [-> | ->]; reflexivity.
Qed.
Lemma line_entry ver l ats : lang_text_ok l -> table_ok entries_ok ats ->
  line_ok (Command CAdd (OOverlay (OType KEntry ver) (Content (Some ats) (Some [("lang", VVal l)])))).
Proof.
  intros Hl (Hp & Hn & H). destruct (entries_of _ H) as (m & -> & Hm). assert (Hmn : m <> []) by (by intros ->).
  eapply (add_line _ ("ENTRY " +:+ l +:+ " " +:+ "ATTRS" +:+ " " +:+ items_text (entry_items m)) [Pair Rentry _ [Pair Rlang l []; Pair Rattr_entry_key_pairs _ (map it_tok (entry_items m))]]).
  - cbn [command_text cmd_kind cmd_obj overlay_text ot_kind ct_props ct_attrs opt_text]. unfold lang_text, attrs_text, swap_remove, imap_mem.
    cbn [imap_get String.eqb Ascii.eqb Bool.eqb existsb fst orb rev app upper_snake props_text]. rewrite entries_text_is, !append_assoc. reflexivity.
  - done.
  - intros r Hr. unfold g_oca_object. cbn [PAlts]. skip 13. apply t_alt1. eapply t_conv; [eapply t_rul; [reflexivity|]|reflexivity|reflexivity].
    eapply (t_lang_overlay Rentry_key_pair (entry_map m) _ "entry" "ENTRY" "attrs" "ATTRS"); [by apply entry_table|reflexivity|by apply entry_sep_ok|done|..|done|done|done]; intros; by apply t_liti.
  - unfold add_instruction. cbn [p_inner add_objects overlay_rule]. unfold extract_content. cbn [p_inner content_props content_attrs]. cbn [imap_insert].
    rewrite (insert_table wide Rentry_key_pair (entry_map m)); [|by apply entry_table|done]. reflexivity.
Qed.
Lemma line_link ver s ats : word_ok wide s -> said_ok s = true -> table_ok plain_ok ats ->
  line_ok (Command CAdd (OOverlay (OType KLink ver) (Content (Some ats) (Some [("target", VRef (RSaid s))])))).
Proof.
  intros Hs Hok (Hp & Hn & H). destruct (plain_table_of _ H) as (m & -> & Hm). assert (Hmn : m <> []) by (by intros ->).
  eapply (add_line _ ("LINK" +:+ " " +:+ ("refs:" +:+ s) +:+ " " +:+ "ATTRS" +:+ "" +:+ items_text (plain_items Rkey_pair Rkey_value m))
    [Pair Rlink _ [Pair Rsaid s []; Pair Rattr_key_pairs _ (map it_tok (plain_items Rkey_pair Rkey_value m))]]).
  - cbn [command_text cmd_kind cmd_obj overlay_text ot_kind ct_props ct_attrs opt_text]. unfold attrs_text. cbn [imap_get String.eqb Ascii.eqb Bool.eqb].
    rewrite plain_text, !append_assoc. reflexivity.
  - done.
  - intros r Hr. unfold g_oca_object. cbn [PAlts]. skip 14. apply t_alt1. eapply t_conv; [eapply t_rul; [reflexivity|]|reflexivity|reflexivity].
    apply (t_seq sg false _ _ "LINK" _ [] _); [by apply t_liti|]. apply (t_seq sg false _ _ " " _ [] _); [by apply t_aws|].
    apply (t_seq sg false _ _ ("refs:" +:+ s) _ [Pair Rsaid s []] _); [apply t_alt1; by apply t_said|]. apply (t_seq sg false _ _ " " _ [] _); [by apply t_aws|].
    eapply (t_keyed Rkey_pair (plain_map m) _ "attrs" "ATTRS" ""); [by apply plain_table|reflexivity|by apply plain_sep| |done]; intros; by apply t_liti.
  - unfold add_instruction. cbn [p_inner add_objects overlay_rule]. unfold extract_content. cbn [p_inner content_props content_attrs]. rewrite Hok. cbn [imap_insert].
    rewrite (insert_table wide Rkey_pair (plain_map m)); [|by apply plain_table|done]. reflexivity.
Qed.
Definition key_tok1 (k : string) : spair := Pair Rattr_key k [].
Lemma fold_names l : forall acc, NoDup (map fst acc ++ l) ->
  fold_left (fun acc k => imap_insert (p_text k) NNull acc) (map key_tok1 l) acc = acc ++ map (fun k => (k, NNull)) l.
Proof.
  induction l as [|k l IH]; intros acc Hn; [by rewrite app_nil_r|]. cbn [map fold_left p_text key_tok1]. rewrite imap_insert_fresh.
  - rewrite IH; [by rewrite <- app_assoc|]. rewrite map_app. cbn [map fst]. by rewrite <- app_assoc.
  - intros Hin. apply NoDup_app in Hn as (_ & Hn & _). apply (Hn k Hin). by left.
Qed.
Lemma line_remove l : NoDup (map fst l) -> Forall (fun kv => name_ok kv.1) l -> line_ok (Command CRemove (OCaptureBase (CapContent (Some l) None None))).
Proof.
  intros Hn H. set (names := cat_map (fun kv : string * nattr => (" " +:+ kv.1)%string) l).
  eapply (remove_line _ ("ATTRIBUTE" +:+ names) [Pair Rremove_attribute _ (map key_tok1 (map fst l))]).
  - cbn [command_text cmd_kind cmd_obj cc_attrs cc_props opt_text]. by rewrite append_nil_r.
  - done.
  - intros r Hr. unfold g_remove_oca_object. cbn [PAlts]. skip 2. apply t_alt1. eapply t_conv; [eapply t_rul; [reflexivity|]|reflexivity|reflexivity].
    apply (t_seq sg false _ _ "ATTRIBUTE" _ [] _); [by apply t_liti|]. subst names. clear Hn. induction H as [|[k v] l Hk Hl IH].
    + apply t_star0. apply r_seq1, r_aws. by apply ends_aws.
    + rewrite cat_cons. eapply (t_star sg false _ (" " +:+ k) _ [key_tok1 k] _); [|exact IH].
      apply (t_seq sg false _ _ " " k [] [_]); [apply t_aws; [done|done|by apply name_starts]|]. apply t_attr_key; [done|].
      destruct l as [|x l]; [by destruct Hr as [s ->]|]. by rewrite cat_cons.
  - unfold remove_instruction. cbn [p_inner remove_objects]. rewrite fold_names by done. cbn [app obind command_of as_read]. rewrite map_map. reflexivity.
Qed.
Lemma line_unclass v : line_ok (Command CRemove (OCaptureBase (CapContent None (Some [("classification", v)]) None))).
Proof.
  eapply (remove_line _ "CLASSIFICATION" [Pair Rremove_classification _ []]); [reflexivity|done| |reflexivity].
  intros r Hr. unfold g_remove_oca_object. cbn [PAlts]. skip 3. apply t_alt1. eapply t_conv; [eapply t_rul; [reflexivity|]|reflexivity|reflexivity]. by apply t_liti.
Qed.
Theorem line_printable c : printable wide said_ok c -> line_ok c.
Proof.
  destruct 1; [by apply line_attrs|by apply line_class|by apply line_meta|by apply line_lang|by apply line_plain|by apply line_codes|by apply line_entry|by apply line_link|by apply line_remove|by apply line_unclass].
Qed.
End OcaCommands.

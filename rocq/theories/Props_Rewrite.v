(** C57: rewriting a file. *)
From Verif Require Import Peg OcaGrammar OcaFile Spec_OcaFile Ast Spec_Ast Bundle Spec_Bundle Build Spec_Build Spec_Read Spec_Rewrite Spec_Framing OcaForms OcaTexts
  AsRead Facade Facade_proofs Props_From Props_Ast Props_OcaFile Props_Framing Props_Export Props_Export3.

(** ** Decisions *)
Lemma name_dec k : name_ok k \/ ~ name_ok k.
Proof. unfold name_ok. destruct k as [|c k]; [right; by intros []|]. destruct (all_chars attr_key_c (String c k)) eqn:E; [by left|right; intros [_ H]; congruence]. Qed.
Lemma lang_dec l : lang_text_ok l \/ ~ lang_text_ok l.
Proof.
  assert (N : forall l, (forall a b, l <> String a (String b "")) -> (forall a b c d, l <> String a (String b (String "-" (String c (String d ""))))) -> ~ lang_text_ok l).
  { intros l' H1 H2 (a & b & _ & _ & [->|(c & d & _ & _ & ->)]); [by apply (H1 a b)|by apply (H2 a b c d)]. }
  destruct l as [|a [|b l]]; [right; by apply N|right; by apply N|]. destruct (alpha_c a && alpha_c b) eqn:E.
  2: { right. intros (a' & b' & Ha & Hb & [Hl|(c & d & _ & _ & Hl)]); injection Hl as <- <- _; by rewrite Ha, Hb in E. }
  apply andb_prop in E as [Ha Hb]. destruct l as [|x [|c [|d l]]]; [left; exists a, b; auto|right; by apply N|right; by apply N|].
  destruct l as [|y l]; [|right; apply N; intros; intros H; injection H; intros; discriminate].
  destruct (Ascii.eqb_spec x "-") as [->|Hx]; [|right; apply N; intros; intros H; injection H; intros; congruence].
  destruct (alpha_c c && alpha_c d) eqn:E; [apply andb_prop in E as [Hc Hd]; left; exists a, b; split; [done|]; split; [done|]; right; by exists c, d|].
  right. intros (a' & b' & _ & _ & [Hl|(c' & d' & Hc & Hd & Hl)]); [discriminate|]. injection Hl as <- <- <- <-. by rewrite Hc, Hd in E.
Qed.
Lemma not_bad v : ~ bad_in v -> plain_form v -> plain_ok v.
Proof. intros Hb [s ->]. exists s. split; [done|]. destruct (quotable s) eqn:E; [done|]. exfalso. apply Hb. by constructor. Qed.

Section Writable.
Variable wide : ascii -> bool.
Variable said_ok : string -> bool.
Variable cont sq : bool.
Lemma names_good (k : okind) ats ps : ~ unwritable_name (add_overlay_command k ats ps) -> Forall (fun kv => name_ok kv.1) ats /\ Forall (fun kv => name_ok kv.1) ps.
Proof.
  intros H. split; apply Forall_forall; intros [n v] Hi; cbn [fst]; destruct (name_dec n) as [Hn|Hn]; try done; exfalso; apply H; eapply un_overlay; [by left; exact Hi|done|by right; exact Hi|done].
Qed.
Lemma texts_good (k : okind) ats ps : ~ unwritable_text (add_overlay_command k ats ps) -> Forall (fun kv => ~ bad_in kv.2) ats /\ Forall (fun kv => ~ bad_in kv.2) ps.
Proof. intros H. split; apply Forall_forall; intros [n v] Hi Hb; apply H; eapply ut_value; [by left; exact Hi|done|by right; exact Hi|done]. Qed.
Lemma table_of (K : string -> Prop) (P ok : nvalue -> Prop) (l : imap nvalue) : l <> [] -> map_form K P l -> Forall (fun kv => name_ok kv.1) l -> Forall (fun kv => ~ bad_in kv.2) l ->
  (forall v, P v -> ~ bad_in v -> ok v) -> table_ok ok l.
Proof.
  intros H0 [Hn Hf] Hk Hb H. split; [done|]. split; [done|]. rewrite Forall_forall in *. intros kv Hi. split; [by apply Hk|]. apply H; [by apply (Hf kv Hi)|by apply Hb].
Qed.
Lemma texts_list l : ~ bad_in (VArr l) -> Forall plain_form l -> Forall plain_ok l.
Proof. intros Hb H. rewrite Forall_forall in *. intros v Hv. apply not_bad; [|by apply H]. intros Hx. apply Hb. by eapply bad_element. Qed.
Lemma map_names m k v : ~ bad_in (VObj m) -> (k, v) ∈ m -> quotable k = true /\ ~ bad_in v.
Proof. intros Hb Hi. split; [destruct (quotable k) eqn:E; [done|exfalso; apply Hb; by eapply bad_name]|]. intros Hx. apply Hb. by eapply bad_value. Qed.
Lemma codes_good v : codes_form v -> ~ bad_in v -> codes_ok v.
Proof.
  intros [H|[(l & -> & H)|(m & -> & Hn & H)]] Hb; [left; by apply not_bad|right; left; exists l; split; [done|by apply texts_list]|].
  right. right. exists m. split; [done|]. split; [done|]. rewrite Forall_forall in *. intros [k v] Hi. destruct (map_names m k v Hb Hi) as [H1 H2]. split; [done|].
  destruct (H _ Hi) as (_ & l & E & Hl). cbn in E. subst v. exists l. split; [done|]. by apply texts_list.
Qed.
Lemma entries_good v : entries_form v -> ~ bad_in v -> entries_ok v.
Proof.
  intros [H|(m & -> & Hn & H)] Hb; [left; by apply not_bad|]. right. exists m. split; [done|]. split; [done|]. rewrite Forall_forall in *. intros [k v] Hi.
  destruct (map_names m k v Hb Hi) as [H1 H2]. split; [done|]. apply not_bad; [done|]. by apply (H _ Hi).
Qed.
Lemma capital_lower c : capital c = false -> Peg.lower c = c.
Proof. destruct c as [[] [] [] [] [] [] [] []]; vm_compute; done. Qed.
Lemma no_capitals_lower s : no_capitals s -> lower_str s = s.
Proof.
  unfold no_capitals. induction s as [|c s IH]; [done|]. cbn [all_chars lower_str]. intros H. apply andb_prop in H as [H1 H2]. apply negb_true_iff in H1. by rewrite capital_lower, IH.
Qed.
Lemma lower_keys_same {V} (m : imap V) : Forall (fun kv => no_capitals kv.1) m -> map (fun kv => lower_str kv.1) m = map fst m.
Proof. intros H. apply map_ext_Forall. eapply Forall_impl; [exact H|]. intros kv Hk. by apply no_capitals_lower. Qed.
Lemma frames_good v : json_form v -> full v -> two_levels v = true -> ~ bad_in v -> frames_ok v.
Proof.
  intros Hj Hf Ht Hb. destruct v as [| |m|]; try done. inversion Hj as [|m' Hn Hm E]; subst. inversion Hf as [|m' Hm0 Hfm E]; subst.
  exists m. split; [done|]. split; [done|]. split; [rewrite lower_keys_same; [done|]; eapply Forall_impl; [exact Hm|]; by intros kv []|].
  cbn [two_levels] in Ht. rewrite forallb_forall in Ht. rewrite Forall_forall in *. intros [k f] Hi. destruct (map_names m k f Hb Hi) as [H1 H2]. split; [done|]. cbn [snd].
  specialize (Ht _ (proj1 (elem_of_list_In _ _) Hi)). cbn [snd] in Ht. destruct (Hm _ Hi) as [_ Hjf]. pose proof (Hfm _ Hi) as Hff. cbn [snd] in *.
  destruct f as [| |m'|]; try done. exists m'. split; [done|]. inversion Hjf as [|m2 Hn' Hm' E]; subst. inversion Hff as [|m2 Hm0' Hfm' E]; subst. split; [done|].
  split; [rewrite lower_keys_same; [done|]; eapply Forall_impl; [exact Hm'|]; by intros kv []|]. cbn [texts_object] in Ht. rewrite forallb_forall in Ht.
  rewrite Forall_forall in *. intros [k' v] Hi'. destruct (map_names m' k' v H2 Hi') as [H3 H4]. split; [done|]. apply not_bad; [done|]. cbn [snd].
  specialize (Ht _ (proj1 (elem_of_list_In _ _) Hi')). cbn in Ht. destruct v; try done. by eexists.
Qed.
Lemma type_good t : type_form said_ok t -> said_words wide t -> names_bundle t = false -> type_ok wide said_ok t.
Proof.
  induction 1 as [t|n|s Hs|t Ht IH]; intros Hw Hn; [constructor|done| |].
  - inversion Hw; subst. by constructor.
  - inversion Hw; subst. constructor. by apply IH.
Qed.
Lemma lang_quotable l : lang_text_ok l -> plain_form (VVal l).
Proof. by eexists. Qed.

Lemma readable_says c : readable cont said_ok c -> given wide sq cont c -> ~ unwritable c -> says wide said_ok c.
Proof.
  intros Hr Hg Hu. unfold unwritable in Hu.
  assert (Hk : ~ unwritable_kind c) by tauto. assert (Ht : ~ unwritable_text c) by tauto. assert (Hn : ~ unwritable_name c) by tauto. clear Hu.
  destruct Hr as [l Hl|v|l|ps l Hp Hl|k ats l Hk0 Ha Hl|ats l Ha Hl|k ats Hk0 Ha|ps Hp|ats Ha|ats r Ha Hr|ats Ha|ats ps Ha Hp|l Hl| | | |s Hs].
  - (* attributes *) left. apply pr_attrs. inversion Hg as [l' H0 Hw E| | | | | |]; subst; [|done]. destruct Hl as [Hnd Hf]. split; [done|]. split; [done|]. rewrite Forall_forall in *.
    intros [k t] Hi. split.
    + destruct (name_dec k) as [|Hb]; [done|]. exfalso. apply Hn. by eapply un_attribute.
    + apply type_good; [by apply (Hf _ Hi)|by apply (Hw _ Hi)|]. destruct (names_bundle t) eqn:E; [|done]. exfalso. apply Hk. by eapply uk_named_type.
  - (* classification *) left. apply pr_class. inversion Hg as [|v' Hv E| | | | |]; subst; [|done]. destruct Hv as [Hv|[Hv|[[_ [w ->]]|[_ Hv]]]]; [by left|by right| |].
    + exfalso. apply Ht. apply ut_classification.
    + exfalso. apply Hn. by apply un_classification.
  - exfalso. apply Hk. apply uk_flagged.
  - (* META *) left. destruct (names_good _ _ _ Hn) as [_ Hnp]. destruct (texts_good _ _ _ Ht) as [_ Htp].
    assert (Hfirst : lang_first ps) by (inversion Hg; subst; done). destruct Hfirst as (v & rest & ->). cbn in Hl. injection Hl as ->.
    assert (Lg : lang_text_ok l).
    { destruct (lang_dec l) as [|Hb]; [done|]. exfalso. apply Hk. by eapply uk_language. }
    destruct Hp as [Hnd Hf]. inversion Hnd as [|? ? Hnl Hnd']; subst. apply pr_meta; [done|done| |by right].
    eapply (table_of (key_form cont) plain_form); [|split; [exact Hnd'|by apply (Forall_inv_tail Hf)]|by apply (Forall_inv_tail Hnp)|by apply (Forall_inv_tail Htp)|].
    + intros ->. apply Hk. apply uk_only_language.
    + intros w Hw Hb. by apply not_bad.
  - (* LABEL, INFORMATION *) left. destruct (names_good _ _ _ Hn) as [Hna _]. destruct (texts_good _ _ _ Ht) as [Hta _]. apply pr_lang; [done|done|].
    assert (H0 : ats <> []) by (destruct Hk0 as [-> | ->]; inversion Hg; by subst).
    eapply (table_of (key_form cont) plain_form); [done|done|done|done|]. intros w Hw Hb. by apply not_bad.
  - (* ENTRY *) left. destruct (names_good _ _ _ Hn) as [Hna _]. destruct (texts_good _ _ _ Ht) as [Hta _]. apply pr_entry; [done|].
    assert (H0 : ats <> []) by (inversion Hg; by subst). eapply (table_of (key_form cont) entries_form); [done|done|done|done|]. apply entries_good.
  - (* texts per attribute *) left. destruct (names_good _ _ _ Hn) as [Hna _]. destruct (texts_good _ _ _ Ht) as [Hta _]. apply pr_plain; [set_solver| |by right].
    assert (H0 : ats <> []).
    { intros ->. assert (H1 : k = KCharacterEncoding \/ k <> KCharacterEncoding) by (destruct k; auto; right; done). destruct H1 as [->|H1]; [apply Hk; apply uk_encoding_props|].
      inversion Hg; subst; first [done|set_solver]. }
    eapply (table_of (key_form cont) plain_form); [done|done|done|done|]. intros w Hw Hb. by apply not_bad.
  - exfalso. apply Hk. apply uk_encoding_props.
  - (* ENTRY_CODE *) left. destruct (names_good _ _ _ Hn) as [Hna _]. destruct (texts_good _ _ _ Ht) as [Hta _]. apply pr_codes; [|by right].
    assert (H0 : ats <> []) by (inversion Hg; by subst). eapply (table_of (key_form cont) codes_form); [done|done|done|done|]. apply codes_good.
  - (* LINK *) left. destruct r as [s|n]; [|exfalso; apply Hk; by eapply uk_named_link]. destruct (names_good _ _ _ Hn) as [Hna _]. destruct (texts_good _ _ _ Ht) as [Hta _].
    assert (H0 : ats <> [] /\ word_ok wide s).
    { inversion Hg as [| | | | |k' ats' ps' Hk' H0 _ _ _ Hs E|]; subst; [|done]. split; [done|]. by apply Hs. }
    destruct H0 as [H0 Hw]. apply pr_link; [done|done|]. eapply (table_of (key_form cont) plain_form); [done|done|done|done|]. intros w Hx Hb. by apply not_bad.
  - exfalso. apply Hk. by eapply uk_no_link.
  - (* ATTR_FRAMING *) right. destruct (names_good _ _ _ Hn) as [Hna Hnp]. destruct (texts_good _ _ _ Ht) as [Hta Htp].
    assert (H0 : ats <> [] /\ ps <> [] /\ Forall (fun kv => full kv.2) ats).
    { inversion Hg as [| | | | |k' ats' ps' Hk' H0 _ _ Hf _ E|]; subst; [|done]. split; [done|]. by apply Hf. }
    destruct H0 as (H0 & H1 & Hf). assert (Hfr : Forall (fun kv => kv.1 ∈ frame_props) ps).
    { destruct Hp as [_ Hp]. rewrite Forall_forall in *. intros [k v] Hi. destruct (Hp _ Hi) as [[Hx|[_ Hx]] _]; [exact Hx|]. cbn in Hx. subst k. destruct (Hnp _ Hi) as [Hx _]. done. }
    assert (Hwo : map (fun kv => without "frame_" kv.1) ps = map fst ps).
    { apply map_ext_Forall. eapply Forall_impl; [exact Hfr|]. intros kv Hkv. by apply without_prop. }
    apply fr_ok; [| done | rewrite Hwo; apply Hp |].
    + destruct Ha as [Hnd Hja]. split; [done|]. split; [done|]. rewrite Forall_forall in *. intros [k v] Hi. split; [by apply (Hna _ Hi)|]. cbn [snd].
      apply frames_good; [by apply (Hja _ Hi)|by apply (Hf _ Hi)| |by apply (Hta _ Hi)]. destruct (two_levels v) eqn:E; [done|]. exfalso. apply Hk. by eapply uk_frames.
    + destruct Hp as [_ Hp]. rewrite Forall_forall in *. intros [k v] Hi. split; [rewrite without_prop; by apply (Hfr _ Hi)|]. apply not_bad; [by apply (Htp _ Hi)|by apply (Hp _ Hi)].
  - (* REMOVE ATTRIBUTE *) left. destruct Hl as [Hnd Hf]. apply pr_remove; [done|]. apply Forall_forall. intros [k t] Hi. cbn [fst]. destruct (name_dec k) as [|Hb]; [done|].
    exfalso. apply Hn. by eapply un_removed.
  - left. apply pr_unclass.
  - exfalso. apply Hk. apply uk_remove_overlay.
  - exfalso. apply Hk. apply uk_remove_overlay.
  - exfalso. apply Hk. apply uk_from.
Qed.
End Writable.

(** ** What comes back *)
Lemma last_first_perm {A} (l : list A) : Permutation l (last_first l).
Proof.
  unfold last_first. destruct (rev l) as [|x r] eqn:E; [by rewrite <- (rev_involutive l), E|]. rewrite <- (rev_involutive l), E. cbn [rev].
  rewrite Permutation_app_comm. reflexivity.
Qed.
Lemma read_same cont said_ok c : readable cont said_ok c -> same_command c (as_read c).
Proof.
  destruct 1 as [l Hl|v|l|ps l Hp Hl|k ats l Hk0 Ha Hl|ats l Ha Hl|k ats Hk0 Ha|ps Hp|ats Ha|ats r Ha Hr|ats Ha|ats ps Ha Hp|l Hl| | | |s Hs].
  1-3: by left.
  - right. destruct ps as [|x ps]; [by exists [], [], []|]. exists [], (x :: ps), (x :: last_first ps). split; [done|]. split; [done|]. constructor. apply last_first_perm.
  - left. by destruct Hk0 as [-> | ->].
  - by left.
  - left. assert (Hk : k <> KMeta) by (intros ->; set_solver). by destruct k.
  - by left.
  - by left.
  - by left.
  - by left.
  - by left.
  - left. cbn. do 3 f_equal. destruct Hl as [_ Hf]. f_equal. rewrite <- (map_id l) at 2. apply map_ext_Forall. eapply Forall_impl; [exact Hf|]. intros [k t] [_ Ht]. cbn in *. by subst t.
  - by left.
  - by left.
  - by left.
  - by left.
Qed.
Lemma overlay_inj k ats ps k' ats' ps' : add_overlay_command k ats ps = add_overlay_command k' ats' ps' -> k = k' /\ ats = ats' /\ ps = ps'.
Proof. intros E. by injection E. Qed.
(** The rewritten commands can be written again. *)
Lemma still_writable wide sq cont said_ok c : readable cont said_ok c -> given wide sq cont c -> ~ unwritable c -> ~ unwritable (as_read c).
Proof.
  intros Hr Hg Hu. destruct (read_same _ _ _ Hr) as [->|(ats & ps & ps' & -> & E & Hp)]; [done|]. rewrite E. intros Hb. apply Hu.
  assert (Hf : lang_first ps) by (inversion Hg; subst; done). destruct Hf as (v & rest & ->). cbn [as_read add_overlay_command] in E.
  apply (overlay_inj KMeta _ _ KMeta) in E as (_ & _ & Eps). subst ps'. unfold unwritable in *.
  destruct Hb as [Hb|[Hb|Hb]].
  - left. remember (add_overlay_command KMeta ats (("lang", v) :: last_first rest)) as c eqn:Ec. destruct Hb as [| | | | | | |ats' ps' l Hl Hn|ats' w| |]; try discriminate Ec.
    + apply overlay_inj in Ec as (_ & -> & ->). eapply uk_language; [|exact Hn]. exact Hl.
    + apply overlay_inj in Ec as (_ & -> & Ec). injection Ec as -> Ec. assert (rest = []) as -> by (apply Permutation_nil; rewrite Ec; symmetry; apply last_first_perm). apply uk_only_language.
  - right. left. remember (add_overlay_command KMeta ats (("lang", v) :: last_first rest)) as c eqn:Ec. destruct Hb as [w|k ats' ps' n w Hi Hw]; [discriminate Ec|].
    apply overlay_inj in Ec as (-> & -> & ->). eapply ut_value; [|exact Hw]. destruct Hi as [Hi|Hi]; [by left|right]. by rewrite Hp.
  - right. right. remember (add_overlay_command KMeta ats (("lang", v) :: last_first rest)) as c eqn:Ec. destruct Hb as [w Hw| |k ats' ps' n w Hi Hw|]; try discriminate Ec.
    apply overlay_inj in Ec as (-> & -> & ->). eapply un_overlay; [|exact Hw]. destruct Hi as [Hi|Hi]; [by left|right]. by rewrite Hp.
Qed.

(** ** Rewriting *)
Theorem C57_rewriting : forall wide said_ok s a, parse_ocafile wide said_ok s = Ok a -> Forall (fun c => ~ unwritable c) (ast_commands a) ->
  exists s' b, generate_ocafile a = Ok s' /\ parse_ocafile wide said_ok s' = Ok b /\
  Forall2 same_command (ast_commands a) (ast_commands b) /\ ast_meta b = ∅ /\ Forall (fun c => ~ unwritable c) (ast_commands b) /\
  forall digest from1 os from, same_build (from_ast digest from1 os from b) (from_ast digest from1 os from a).
Proof.
  intros wide said_ok s a Hs Hu. destruct (file_form _ _ _ _ Hs) as [Hr _]. pose proof (file_given _ _ _ _ Hs) as Hg.
  assert (Hp : Forall (says wide said_ok) (ast_commands a)).
  { rewrite Forall_forall in *. intros c Hc. eapply readable_says; [by apply Hr|by apply Hg|by apply Hu]. }
  assert (Hst : Forall settled (ast_commands a)).
  { rewrite Forall_forall in *. intros c Hc. apply (read_is_settled wide said_ok (has_backslash s)); [by apply Hp|]. intros _. by apply Hr. }
  destruct (C41_framing_round_trip wide said_ok a Hp) as (ts & H2 & Eg & Ep). pose proof (Forall2_length _ _ _ H2) as Hlen. set (fc := gline_commands 0 (zip (map gline_of (ast_commands a)) ts)) in *.
  assert (Efst : map fst fc = map as_read (ast_commands a)) by (rewrite <- (read_settled _ _ _ Hp Hst); by apply gline_commands_fst).
  pose proof (C15_read_file _ _ _ _ Hs) as Hw. exists (file_of ts), (Ast "1.0.0" (map as_read (ast_commands a)) (zip (seq 0 (length fc)) (map snd fc)) ∅).
  split; [done|]. split; [|cbn [ast_commands ast_meta]; split; [|split; [done|split]]].
  - rewrite Ep. apply C15_assembly. split; [|by rewrite Efst]. intros pre c m post E.
    assert (E' : map as_read (ast_commands a) = map fst pre ++ c :: map fst post) by (by rewrite <- Efst, E, map_app).
    apply map_eq_app in E' as (p' & rest & E1 & <- & E2). destruct rest as [|d rest]; [discriminate E2|]. injection E2 as <- _. apply as_read_placed, (Hw p' d rest E1).
  - apply Forall2_fmap_r. apply Forall_Forall2_diag. eapply Forall_impl; [exact Hr|]. intros c Hc. by eapply read_same.
  - apply Forall_fmap. rewrite Forall_forall in *. intros c Hc. eapply still_writable; [by apply Hr|by apply Hg|by apply Hu].
  - intros digest from1 os from. by apply (build_says wide said_ok).
Qed.
Print Assumptions C57_rewriting.

(** Validating the rewritten text, on any facade, gives the bundle of the first text; only the name given to it is lost. *)
Theorem C57_same_bundle : forall wide said_ok s a, parse_ocafile wide said_ok s = Ok a -> Forall (fun c => ~ unwritable c) (ast_commands a) ->
  exists s' b, generate_ocafile a = Ok s' /\ parse_ocafile wide said_ok s' = Ok b /\
  forall digest from1 digits lang_ok standard_read of_text os f g,
  (forall h B steps, validate_ast digest from1 said_ok digits lang_ok standard_read of_text os a f = Ok (h, (B, steps)) ->
    exists steps', validate_ast digest from1 said_ok digits lang_ok standard_read of_text os b g = Ok (g, (B, steps')) /\ map step_data steps' = map step_data steps) /\
  (ast_meta a !! "name" = None -> forall es, validate_ast digest from1 said_ok digits lang_ok standard_read of_text os a f = Err es ->
    validate_ast digest from1 said_ok digits lang_ok standard_read of_text os b g = Err es).
Proof.
  intros wide said_ok s a Hs Hu. destruct (C57_rewriting _ _ _ _ Hs Hu) as (s' & b & Eg & Ep & Hc & Hm & Hub & Hb). exists s', b. split; [done|]. split; [done|].
  assert (P : forall t x, parse_ocafile wide said_ok t = Ok x -> Forall (fun c => ~ unwritable c) (ast_commands x) -> forall dg lo sr ot h,
    check_base said_ok dg lo sr ot (fa_cache h) x = Ok (None, x) /\ resolve said_ok (find_ref (fa_db h)) (ast_commands x) = Ok (ast_commands x)).
  { intros t x Ht Hx dg lo sr ot h. assert (Hp : Forall (says wide said_ok) (ast_commands x)).
    { destruct (file_form _ _ _ _ Ht) as [Hr _]. pose proof (file_given _ _ _ _ Ht) as Hg. rewrite Forall_forall in *. intros c Hi. eapply readable_says; [by apply Hr|by apply Hg|by apply Hx]. }
    split.
    - unfold check_base. destruct Hx as [|c cs Hc' _]; [done|]. destruct c as [k ob]. destruct k; try done. exfalso. apply Hc'. left. apply uk_from.
    - apply resolve_plain. intros c n Hi. rewrite Forall_forall in Hp. by apply (says_plain wide said_ok), Hp. }
  intros digest from1 digits lang_ok standard_read of_text os f g.
  destruct (P s a Hs Hu digits lang_ok standard_read of_text f) as [Ca Ra]. destruct (P s' b Ep Hub digits lang_ok standard_read of_text g) as [Cb Rb].
  unfold validate_ast. rewrite Ca, Cb. cbn [obind snd fst]. rewrite Ra, Rb. cbn [obind]. rewrite Hm, lookup_empty.
  pose proof (Hb digest from1 os None) as Hx. destruct a as [va ca ma na], b as [vb cb mb nb]. cbn [ast_version ast_commands ast_cmeta ast_meta] in *.
  subst nb. destruct (from_ast digest from1 os None (Ast va ca ma na)) as [B1 s1|e1|], (from_ast digest from1 os None (Ast vb cb mb ∅)) as [B2 s2|e2|]; cbn [same_build] in Hx; try by destruct Hx.
  - destruct Hx as [<- Hx]. split.
    + intros h B steps E. exists s2. assert (B2 = B /\ s1 = steps) as [<- <-]; [|done].
      destruct (na !! "name"); [|by injection E]. apply obind_ok in E as (? & _ & E). apply obind_ok in E as (? & _ & E). by injection E.
    + intros -> es [=].
Qed.
Print Assumptions C57_same_bundle.

(** ** Files with double quotes only, and without continued lines *)
Theorem C57_double_quotes : forall wide said_ok s a c, parse_ocafile wide said_ok s = Ok a -> has_single_quote s = false -> c ∈ ast_commands a -> unwritable_text c -> unwritable_kind c.
Proof.
  intros wide said_ok s a c Hs Hq Hc Hu. pose proof (file_given _ _ _ _ Hs) as Hg. rewrite Forall_forall in Hg. specialize (Hg c Hc). rewrite Hq in Hg. destruct Hu as [w|k ats ps n v Hi Hv].
  - exfalso. inversion Hg as [|v' Hx E| | | | |k' o' Hk E]; subst; [|done]. destruct Hx as [[_ Hx]|[(u & Hx & _)|[[Hx _]|[_ Hx]]]]; [discriminate Hx|discriminate Hx|discriminate Hx|].
    destruct Hx as [(t & Hx)|(b & e & Hx & Hb & He)]; [discriminate Hx|]. destruct b as [|x b].
    + repeat (apply elem_of_cons in He as [He|He]; [subst e; discriminate Hx|]). by apply elem_of_nil in He.
    + injection Hx as <- _. discriminate Hb.
  - inversion Hg as [| | |ps' Hf Hp E|ps' Hp E|k' ats' ps' Hk H0 Ha Hp Hf Hl E|k' o' Hk E]; subst; [| | |done].
    + exfalso. destruct Hi as [Hi|Hi]; [by apply elem_of_nil in Hi|]. specialize (Hp eq_refl). rewrite Forall_forall in Hp. by apply (fine_not_bad v (Hp _ Hi)).
    + exfalso. destruct Hi as [Hi|Hi]; [by apply elem_of_nil in Hi|]. specialize (Hp eq_refl). rewrite Forall_forall in Hp. by apply (fine_not_bad v (Hp _ Hi)).
    + destruct Hi as [Hi|Hi].
      * assert (Hd : k = KUnit \/ k <> KUnit) by (destruct k; auto; right; done). destruct Hd as [->|Hd]; [by eapply uk_unit|]. exfalso. specialize (Ha Hd eq_refl). rewrite Forall_forall in Ha.
        by apply (fine_not_bad v (Ha _ Hi)).
      * exfalso. specialize (Hp eq_refl). rewrite Forall_forall in Hp. by apply (fine_not_bad v (Hp _ Hi)).
Qed.
Print Assumptions C57_double_quotes.
Theorem C57_whole_lines : forall wide said_ok s a c, parse_ocafile wide said_ok s = Ok a -> has_backslash s = false -> c ∈ ast_commands a -> ~ unwritable_name c.
Proof.
  intros wide said_ok s a c Hs Hq Hc Hu. pose proof (file_given _ _ _ _ Hs) as Hg. destruct (file_form _ _ _ _ Hs) as [Hr _]. rewrite Forall_forall in Hg, Hr.
  specialize (Hg c Hc). specialize (Hr c Hc). rewrite Hq in Hg, Hr.
  assert (K : forall (V : Type) (P : V -> Prop) l k v, map_form (key_form false) P l -> (k, v) ∈ l -> ~ name_ok k -> False).
  { intros V P l k v [_ Hf] Hi Hn. rewrite Forall_forall in Hf. destruct (Hf _ Hi) as [[Hk|[Hk _]] _]; done. }
  destruct Hu as [v Hv|l k t Hi Hn|k ats ps n v Hi Hn|l k t Hi Hn].
  - inversion Hg as [|v' Hx E| | | | |k' o' Hk E]; subst; [|done]. destruct Hx as [[Hx0 Hx]|[(u & Hx & _)|[(_ & u & Hx)|[Hx _]]]]; [| | |discriminate Hx].
    + destruct Hv as [(t & ->)|(b & e & -> & Hb & He)]; [discriminate Hx|]. destruct b as [|x b].
      * repeat (apply elem_of_cons in He as [He|He]; [subst e; discriminate Hx|]). by apply elem_of_nil in He.
      * cbn [all_chars append] in Hb, Hx. apply andb_prop in Hb as [Hb _]. apply andb_prop in Hx as [Hx _]. clear -Hb Hx. destruct x as [[] [] [] [] [] [] [] []]; discriminate.
    + subst v. destruct Hv as [(t & Hv)|(b & e & Hv & Hb & He)]; [discriminate Hv|]. destruct b as [|x b].
      * repeat (apply elem_of_cons in He as [He|He]; [subst e; discriminate Hv|]). by apply elem_of_nil in He.
      * injection Hv as <- _. discriminate Hb.
    + subst v. destruct Hv as [(t & Hv)|(b & e & Hv & Hb & He)]; [discriminate Hv|]. destruct b as [|x b].
      * repeat (apply elem_of_cons in He as [He|He]; [subst e; discriminate Hv|]). by apply elem_of_nil in He.
      * injection Hv as <- _. discriminate Hb.
  - inversion Hr as [l' Hl E| | | | | | | | | | | | | | | |]; subst. by eapply K.
  - assert (F : forall l : imap nvalue, map_form (frame_key_form false) plain_form l -> (n, v) ∈ l -> False).
    { intros l [_ Hf] Hi'. rewrite Forall_forall in Hf. destruct (Hf _ Hi') as [[Hk|[Hk _]] _]; [|done]. apply Hn. cbn [fst] in Hk.
      repeat (apply elem_of_cons in Hk as [Hk|Hk]; [subst n; done|]). by apply elem_of_nil in Hk. }
    assert (One : forall m w, (n, v) ∈ [(m, w)] -> name_ok m -> False).
    { intros m w Hi' Hm. apply elem_of_list_singleton in Hi'. injection Hi' as -> _. done. }
    assert (L : name_ok "lang") by done. assert (T : name_ok "target") by done.
    inversion Hr as [| | |ps' l' Hp Hl E|k' ats' l' Hk Ha Hl E|ats' l' Ha Hl E|k' ats' Hk Ha E|ps' Hp E|ats' Ha E|ats' r' Ha Hr' E|ats' Ha E|ats' ps' Ha Hp E| | | | |]; subst;
      (destruct Hi as [Hi|Hi]; [first [by eapply K|by apply elem_of_nil in Hi]|first [by eapply K|by eapply F|by eapply One|by apply elem_of_nil in Hi]]).
  - inversion Hr as [| | | | | | | | | | | |l' Hl E| | | |]; subst. destruct Hl as [_ Hf]. rewrite Forall_forall in Hf. destruct (Hf _ Hi) as [[Hk|Hk] _]; done.
Qed.
Print Assumptions C57_whole_lines.

(** A file without single quotes and without backslashes is rewritten whenever its commands are of the kinds that can be written. *)
Theorem C57_plain_files : forall wide said_ok s a, parse_ocafile wide said_ok s = Ok a -> has_single_quote s = false -> has_backslash s = false ->
  Forall (fun c => ~ unwritable_kind c) (ast_commands a) ->
  exists s' b, generate_ocafile a = Ok s' /\ parse_ocafile wide said_ok s' = Ok b /\ Forall2 same_command (ast_commands a) (ast_commands b) /\
  forall digest from1 os from, same_build (from_ast digest from1 os from b) (from_ast digest from1 os from a).
Proof.
  intros wide said_ok s a Hs Hq Hb Hk.
  assert (Hu : Forall (fun c => ~ unwritable c) (ast_commands a)).
  { rewrite Forall_forall in *. intros c Hc [Hu|[Hu|Hu]]; [by apply (Hk c)|apply (Hk c Hc); by eapply C57_double_quotes|]. revert Hu. by eapply C57_whole_lines. }
  destruct (C57_rewriting _ _ _ _ Hs Hu) as (s' & b & H1 & H2 & H3 & _ & _ & H4). by exists s', b.
Qed.
Print Assumptions C57_plain_files.

(** ** Examples *)
(** A file with attributes of several types, META, LABEL, ENTRY, FORMAT and ATTR_FRAMING commands meets the hypotheses. *)
Definition rw_text : string :=
  "--name=person" +:+ NL +:+ "# a person" +:+ NL +:+ "ADD ATTRIBUTE name=Text tags=Array[Text] other=refs:EABC" +:+ NL +:+ NL +:+
  "ADD META en PROPS name=" +:+ dq "Person" +:+ " description=" +:+ dq "A person" +:+ " version=" +:+ dq "1" +:+ NL +:+
  "ADD LABEL en ATTRS name=" +:+ dq "Name" +:+ " tags=" +:+ dq "Tags" +:+ NL +:+
  "ADD ENTRY_CODE ATTRS name=[" +:+ dq "a" +:+ ", " +:+ dq "b" +:+ "]" +:+ NL +:+
  "ADD FORMAT ATTRS name=" +:+ dq "[a-z]+" +:+ NL +:+ "ADD CLASSIFICATION GICS" +:+ NL +:+ "REMOVE ATTRIBUTE tags" +:+ NL.
Definition read_commands (r : outcome ast) : list command := match r with Ok a => ast_commands a | _ => [] end.
Definition read_name (r : outcome ast) : option string := match r with Ok a => ast_meta a !! "name" | _ => None end.
Lemma read_given r : is_ok r = true -> exists a : ast, r = Ok a /\ read_commands r = ast_commands a /\ read_name r = ast_meta a !! "name".
Proof. destruct r as [a| |]; [|done..]. by exists a. Qed.
Definition kind_fine (c : command) : bool :=
  match c with
  | Command CAdd (OCaptureBase (CapContent (Some l) None None)) => forallb (fun kv => negb (names_bundle kv.2)) l
  | Command CAdd (OCaptureBase (CapContent None (Some _) None)) => true
  | Command CAdd (OOverlay (OType k _) (Content (Some ats) (Some ps))) =>
    match k with
    | KMeta => match ps with (_, VVal (String a (String b ""))) :: _ :: _ => alpha_c a && alpha_c b | _ => false end
    | KLabel | KEntryCode | KFormat => true
    | KAttributeFraming => forallb (fun kv => two_levels kv.2) ats
    | _ => false
    end
  | Command CRemove (OCaptureBase _) => true
  | _ => false
  end.
Lemma kind_fine_ok c : kind_fine c = true -> (forall ats ps, c = add_overlay_command KMeta ats ps -> lang_first ps) -> ~ unwritable_kind c.
Proof.
  intros H Hl Hu. destruct Hu as [o|l|t ct|ps|l k t Hi Hn|ats ps n Hn|ats ps Hn|ats ps l Hg Hn|ats v|ats ps k v Hi Hn|ats ps k v Hi Hn]; cbn in H; try discriminate H.
  - rewrite forallb_forall in H. apply elem_of_list_In in Hi. specialize (H _ Hi). cbn in H. by rewrite Hn in H.
  - destruct (Hl _ _ eq_refl) as (v & rest & ->). cbn in Hg. injection Hg as ->. destruct l as [|a [|b [|]]]; try discriminate H. destruct rest; [discriminate H|].
    apply andb_prop in H as [Ha Hb]. apply Hn. exists a, b. auto.
  - by destruct v as [|[|? [|? []]]| |].
  - rewrite forallb_forall in H. apply elem_of_list_In in Hi. specialize (H _ Hi). cbn in H. by rewrite Hn in H.
Qed.
Lemma read_lang_first wide said_ok s a : parse_ocafile wide said_ok s = Ok a -> forall c, c ∈ ast_commands a -> forall ats ps, c = add_overlay_command KMeta ats ps -> lang_first ps.
Proof.
  intros Hs c Hc ats ps ->. pose proof (file_given _ _ _ _ Hs) as Hg. rewrite Forall_forall in Hg. specialize (Hg _ Hc). inversion Hg; subst; done.
Qed.
Lemma plain_file wide said_ok s : has_single_quote s = false -> has_backslash s = false -> is_ok (parse_ocafile wide said_ok s) = true ->
  forallb kind_fine (read_commands (parse_ocafile wide said_ok s)) = true -> is_Some (read_name (parse_ocafile wide said_ok s)) ->
  exists a s', parse_ocafile wide said_ok s = Ok a /\ Forall (fun c => ~ unwritable c) (ast_commands a) /\ ast_commands a = read_commands (parse_ocafile wide said_ok s) /\
  generate_ocafile a = Ok s' /\ s' <> s.
Proof.
  intros Hq Hb Hp Hk Hm. destruct (read_given _ Hp) as (a & E & Ec & En). rewrite Ec in Hk. rewrite En in Hm. rewrite Ec.
  assert (Hu : Forall (fun c => ~ unwritable c) (ast_commands a)).
  { rewrite forallb_forall in Hk. apply Forall_forall. intros c Hc.
    assert (Hu : ~ unwritable_kind c) by (apply kind_fine_ok; [apply Hk; by apply elem_of_list_In|by apply (read_lang_first _ _ _ _ E)]).
    intros [Hx|[Hx|Hx]]; [done|exact (Hu (C57_double_quotes _ _ _ _ _ E Hq Hc Hx))|exact (C57_whole_lines _ _ _ _ _ E Hb Hc Hx)]. }
  destruct (C57_rewriting _ _ _ _ E Hu) as (s' & b & Eg & Ep & _ & Em & _). exists a, s'.
  split; [exact E|]. split; [exact Hu|]. split; [reflexivity|]. split; [exact Eg|]. intros ->. rewrite E in Ep. injection Ep as <-. rewrite Em in Hm. by destruct Hm.
Qed.
Theorem C57_hypotheses_met : exists a s', parse_ocafile no_wide any_said rw_text = Ok a /\ Forall (fun c => ~ unwritable c) (ast_commands a) /\ length (ast_commands a) = 7%nat /\
  generate_ocafile a = Ok s' /\ s' <> rw_text.
Proof.
  assert (H : read_name (parse_ocafile no_wide any_said rw_text) = Some "person") by (vm_compute; reflexivity).
  assert (L : length (read_commands (parse_ocafile no_wide any_said rw_text)) = 7%nat) by (vm_compute; reflexivity).
  destruct (plain_file no_wide any_said rw_text) as (a & s' & H1 & H2 & H3 & H4); [vm_compute; reflexivity..|rewrite H; by eexists|]. rewrite <- H3 in L. exists a, s'. exact (conj H1 (conj H2 (conj L H4))).
Qed.
Print Assumptions C57_hypotheses_met.

(** ** The commands left out do get lost *)
(** What a text becomes: [None] when the rewritten text is not written or not read. *)
Definition rewritten (s : string) : outcome (option (list command)) :=
  let! a := parse_ocafile no_wide any_said s in
  Ok (match generate_ocafile a with Ok s' => match parse_ocafile no_wide any_said s' with Ok b => Some (ast_commands b) | _ => None end | _ => None end).
Definition given_again : list string :=
  ["ADD FLAGGED_ATTRIBUTES a"; "REMOVE META en PROPS name"; "ADD CHARACTER_ENCODING PROPS x=" +:+ dq "y"; "ADD ATTRIBUTE b=refn:first"; "ADD LINK refn:first ATTRS a=" +:+ dq "y";
   "ADD LABEL en ATTRS a='say " +:+ dq "hi" +:+ "'"; "ADD META en PROPS lang=" +:+ dq "English" +:+ " name=" +:+ dq "n"; "ADD META en PROPS lang=" +:+ dq "pl";
   "ADD CLASSIFICATION \" +:+ NL +:+ "# a comment" +:+ NL +:+ "GICS"; "ADD ATTRIBUTE \" +:+ NL +:+ "# a comment" +:+ NL +:+ "b=Text"; "ADD UNIT ATTRS a=m" +:+ Q;
   "ADD ATTR_FRAMING id=" +:+ dq "x" +:+ " ATTRS a={" +:+ dq "b" +:+ ": " +:+ dq "p" +:+ "}"].
Theorem C57_lost_refuted : Forall (fun l => rewritten ("ADD ATTRIBUTE a=Text" +:+ NL +:+ l +:+ NL) = Ok None) given_again /\ rewritten ("FROM EABC" +:+ NL) = Ok None.
Proof. split; [|vm_compute; reflexivity]. unfold given_again. repeat apply Forall_cons_2; try apply Forall_nil_2; vm_compute; reflexivity. Qed.
Print Assumptions C57_lost_refuted.

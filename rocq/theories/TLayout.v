(** Transformation files laid out in lines. *)
From Coq Require Import Lia.
From Verif Require Export TDispatch TBuild_proofs.
From Verif Require Import OcaTakes OcaItems OcaLayout Condition_proofs.

Section TLayout.
Variable wide : ascii -> bool.
Local Notation tg := (tgrammar false wide).
Local Notation takes := (takes tg).
Local Notation rejects := (rejects tg).
Definition t_alt : pe trule := PAlts [PRul Tempty_line; t_meta_comment_line; t_comment_line; t_commands].

Lemma t_keyword at_ p k r : lower_str k = p -> takes at_ (PLitI p) k [] r.
Proof.
  intros <-. apply t_liti. induction k as [|c k IH]; [by destruct r|]. cbn [lower_str append strip]. by rewrite Ascii.eqb_refl, IH.
Qed.
Lemma r_keyword at_ p k r : match p, k with String a _, String b _ => Ascii.eqb a (lower b) = false | _, _ => False end -> rejects at_ (PLitI p) (k +:+ r).
Proof. destruct p as [|a p], k as [|b k]; try done. intros H. apply ev_liti_no. cbn [append strip]. by rewrite H. Qed.
Lemma t_gap at_ s r : all_chars ws_c s = true -> stops aws_c r -> takes at_ (PStar t_arg_ws) s [] r.
Proof.
  intros Hs Hr. assert (Hrej : rejects at_ t_arg_ws r) by exact (tr_map false wide _ _ _ (r_aws wide at_ r Hr) eq_refl).
  destruct s as [|c s]; [by apply t_star0|]. eapply t_conv; [eapply (t_star tg at_ _ (String c s) "" [] [])|by rewrite append_nil_r|done].
  - exact (tt_map false wide _ _ _ _ _ (t_aws wide at_ (String c s) r ltac:(done) Hs Hr) eq_refl).
  - by apply t_star0.
Qed.
Lemma t_aws_t at_ s r : s <> "" -> all_chars ws_c s = true -> stops aws_c r -> takes at_ t_arg_ws s [] r.
Proof. intros Hn Hs Hr. exact (tt_map false wide _ _ _ _ _ (t_aws wide at_ s r Hn Hs Hr) eq_refl). Qed.
Lemma r_aws_t at_ r : stops aws_c r -> rejects at_ t_arg_ws r.
Proof. intros Hr. exact (tr_map false wide _ _ _ (r_aws wide at_ r Hr) eq_refl). Qed.
Lemma tname_head s r : tname_ok s -> stops aws_c (s +:+ r) /\ stops ws_c (s +:+ r).
Proof.
  intros [Hn Hc]. destruct s as [|c s]; [done|]. cbn [all_chars] in Hc. apply andb_prop in Hc as [Hc _]. cbn [append stops].
  destruct c as [[] [] [] [] [] [] [] []]; vm_compute in Hc; try discriminate Hc; done.
Qed.
Lemma ws_not_key s r : all_chars ws_c s = true -> stops prop_key_c r -> stops prop_key_c (s +:+ r).
Proof.
  destruct s as [|c s]; [done|]. cbn [all_chars append stops]. intros H _. apply andb_prop in H as [H _]. unfold ws_c in H.
  destruct (is_c " " c) eqn:E; [by apply Ascii.eqb_eq in E as <-|]. destruct (is_c TAB c) eqn:E2; [by apply Ascii.eqb_eq in E2 as <-|done].
Qed.
Lemma t_key at_ s r : tname_ok s -> stops prop_key_c r -> takes at_ (PRul Tattr_key) s [Pair Tattr_key s []] r.
Proof. intros [Hn Hc] Hr. eapply t_conv; [eapply t_rul; [reflexivity|]|reflexivity|reflexivity]. by apply t_plus_cls. Qed.

Section Pairs.
Variable sep : string.
Variables rp rps : trule.
Hypothesis Hrp : tg rp = (Atomic, t_pair sep (PRul Tattr_key) (PRul Tattr_key)).
Hypothesis Hrps : tg rps = (Compound, PPlus (PSeq t_arg_ws (PRul rp))).
Hypothesis Hsep : exists c s, sep = String c s /\ aws_c c = false.
Definition pair_fits (p : rpair) : Prop := rp_ok p /\ forall r, stops prop_key_c (rp_e1 p +:+ sep +:+ r).
Definition rp_body (p : rpair) : string := (rp_name p +:+ rp_e1 p +:+ sep +:+ rp_e2 p +:+ rp_new p)%string.
Definition rp_tok (p : rpair) : tpair := Pair rp (rp_body p) [Pair Tattr_key (rp_name p) []; Pair Tattr_key (rp_new p) []].
Lemma t_rpair p r : pair_fits p -> stops prop_key_c r -> takes false (PRul rp) (rp_body p) [rp_tok p] r.
Proof.
  intros [(Hs & Hs' & H1 & H2 & Hn & Hw) Hk] Hr. eapply t_conv; [eapply t_rul; [exact Hrp|]|reflexivity|reflexivity].
  apply (t_pair_t false wide sep true _ _ (rp_name p) _ _ _ [_] [_]); [done|done|by apply tname_head|done|by apply t_key|by apply t_key].
Qed.
Definition sp_pair : pe trule := PSeq t_arg_ws (PRul rp).
Lemma t_sp p r : pair_fits p -> stops prop_key_c r -> takes false sp_pair (rp_text sep p) [rp_tok p] r.
Proof.
  intros Hp Hr. pose proof Hp as [(Hs & Hs' & _ & _ & Hn & _) _]. apply (t_seq tg false _ _ (rp_sep p) (rp_body p) [] [_]); [|by apply t_rpair].
  apply t_aws_t; [done|done|]. unfold rp_body. rewrite append_assoc. by apply tname_head.
Qed.
Lemma stops_next ps : Forall pair_fits ps -> forall r, stops prop_key_c r -> stops prop_key_c (cat_map (rp_text sep) ps +:+ r).
Proof.
  intros H r Hr. destruct H as [|p ps Hp _]; [done|]. rewrite cat_cons. unfold rp_text. rewrite !append_assoc. destruct Hp as [(Hs & Hs' & _) _]. destruct (rp_sep p) as [|c s]; [done|].
  cbn [all_chars] in Hs'. apply andb_prop in Hs' as [Hc _]. cbn [append stops]. unfold ws_c in Hc.
  destruct (is_c " " c) eqn:E; [by apply Ascii.eqb_eq in E as <-|]. destruct (is_c TAB c) eqn:E2; [by apply Ascii.eqb_eq in E2 as <-|done].
Qed.
Lemma t_pairs0 ps r : Forall pair_fits ps -> takes false (PStar sp_pair) (cat_map (rp_text sep) ps) (map rp_tok ps) (NL +:+ r).
Proof.
  induction 1 as [|p ps Hp Hps IH]; [apply t_star0; apply r_seq1; by apply r_aws_t|]. rewrite cat_cons. cbn [map].
  apply (t_star tg false _ (rp_text sep p) _ [_]); [|exact IH]. apply t_sp; [done|]. by apply stops_next.
Qed.
Lemma t_pairs ps r : ps <> [] -> Forall pair_fits ps ->
  takes false (PPlus (PRul rps)) (cat_map (rp_text sep) ps) [Pair rps (cat_map (rp_text sep) ps) (map rp_tok ps)] (NL +:+ r).
Proof.
  intros Hn H. eapply t_conv; [eapply (t_seq tg false _ _ (cat_map (rp_text sep) ps) "" [_] [])|by rewrite append_nil_r|done].
  - eapply t_conv; [eapply t_rul; [exact Hrps|]|reflexivity|reflexivity]. destruct H as [|p ps Hp Hps]; [done|]. rewrite cat_cons. cbn [map].
    apply (t_seq tg false _ _ (rp_text sep p) _ [_]); [|by apply t_pairs0]. apply t_sp; [done|]. by apply stops_next.
  - apply t_star0. eapply r_rul; [exact Hrps|]. apply r_seq1, r_seq1. by apply r_aws_t.
Qed.
End Pairs.

Lemma insert_toks rp sep ps : forall acc, insert_renames (map (rp_tok sep rp) ps) acc = Ok (fold_left (fun m (kv : string * string) => imap_insert kv.1 kv.2 m) (map (fun p => (rp_name p, rp_new p)) ps) acc).
Proof. induction ps as [|p ps IH]; intros acc; [done|]. cbn [map insert_renames fold_left]. unfold extract_rename at 1, rp_tok at 1. cbn [p_inner rename_items obind fst snd]. apply IH. Qed.
Lemma kw_head k p : lower_str k = p -> p <> "" -> exists c s, k = String c s /\ exists c' s', p = String c' s' /\ lower c = c'.
Proof. intros <- H. destruct k as [|c k]; [done|]. exists c, k. split; [done|]. cbn. eauto. Qed.

(** The token of a command line. *)
Definition rename_tok (kw gap kw2 : string) (ps : list rpair) : tpair :=
  Pair Trename (tl_text (TLRename kw gap kw2 ps)) [Pair Trename_attributes (kw2 +:+ cat_map (rp_text "=") ps) [Pair Trename_attr_pairs (cat_map (rp_text "=") ps) (map (rp_tok "=" Trename_attr_pair) ps)]].
Definition link_tok (kw gap kw2 : string) (ps : list rpair) : tpair :=
  Pair Tlink (tl_text (TLLink kw gap kw2 ps)) [Pair Tlink_attributes (kw2 +:+ cat_map (rp_text "->") ps) [Pair Tlink_attr_pairs (cat_map (rp_text "->") ps) (map (rp_tok "->" Tlink_attr_pair) ps)]].
Lemma kw2_stops kw2 r : lower_str kw2 = "attribute" -> stops aws_c (kw2 +:+ r).
Proof.
  intros H. destruct (kw_head _ _ H ltac:(done)) as (c & s & -> & c' & s' & E & Hc). injection E as <- <-. cbn [append stops].
  destruct c as [[] [] [] [] [] [] [] []]; vm_compute in Hc; try discriminate Hc; done.
Qed.
Lemma t_rename kw gap kw2 ps r : tl_ok wide (TLRename kw gap kw2 ps) -> takes false (PRul Trename) (tl_text (TLRename kw gap kw2 ps)) [rename_tok kw gap kw2 ps] (NL +:+ r).
Proof.
  intros (Hk & Hg & Hk2 & Hn & Hps). eapply t_conv; [eapply t_rul; [reflexivity|]|reflexivity|reflexivity]. cbn [tl_text].
  apply (t_seq tg false _ _ kw _ [] [_]); [by apply t_keyword|]. apply (t_seq tg false _ _ gap _ [] [_]).
  { apply t_gap; [done|]. rewrite append_assoc. by apply kw2_stops. }
  eapply t_conv; [eapply t_rul; [reflexivity|]|reflexivity|reflexivity]. apply (t_seq tg false _ _ kw2 _ [] [_]); [by apply t_keyword|].
  apply t_pairs; [done|done|by exists "="%char, ""|done|]. eapply Forall_impl; [exact Hps|]. intros p Hp. split; [done|]. intros r'. destruct Hp as (_ & _ & H1 & _). by apply ws_not_key.
Qed.
Lemma t_link kw gap kw2 ps r : tl_ok wide (TLLink kw gap kw2 ps) -> takes false (PRul Tlink) (tl_text (TLLink kw gap kw2 ps)) [link_tok kw gap kw2 ps] (NL +:+ r).
Proof.
  intros (Hk & Hg & Hk2 & Hn & Hps & He). eapply t_conv; [eapply t_rul; [reflexivity|]|reflexivity|reflexivity]. cbn [tl_text].
  apply (t_seq tg false _ _ kw _ [] [_]); [by apply t_keyword|]. apply (t_seq tg false _ _ gap _ [] [_]).
  { apply t_gap; [done|]. rewrite append_assoc. by apply kw2_stops. }
  eapply t_conv; [eapply t_rul; [reflexivity|]|reflexivity|reflexivity]. apply (t_seq tg false _ _ kw2 _ [] [_]); [by apply t_keyword|].
  apply t_pairs; [done|done|by exists "-"%char, ">"|done|]. clear -Hps He. induction Hps as [|p ps Hp Hps IH]; [constructor|]. inversion He as [|? ? He1 He2]; subst. constructor; [|by apply IH].
  split; [done|]. intros r'. destruct Hp as (_ & _ & H1 & _). destruct (rp_e1 p) as [|c s]; [done|]. cbn [all_chars] in H1. apply andb_prop in H1 as [Hc _]. cbn [append stops]. unfold ws_c in Hc.
  destruct (is_c " " c) eqn:E; [by apply Ascii.eqb_eq in E as <-|]. destruct (is_c TAB c) eqn:E2; [by apply Ascii.eqb_eq in E2 as <-|done].
Qed.
Inductive tl_tok : tline -> tpair -> Prop :=
| tt_comment pad t : tl_tok (TLComment pad t) (Pair Tcomment ("#" +:+ t) [])
| tt_blank pad : tl_tok (TLBlank pad) (Pair Tempty_line (pad +:+ NL) [])
| tt_meta pad m ts : tl_tok (TLMeta pad m) (tmeta_tok m ts)
| tt_rename kw gap kw2 ps : tl_tok (TLRename kw gap kw2 ps) (rename_tok kw gap kw2 ps)
| tt_link kw gap kw2 ps : tl_tok (TLLink kw gap kw2 ps) (link_tok kw gap kw2 ps).
Lemma t_nl r : takes false (POpt PNewline) NL [] r.
Proof. apply t_opt, t_alt1, t_lit. Qed.
(** A letter starts no empty line, comment or metadata. *)
Lemma letter_first (c : ascii) s : alpha_c c = true -> rejects false (PRul Tempty_line) (String c s) /\ rejects false t_meta_comment_line (String c s) /\ rejects false t_comment_line (String c s).
Proof.
  intros H. assert (E : ws_c c = false /\ is_c LF c = false /\ is_c CR c = false /\ is_c "#" c = false /\ Ascii.eqb "-" c = false).
  { destruct c as [[] [] [] [] [] [] [] []]; vm_compute in H; try discriminate H; by vm_compute. }
  destruct E as (E1 & E2 & E3 & E4 & E5). split; [by apply (tr_empty false wide "")|]. split; [apply (tr_meta false wide ""); [done|done|]; cbn [strip]; by rewrite E5|by apply (tr_comment false wide "")].
Qed.
Lemma lower_alpha c c' : lower c = c' -> Peg.between "a"%char "z"%char c' = true -> alpha_c c = true.
Proof. intros <-. destruct c as [[] [] [] [] [] [] [] []]; vm_compute; done. Qed.
Lemma t_tline l r : tl_ok wide l -> exists tok, tl_tok l tok /\ takes false t_alt (tl_text l +:+ NL) [tok] r.
Proof.
  intros H. destruct l as [pad t|pad|pad m|kw gap kw2 ps|kw gap kw2 ps].
  - destruct H as [Hp Ht]. eexists. split; [constructor|]. cbn [tl_text]. unfold t_alt. cbn [PAlts]. apply t_alt2; [rewrite !append_assoc; by apply tr_empty|].
    apply t_alt2; [rewrite !append_assoc; by apply tr_meta|]. apply t_alt1. rewrite append_assoc. apply (t_seq tg false _ _ pad _ [] [_]); [by apply t_wss|].
    apply (t_seq tg false _ _ ("#" +:+ t) NL [_] []); [|apply t_nl]. by apply t_comment.
  - eexists. split; [constructor|]. apply t_alt1. apply t_empty; [done|apply t_alt1, t_lit|]. exists LF, "". done.
  - destruct H as [Hp Hm]. destruct (t_tmeta false wide m (NL +:+ r) Hm ltac:(done)) as [vts Ht].
    exists (tmeta_tok m vts). split; [constructor|]. cbn [tl_text]. unfold t_alt. cbn [PAlts]. apply t_alt2; [rewrite !append_assoc; by apply tr_empty|]. apply t_alt1.
    rewrite append_assoc. apply (t_seq tg false _ _ pad _ [] [_]); [apply t_wss; [done|]; done|].
    apply (t_seq tg false _ _ (dm_text m) NL [_] []); [|apply t_nl]. exact Ht.
  - pose proof H as (Hk & _). exists (rename_tok kw gap kw2 ps). split; [constructor|]. pose proof (t_rename kw gap kw2 ps r H) as T.
    destruct (kw_head _ _ Hk ltac:(done)) as (c & s & -> & c' & s' & E & Hc). injection E as <- <-.
    assert (Ha : alpha_c c = true) by (by apply (lower_alpha c "r")).
    assert (Ef : Ascii.eqb "f" (lower c) = false) by (by rewrite Hc).
    destruct (letter_first c (s +:+ gap +:+ kw2 +:+ cat_map (rp_text "=") ps +:+ NL +:+ r) Ha) as (R1 & R2 & R3).
    set (x := tl_text (TLRename (String c s) gap kw2 ps)) in *.
    assert (Ex : ((x +:+ NL) +:+ r = String c (s +:+ gap +:+ kw2 +:+ cat_map (rp_text "=") ps +:+ NL +:+ r))%string) by (unfold x; cbn [tl_text append]; by rewrite !append_assoc).
    unfold t_alt. cbn [PAlts]. apply t_alt2; [by rewrite Ex|]. apply t_alt2; [by rewrite Ex|]. apply t_alt2; [by rewrite Ex|].
    apply (t_seq tg false _ _ x NL [_] []); [|apply t_nl]. cbn [PAlts].
    apply t_alt2; [|apply t_alt1; exact T]. eapply r_rul; [reflexivity|]. apply r_seq1. unfold x. cbn [tl_text]. rewrite append_assoc. by apply r_keyword.
  - pose proof H as (Hk & _). exists (link_tok kw gap kw2 ps). split; [constructor|]. pose proof (t_link kw gap kw2 ps r H) as T.
    destruct (kw_head _ _ Hk ltac:(done)) as (c & s & -> & c' & s' & E & Hc). injection E as <- <-.
    assert (Ha : alpha_c c = true) by (by apply (lower_alpha c "l")).
    assert (Ef : Ascii.eqb "f" (lower c) = false) by (by rewrite Hc). assert (Er : Ascii.eqb "r" (lower c) = false) by (by rewrite Hc).
    destruct (letter_first c (s +:+ gap +:+ kw2 +:+ cat_map (rp_text "->") ps +:+ NL +:+ r) Ha) as (R1 & R2 & R3).
    set (x := tl_text (TLLink (String c s) gap kw2 ps)) in *.
    assert (Ex : ((x +:+ NL) +:+ r = String c (s +:+ gap +:+ kw2 +:+ cat_map (rp_text "->") ps +:+ NL +:+ r))%string) by (unfold x; cbn [tl_text append]; by rewrite !append_assoc).
    unfold t_alt. cbn [PAlts]. apply t_alt2; [by rewrite Ex|]. apply t_alt2; [by rewrite Ex|]. apply t_alt2; [by rewrite Ex|].
    apply (t_seq tg false _ _ x NL [_] []); [|apply t_nl]. cbn [PAlts].
    apply t_alt2; [|apply t_alt2; [|exact T]].
    + eapply r_rul; [reflexivity|]. apply r_seq1. unfold x. cbn [tl_text]. rewrite append_assoc. by apply r_keyword.
    + eapply r_rul; [reflexivity|]. apply r_seq1. unfold x. cbn [tl_text]. rewrite append_assoc. by apply r_keyword.
Qed.
Lemma t_tlines ls : Forall (tl_ok wide) ls -> exists toks, Forall2 tl_tok ls toks /\ takes false (PStar t_alt) (tfile_text ls) toks "".
Proof.
  induction 1 as [|l ls Hl _ (toks & Hf & Ht)].
  - exists []. split; [constructor|]. apply t_star0. apply (r_run tg 20). reflexivity.
  - destruct (t_tline l (tfile_text ls +:+ "") Hl) as (tok & Hk & T). exists (tok :: toks). split; [by constructor|].
    unfold tfile_text. rewrite cat_cons. by apply (t_star tg false _ _ _ [_]).
Qed.
Lemma tparse_lines ls : Forall (tl_ok wide) ls -> exists toks, Forall2 tl_tok ls toks /\
  tparse false wide Tfile (tfile_text ls) = PDone (tfile_text ls) [Pair Tfile (tfile_text ls) (toks ++ [Pair TEOI "" []])] "".
Proof.
  intros H. destruct (t_tlines ls H) as (toks & Hf & Htk). exists toks. split; [done|]. set (s := tfile_text ls) in *.
  assert (T : takes false (PRul Tfile) s [Pair Tfile s (toks ++ [Pair TEOI "" []])] "").
  { eapply t_conv; [eapply t_rul; [reflexivity|]| |].
    - eapply (t_seq tg false _ _ s "" toks [Pair TEOI "" []]); [exact Htk|]. apply (tt_run false wide 5). reflexivity.
    - apply append_nil_r.
    - cbn [rshown negb]. by rewrite append_nil_r. }
  unfold Takes.takes in T. rewrite append_nil_r in T. by rewrite (tparse_is false wide Tfile _ _ T).
Qed.
(** ** Reading the tokens *)
Definition add_line (n : nat) (a : tast) (l : tline) : tast :=
  match l with
  | TLMeta _ m => TAst (ta_version a) (ta_commands a) (ta_cmeta a) (<[dm_key m := dm_value m]> (ta_meta a))
  | TLRename kw gap kw2 ps => tpush a (TCommand TRename (ORename (Some (rps_table ps)))) (CmdMeta (S n) (tl_text l))
  | TLLink kw gap kw2 ps => tpush a (TCommand TLink (OLink (Some (rps_table ps)))) (CmdMeta (S n) (tl_text l))
  | _ => a
  end.
Fixpoint add_lines (n : nat) (ls : list tline) (a : tast) : tast := match ls with [] => a | l :: ls => add_lines (S n) ls (add_line n a l) end.
Lemma read_line l tok n ts a : tl_ok wide l -> tl_tok l tok -> ta_version a = "1.0.0" -> tread_lines n (tok :: ts) a = tread_lines (S n) ts (add_line n a l).
Proof.
  intros H Ht Hv. destruct Ht as [pad t|pad|pad m vts|kw gap kw2 ps|kw gap kw2 ps]; try reflexivity.
  - cbn [tread_lines p_rule tmeta_tok]. destruct H as [_ H]. change (Pair Tmeta_comment (dm_text m) [Pair Tmeta_attr_key (dm_key m) []; Pair Tmeta_attr_value (dm_value m) vts]) with (tmeta_tok m vts).
    rewrite (read_tmeta wide m vts H). reflexivity.
  - cbn [tread_lines p_rule rename_tok tinstruction p_inner rename_objects is_rename_attrs rename_pairs is_rename_pairs].
    rewrite insert_toks. cbn [obind rename_pairs rename_objects]. unfold tvalidate. rewrite Hv. cbn [String.eqb Ascii.eqb Bool.eqb obind p_text]. unfold add_line, rps_table. by rewrite <- table_fold.
  - cbn [tread_lines p_rule link_tok tinstruction p_inner rename_objects is_link_attrs rename_pairs is_link_pairs].
    rewrite insert_toks. cbn [obind rename_pairs rename_objects]. unfold tvalidate. rewrite Hv. cbn [String.eqb Ascii.eqb Bool.eqb obind p_text]. unfold add_line, rps_table. by rewrite <- table_fold.
Qed.
Lemma read_tlines ls toks : Forall (tl_ok wide) ls -> Forall2 tl_tok ls toks -> forall n a, ta_version a = "1.0.0" -> tread_lines n (toks ++ [Pair TEOI "" []]) a = Ok (add_lines n ls a).
Proof.
  intros H HF. induction HF as [|l tok ls toks Hl HF IH]; intros n a Ha; [done|]. inversion H as [|? ? H1 H2]; subst.
  cbn [app]. rewrite (read_line l tok n _ a H1 Hl Ha). cbn [add_lines]. apply IH; [done|]. by destruct l.
Qed.
Definition number (k : nat) (l : list cmd_meta) : list (nat * cmd_meta) := zip (seq k (length l)) l.
Lemma add_lines_is ls : forall n a, add_lines n ls a =
  TAst (ta_version a) (ta_commands a ++ map fst (tl_commands n ls)) (ta_cmeta a ++ number (length (ta_commands a)) (map snd (tl_commands n ls)))
    (fold_left (fun m f => match f with TLMeta _ d => <[dm_key d := dm_value d]> m | _ => m end) ls (ta_meta a)).
Proof.
  induction ls as [|l ls IH]; intros n a; [cbn; rewrite !app_nil_r; by destruct a|]. cbn [add_lines]. rewrite IH.
  destruct l; cbn [add_line ta_version ta_commands ta_cmeta ta_meta tl_commands map fst snd tpush fold_left]; try reflexivity.
  - rewrite <- !(assoc_L (++)). unfold number. rewrite app_length. cbn [length app map seq zip_with]. by rewrite Nat.add_1_r.
  - rewrite <- !(assoc_L (++)). unfold number. rewrite app_length. cbn [length app map seq zip_with]. by rewrite Nat.add_1_r.
Qed.
Theorem parse_layout ls : Forall (tl_ok wide) ls ->
  parse_transformation wide (tfile_text ls) = Ok (TAst "1.0.0" (map fst (tl_commands 0 ls)) (number 0 (map snd (tl_commands 0 ls))) (tl_meta ls)).
Proof.
  intros H. destruct (tparse_lines ls H) as (toks & HF & E). unfold parse_transformation. rewrite E. cbn [p_inner].
  rewrite (read_tlines ls toks H HF 0 tast_new eq_refl), add_lines_is. reflexivity.
Qed.
End TLayout.

(** Files of commands written by hand. *)
From Coq Require Import Lia.
From Verif Require Export HandCommands.
From Verif Require Import Condition_proofs Bundle_proofs.

Section HandLayout.
Variable wide : ascii -> bool.
Variable said_ok : string -> bool.
Local Notation sg := (sgrammar wide).
Local Notation takes := (takes sg).
Local Notation rejects := (rejects sg).
Local Notation hline_ok := (hline_ok wide).
Local Notation is_hline := (is_hline wide said_ok).

(** The end of a line and what follows. *)
Definition ended (nl r : string) : Prop := (nl ∈ breaks /\ (nl = String CR "" -> stops (is_c LF) r)) \/ (nl = "" /\ r = "").
Lemma ended_ends nl r : ended nl r -> ends (nl +:+ r).
Proof.
  clear wide said_ok. intros [[H _]|[-> ->]]; [|by left]. right. unfold breaks in H. apply elem_of_cons in H as [-> |H]; [by exists LF, r; tauto|].
  apply elem_of_cons in H as [-> |H]; [by exists CR, (String LF r); tauto|]. apply elem_of_list_singleton in H as ->. exists CR, r. tauto.
Qed.
Lemma t_ended nl r : ended nl r -> takes false (POpt PNewline) nl [] r.
Proof.
  clear said_ok. intros [[H H']|[-> ->]]; [by apply t_opt, t_break|]. apply t_opt0. by apply (r_run sg 20).
Qed.
(** The pair of a line. *)
(** proof helper *)
Inductive hline_tok : hline -> string -> spair -> Prop :=
| hk_comment pad s t x : hline_tok (HComment pad s) t (Pair Rcomment x [])
| hk_blank pad t x : hline_tok (HBlank pad) t (Pair Rempty_line x [])
| hk_meta k v t x vs : hline_tok (HMeta k v) t (Pair Rmeta_comment x [Pair Rmeta_attr_key k []; Pair Rmeta_attr_value v vs])
| hk_cmd c t tok : p_text tok = t -> instruction said_ok tok = Ok c -> (p_rule tok = Radd \/ p_rule tok = Rremove \/ p_rule tok = Rfrom) -> hline_tok (HCmd c) t tok.
Lemma t_comment_run t r : all_chars not_nl_c t = true -> ends r -> takes true (PStar (PSeq (PNot PNewline) PAny)) t [] r.
Proof.
  intros H Hr. induction t as [|c t IH].
  - apply t_star0. destruct Hr as [-> |(c & u & -> & Hc)]; [by apply (r_run sg 20)|by apply r_not_break].
  - cbn in H. apply andb_prop in H as [H1 H2]. apply (t_star sg true _ (String c "") t [] []); [|by apply IH].
    apply (t_seq0 sg true _ _ (String c "") [] []); [|by apply t_cls]. apply t_not. unfold not_nl_c in H1.
    destruct (is_c LF c) eqn:E1; [done|]. destruct (is_c CR c) eqn:E2; [done|]. apply r_alt; [by apply r_lit1|]. apply r_alt; by apply r_lit2.
Qed.
Lemma t_hline f t nl r : hline_ok f -> is_hline f t -> ended nl r -> (forall pad, f = HBlank pad -> nl <> "") -> exists tok, hline_tok f t tok /\ takes false g_line (t +:+ nl) [tok] r.
Proof.
  intros Hf Ht Hnl Hb. pose proof (ended_ends nl r Hnl) as He. pose proof (t_ended nl r Hnl) as Hto.
  destruct f as [pad s|pad|k v|c]; cbn [Spec_Hand.hline_ok Spec_Hand.is_hline] in Hf, Ht.
  - subst t. destruct Hf as [Hp Hs]. eexists. split; [constructor|]. apply t_alt2; [rewrite !append_assoc; by apply r_empty|].
    apply t_alt2; [rewrite !append_assoc; by apply r_meta|]. apply t_alt1. rewrite append_assoc.
    apply (t_seq sg false _ _ pad _ [] _); [by apply ws_stops|]. apply (t_seq sg false _ _ ("#" +:+ s) nl [_] []); [|done].
    eapply t_conv; [eapply t_rul; [reflexivity|]|reflexivity|reflexivity]. apply (t_seq sg true _ _ "#" s [] []); [apply t_lit|]. by apply t_comment_run.
  - subst t. destruct Hnl as [[Hn Hn']|[-> _]]; [|by destruct (Hb pad eq_refl)]. eexists. split; [constructor|]. apply t_alt1.
    eapply t_conv; [eapply t_rul; [reflexivity|]|reflexivity|reflexivity]. apply (t_seq sg true _ _ pad nl [] []); [|by apply t_break].
    apply t_star_cls; [done|]. by apply break_start.
  - destruct Ht as (pad & s & e & e' & Hpad & Hs & He1 & He2 & ->). destruct Hf as [Hk Hv].
    assert (Hvo : opens v) by (by apply (word_opens wide)).
    assert (Kc : exists kc ku, k = String kc ku /\ ws_c kc = false /\ is_c LF kc = false /\ is_c CR kc = false)
      by (repeat (apply elem_of_cons in Hk as [Hk|Hk]; [subst k; by eexists _, _|]); by apply elem_of_nil in Hk).
    exists (Pair Rmeta_comment ("--" +:+ s +:+ k +:+ e +:+ "=" +:+ e' +:+ v) [Pair Rmeta_attr_key k []; Pair Rmeta_attr_value v (char_toks false v)]).
    split; [constructor|]. apply t_alt2; [rewrite !append_assoc; by apply (r_empty wide pad "-")|]. apply t_alt1. rewrite append_assoc.
    apply (t_seq sg false _ _ pad _ [] _); [by apply ws_stops|]. apply (t_seq sg false _ _ ("--" +:+ s +:+ k +:+ e +:+ "=" +:+ e' +:+ v) nl [_] []); [|done].
    eapply t_conv; [eapply t_rul; [reflexivity|]|reflexivity|reflexivity]. apply (t_seq sg true _ _ "--" _ [] _); [apply t_lit|].
    destruct Kc as (kc & ku & Ek & K1 & K2 & K3).
    apply (t_seq sg true _ _ s _ [] _); [rewrite Ek; by apply ws_stops_at|].
    eapply t_conv; [eapply (t_star sg true _ (k +:+ e +:+ "=" +:+ e' +:+ v) "" [_; _] [])|by rewrite append_nil_r|reflexivity].
    + apply (t_seq0 sg true _ _ _ [] _); [apply t_not; rewrite Ek; apply r_alt; [by apply r_lit1|]; apply r_alt; by apply r_lit2|].
      eapply t_conv; [eapply t_rul; [reflexivity|]|reflexivity|reflexivity].
      apply (t_heq wide true _ _ k e e' v [_] [_]); [done|done|done| |apply t_meta_value; [done|by apply ends_char]].
      intros x Hx. clear -Hk. repeat (apply elem_of_cons in Hk as [Hk|Hk]; [subst k; by apply (t_run wide 20)|]). by apply elem_of_nil in Hk.
    + apply t_star0. destruct He as [-> |(c & u & -> & Hc)]; [|by apply r_not_break]. apply (r_run sg 20). reflexivity.
  - destruct (hand_reads wide said_ok c t Ht) as (tok & Htk & Htx & Hi & Hr & d & u & -> & Hd). exists tok. split; [by constructor|].
    assert (Hc : ws_c d = false /\ is_c LF d = false /\ is_c CR d = false /\ is_c "-" d = false /\ is_c "#" d = false).
    { clear -Hd. destruct d as [[] [] [] [] [] [] [] []]; vm_compute in Hd |- *; try done; destruct Hd as [Hd|[Hd|Hd]]; discriminate Hd. }
    destruct Hc as (H1 & H2 & H3 & H4 & H5).
    apply t_alt2; [by apply (r_empty wide "")|]. apply t_alt2; [by apply (r_meta wide "")|]. apply t_alt2; [by apply (r_comment wide "")|].
    apply (t_seq sg false _ _ (String d u) nl [_] []); [|done]. by apply Htk.
Qed.
Lemma t_hlines fts text : Forall (fun ft => hline_ok ft.1) fts -> hfile wide said_ok fts text ->
  exists toks, Forall2 (fun ft tok => hline_tok ft.1 ft.2 tok) fts toks /\ takes false (PStar g_line) text toks "".
Proof.
  intros H H2. induction H2 as [|f t Ht Hb|f t nl l s Ht Hn Hc Hl IH].
  - exists []; split; [constructor|apply t_star0, r_line_end].
  - inversion H as [|? ? Hf Hr]; subst. destruct (t_hline f t "" "" Hf Ht) as (tok & Hk & Htk); [by right|by intros pad ->; destruct (Hb pad)|].
    exists [tok]. split; [by constructor|]. rewrite append_nil_r in Htk. eapply t_conv; [eapply (t_star sg false _ t "" [tok] [])|by rewrite append_nil_r|done]; [done|apply t_star0, r_line_end].
  - inversion H as [|? ? Hf Hr]; subst. destruct (IH Hr) as (toks & Hts & Htks).
    destruct (t_hline f t nl s Hf Ht) as (tok & Hk & Htk).
    + left. split; [done|]. intros E. specialize (Hc E). destruct s as [|d s]; [done|]. change (Ascii.eqb LF d = false). destruct (Ascii.eqb LF d) eqn:Ed; [|done].
      apply Ascii.eqb_eq in Ed as <-. by destruct (Hc s).
    + intros pad _ ->. repeat (apply elem_of_cons in Hn as [Hn|Hn]; [done|]). by apply elem_of_nil in Hn.
    + exists (tok :: toks). split; [by constructor|]. rewrite <- append_assoc. by apply (t_star sg false _ (t +:+ nl) s [tok] toks); [rewrite append_nil_r|].
Qed.
Lemma hfile_parse fts text : Forall (fun ft => hline_ok ft.1) fts -> hfile wide said_ok fts text ->
  exists toks, Forall2 (fun ft tok => hline_tok ft.1 ft.2 tok) fts toks /\
    sparse wide Rfile text = PDone text [Pair Rfile text (toks ++ [Pair REOI "" []])] "".
Proof.
  intros H H2. destruct (t_hlines fts text H H2) as (toks & Ht & Htk). exists toks. split; [done|].
  assert (T : takes false (PRul Rfile) text [Pair Rfile text (toks ++ [Pair REOI "" []])] "").
  { eapply t_conv; [eapply t_rul; [reflexivity|]| |].
    - eapply (t_seq sg false _ _ text "" toks [Pair REOI "" []]); [exact Htk|]. apply (t_run wide 5). reflexivity.
    - apply append_nil_r.
    - cbn [rshown negb]. by rewrite append_nil_r. }
  unfold Takes.takes in T. rewrite append_nil_r in T. exact (sparse_is wide Rfile _ _ T).
Qed.
Lemma read_hlayout fts toks : Forall2 (fun ft tok => hline_tok ft.1 ft.2 tok) fts toks -> Forall (fun ft => hline_ok ft.1) fts -> forall n a,
  read_lines said_ok n (toks ++ [Pair REOI "" []]) a = (let! b := push_all a (hand_commands n fts) in Ok (set_meta (hand_meta (map fst fts) (ast_meta a)) b)).
Proof.
  induction 1 as [|[f t] tok fts toks Hl Hr IH]; intros Hf n a; [by destruct a|]. inversion Hf as [|? ? Hf1 Hf2]; subst. cbn [fst snd] in *.
  cbn [app read_lines]. inversion Hl as [pad s t' x E1|pad t' x E1|k v t' x vs E1|c t' tok' Htx Hi R E1 E2 E3]; subst; cbn [p_rule].
  - rewrite IH by done. reflexivity.
  - rewrite IH by done. reflexivity.
  - cbn [Spec_Hand.hline_ok] in Hf1. destruct Hf1 as [Hk [Hv _]].
    assert (K : String.eqb k "" = false) by (repeat (apply elem_of_cons in Hk as [Hk|Hk]; [by subst|]); by apply elem_of_nil in Hk).
    assert (V : String.eqb v "" = false) by (by destruct v). unfold meta_line. cbn [p_inner meta_items obind fst snd]. rewrite K, V. cbn [obind].
    change (Ast (ast_version a) (ast_commands a) (ast_cmeta a) (<[(k, v).1:=(k, v).2]> (ast_meta a))) with (set_meta (<[k:=v]> (ast_meta a)) a).
    rewrite IH, push_all_meta by done. change (hand_commands n ((HMeta k v, t) :: fts)) with (hand_commands (S n) fts).
    change (hand_meta (map fst ((HMeta k v, t) :: fts)) (ast_meta a)) with (hand_meta (map fst fts) (<[k:=v]> (ast_meta a))).
    destruct (push_all a (hand_commands (S n) fts)); reflexivity.
  - change (hand_meta (map fst ((HCmd c, p_text tok) :: fts)) (ast_meta a)) with (hand_meta (map fst fts) (ast_meta a)). cbn [hand_commands push_all].
    destruct R as [R|[R|R]]; rewrite R; rewrite Hi; cbn [obind]; (destruct (ast_validate a c); cbn [obind]; [|done|done]); rewrite IH by done; reflexivity.
Qed.
Theorem hand_layout fts text : Forall (fun ft => hline_ok ft.1) fts -> hfile wide said_ok fts text ->
  parse_ocafile wide said_ok text = (let! a := push_all ast_new (hand_commands 0 fts) in Ok (set_meta (hand_meta (map fst fts) ∅) a)).
Proof.
  intros H H2. destruct (hfile_parse fts text H H2) as (toks & Ht & E). unfold parse_ocafile. rewrite E. cbn [p_inner].
  by rewrite (read_hlayout fts).
Qed.
End HandLayout.

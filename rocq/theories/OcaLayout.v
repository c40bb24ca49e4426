(** Whole files: a file laid out in lines is read line by line. *)
From Coq Require Import Lia.
From Verif Require Export OcaCommands.
From Verif Require Import Condition_proofs.

Section OcaLayout.
Variable wide : ascii -> bool.
Variable said_ok : string -> bool.
Local Notation sg := (sgrammar wide).
Local Notation takes := (takes sg).
Local Notation rejects := (rejects sg).

Definition g_line : pe srule := PAlts [PRul Rempty_line; g_meta_comment_line; g_comment_line; g_commands].
Lemma t_newline r : takes false PNewline NL [] r.
Proof. apply t_alt1. apply t_lit. Qed.
Lemma t_opt_newline r : takes false (POpt PNewline) NL [] r.
Proof. apply t_opt, t_newline. Qed.
Lemma ws_stops p c r : all_chars ws_c p = true -> ws_c c = false -> takes false (PStar g_ws) p [] (String c r).
Proof. intros H Hc. by apply t_star_cls. Qed.
Lemma ws_stops_at p c r : all_chars ws_c p = true -> ws_c c = false -> takes true (PStar g_ws) p [] (String c r).
Proof. intros H Hc. by apply t_star_cls. Qed.
Lemma r_empty p c r : all_chars ws_c p = true -> ws_c c = false -> is_c LF c = false -> is_c CR c = false -> rejects false (PRul Rempty_line) (p +:+ String c r).
Proof.
  intros Hp Hc H1 H2. eapply r_rul; [reflexivity|]. apply (r_seq2 sg true _ _ p [] (String c r)); [by apply ws_stops_at|].
  apply r_alt; [by apply r_lit1|]. apply r_alt; by apply r_lit2.
Qed.
Lemma r_meta p c r : all_chars ws_c p = true -> ws_c c = false -> is_c "-" c = false -> rejects false g_meta_comment_line (p +:+ String c r).
Proof.
  intros Hp Hc H1. apply (r_seq2 sg false _ _ p [] (String c r)); [by apply ws_stops|]. apply r_seq1. eapply r_rul; [reflexivity|]. apply r_seq1. by apply r_lit2.
Qed.
Lemma r_comment p c r : all_chars ws_c p = true -> ws_c c = false -> is_c "#" c = false -> rejects false g_comment_line (p +:+ String c r).
Proof.
  intros Hp Hc H1. apply (r_seq2 sg false _ _ p [] (String c r)); [by apply ws_stops|]. apply r_seq1. eapply r_rul; [reflexivity|]. apply r_seq1. by apply r_lit1.
Qed.
Lemma t_comment_chars t r : all_chars not_nl_c t = true -> takes true (PStar (PSeq (PNot PNewline) PAny)) t [] (NL +:+ r).
Proof.
  induction t as [|c t IH]; intros H.
  - apply t_star0. apply r_seq1. eapply ev_not_no. apply (run_ev sg 10). reflexivity.
  - cbn in H. apply andb_prop in H as [H1 H2]. apply (t_star sg true _ (String c "") t [] []); [|by apply IH].
    apply (t_seq0 sg true _ _ (String c "") [] []); [|by apply t_cls]. apply t_not. unfold not_nl_c in H1.
    destruct (is_c LF c) eqn:E1; [done|]. destruct (is_c CR c) eqn:E2; [done|]. apply r_alt; [by apply r_lit1|]. apply r_alt; by apply r_lit2.
Qed.
Lemma nl_not t : forall r, word_ok wide t -> rejects true PNewline (t +:+ r).
Proof.
  intros r [Hn H]. destruct t as [|c t]; [done|]. cbn [all_chars] in H. apply andb_prop in H as [H _].
  assert (Ascii.eqb LF c = false /\ Ascii.eqb CR c = false) as [E1 E2].
  { split; [destruct (Ascii.eqb LF c) eqn:E|destruct (Ascii.eqb CR c) eqn:E]; try done; apply Ascii.eqb_eq in E; subst; by vm_compute in H. }
  apply r_alt; [by apply r_lit1|]. apply r_alt; by apply r_lit2.
Qed.

(** The pairs of a line. *)
Definition meta_tok (k v : string) : spair :=
  Pair Rmeta_comment ("--" +:+ k +:+ "=" +:+ v) [Pair Rmeta_attr_key k []; Pair Rmeta_attr_value v (char_toks false v)].
Inductive line_tok : fline -> string -> spair -> Prop :=
| lt_comment pad s t : line_tok (FComment pad s) t (Pair Rcomment ("#" +:+ s) [])
| lt_blank pad t : line_tok (FBlank pad) t (Pair Rempty_line (pad +:+ NL) [])
| lt_meta k v t : line_tok (FMeta k v) t (meta_tok k v)
| lt_cmd f c t tok : line_command f = Some c -> p_text tok = t -> instruction said_ok tok = Ok c -> p_rule tok ∈ [Radd; Rremove; Rfrom] -> line_tok f t tok.
Lemma t_meta_value v r : word_ok wide v -> stops (char_c wide) r -> takes true (PRul Rmeta_attr_value) v [Pair Rmeta_attr_value v (char_toks false v)] r.
Proof.
  intros Hv Hr. eapply t_conv; [eapply t_rul; [reflexivity|]|reflexivity|reflexivity]. apply t_alt2; [|by apply t_chars].
  destruct Hv as [Hn Hc]. destruct v as [|c v]; [done|]. cbn [all_chars] in Hc. apply andb_prop in Hc as [Hc _]. destruct (char_no_quote wide c Hc) as [E1 E2].
  eapply r_rul; [reflexivity|]. apply r_alt; apply r_seq1; by apply r_lit1.
Qed.
Lemma t_meta_pair k v r : k ∈ ["name"; "version"; "precompiler"] -> word_ok wide v -> stops (char_c wide) r ->
  takes true (PRul Rmeta_key_pair) (k +:+ "=" +:+ v) [Pair Rmeta_attr_key k []; Pair Rmeta_attr_value v (char_toks false v)] r.
Proof.
  intros Hk Hv Hr. eapply t_conv; [eapply t_rul; [reflexivity|]|reflexivity|reflexivity].
  apply (t_eq wide true _ _ k v [_] [_]).
  - destruct Hv as [Hn Hc]. destruct v as [|c v]; [done|]. cbn [all_chars] in Hc. apply andb_prop in Hc as [Hc _]. by apply (char_aws wide).
  - assert (k = "name" \/ k = "version" \/ k = "precompiler") as [-> |[-> | ->]]
      by (repeat (apply elem_of_cons in Hk as [Hk|Hk]; [subst; tauto|]); by apply elem_of_nil in Hk); apply (t_run wide 10); reflexivity.
  - by apply t_meta_value.
Qed.
Lemma t_line f t : fline_ok wide said_ok f -> is_line f t -> exists tok, line_tok f t tok /\ forall r, takes false g_line (t +:+ NL) [tok] r.
Proof.
  intros Hf Ht. destruct f as [pad s|pad|k v|s|n|c]; cbn in Hf, Ht.
  - subst t. destruct Hf as [Hp Hs]. eexists. split; [constructor|]. intros r. apply t_alt2; [rewrite !append_assoc; by apply r_empty|].
    apply t_alt2; [rewrite !append_assoc; by apply r_meta|]. apply t_alt1. rewrite append_assoc.
    apply (t_seq sg false _ _ pad _ [] _); [by apply ws_stops|]. apply (t_seq sg false _ _ ("#" +:+ s) NL [_] []); [|apply t_opt_newline].
    eapply t_conv; [eapply t_rul; [reflexivity|]|reflexivity|reflexivity]. apply (t_seq sg true _ _ "#" s [] []); [apply t_lit|]. by apply t_comment_chars.
  - subst t. eexists. split; [constructor|]. intros r. apply t_alt1. eapply t_conv; [eapply t_rul; [reflexivity|]|reflexivity|reflexivity].
    apply (t_seq sg true _ _ pad NL [] []); [by apply ws_stops_at|]. apply t_alt1, t_lit.
  - subst t. destruct Hf as [Hk Hv]. eexists. split; [constructor|]. intros r. apply t_alt2; [by apply (r_empty "")|]. apply t_alt1.
    apply (t_seq0 sg false _ _ _ [] _); [by apply (ws_stops "")|]. apply (t_seq sg false _ _ ("--" +:+ k +:+ "=" +:+ v) NL [_] []); [|apply t_opt_newline].
    eapply t_conv; [eapply t_rul; [reflexivity|]|reflexivity|reflexivity]. apply (t_seq sg true _ _ "--" _ [] _); [apply t_lit|].
    assert (Hkw : word_ok wide k). { repeat (apply elem_of_cons in Hk as [Hk|Hk]; [by subst|]). by apply elem_of_nil in Hk. }
    apply (t_seq0 sg true _ _ _ [] _).
    { apply t_star0, r_cls. repeat (apply elem_of_cons in Hk as [Hk|Hk]; [by subst|]). by apply elem_of_nil in Hk. }
    eapply t_conv; [eapply (t_star sg true _ (k +:+ "=" +:+ v) "" [_; _] [])|by rewrite append_nil_r|reflexivity].
    + apply (t_seq0 sg true _ _ _ [] _); [apply t_not; rewrite append_assoc; by apply nl_not|]. by apply t_meta_pair.
    + apply t_star0. apply r_seq1. eapply ev_not_no. apply (run_ev sg 10). reflexivity.
  - change (t = ("FROM " +:+ s)%string) in Ht. destruct Hf as [Hw Hs]. destruct (line_from wide said_ok s Hw Hs) as (tok & Htk & Htx & Hi & Hr). rewrite <- Ht in Htk, Htx.
    exists tok. split; [eapply lt_cmd; [reflexivity|done|done|rewrite Hr; right; right; by left]|]. intros r.
    apply t_alt2; [subst t; by apply (r_empty "")|]. apply t_alt2; [subst t; by apply (r_meta "")|]. apply t_alt2; [subst t; by apply (r_comment "")|].
    apply (t_seq sg false _ _ t NL [_] []); [|apply t_opt_newline]. apply Htk. by exists r.
  - change (t = ("ADD FLAGGED_ATTRIBUTES " +:+ n)%string) in Ht. destruct (line_flagged wide said_ok n Hf) as (tok & Htk & Htx & Hi & Hr). rewrite <- Ht in Htk, Htx.
    exists tok. split; [eapply lt_cmd; [reflexivity|done|done|rewrite Hr; by left]|]. intros r.
    apply t_alt2; [subst t; by apply (r_empty "")|]. apply t_alt2; [subst t; by apply (r_meta "")|]. apply t_alt2; [subst t; by apply (r_comment "")|].
    apply (t_seq sg false _ _ t NL [_] []); [|apply t_opt_newline]. apply Htk. by exists r.
  - destruct (line_printable wide said_ok c Hf) as (text & tok & E & Htk & Htx & Hi & Hr & (o & Ho)). rewrite Ht in E. injection E as <-.
    exists tok. split; [eapply lt_cmd; [reflexivity|done|done|destruct Hr as [-> | ->]; [by left|right; by left]]|]. intros r.
    assert (Hh : exists u, t = String "A" u \/ t = String "R" u) by (destruct Ho as [-> | ->]; eauto).
    apply t_alt2; [destruct Hh as [u [-> | ->]]; by apply (r_empty "")|]. apply t_alt2; [destruct Hh as [u [-> | ->]]; by apply (r_meta "")|].
    apply t_alt2; [destruct Hh as [u [-> | ->]]; by apply (r_comment "")|].
    apply (t_seq sg false _ _ t NL [_] []); [|apply t_opt_newline]. apply Htk. by exists r.
Qed.
Lemma r_line_end : rejects false g_line "".
Proof. apply (r_run sg 20). reflexivity. Qed.
Lemma t_lines fs ts : Forall (fline_ok wide said_ok) fs -> Forall2 is_line fs ts ->
  exists toks, Forall2 (fun ft tok => line_tok ft.1 ft.2 tok) (zip fs ts) toks /\ takes false (PStar g_line) (file_of ts) toks "".
Proof.
  intros H H2. induction H2 as [|f t fs ts Hft Hfs IH]; [exists []; split; [constructor|apply t_star0, r_line_end]|].
  inversion H as [|? ? Hf Hr]; subst. destruct (IH Hr) as (toks & Ht & Htk). destruct (t_line f t Hf Hft) as (tok & Hl & Htl).
  exists (tok :: toks). split; [by constructor|]. unfold file_of. rewrite cat_cons. by apply (t_star sg false _ (t +:+ NL) _ [tok] toks).
Qed.
Lemma file_parse fs ts : Forall (fline_ok wide said_ok) fs -> Forall2 is_line fs ts ->
  exists toks, Forall2 (fun ft tok => line_tok ft.1 ft.2 tok) (zip fs ts) toks /\
    sparse wide Rfile (file_of ts) = PDone (file_of ts) [Pair Rfile (file_of ts) (toks ++ [Pair REOI "" []])] "".
Proof.
  intros H H2. destruct (t_lines fs ts H H2) as (toks & Ht & Htk). exists toks. split; [done|].
  assert (T : takes false (PRul Rfile) (file_of ts) [Pair Rfile (file_of ts) (toks ++ [Pair REOI "" []])] "").
  { eapply t_conv; [eapply t_rul; [reflexivity|]| |].
    - eapply (t_seq sg false _ _ (file_of ts) "" toks [Pair REOI "" []]); [exact Htk|]. apply (t_run wide 5). reflexivity.
    - apply append_nil_r.
    - cbn [rshown negb]. by rewrite append_nil_r. }
  unfold Takes.takes in T. rewrite append_nil_r in T. exact (sparse_is wide Rfile _ _ T).
Qed.
(** Reading the lines. *)
Lemma validate_meta a m c : ast_validate (Ast (ast_version a) (ast_commands a) (ast_cmeta a) m) c = ast_validate a c.
Proof. destruct a. reflexivity. Qed.
Definition set_meta (m : gmap string string) (a : ast) : ast := Ast (ast_version a) (ast_commands a) (ast_cmeta a) m.
Lemma push_all_meta l : forall a m, push_all (set_meta m a) l = (let! b := push_all a l in Ok (set_meta m b)).
Proof.
  induction l as [|[c x] l IH]; intros a m; [done|]. cbn [push_all]. unfold set_meta at 1. rewrite validate_meta.
  destruct (ast_validate a c); cbn [obind]; [|done|done]. rewrite <- IH. f_equal.
Qed.
Lemma push_all_meta_of l : forall a b, push_all a l = Ok b -> ast_meta b = ast_meta a.
Proof.
  induction l as [|[c x] l IH]; intros a b H; [by injection H as <-|]. cbn [push_all] in H. destruct (ast_validate a c); cbn [obind] in H; [|discriminate H|discriminate H].
  by apply IH in H.
Qed.
Lemma read_layout fts toks : Forall2 (fun ft tok => line_tok ft.1 ft.2 tok) fts toks -> Forall (fun ft => fline_ok wide said_ok ft.1) fts -> forall n a,
  read_lines said_ok n (toks ++ [Pair REOI "" []]) a = (let! b := push_all a (file_commands n fts) in Ok (set_meta (file_meta (map fst fts) (ast_meta a)) b)).
Proof.
  induction 1 as [|[f t] tok fts toks Hl Hr IH]; intros Hf n a; [by destruct a|]. inversion Hf as [|? ? Hf1 Hf2]; subst. cbn [fst snd] in *.
  cbn [app read_lines]. inversion Hl as [pad s t' E1|pad t' E1|k v t' E1|f' c t' tok' E1 E2 E3 E4]; subst; cbn [p_rule].
  - rewrite IH by done. reflexivity.
  - rewrite IH by done. reflexivity.
  - cbn [fline_ok] in Hf1. destruct Hf1 as [Hk [Hv _]]. cbn [meta_tok p_rule meta_line p_inner meta_items obind].
    assert (K : String.eqb k "" = false) by (repeat (apply elem_of_cons in Hk as [Hk|Hk]; [by subst|]); by apply elem_of_nil in Hk).
    assert (V : String.eqb v "" = false) by (by destruct v). unfold meta_line. cbn [p_inner meta_items obind fst snd meta_tok]. rewrite K, V. cbn [obind].
    change (Ast (ast_version a) (ast_commands a) (ast_cmeta a) (<[(k, v).1:=(k, v).2]> (ast_meta a))) with (set_meta (<[k:=v]> (ast_meta a)) a).
    rewrite IH, push_all_meta by done. change (file_commands n ((FMeta k v, t) :: fts)) with (file_commands (S n) fts).
    change (file_meta (map fst ((FMeta k v, t) :: fts)) (ast_meta a)) with (file_meta (map fst fts) (<[k:=v]> (ast_meta a))).
    destruct (push_all a (file_commands (S n) fts)); reflexivity.
  - assert (F : file_meta (map fst ((f, p_text tok) :: fts)) (ast_meta a) = file_meta (map fst fts) (ast_meta a)) by (destruct f; done). rewrite F.
    cbn [file_commands]. rewrite E1. cbn [push_all].
    assert (R : p_rule tok = Radd \/ p_rule tok = Rremove \/ p_rule tok = Rfrom)
      by (apply elem_of_cons in E4 as [E4|E4]; [tauto|]; apply elem_of_cons in E4 as [E4|E4]; [tauto|]; apply elem_of_list_singleton in E4; tauto).
    destruct R as [R|[R|R]]; rewrite R; rewrite E3; cbn [obind]; (destruct (ast_validate a c); cbn [obind]; [|done|done]); rewrite IH by done; reflexivity.
Qed.
Lemma zip_fst {A B} (l : list A) (k : list B) : length l = length k -> map fst (zip l k) = l.
Proof. revert k. induction l as [|x l IH]; intros [|y k] H; [done|done|done|]. cbn. f_equal. apply IH. by injection H. Qed.
Theorem layout fs ts : Forall (fline_ok wide said_ok) fs -> Forall2 is_line fs ts ->
  parse_ocafile wide said_ok (file_of ts) = (let! a := push_all ast_new (file_commands 0 (zip fs ts)) in Ok (with_file_meta fs a)).
Proof.
  intros H H2. destruct (file_parse fs ts H H2) as (toks & Ht & E). unfold parse_ocafile. rewrite E. cbn [p_inner].
  rewrite (read_layout (zip fs ts)); [|done|].
  - rewrite zip_fst by (by eapply Forall2_length). destruct (push_all ast_new (file_commands 0 (zip fs ts))) as [a| |] eqn:Ep; [|done|done]. cbn [obind].
    unfold with_file_meta, set_meta. by rewrite (push_all_meta_of _ _ _ Ep).
  - clear -H H2. induction H2 as [|f t fs ts Hft Hfs IH]; [constructor|]. inversion H; subst. constructor; [done|]. by apply IH.
Qed.
Lemma printable_line c : printable wide said_ok c -> exists t, command_text c = Some t.
Proof. intros H. destruct (line_printable wide said_ok c H) as (t & _ & E & _). eauto. Qed.
Lemma printed cs : Forall (printable wide said_ok) cs -> exists ts, Forall2 is_line (map FCmd cs) ts /\ commands_text cs = Some (file_of ts).
Proof.
  induction 1 as [|c cs Hc Hcs (ts & H2 & E)]; [exists []; split; [constructor|done]|]. destruct (printable_line c Hc) as [t Et].
  exists (t :: ts). split; [by constructor|]. cbn [commands_text]. rewrite Et, E. unfold file_of. rewrite cat_cons, append_assoc. reflexivity.
Qed.
End OcaLayout.

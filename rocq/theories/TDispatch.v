(** What the dispatching parser finds. *)
From Coq Require Import Lia.
From Verif Require Export TFile Spec_TFile TGrammar_proofs.
From Verif Require Import OcaTakes OcaItems OcaLayout Condition_proofs.

Section TLines.
Variable d : bool.
Variable wide : ascii -> bool.
Local Notation tg := (tgrammar d wide).
Local Notation takes := (takes tg).
Local Notation rejects := (rejects tg).

Lemma tt_run n at_ e c ts r : run tg n at_ e (c +:+ r) = PDone c ts r -> takes at_ e c ts r.
Proof. intros H. unfold Takes.takes. apply (run_ev tg n). by rewrite H. Qed.
Lemma tr_lit1 at_ a x s : Ascii.eqb a x = false -> rejects at_ (PLit (String a "")) (String x s).
Proof. intros H. apply ev_lit_no. cbn [strip]. by rewrite H. Qed.
Lemma tr_lit2 at_ a p x s : Ascii.eqb a x = false -> rejects at_ (PLit (String a p)) (String x s).
Proof. intros H. apply ev_lit_no. cbn [strip]. by rewrite H. Qed.
Lemma tr_newline at_ c s : is_c LF c = false -> is_c CR c = false -> rejects at_ PNewline (String c s).
Proof. intros H1 H2. apply r_alt; [by apply tr_lit1|]. apply r_alt; by apply tr_lit2. Qed.
Lemma tr_newline_end at_ : rejects at_ PNewline "".
Proof. apply (r_run tg 10). reflexivity. Qed.
(** At a line end: what [NEWLINE] takes. *)
Lemma t_newline_at at_ c s : is_c LF c = true \/ is_c CR c = true -> exists n s', (String c s = n +:+ s')%string /\ takes at_ PNewline n [] s' /\
  (n = NL \/ n = String CR "" \/ n = String CR NL).
Proof.
  intros [H|H]; apply Ascii.eqb_eq in H; subst c.
  - exists NL, s. split; [done|]. split; [apply t_alt1, t_lit|by left].
  - destruct s as [|x s]; [|destruct (is_c LF x) eqn:E].
    + exists (String CR ""), "". split; [done|]. split; [|auto]. apply (tt_run 10). reflexivity.
    + apply Ascii.eqb_eq in E as <-. exists (String CR NL), s. split; [done|]. split; [|auto]. apply t_alt2; [by apply tr_lit1|]. apply t_alt1, t_lit.
    + exists (String CR ""), (String x s). split; [done|]. split; [|auto]. apply t_alt2; [by apply tr_lit1|]. apply t_alt2; [|apply t_lit].
      apply ev_lit_no. cbn [strip append]. rewrite Ascii.eqb_refl. unfold is_c in E. by rewrite E.
Qed.
Lemma t_wss at_ p r : all_chars ws_c p = true -> stops ws_c r -> takes at_ (PStar t_ws) p [] r.
Proof. intros H Hr. by apply t_star_cls. Qed.
Lemma tr_empty p c r : all_chars ws_c p = true -> ws_c c = false -> is_c LF c = false -> is_c CR c = false -> rejects false (PRul Tempty_line) (p +:+ String c r).
Proof.
  intros Hp Hc H1 H2. eapply r_rul; [reflexivity|]. apply (r_seq2 tg true _ _ p [] (String c r)); [by apply t_wss|]. by apply tr_newline.
Qed.
Lemma tr_empty_end p : all_chars ws_c p = true -> rejects false (PRul Tempty_line) p.
Proof.
  intros Hp. rewrite <- (append_nil_r p). eapply r_rul; [reflexivity|]. apply (r_seq2 tg true _ _ p [] ""); [by apply t_wss|]. apply tr_newline_end.
Qed.
Lemma tr_meta p r : all_chars ws_c p = true -> stops ws_c r -> strip Ascii.eqb "--" r = None -> rejects false t_meta_comment_line (p +:+ r).
Proof.
  intros Hp Hc H1. apply (r_seq2 tg false _ _ p [] r); [by apply t_wss|]. apply r_seq1. eapply r_rul; [reflexivity|]. apply r_seq1. by apply ev_lit_no.
Qed.
Lemma tr_comment p r : all_chars ws_c p = true -> stops ws_c r -> stops (is_c "#") r -> rejects false t_comment_line (p +:+ r).
Proof.
  intros Hp Hc H1. apply (r_seq2 tg false _ _ p [] r); [by apply t_wss|]. apply r_seq1. eapply r_rul; [reflexivity|]. apply r_seq1.
  destruct r as [|x r]; [by apply ev_lit_no|by apply tr_lit1].
Qed.
Lemma t_empty p n r : all_chars ws_c p = true -> takes true PNewline n [] r -> (exists c n', n = String c n' /\ ws_c c = false) -> takes false (PRul Tempty_line) (p +:+ n) [Pair Tempty_line (p +:+ n) []] r.
Proof.
  intros Hp Hn (c & n' & -> & Hc). eapply t_conv; [eapply t_rul; [reflexivity|]|reflexivity|reflexivity]. apply (t_seq tg true _ _ p _ [] []); [by apply t_wss|done].
Qed.
Lemma tt_comment_chars t r : all_chars not_nl_c t = true -> stops not_nl_c r -> takes true (PStar (PSeq (PNot PNewline) PAny)) t [] r.
Proof.
  induction t as [|c t IH]; intros H Hr.
  - apply t_star0. destruct r as [|c r].
    + apply (r_seq2 tg true _ _ "" [] ""); [apply t_not, tr_newline_end|by apply r_cls].
    + apply r_seq1. cbn in Hr. assert (X : is_c LF c = true \/ is_c CR c = true) by (unfold not_nl_c in Hr; destruct (is_c LF c), (is_c CR c); auto).
      destruct (t_newline_at true c r X) as (n & s' & -> & Hn & _). by eapply ev_not_no.
  - cbn in H. apply andb_prop in H as [H1 H2]. apply (t_star tg true _ (String c "") t [] []); [|by apply IH].
    apply (t_seq0 tg true _ _ (String c "") [] []); [|by apply t_cls]. apply t_not. unfold not_nl_c in H1.
    destruct (is_c LF c) eqn:E1; [done|]. destruct (is_c CR c) eqn:E2; [done|]. by apply tr_newline.
Qed.
Lemma t_comment t r : all_chars not_nl_c t = true -> stops not_nl_c r -> takes false (PRul Tcomment) ("#" +:+ t) [Pair Tcomment ("#" +:+ t) []] r.
Proof.
  intros H Hr. eapply t_conv; [eapply t_rul; [reflexivity|]|reflexivity|reflexivity]. apply (t_seq tg true _ _ "#" t [] []); [apply t_lit|by apply tt_comment_chars].
Qed.

(** ** A metadata statement *)
Lemma t_tvalue v r : meta_value_ok wide v -> stops (char_c wide) r -> exists ts, takes true (PRul Tmeta_attr_value) v [Pair Tmeta_attr_value v ts] r.
Proof.
  intros [Hv|(w & -> & Hw)] Hr.
  - pose proof (tt_map d wide _ _ _ _ _ (t_meta_value wide v r Hv Hr) eq_refl) as T. eexists. exact T.
  - assert (T : Takes.takes (sgrammar wide) true (PRul Rmeta_attr_value) (Q +:+ w +:+ Q) [Pair Rmeta_attr_value (Q +:+ w +:+ Q) [string_tok w]] r).
    { eapply t_conv; [eapply t_rul; [reflexivity|]|reflexivity|reflexivity]. by apply t_alt1, t_string. }
    apply (tt_map d wide) in T; [|reflexivity]. eexists. exact T.
Qed.
Lemma t_oaws_t at_ s r : all_chars ws_c s = true -> stops aws_c r -> takes at_ (POpt t_arg_ws) s [] r.
Proof. intros H Hr. exact (tt_map d wide _ _ _ _ _ (t_oaws wide at_ s r H Hr) eq_refl). Qed.
Lemma value_head v r : meta_value_ok wide v -> stops aws_c (v +:+ r) /\ stops ws_c (v +:+ r).
Proof.
  intros [[Hn Hc]|(w & -> & Hw)]; [|done]. destruct v as [|c v]; [done|]. cbn [all_chars] in Hc. apply andb_prop in Hc as [Hc _].
  pose proof (char_aws wide c Hc) as X. cbn. split; [exact X|]. unfold aws_c in X. destruct (ws_c c); [discriminate X|reflexivity].
Qed.
Lemma t_pair_t sep at_ k v a e1 e2 b ta tb r : all_chars ws_c e1 = true -> all_chars ws_c e2 = true -> stops aws_c (b +:+ r) ->
  (exists c s, sep = String c s /\ aws_c c = false) -> takes at_ k a ta (e1 +:+ sep +:+ e2 +:+ b +:+ r) -> takes at_ v b tb r ->
  takes at_ (t_pair sep k v) (a +:+ e1 +:+ sep +:+ e2 +:+ b) (ta ++ tb) r.
Proof.
  intros He1 He2 Hs (x & s & -> & Hx) Hk Hv. apply t_seq; [by rewrite !append_assoc|]. apply (t_seq tg at_ _ _ e1 _ [] tb); [by apply t_oaws_t|].
  apply (t_seq tg at_ _ _ (String x s) _ [] tb); [apply t_lit|]. apply (t_seq tg at_ _ _ e2 b [] tb); [by apply t_oaws_t|done].
Qed.
Lemma t_tmeta_pair m r : dm_ok wide m -> stops (char_c wide) r -> exists ts,
  takes true (PRul Tmeta_key_pair) (dm_key m +:+ dm_eq1 m +:+ "=" +:+ dm_eq2 m +:+ dm_value m) [Pair Tmeta_attr_key (dm_key m) []; Pair Tmeta_attr_value (dm_value m) ts] r.
Proof.
  intros (_ & H1 & H2 & Hk & Hv) Hr. destruct (t_tvalue (dm_value m) r Hv Hr) as [ts Ht]. exists ts.
  eapply t_conv; [eapply t_rul; [reflexivity|]|reflexivity|reflexivity].
  apply (t_pair_t "=" true _ _ (dm_key m) _ _ _ [_] [_]); [done|done|by apply value_head|by exists "="%char, ""| |done].
  set (rest := (dm_eq1 m +:+ "=" +:+ dm_eq2 m +:+ dm_value m +:+ r)%string). clearbody rest.
  unfold meta_keys in Hk. repeat (apply elem_of_cons in Hk as [Hk|Hk]; [rewrite Hk; apply (tt_run 10); reflexivity|]). by apply elem_of_nil in Hk.
Qed.
(** After the value: nothing more on the line is a pair. *)
Lemma tr_next_pair r : stops (fun c => negb (gap_c c)) r -> rejects true (PSeq (PNot PNewline) (PRul Tmeta_key_pair)) r.
Proof.
  intros Hr. assert (K : (r = "" \/ exists c s, r = String c s /\ ws_c c = true) -> rejects true (PRul Tmeta_key_pair) r).
  { intros X. eapply r_rul; [reflexivity|]. apply r_seq1. eapply r_rul; [reflexivity|]. destruct X as [->|(c & s & -> & Hc)]; [by apply (r_run tg 20)|].
    unfold ws_c in Hc. destruct (is_c " " c) eqn:E; [apply Ascii.eqb_eq in E as <-; by apply (r_run tg 20)|]. destruct (is_c TAB c) eqn:E2; [apply Ascii.eqb_eq in E2 as <-; by apply (r_run tg 20)|done]. }
  destruct r as [|c r].
  - apply (r_seq2 tg true _ _ "" [] ""); [apply t_not, tr_newline_end|]. apply K. by left.
  - cbn in Hr. unfold gap_c in Hr. destruct (is_c LF c) eqn:E1; [|destruct (is_c CR c) eqn:E2].
    + apply r_seq1. destruct (t_newline_at true c r (or_introl E1)) as (n & s & -> & Hn & _). by eapply ev_not_no.
    + apply r_seq1. destruct (t_newline_at true c r (or_intror E2)) as (n & s & -> & Hn & _). by eapply ev_not_no.
    + apply (r_seq2 tg true _ _ "" [] (String c r)); [by apply t_not, tr_newline|]. apply K. right. exists c, r. split; [done|]. by destruct (ws_c c).
Qed.
Definition tmeta_tok (m : dmeta) (ts : list tpair) : tpair := Pair Tmeta_comment (dm_text m) [Pair Tmeta_attr_key (dm_key m) []; Pair Tmeta_attr_value (dm_value m) ts].
Lemma gap_char r : stops (fun c => negb (gap_c c)) r -> stops (char_c wide) r.
Proof.
  destruct r as [|c r]; [done|]. cbn. intros H. destruct (char_c wide c) eqn:E; [|done]. exfalso. apply negb_false_iff in H. unfold gap_c, ws_c in H. revert E.
  destruct (is_c " " c) eqn:E1; [apply Ascii.eqb_eq in E1 as <-; done|]. destruct (is_c TAB c) eqn:E2; [apply Ascii.eqb_eq in E2 as <-; done|].
  destruct (is_c LF c) eqn:E3; [apply Ascii.eqb_eq in E3 as <-; done|]. destruct (is_c CR c) eqn:E4; [apply Ascii.eqb_eq in E4 as <-; done|]. done.
Qed.
Lemma key_head k r : k ∈ meta_keys -> stops ws_c (k +:+ r) /\ rejects true PNewline (k +:+ r).
Proof.
  intros Hk. unfold meta_keys in Hk. repeat (apply elem_of_cons in Hk as [Hk|Hk]; [subst; split; [done|by apply tr_newline]|]). by apply elem_of_nil in Hk.
Qed.
Lemma t_tmeta m r : dm_ok wide m -> stops (fun c => negb (gap_c c)) r -> exists ts, takes false (PRul Tmeta_comment) (dm_text m) [tmeta_tok m ts] r.
Proof.
  intros Hm Hr. destruct (t_tmeta_pair m r Hm (gap_char r Hr)) as [ts Ht]. exists ts. destruct Hm as (Hs & _ & _ & Hk & _).
  eapply t_conv; [eapply t_rul; [reflexivity|]|reflexivity|reflexivity]. apply (t_seq tg true _ _ "--" _ [] _); [apply t_lit|].
  apply (t_seq tg true _ _ (dm_sep m) _ [] _); [apply t_wss; [done|]; rewrite !append_assoc; by apply key_head|].
  eapply t_conv; [eapply (t_star tg true _ (dm_key m +:+ dm_eq1 m +:+ "=" +:+ dm_eq2 m +:+ dm_value m) "" [_; _] [])|by rewrite append_nil_r|reflexivity].
  - apply (t_seq0 tg true _ _ _ [] _); [apply t_not; rewrite !append_assoc; by apply key_head|]. exact Ht.
  - apply t_star0. by apply tr_next_pair.
Qed.
End TLines.

(** ** Whole texts *)
Section Dispatch.
Variable wide : ascii -> bool.
Local Notation tg := (tgrammar true wide).
Local Notation takes := (takes tg).
Local Notation rejects := (rejects tg).
Definition d_alt : pe trule := PAlts [PRul Tempty_line; t_meta_comment_line; t_comment_line; PAny].
Definition is_meta (p : tpair) : Prop := p_rule p = Tmeta_comment.

(** The longest beginning in a class. *)
Lemma span (f : ascii -> bool) t : exists p u, t = (p +:+ u)%string /\ all_chars f p = true /\ stops f u.
Proof.
  induction t as [|c t (p & u & -> & Hp & Hu)]; [exists "", ""; done|]. destruct (f c) eqn:E.
  - exists (String c p), u. split; [done|]. split; [cbn; by rewrite E|done].
  - exists "", (String c (p +:+ u)). done.
Qed.
Lemma ws_scan p u : all_chars ws_c p = true -> scan false (p +:+ u) = scan false u.
Proof.
  induction p as [|c p IH]; [done|]. cbn [all_chars]. intros H. apply andb_prop in H as [H1 H2]. cbn [append scan]. unfold ws_c in H1.
  destruct (is_c "#" c) eqn:E1; [apply Ascii.eqb_eq in E1; by subst|]. destruct (is_c "-" c) eqn:E2; [apply Ascii.eqb_eq in E2; by subst|]. cbn [andb]. by apply IH.
Qed.
Lemma comment_scan w u : all_chars not_nl_c w = true -> stops not_nl_c u -> scan true (w +:+ u) = match u with "" => Some true | String _ u' => scan false u' end.
Proof.
  induction w as [|c w IH]; intros H Hu; [destruct u as [|c u]; [done|]; cbn in Hu; cbn [append scan]; by rewrite Hu|].
  cbn [all_chars] in H. apply andb_prop in H as [H1 H2]. cbn [append scan]. rewrite H1. by apply IH.
Qed.
Lemma t_any c r : takes false PAny (String c "") [] r.
Proof. by apply t_cls. Qed.
(** White space at the end of the text. *)
Lemma t_trailing p : all_chars ws_c p = true -> takes false (PStar d_alt) p [] "".
Proof.
  induction p as [|c p IH]; intros H; [apply t_star0; apply (r_run tg 20); reflexivity|]. pose proof H as H'. cbn [all_chars] in H'. apply andb_prop in H' as [H1 H2].
  apply (t_star tg false _ (String c "") p [] []); [|by apply IH].
  change (PAlts _) with d_alt. unfold d_alt. cbn [PAlts].
  replace (String c "") with ((String c "")%string) by done.
  apply t_alt2; [change (String c "" +:+ p +:+ "")%string with (String c p +:+ "")%string; rewrite append_nil_r; by apply tr_empty_end|].
  apply t_alt2; [change (String c "" +:+ p +:+ "")%string with (String c p +:+ "")%string; by apply tr_meta|].
  apply t_alt2; [change (String c "" +:+ p +:+ "")%string with (String c p +:+ "")%string; by apply tr_comment|]. apply t_any.
Qed.
(** Text without metadata, in front of something that is read as [ts]. *)
Definition follows (st : bool) (c r : string) : Prop := (st = false /\ exists s, (c +:+ r)%string = String "-" s) \/ (c = "" /\ r = "").
Lemma follows_dash st c r : follows st c r -> (c +:+ r = "")%string \/ exists s, (c +:+ r)%string = String "-" s.
Proof. intros [[_ H]|[-> ->]]; auto. Qed.
Lemma quiet_star n : forall t c ts r st, String.length t <= n -> scan false t = Some st -> ((exists s, (c +:+ r)%string = String "-" s) -> scan false (t +:+ "-") = Some false) -> follows st c r ->
  (forall p, all_chars ws_c p = true -> takes false (PStar d_alt) (p +:+ c) ts r) ->
  exists ts0, Forall (fun p => ~ is_meta p) ts0 /\ takes false (PStar d_alt) (t +:+ c) (ts0 ++ ts) r.
Proof.
  induction n as [|n IH]; intros t c ts r st Hn Hs Hopen Hf Hk.
  { destruct t; [|cbn in Hn; lia]. exists []. split; [constructor|]. by apply (Hk ""). }
  destruct (span ws_c t) as (p & u & -> & Hp & Hu). rewrite length_append in Hn. rewrite ws_scan in Hs by done.
  rewrite (append_assoc p u "-"), ws_scan in Hopen by done.
  destruct u as [|x u]; [exists []; split; [constructor|]; rewrite append_nil_r; by apply Hk|]. cbn in Hu. cbn [String.length] in Hn.
  destruct (decide (is_c LF x = true \/ is_c CR x = true)) as [Hnl|Hnl].
  - (* a line end *)
    destruct (t_newline_at true wide true x (u +:+ c +:+ r) Hnl) as (nl & s' & Es & Ht & Hcase).
    assert (Hsplit : exists u', (String x u = nl +:+ u')%string /\ s' = (u' +:+ c +:+ r)%string).
    { destruct Hcase as [->|[->| ->]]; cbn in Es; injection Es as Ex Es; subst x.
      - exists u. done.
      - exists u. done.
      - destruct u as [|y u].
        + exfalso. destruct (follows_dash _ _ _ Hf) as [E|[s E]]; cbn in Es; rewrite E in Es; done.
        + cbn in Es. injection Es as -> Es. exists u. done. }
    destruct Hsplit as (u' & Eu & ->).
    assert (Hscan : forall z, scan false (nl +:+ z) = scan false z) by (intros z; by destruct Hcase as [->|[->| ->]]).
    assert (Hlen : String.length u' <= n).
    { assert (String.length (String x u) = String.length nl + String.length u') by (by rewrite Eu, length_append). destruct Hcase as [->|[->| ->]]; cbn in *; lia. }
    destruct (IH u' c ts r st Hlen) as (ts0 & Hm & Htk); [by rewrite <- Hscan, <- Eu| |done|done|].
    { intros X. specialize (Hopen X). by rewrite Eu, append_assoc, Hscan in Hopen. }
    exists (Pair Tempty_line (p +:+ nl) [] :: ts0). split; [constructor; [done|done]|]. rewrite Eu, !append_assoc, <- (append_assoc p nl).
    apply (t_star tg false _ (p +:+ nl) _ [_]); [|done]. apply t_alt1. apply t_empty; [done|by rewrite append_assoc|].
    destruct Hcase as [->|[->| ->]]; eexists _, _; (split; [reflexivity|done]).
  - assert (H1 : is_c LF x = false /\ is_c CR x = false) by (destruct (is_c LF x), (is_c CR x); tauto). destruct H1 as [H1 H2]. clear Hnl.
    destruct (is_c "#" x) eqn:Eh.
    + (* a comment *)
      apply Ascii.eqb_eq in Eh. subst x. destruct (span not_nl_c u) as (w & v & -> & Hw & Hv). cbn [scan] in Hs. rewrite comment_scan in Hs by done.
      assert (Hc : forall rest, stops not_nl_c (v +:+ rest) -> takes false (PRul Tcomment) ("#" +:+ w) [Pair Tcomment ("#" +:+ w) []] (v +:+ rest)) by (intros rest Hr; by apply t_comment).
      assert (Hline : forall nl u' , takes false (POpt PNewline) nl [] (u' +:+ c +:+ r) -> stops not_nl_c (nl +:+ u' +:+ c +:+ r) ->
        takes false d_alt (p +:+ ("#" +:+ w) +:+ nl) [Pair Tcomment ("#" +:+ w) []] (u' +:+ c +:+ r)).
      { intros nl u' Hnl Hst. unfold d_alt. cbn [PAlts]. apply t_alt2; [rewrite append_assoc; by apply tr_empty|]. apply t_alt2; [rewrite append_assoc; by apply tr_meta|]. apply t_alt1.
        apply (t_seq tg false _ _ p _ [] [_]); [by apply t_wss|]. apply (t_seq tg false _ _ ("#" +:+ w) nl [_] []); [|done]. by apply t_comment. }
      destruct v as [|y v].
      * assert (Est : st = true) by (injection Hs as <-; done). destruct Hf as [[Hf _]|[-> ->]]; [congruence|].
        exists [Pair Tcomment ("#" +:+ w) []]. split; [constructor; [done|constructor]|].
        eapply t_conv; [eapply (t_star tg false _ (p +:+ ("#" +:+ w) +:+ "") "" [_] ts)| |].
        -- apply (Hline "" ""); [|done]. apply t_opt0, tr_newline_end.
        -- by apply (Hk "").
        -- by rewrite !append_nil_r.
        -- done.
      * cbn in Hv. assert (Hy : is_c LF y = true \/ is_c CR y = true) by (unfold not_nl_c in Hv; destruct (is_c LF y), (is_c CR y); auto).
        destruct (t_newline_at true wide false y (v +:+ c +:+ r) Hy) as (nl & s' & Es & Ht & Hcase).
        assert (Hsplit : exists u', (String y v = nl +:+ u')%string /\ s' = (u' +:+ c +:+ r)%string).
        { destruct Hcase as [->|[->| ->]]; cbn in Es; injection Es as Ex Es; subst y.
          - exists v. done.
          - exists v. done.
          - destruct v as [|y v].
            + exfalso. destruct (follows_dash _ _ _ Hf) as [E|[s E]]; cbn in Es; rewrite E in Es; done.
            + cbn in Es. injection Es as -> Es. exists v. done. }
        destruct Hsplit as (u' & Eu & ->).
        assert (Hscan : forall z, scan false (nl +:+ z) = scan false z) by (intros z; by destruct Hcase as [->|[->| ->]]).
        assert (Hv' : scan false v = scan false u').
        { destruct Hcase as [->|[->| ->]]; cbn in Eu; injection Eu as _ ->; done. }
        assert (Hvo : scan false (v +:+ "-") = scan false (u' +:+ "-")).
        { destruct Hcase as [->|[->| ->]]; cbn in Eu; injection Eu as _ ->; done. }
        assert (Hlen : String.length u' <= n).
        { rewrite length_append in Hn. assert (String.length (String y v) = String.length nl + String.length u') by (by rewrite Eu, length_append).
          destruct Hcase as [->|[->| ->]]; cbn in *; lia. }
        destruct (IH u' c ts r st Hlen) as (ts0 & Hm & Htk); [by rewrite <- Hv'| |done|done|].
        { intros X. specialize (Hopen X). cbn [append scan] in Hopen. change (is_c "#" "#") with true in Hopen. cbv iota in Hopen.
          rewrite append_assoc, comment_scan in Hopen by done. cbn [append] in Hopen. by rewrite Hvo in Hopen. }
        exists (Pair Tcomment ("#" +:+ w) [] :: ts0). split; [constructor; [done|done]|].
        replace ((p +:+ String "#" (w +:+ String y v)) +:+ c)%string with ((p +:+ ("#" +:+ w) +:+ nl) +:+ (u' +:+ c))%string.
        2: { rewrite Eu, !append_assoc. cbn [append]. by rewrite !append_assoc. }
        apply (t_star tg false _ _ _ [_]); [|done]. rewrite (append_assoc u' c r). apply Hline; [by apply t_opt|].
        destruct Hcase as [->|[->| ->]]; done.
    + (* any other character: one is taken *)
      assert (Hstrip : strip Ascii.eqb "--" (String x (u +:+ c +:+ r)) = None).
      { cbn [strip]. destruct (Ascii.eqb "-" x) eqn:Ex; [|done]. apply Ascii.eqb_eq in Ex. subst x.
        assert (E : stops (is_c "-") (u +:+ c +:+ r)).
        { destruct u as [|y u].
          - cbn [append]. destruct Hf as [[-> [s Es]]|[-> ->]]; [|done]. exfalso. specialize (Hopen (ex_intro _ s Es)). by vm_compute in Hopen.
          - cbn [append stops]. cbn [scan] in Hs. change (is_c "#" "-") with false in Hs. change (is_c "-" "-") with true in Hs. cbn [andb] in Hs. by destruct (is_c "-" y). }
        destruct (u +:+ c +:+ r)%string as [|y z]; [done|]. cbn [stops] in E. unfold is_c in E. by rewrite E. }
      assert (Hws : stops ws_c (String x (u +:+ c +:+ r))) by done.
      assert (Hone : exists a t', (p +:+ String x u)%string = String a t' /\ scan false t' = Some st /\ ((exists s, (c +:+ r)%string = String "-" s) -> scan false (t' +:+ "-") = Some false)
        /\ String.length t' <= n).
      { destruct p as [|a p].
        - exists x, u. split; [done|]. cbn [scan] in Hs. rewrite Eh in Hs. destruct (is_c "-" x && _); [done|]. split; [done|]. split; [|cbn in Hn; lia].
          intros X. specialize (Hopen X). cbn [append scan] in Hopen. rewrite Eh in Hopen. destruct (is_c "-" x && _); [done|done].
        - cbn [all_chars] in Hp. apply andb_prop in Hp as [_ Hp]. exists a, (p +:+ String x u)%string. split; [done|]. rewrite ws_scan by done. split; [done|]. split.
          + intros X. rewrite append_assoc, ws_scan by done. by apply Hopen.
          + rewrite length_append. cbn [String.length] in *. lia. }
      destruct Hone as (a & t' & Et & Hs' & Ho' & Hl'). destruct (IH t' c ts r st Hl' Hs' Ho' Hf Hk) as (ts0 & Hm & Htk).
      exists ts0. split; [done|]. rewrite Et. change (String a t' +:+ c)%string with (String a "" +:+ (t' +:+ c))%string.
      apply (t_star tg false _ (String a "") _ []); [|done]. unfold d_alt. cbn [PAlts].
      assert (Eall : (String a "" +:+ ((t' +:+ c) +:+ r) = p +:+ String x (u +:+ c +:+ r))%string).
      { change (String a "" +:+ ((t' +:+ c) +:+ r))%string with ((String a t' +:+ c) +:+ r)%string. rewrite <- Et, !append_assoc. reflexivity. }
      apply t_alt2; [rewrite Eall; by apply tr_empty|]. apply t_alt2; [rewrite Eall; by apply tr_meta|]. apply t_alt2; [rewrite Eall; by apply tr_comment|]. apply t_any.
Qed.

Lemma dispatch_quiet ts0 ts mm : Forall (fun p => ~ is_meta p) ts0 -> dispatch_meta (ts0 ++ ts) mm = dispatch_meta ts mm.
Proof.
  induction 1 as [|p ts0 Hp _ IH]; [done|]. cbn [app dispatch_meta]. unfold is_meta in Hp. destruct (p_rule p) eqn:E; try exact IH. by destruct Hp.
Qed.
Definition insert_metas (l : list (dmeta * string)) (mm : gmap string string) : gmap string string :=
  fold_left (fun mm (mt : dmeta * string) => <[dm_key mt.1 := dm_value mt.1]> mm) l mm.
Definition metas_read (l : list (dmeta * string)) (ts : list tpair) : Prop := forall ts' mm, dispatch_meta (ts ++ ts') mm = dispatch_meta ts' (insert_metas l mm).
Lemma value_nonempty v : meta_value_ok wide v -> String.eqb v "" = false.
Proof. intros [[H _]|(w & -> & _)]; [by destruct v|done]. Qed.
Lemma read_tmeta m ts : dm_ok wide m -> tmeta_line (tmeta_tok m ts) = Ok (dm_key m, dm_value m).
Proof.
  intros (_ & _ & _ & Hk & Hv). unfold tmeta_line, tmeta_tok. cbn [p_inner tmeta_items obind fst snd]. rewrite (value_nonempty _ Hv).
  unfold meta_keys in Hk. repeat (apply elem_of_cons in Hk as [Hk|Hk]; [rewrite Hk; reflexivity|]). by apply elem_of_nil in Hk.
Qed.
Lemma open_no_meta t : open_end t -> scan false t = Some false.
Proof.
  unfold open_end. assert (G : forall com, scan com (t +:+ "-") = Some false -> scan com t = Some false); [|apply G].
  induction t as [|c t IH]; intros com H; [destruct com; done|]. cbn [append scan] in *. destruct com; [by apply IH|]. destruct (is_c "#" c); [by apply IH|].
  destruct t as [|x t]; cbn [append] in *.
  - rewrite andb_false_r. destruct (is_c "-" c) eqn:E; [|done]. by vm_compute in H.
  - destruct (is_c "-" c && is_c "-" x); [done|]. by apply IH.
Qed.
Lemma metas_head l : l = [] \/ exists s, metas_text l = String "-" (String "-" s).
Proof. destruct l as [|[m t] l]; [by left|right]. eexists. reflexivity. Qed.
Lemma metas_star l : metas_ok wide l -> exists ts, metas_read l ts /\ forall p, all_chars ws_c p = true -> takes false (PStar d_alt) (p +:+ metas_text l) ts "".
Proof.
  induction l as [|[m t] l IH]; intros H.
  { exists []. split; [done|]. intros p Hp. rewrite append_nil_r. by apply t_trailing. }
  assert (Hall : dm_ok wide m /\ starts_gap t /\ metas_ok wide l /\ (l = [] -> no_meta t) /\ (l <> [] -> t <> "" /\ open_end t)).
  { destruct l as [|x l]; cbn in H; [destruct H as (? & ? & ?)|destruct H as (? & ? & ? & ? & ?)]; split_and!; auto; by intros. }
  destruct Hall as (Hm & Hg & Hl & Hend & Hmore). destruct (IH Hl) as (ts & Hr & Ht). clear IH H.
  assert (Hs : exists st, scan false t = Some st /\ follows st (metas_text l) "").
  { destruct l as [|x l].
    - specialize (Hend eq_refl). unfold no_meta in Hend. destruct (scan false t) as [st|]; [|done]. exists st. split; [done|]. by right.
    - destruct (Hmore ltac:(done)) as [_ Ho]. exists false. split; [by apply open_no_meta|]. left. split; [done|]. rewrite append_nil_r. destruct (metas_head (x :: l)) as [E|[s E]]; [done|]. rewrite E. eauto. }
  destruct Hs as (st & Hs & Hf).
  assert (Ho : (exists s, (metas_text l +:+ "")%string = String "-" s) -> scan false (t +:+ "-") = Some false).
  { intros [s Es]. destruct l as [|x l]; [done|]. by destruct (Hmore ltac:(done)) as [_ Ho]. }
  assert (Hgap : stops (fun c => negb (gap_c c)) (t +:+ metas_text l)).
  { destruct t as [|c t]; [|cbn; cbn in Hg; by rewrite Hg]. destruct l as [|x l]; [done|]. by destruct (Hmore ltac:(done)) as [X _]. }
  (* what NEWLINE? takes *)
  assert (Hnl : exists nl t', t = (nl +:+ t')%string /\ takes false (POpt PNewline) nl [] (t' +:+ metas_text l) /\ (forall z, scan false (nl +:+ z) = scan false z)).
  { destruct t as [|c t]; [exists "", ""; split; [done|]; split; [|done]; apply t_opt0|].
    - destruct l as [|x l]; [apply tr_newline_end|by destruct (Hmore ltac:(done)) as [X _]].
    - destruct (decide (is_c LF c = true \/ is_c CR c = true)) as [X|X].
      + destruct (t_newline_at true wide false c (t +:+ metas_text l) X) as (nl & s' & Es & Htn & Hcase).
        assert (Hsc : forall z, scan false (nl +:+ z) = scan false z) by (intros z; by destruct Hcase as [->|[->| ->]]).
        destruct Hcase as [->|[->| ->]]; cbn in Es; injection Es as Ex Es; subst c.
        * exists NL, t. subst s'. split; [done|]. split; [by apply t_opt|done].
        * exists (String CR ""), t. subst s'. split; [done|]. split; [by apply t_opt|done].
        * destruct t as [|y t].
          { exfalso. cbn in Es. destruct (metas_head l) as [->|[s E]]; [done|]. by rewrite E in Es. }
          cbn in Es. injection Es as -> Es. subst s'. exists (String CR NL), t. split; [done|]. split; [by apply t_opt|done].
      + exists "", (String c t). split; [done|]. split; [|done]. apply t_opt0. apply tr_newline; destruct (is_c LF c), (is_c CR c); tauto. }
  destruct Hnl as (nl & t' & -> & Hn & Hsc).
  destruct (quiet_star (String.length t') t' (metas_text l) ts "" st (le_n _)) as (ts0 & Hq & Htk); [by rewrite <- Hsc| |done|done|].
  { intros X. specialize (Ho X). by rewrite append_assoc, Hsc in Ho. }
  destruct (t_tmeta true wide m ((nl +:+ t') +:+ metas_text l) Hm Hgap) as [vts Hmt].
  exists (tmeta_tok m vts :: ts0 ++ ts). split.
  - intros ts' mm. cbn [app dispatch_meta p_rule tmeta_tok]. rewrite (read_tmeta m vts Hm). cbn [obind fst snd]. rewrite <- (assoc_L (++)), dispatch_quiet by done. by apply Hr.
  - intros p Hp. cbn [metas_text]. replace (p +:+ dm_text m +:+ (nl +:+ t') +:+ metas_text l)%string with ((p +:+ dm_text m +:+ nl) +:+ (t' +:+ metas_text l))%string by (by rewrite !append_assoc).
    apply (t_star tg false _ _ _ [_]); [|done]. unfold d_alt. cbn [PAlts]. apply t_alt2.
    + rewrite !append_assoc. by apply tr_empty.
    + apply t_alt1. apply (t_seq tg false _ _ p _ [] [_]); [by apply t_wss|]. apply (t_seq tg false _ _ (dm_text m) nl [_] []).
      * rewrite !append_assoc in *. rewrite ?append_nil_r. exact Hmt.
      * by rewrite append_nil_r.
Qed.
Lemma insert_metas_lookup l : forall mm k, insert_metas l mm !! k = match last_value k l with Some v => Some v | None => mm !! k end.
Proof.
  induction l as [|[m t] l IH]; intros mm k; [done|]. unfold insert_metas in *. cbn [fold_left fst]. rewrite IH.
  change (last_value k ((m, t) :: l)) with (last (match (if String.eqb k (dm_key m) then Some (dm_value m) else None) with
    Some v => v :: omap (fun mt : dmeta * string => if String.eqb k (dm_key mt.1) then Some (dm_value mt.1) else None) l
    | None => omap (fun mt : dmeta * string => if String.eqb k (dm_key mt.1) then Some (dm_value mt.1) else None) l end)).
  unfold last_value. set (o := omap _ l). destruct (String.eqb k (dm_key m)) eqn:E.
  - apply String.eqb_eq in E as <-. destruct o as [|x o]; [cbn; by rewrite lookup_insert|]. change (last (dm_value m :: x :: o)) with (last (x :: o)). destruct (last (x :: o)) eqn:El; [done|]. by apply last_None in El.
  - apply String.eqb_neq in E. destruct (last o); [done|]. by rewrite lookup_insert_ne.
Qed.
Lemma dispatch_file t l : file_ok wide t l -> file_precompiler wide (t +:+ metas_text l) = Ok (last_value "precompiler" l).
Proof.
  intros H. assert (Hl : metas_ok wide l) by (destruct l; [done|by destruct H]). destruct (metas_star l Hl) as (ts & Hr & Ht).
  assert (Hs : exists st, scan false t = Some st /\ follows st (metas_text l) "" /\ ((exists s, (metas_text l +:+ "")%string = String "-" s) -> scan false (t +:+ "-") = Some false)).
  { destruct l as [|x l].
    - cbn in H. unfold no_meta in H. destruct (scan false t) as [st|]; [|done]. exists st. split; [done|]. split; [by right|]. by intros [s Es].
    - destruct H as [Ho _]. exists false. split; [by apply open_no_meta|]. split; [|done]. left. split; [done|]. rewrite append_nil_r. destruct (metas_head (x :: l)) as [E|[s E]]; [done|]. rewrite E. eauto. }
  destruct Hs as (st & Hs & Hf & Ho). destruct (quiet_star (String.length t) t (metas_text l) ts "" st (le_n _) Hs Ho Hf Ht) as (ts0 & Hq & Htk).
  set (s := (t +:+ metas_text l)%string) in *.
  assert (T : takes false (PRul Tfile) s [Pair Tfile s ((ts0 ++ ts) ++ [Pair TEOI "" []])] "").
  { eapply t_conv; [eapply t_rul; [reflexivity|]| |].
    - eapply (t_seq tg false _ _ s "" (ts0 ++ ts) [Pair TEOI "" []]); [exact Htk|]. apply (tt_run true wide 5). reflexivity.
    - apply append_nil_r.
    - cbn [rshown negb]. by rewrite append_nil_r. }
  unfold Takes.takes in T. rewrite append_nil_r in T. unfold file_precompiler. rewrite (tparse_is true wide Tfile _ _ T). cbn [to_res p_inner].
  rewrite <- (assoc_L (++)), dispatch_quiet by done. rewrite Hr. cbn [dispatch_meta p_rule obind]. rewrite insert_metas_lookup. by destruct (last_value "precompiler" l).
Qed.
End Dispatch.

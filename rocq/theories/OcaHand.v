(** How the grammar takes, and the reader understands, commands written by hand. *)
From Coq Require Import Lia.
From Verif Require Export OcaLayout Spec_Hand.
From Verif Require Import Condition_proofs Bundle_proofs.

(** ** Letter case *)
Lemma lower_app a b : lower_str (a +:+ b) = (lower_str a +:+ lower_str b)%string.
Proof. induction a as [|c a IH]; [done|]. cbn [append lower_str]. by rewrite IH. Qed.
Lemma strip_spelled t : forall w r, spelled t w -> strip (fun a b => Ascii.eqb a (lower b)) w (t +:+ r) = Some (t, r).
Proof.
  induction t as [|c t IH]; intros w r H; unfold spelled in H; cbn [lower_str] in H; subst w; [by destruct r|].
  cbn [append strip]. rewrite Ascii.eqb_refl. by rewrite (IH _ r eq_refl).
Qed.
Lemma strip_lower kw : forall s, strip Ascii.eqb kw (lower_str s) = None -> strip (fun a b => Ascii.eqb a (lower b)) kw s = None.
Proof.
  induction kw as [|a kw IH]; intros s H; [by destruct s|]. destruct s as [|c s]; [done|]. cbn [lower_str strip] in *.
  destruct (Ascii.eqb a (lower c)); [|done]. destruct (strip Ascii.eqb kw (lower_str s)) as [[x y]|] eqn:E; [done|]. by rewrite IH.
Qed.

Section OcaHand.
Variable wide : ascii -> bool.
Variable said_ok : string -> bool.
Local Notation sg := (sgrammar wide).
Local Notation takes := (takes sg).
Local Notation rejects := (rejects sg).

Lemma t_spelled at_ t w r : spelled t w -> takes at_ (PLitI w) t [] r.
Proof. intros H. by apply t_liti, strip_spelled. Qed.
Lemma r_spelled at_ t w kw r : spelled t w -> strip Ascii.eqb kw (w +:+ lower_str r) = None -> rejects at_ (PLitI kw) (t +:+ r).
Proof. intros H E. apply ev_liti_no, strip_lower. unfold spelled in H. by rewrite lower_app, H. Qed.
(** A key word is not another one, seen from the character behind it. *)
(** proof helper (what ends a word) *)
Definition behind (r : string) : Prop := r = "" \/ exists x u, r = String x u /\ x ∈ [" "%char; TAB; BSL; LF; CR].
Lemma r_name at_ t w kw r : spelled t w -> behind r -> (forall u, strip Ascii.eqb kw (w +:+ String " " u) = None) -> (forall u, strip Ascii.eqb kw (w +:+ String TAB u) = None) ->
  (forall u, strip Ascii.eqb kw (w +:+ String BSL u) = None) -> (forall u, strip Ascii.eqb kw (w +:+ String LF u) = None) ->
  (forall u, strip Ascii.eqb kw (w +:+ String CR u) = None) -> strip Ascii.eqb kw (w +:+ "") = None -> rejects at_ (PLitI kw) (t +:+ r).
Proof.
  intros Ht [-> |(x & u & -> & Hx)] H1 H2 H3 H4 H5 H6; (eapply r_spelled; [exact Ht|]; cbn [lower_str]); [exact H6|].
  repeat (apply elem_of_cons in Hx as [-> |Hx]; [by first [apply H1|apply H2|apply H3|apply H4|apply H5]|]). by apply elem_of_nil in Hx.
Qed.
(** The end of a line, or of the file. *)
(** proof helper (what ends a line) *)
Definition ends (r : string) : Prop := r = "" \/ exists c u, r = String c u /\ (c = LF \/ c = CR).
Lemma ends_aws r : ends r -> stops aws_c r. Proof. clear. intros [-> |(c & u & -> & [-> | ->])]; done. Qed.
Lemma ends_char r : ends r -> stops (char_c wide) r. Proof. clear said_ok. intros [-> |(c & u & -> & [-> | ->])]; done. Qed.
Lemma r_end_pair (rp : srule) r : (exists b, sg rp = (Atomic, PSeq (PRul Rattr_key) b) \/ sg rp = (Compound, PSeq (PRul Rattr_key) b)) -> ends r -> rejects false (PRul rp) r.
Proof.
  intros (b & H) Hr.
  assert (rejects (rinside Atomic false) (PRul Rattr_key) r /\ rejects (rinside Compound false) (PRul Rattr_key) r) as [H1 H2].
  { destruct Hr as [-> |(c & u & -> & [-> | ->])]; split; by apply (r_run sg 10). }
  destruct H as [H|H]; (eapply r_rul; [exact H|]); by apply r_seq1.
Qed.

(** ** Gaps *)
(** proof helper (the first character of a word) *)
Definition open_c (c : ascii) : bool := negb (ws_c c || is_c BSL c || is_c LF c || is_c CR c || is_c "#" c).
(** proof helper *)
Definition opens (s : string) : Prop := exists c r, s = String c r /\ open_c c = true.
Lemma open_parts c : open_c c = true -> ws_c c = false /\ is_c BSL c = false /\ is_c LF c = false /\ is_c CR c = false /\ is_c "#" c = false.
Proof. unfold open_c. destruct (ws_c c), (is_c BSL c), (is_c LF c), (is_c CR c), (is_c "#" c); done. Qed.
Lemma opens_aws s : opens s -> stops aws_c s.
Proof. intros (c & r & -> & H). apply open_parts in H as (H1 & H2 & _). cbn. unfold aws_c. by rewrite H1, H2. Qed.
Lemma opens_app a b : opens a -> opens (a +:+ b).
Proof. intros (c & r & -> & H). by exists c, (r +:+ b). Qed.
Lemma gap_front s r : gap s -> opens r -> exists p c u, (s +:+ r)%string = (p +:+ String c u)%string /\ all_chars ws_c p = true /\
  ws_c c = false /\ is_c LF c = false /\ is_c CR c = false /\ is_c "#" c = false.
Proof.
  intros H Hr. induction H as [|c s Hc H IH|pad nl s Hp Hn H IH].
  - destruct Hr as (c & u & -> & Ho). apply open_parts in Ho as (H1 & H2 & H3 & H4 & H5). exists "", c, u. done.
  - destruct IH as (p & d & u & E & Hp & Hd). exists (String c p), d, u. cbn [append all_chars]. rewrite E, Hc. done.
  - exists "", BSL, ((pad +:+ nl +:+ s) +:+ r)%string. done.
Qed.
Lemma r_empty_at at_ p c r : all_chars ws_c p = true -> ws_c c = false -> is_c LF c = false -> is_c CR c = false -> rejects at_ (PRul Rempty_line) (p +:+ String c r).
Proof.
  intros Hp Hc H1 H2. eapply r_rul; [reflexivity|]. apply (r_seq2 sg true _ _ p [] (String c r)); [by apply t_star_cls|].
  apply r_alt; [by apply r_lit1|]. apply r_alt; by apply r_lit2.
Qed.
Lemma r_comment_at at_ p c r : all_chars ws_c p = true -> ws_c c = false -> is_c "#" c = false -> rejects at_ g_comment_line (p +:+ String c r).
Proof.
  intros Hp Hc H1. apply (r_seq2 sg at_ _ _ p [] (String c r)); [by apply t_star_cls|]. apply r_seq1. eapply r_rul; [reflexivity|]. apply r_seq1. by apply r_lit1.
Qed.
Lemma t_break at_ nl r : nl ∈ breaks -> (nl = String CR "" -> stops (is_c LF) r) -> takes at_ PNewline nl [] r.
Proof.
  intros H Hr. unfold breaks in H. apply elem_of_cons in H as [-> |H]; [apply t_alt1, t_lit|].
  apply elem_of_cons in H as [-> |H]; [apply t_alt2; [by apply r_lit1|]; apply t_alt1, t_lit|].
  apply elem_of_list_singleton in H as ->. apply t_alt2; [by apply r_lit1|]. apply t_alt2; [|apply t_lit].
  apply ev_lit_no. cbn [strip append]. specialize (Hr eq_refl). destruct r as [|c r]; [by rewrite Ascii.eqb_refl|]. change (Ascii.eqb LF c = false) in Hr. by rewrite Ascii.eqb_refl, Hr.
Qed.
Lemma sees_break at_ c u : c = LF \/ c = CR -> exists nl r, String c u = (nl +:+ r)%string /\ takes at_ PNewline nl [] r.
Proof.
  clear said_ok. intros [-> | ->].
  - exists (String LF ""), u. split; [done|]. apply t_break; [by left|done].
  - destruct u as [|d u].
    + exists (String CR ""), "". split; [done|]. apply t_break; [by do 2 right; left|done].
    + destruct (Ascii.eqb LF d) eqn:E.
      * apply Ascii.eqb_eq in E as <-. exists (String CR (String LF "")), u. split; [done|]. apply t_break; [by right; left|done].
      * exists (String CR ""), (String d u). split; [done|]. apply t_break; [by do 2 right; left|done].
Qed.
Lemma r_not_break at_ c u b : c = LF \/ c = CR -> rejects at_ (PSeq (PNot PNewline) b) (String c u).
Proof. clear said_ok. intros H. destruct (sees_break at_ c u H) as (nl & r & -> & T). apply r_seq1. eapply ev_not_no. exact T. Qed.
Lemma gap_no_lf s r : gap s -> opens r -> stops (is_c LF) (s +:+ r).
Proof.
  intros H Hr. destruct H as [|c s Hc H|pad nl s Hp Hn H]; [|unfold ws_c in Hc; apply orb_prop in Hc as [Hc|Hc]; apply Ascii.eqb_eq in Hc; by subst c|done].
  destruct Hr as (c & u & -> & Ho). by apply open_parts in Ho as (_ & _ & H & _).
Qed.
Lemma break_start nl u : nl ∈ breaks -> stops ws_c (nl +:+ u).
Proof. intros H. repeat (apply elem_of_cons in H as [-> |H]; [done|]). by apply elem_of_nil in H. Qed.
Lemma t_gap0 at_ s r : gap s -> opens r -> takes at_ (PStar g_arg_ws1) s [] r.
Proof.
  intros H Hr. induction H as [|c s Hc H IH|pad nl s Hp Hn H IH].
  - apply t_star0, r_aws1. by apply opens_aws.
  - apply (t_star sg at_ _ (String c "") s [] []); [|exact IH]. apply t_alt1. by apply t_cls.
  - eapply t_conv; [eapply (t_star sg at_ _ (String BSL (pad +:+ nl)) s [] []); [|exact IH]|cbn [append]; by rewrite append_assoc|done].
    apply t_alt2; [by apply r_cls|].
    eapply t_conv; [eapply (t_seq sg at_ _ _ (String BSL (pad +:+ nl)) "" [] [])|by rewrite append_nil_r|done].
    + apply (t_seq sg at_ _ _ (String BSL "") (pad +:+ nl) [] []); [apply t_lit|].
      apply (t_seq sg at_ _ _ pad nl [] []); [apply t_star_cls; [done|by apply break_start]|].
      apply (t_break at_ nl (s +:+ r) Hn). intros _. by apply gap_no_lf.
    + apply t_star0. destruct (gap_front s r H Hr) as (p & c & u & E & Hw & H1 & H2 & H3 & H4). rewrite E.
      apply r_alt; [by apply r_comment_at|by apply r_empty_at].
Qed.
Lemma t_gap at_ s r : sep s -> opens r -> takes at_ g_arg_ws s [] r.
Proof. intros [H Hs] Hr. apply t_plus; [by apply t_gap0|done]. Qed.
Lemma t_gaps at_ s r : sep s -> opens r -> takes at_ (PStar g_arg_ws) s [] r.
Proof.
  intros H Hr. eapply t_conv; [eapply (t_star sg at_ _ s "" [] []); [by apply t_gap|]|by rewrite append_nil_r|done]. apply t_star0, r_aws. by apply opens_aws.
Qed.
Lemma t_ogap at_ s r : gap s -> opens r -> takes at_ (POpt g_arg_ws) s [] r.
Proof. intros H Hr. destruct s as [|c s]; [apply t_opt0, r_aws; by apply opens_aws|]. apply t_opt, t_gap; [by split|done]. Qed.
Lemma ws_two c : ws_c c = true -> c = " "%char \/ c = TAB.
Proof. unfold ws_c. intros H. apply orb_prop in H as [H|H]; apply Ascii.eqb_eq in H; subst; tauto. Qed.
Lemma sep_front s : sep s -> exists c u, s = String c u /\ (c = " "%char \/ c = TAB \/ c = BSL).
Proof. clear wide said_ok. intros [H Hs]. destruct H as [|c s Hc H|pad nl s Hp Hn H]; [done| |eauto 10]. apply ws_two in Hc. exists c, s. tauto. Qed.
Lemma sep_behind s r : sep s -> behind (s +:+ r).
Proof. clear wide said_ok. intros H. apply sep_front in H as (c & u & -> & H). right. exists c, (u +:+ r)%string. split; [done|]. destruct H as [-> |[-> | ->]]; set_solver. Qed.
Lemma sep_stops s r : sep s -> stops (char_c wide) (s +:+ r).
Proof. clear said_ok. intros H. apply sep_front in H as (c & u & -> & [-> |[-> | ->]]); done. Qed.
Lemma ends_behind r : ends r -> behind r.
Proof. clear wide said_ok. intros [-> |(c & u & -> & H)]; [by left|right; exists c, u; split; [done|]; destruct H as [-> | ->]; set_solver]. Qed.

(** ** Values *)
Lemma t_single_run v r : all_chars sq_c v = true -> takes true (PStar (PSeq (PNot (PCls (fun c => negb (sq_c c)))) PAny)) v [] (String "'" r).
Proof.
  induction v as [|c v IH]; intros H.
  - apply t_star0. apply r_seq1. eapply ev_not_no. by apply ev_cls.
  - cbn in H. apply andb_prop in H as [H1 H2]. apply (t_star sg true _ (String c "") v [] []); [|by apply IH].
    apply (t_seq0 sg true _ _ (String c "") [] []); [apply t_not, r_cls; cbn; by rewrite H1|by apply t_cls].
Qed.
(** proof helper (the token of a single-quoted text) *)
Definition single_tok (v : string) : spair := Pair Rstring ("'" +:+ v +:+ "'") [Pair Rsingle_quoted_inner v []].
Lemma t_single at_ v r : all_chars sq_c v = true -> takes at_ (PRul Rstring) ("'" +:+ v +:+ "'") [single_tok v] r.
Proof.
  intros H. eapply t_conv; [eapply t_rul; [reflexivity|]|reflexivity|reflexivity]. apply t_alt1.
  apply (t_seq sg false _ _ "'" (v +:+ "'") [] [Pair Rsingle_quoted_inner v []]); [apply t_lit|].
  eapply (t_seq sg false _ _ v "'" [Pair Rsingle_quoted_inner v []] []); [|apply t_lit].
  eapply t_conv; [eapply t_rul; [reflexivity|]|reflexivity|reflexivity].
  eapply t_conv; [eapply (t_seq sg true _ _ v "" [] []); [by apply t_single_run|]|by rewrite append_nil_r|done].
  apply t_opt0, r_seq1. eapply r_rul; [reflexivity|]. apply r_seq1. by apply r_lit1.
Qed.
Lemma t_quoted v t : w_quoted v t -> exists tok, p_rule tok = Rstring /\ quoted tok = Ok v /\ forall at_ r, takes at_ (PRul Rstring) t [tok] r.
Proof.
  intros [u H|u H]; [exists (string_tok u)|exists (single_tok u)]; (split; [done|]; split; [done|]); intros at_ r; [by apply t_string|by apply t_single].
Qed.
Lemma quoted_opens v t : w_quoted v t -> opens t.
Proof. intros [u H|u H]; [by exists DQ, (u +:+ Q)%string|by exists "'"%char, (u +:+ "'")%string]. Qed.
Lemma char_open c : char_c wide c = true -> open_c c = true.
Proof.
  intros H. unfold open_c, ws_c. destruct (is_c " " c) eqn:E1; [apply Ascii.eqb_eq in E1; subst; by vm_compute in H|].
  destruct (is_c TAB c) eqn:E2; [apply Ascii.eqb_eq in E2; subst; by vm_compute in H|].
  destruct (is_c BSL c) eqn:E3; [apply Ascii.eqb_eq in E3; subst; by vm_compute in H|].
  destruct (is_c LF c) eqn:E4; [apply Ascii.eqb_eq in E4; subst; by vm_compute in H|].
  destruct (is_c CR c) eqn:E5; [apply Ascii.eqb_eq in E5; subst; by vm_compute in H|].
  destruct (is_c "#" c) eqn:E6; [apply Ascii.eqb_eq in E6; subst; by vm_compute in H|done].
Qed.
Lemma word_opens w : word_ok wide w -> opens w.
Proof. intros [H1 H2]. destruct w as [|c w]; [done|]. cbn in H2. apply andb_prop in H2 as [H2 _]. exists c, w. split; [done|by apply char_open]. Qed.
Lemma name_opens k : name_ok k -> opens k.
Proof.
  intros [H1 H2]. destruct k as [|c k]; [done|]. cbn in H2. apply andb_prop in H2 as [H2 _]. exists c, k. split; [done|].
  clear -H2. destruct c as [[] [] [] [] [] [] [] []]; vm_compute in *; done.
Qed.
Lemma wword_opens v t : w_word wide v t -> opens t.
Proof. intros [u x H|w H]; [by eapply quoted_opens|by apply word_opens]. Qed.
(** A text or a bare word, under any of the rules made for them. *)
Lemma t_word (rv : srule) v t : (exists m, sg rv = (m, PAlt (PRul Rstring) (PPlus (PRul Rchar))) /\ (m = Compound \/ m = Normal)) -> w_word wide v t ->
  forall at_, (at_ = false \/ exists b, sg rv = (Compound, b)) ->
  exists n ns, (text_value (Pair rv t (n :: ns)) n = Ok (VVal v)) /\
  forall r, stops (char_c wide) r -> takes at_ (PRul rv) t [Pair rv t (n :: ns)] r.
Proof.
  intros (m & Hm & Hm2) H at_ Hat.
  assert (Hin : rinside m at_ = false /\ rshown m at_ = true).
  { destruct Hm2 as [-> | ->]; [by destruct at_|]. destruct Hat as [-> |[b Hb]]; [done|]. rewrite Hm in Hb. discriminate. }
  destruct Hin as [Hin Hsh]. destruct H as [u x H|w [Hn Hw]].
  - destruct (t_quoted u x H) as (tok & Hr & Hq & Ht). exists tok, []. split; [unfold text_value; by rewrite Hr, Hq|].
    intros r _. eapply t_conv; [eapply t_rul; [exact Hm|]|reflexivity|by rewrite Hsh]. rewrite Hin. by apply t_alt1.
  - destruct w as [|c w]; [done|]. pose proof Hw as Hw'. cbn [all_chars] in Hw'. apply andb_prop in Hw' as [Hc Hw']. destruct (char_no_quote wide c Hc) as [E1 E2].
    exists (Pair Rchar (String c "") []), (char_toks false w). split; [done|].
    intros r Hr. eapply t_conv; [eapply t_rul; [exact Hm|]|reflexivity|by rewrite Hsh]. rewrite Hin. apply t_alt2.
    + eapply r_rul; [reflexivity|]. apply r_alt; apply r_seq1; by apply r_lit1.
    + by apply (t_chars wide false (String c w)).
Qed.
End OcaHand.

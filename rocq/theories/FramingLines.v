(** Files with ATTR_FRAMING commands. *)
From Coq Require Import Lia.
From Verif Require Export OcaFraming.
From Verif Require Import Condition_proofs Bundle_proofs.

Section FramingLines.
Variable wide : ascii -> bool.
Variable said_ok : string -> bool.
Local Notation sg := (sgrammar wide).
Local Notation takes := (takes sg).
Local Notation rejects := (rejects sg).

(** Proof helper: an attribute and its value. *)
Definition fattr_val (a : fattr) : string * nvalue := (a.1, frames_val a.2).
Lemma scopes_of (m : imap nvalue) : Forall (fun kv => quotable kv.1 = true /\ plain_ok kv.2) m ->
  exists l, m = map (fun kv => (kv.1, VVal kv.2)) l /\ Forall (fun kv => quotable kv.1 = true /\ quotable kv.2 = true) l.
Proof.
  induction 1 as [|[k v] m [Hk (s & E & Hs)] Hm (l & -> & Hl)]; [by exists []|]. cbn in E. subst. exists ((k, s) :: l). split; [done|]. by constructor.
Qed.
Lemma frames_of (m : imap nvalue) : Forall frame_ok m -> exists l, m = map (fun f => (f.1, scopes_val f.2)) l /\ Forall frame_fine l.
Proof.
  induction 1 as [|[k v] m [Hk (s & E & Hn & Hd & Hs)] Hm (l & -> & Hl)]; [by exists []|]. cbn in E. subst. destruct (scopes_of s Hs) as (sl & -> & Hsl).
  exists ((k, sl) :: l). split; [done|]. constructor; [|done]. split; [done|]. split; [by intros E; cbn in E; rewrite E in Hn|]. split; [|done]. by rewrite map_map in Hd.
Qed.
Lemma fattrs_of (m : imap nvalue) : Forall (fun kv => name_ok kv.1 /\ frames_ok kv.2) m -> exists l, m = map fattr_val l /\ Forall fattr_fine l.
Proof.
  induction 1 as [|[k v] m [Hk (fs & E & Hn & Hd & Hs)] Hm (l & -> & Hl)]; [by exists []|]. cbn in E. subst. destruct (frames_of fs Hs) as (fl & -> & Hfl).
  exists ((k, fl) :: l). split; [done|]. constructor; [|done]. split; [done|]. split; [by intros E; cbn in E; rewrite E in Hn|]. split; [|done]. by rewrite map_map in Hd.
Qed.
Lemma fprops_of (m : imap nvalue) : Forall frame_prop_ok m -> exists l : list (string * string),
  m = map (fun p => (p.1, VVal p.2)) l /\ Forall (fun p => fprop_fine (without "frame_" p.1, p.2)) l.
Proof.
  induction 1 as [|[k v] m [Hk (s & E & Hs)] Hm (l & -> & Hl)]; [by exists []|]. cbn in E. subst. exists ((k, s) :: l). split; [done|]. by constructor.
Qed.
(** The text written is the text taken. *)
Lemma cat_ext {A} (f g : A -> string) l : (forall x, x ∈ l -> f x = g x) -> cat_map f l = cat_map g l.
Proof. induction l as [|x l IH]; intros H; [done|]. rewrite !cat_cons, H by (by left). f_equal. apply IH. intros y Hy. apply H. by right. Qed.
Lemma cat_map_map {A B} (f : B -> string) (g : A -> B) l : cat_map f (map g l) = cat_map (fun x => f (g x)) l.
Proof. unfold cat_map. by rewrite map_map. Qed.
Lemma frame_text_is f : f.2 <> [] -> frame_text (f.1, scopes_val f.2) = (nl_spaces 12 +:+ it_text (frame_item f))%string.
Proof.
  intros Hn. unfold frame_text, scopes_val, frame_item, jpair_text. cbn [fst snd it_text]. rewrite <- (object_is 15 11) by (by destruct f.2).
  rewrite !cat_map_map. cbn [snd].
  rewrite (cat_ext _ (fun x => (nl_spaces 16 +:+ it_text (scope_item x))%string)); [rewrite !append_assoc; reflexivity|].
  intros [k v] _. cbn [fst snd scope_item it_text]. unfold jpair_text. rewrite !append_assoc. reflexivity.
Qed.
Lemma fattr_text_is a : fattr_fine a -> framing_attr_text (fattr_val a) = (nl_spaces 8 +:+ fattr_text a)%string.
Proof.
  intros (_ & Hn & _ & Hf). unfold framing_attr_text, fattr_val, fattr_text, frames_val. cbn [fst snd]. rewrite <- (object_is 11 7) by (by destruct a.2).
  rewrite !cat_map_map. rewrite (cat_ext _ (fun x => (nl_spaces 12 +:+ it_text (frame_item x))%string)); [reflexivity|].
  intros f Hin. apply frame_text_is. rewrite Forall_forall in Hf. by destruct (Hf f Hin) as (_ & ? & _).
Qed.
Lemma fattrs_text_is l : forall a, Forall fattr_fine (a :: l) -> (cat_map framing_attr_text (map fattr_val (a :: l)) +:+ NL = NL +:+ sp 8 +:+ fattrs_mid a l)%string.
Proof.
  induction l as [|b l IH]; intros a H; inversion H as [|? ? Ha Hl]; subst; cbn [map fattrs_mid]; rewrite cat_cons, fattr_text_is by done.
  - unfold cat_map. cbn [map String.concat]. rewrite !append_assoc. reflexivity.
  - rewrite append_assoc. change (fattr_val b :: map fattr_val l) with (map fattr_val (b :: l)). rewrite IH by done. rewrite !append_assoc. reflexivity.
Qed.
(** ocafile/mod.rs 403: a property without "frame_". *)
Definition stripped (p : string * string) : string * string := (without "frame_" p.1, p.2).
(** ocafile/mod.rs 401-408: the line of a property. *)
Definition prop_line (kv : string * nvalue) : string := match kv.2 with VVal v => ("        " +:+ without "frame_" kv.1 +:+ "=" +:+ Q +:+ v +:+ Q +:+ " " +:+ String BSL NL)%string | _ => "" end.
Lemma fprops_text_is l : forall p, (cat_map prop_line (map (fun p => (p.1, VVal p.2)) (p :: l)) +:+ sp 4 = sp 8 +:+ fprops_mid (stripped p) (map stripped l) +:+ cont 4)%string.
Proof.
  induction l as [|q l IH]; intros p; cbn [map fprops_mid]; rewrite cat_cons.
  - unfold prop_line, fprop_text, stripped, cont, cat_map. cbn [fst snd map String.concat]. rewrite !append_assoc. reflexivity.
  - rewrite append_assoc. change ((q.1, VVal q.2) :: map (fun p0 => (p0.1, VVal p0.2)) l) with (map (fun p0 : string * string => (p0.1, VVal p0.2)) (q :: l)). rewrite IH.
    unfold prop_line, fprop_text, stripped, cont. cbn [fst snd]. rewrite !append_assoc. reflexivity.
Qed.
Lemma content_attrs_toks l : forall a acc, Forall fattr_fine (a :: l) -> NoDup (map fst acc ++ map fst (a :: l)) ->
  content_attrs (fattrs_toks a l) acc = Ok (acc ++ map (fun b => (b.1, lower_keys (lower_keys (fun v => v)) (frames_val b.2))) (a :: l)).
Proof.
  assert (Rest : forall l acc, Forall fattr_fine l -> NoDup (map fst acc ++ map fst l) ->
    content_attrs (map (fun b => Pair Rattr_framing_key_pairs (sp 8 +:+ fattr_text b +:+ NL) [fattr_tok b]) l) acc =
    Ok (acc ++ map (fun b => (b.1, lower_keys (lower_keys (fun v => v)) (frames_val b.2))) l)).
  { clear. induction l as [|b l IH]; intros acc H Hn; [by rewrite app_nil_r|]. inversion H as [|? ? Hb Hl]; subst. cbn [map content_attrs insert_kvs]. rewrite read_fattr by done.
    cbn [obind fst snd]. rewrite imap_insert_fresh.
    - rewrite IH; [by rewrite <- app_assoc|done|]. rewrite map_app, <- app_assoc. exact Hn.
    - intros Hin. apply NoDup_app in Hn as (_ & Hn & _). apply (Hn _ Hin). by left. }
  intros a acc H Hn. exact (Rest (a :: l) acc H Hn).
Qed.
Lemma content_attrs_skip l t els acc : content_attrs (Pair Rframing_metadata t els :: l) acc = content_attrs l acc.
Proof. reflexivity. Qed.
Lemma content_props_toks a l acc : content_props said_ok (fattrs_toks a l) acc = Ok acc.
Proof. unfold fattrs_toks. cbn [content_props]. induction l as [|b l IH]; [done|]. cbn [map content_props]. exact IH. Qed.
Lemma line_framing c : framing_ok c -> exists t tok o, command_text c = Some t /\ (t +:+ NL = "ADD " +:+ o)%string /\
  (forall r, no_pair wide r -> takes false g_cmd (t +:+ NL) [tok] r) /\ p_text tok = (t +:+ NL)%string /\ instruction said_ok tok = Ok (framing_read c) /\ p_rule tok = Radd /\
  (exists u, t = ("ADD ATTR_FRAMING " +:+ u)%string).
Proof.
  intros [ver ats ps (Ha & Hn & Hats) Hp Hpn Hps]. destruct (fattrs_of ats Hats) as (al & -> & Hal). destruct al as [|a l]; [done|].
  destruct (fprops_of ps Hps) as (pl & -> & Hpl). destruct pl as [|p pl]; [done|]. clear Ha Hp Hats Hps.
  assert (Hpl' : Forall fprop_fine (map stripped (p :: pl))) by (by apply Forall_map).
  set (t := ("ADD " +:+ framing_text (Content (Some (map fattr_val (a :: l))) (Some (map (fun p => (p.1, VVal p.2)) (p :: pl)))))%string).
  assert (Et : (t +:+ NL = "ADD " +:+ fcommand_text (stripped p) (map stripped pl) a l)%string).
  { unfold t, framing_text, fcommand_text. cbn [ct_props ct_attrs]. fold prop_line. rewrite !append_assoc.
    pose proof (fprops_text_is pl p) as E1. pose proof (fattrs_text_is l a Hal) as E2.
    rewrite E2. change ("    ATTRS ")%string with (sp 4 +:+ "ATTRS ")%string. rewrite (append_assoc (sp 4)), <- (append_assoc (cat_map _ _) (sp 4)). rewrite E1. unfold cont. rewrite !append_assoc. reflexivity. }
  exists t, (fcommand_tok (stripped p) (map stripped pl) a l), (fcommand_text (stripped p) (map stripped pl) a l). split; [reflexivity|]. split; [exact Et|].
  inversion Hal as [|? ? Ha Hl]; subst. inversion Hpl' as [|? ? Hp Hpl'']; subst.
  split; [intros r Hr; rewrite Et; by apply t_fcommand|]. split; [by rewrite Et|]. split; [|split; [done|eexists; reflexivity]].
  unfold instruction, fcommand_tok. cbn [p_rule]. unfold add_instruction. cbn [p_inner add_objects overlay_rule]. unfold extract_content. cbn [p_inner content_props].
  rewrite (insert_kvs_fresh _ (map (fun q => (q.1, VVal q.2)) (map stripped (p :: pl))) []); [| |rewrite !map_map; rewrite map_map in Hpn; exact Hpn].
  - cbn [app obind]. rewrite content_props_toks. cbn [obind]. rewrite content_attrs_skip, (content_attrs_toks l a []); [|done|].
    + cbn [app obind add_objects command_of framing_read]. rewrite !map_map. reflexivity.
    + rewrite map_map in Hn. exact Hn.
  - change (fprop_tok (stripped p) :: map fprop_tok (map stripped pl)) with (map fprop_tok (map stripped (p :: pl))) || idtac.
    apply Forall2_fmap_l, Forall2_fmap_r, Forall_Forall2_diag, Forall_true. intros q. apply read_fprop.
Qed.

(** ** What may follow such a command *)
(** Proof helper: what may follow an ATTR_FRAMING command (ocafile.pest 79-80, 185). *)
Definition follows (r : string) : Prop := no_pair wide r /\ rejects false PNewline r.
Lemma follows_end : follows "".
Proof. split; by apply (r_run sg 20). Qed.
Lemma r_newline c r : is_c LF c = false -> is_c CR c = false -> rejects false PNewline (String c r).
Proof. intros H1 H2. apply r_alt; [by apply r_lit1|]. apply r_alt; by apply r_lit2. Qed.
Lemma t_pad pad r : all_chars ws_c pad = true -> stops aws_c r -> takes false (PStar g_arg_ws) pad [] r.
Proof.
  intros Hp Hr. destruct pad as [|c pad]; [by apply t_star0, r_aws|]. eapply t_conv; [apply (t_star sg false _ (String c pad) "" [] [])|by rewrite append_nil_r|done]; [by apply t_aws|].
  by apply t_star0, r_aws.
Qed.
Lemma no_pair_pad pad r : all_chars ws_c pad = true -> stops aws_c r -> rejects false (PRul Rattr_framing_key_pair) r -> no_pair wide (pad +:+ r).
Proof. intros Hp Hr H. eapply r_rul; [reflexivity|]. apply (r_seq2 sg false _ _ pad [] r); [by apply t_pad|]. by apply r_seq1. Qed.
Lemma no_key c r : attr_key_c c = false -> rejects false (PRul Rattr_framing_key_pair) (String c r).
Proof. intros H. eapply r_rul; [reflexivity|]. apply r_seq1. eapply r_rul; [reflexivity|]. by apply r_seq1, r_cls. Qed.
Lemma name_head w : name_ok w -> exists c u, w = String c u /\ aws_c c = false /\ is_c LF c = false /\ is_c CR c = false.
Proof.
  intros [Hk H]. destruct w as [|c k]; [done|]. cbn [all_chars] in H. apply andb_prop in H as [H _]. exists c, k. split; [done|]. revert H. clear.
  destruct c as [[] [] [] [] [] [] [] []]; vm_compute; done.
Qed.
Lemma follows_word w d u : name_ok w -> aws_c d = false -> is_c "=" d = false -> follows (w +:+ " " +:+ String d u).
Proof.
  intros Hw Hd He. destruct (name_head w Hw) as (c & v & Ew & H1 & H2 & H3). split; [|subst; by apply r_newline].
  apply (no_pair_pad ""); [done|by subst|]. eapply r_rul; [reflexivity|]. apply (r_seq2 sg true _ _ w [Pair Rattr_key w []] (" " +:+ String d u)); [by apply t_attr_key|].
  apply (r_seq2 sg true _ _ " " [] (String d u)); [by apply t_oaws|]. apply r_seq1. by apply r_lit1.
Qed.
Lemma follows_meta k v r : k ∈ ["name"; "version"; "precompiler"] -> word_ok wide v -> follows (("--" +:+ k +:+ "=" +:+ v) +:+ r).
Proof.
  intros Hk [Hn Hv]. destruct v as [|c v]; [done|]. cbn [all_chars] in Hv. apply andb_prop in Hv as [Hv _].
  assert (Hw : name_ok ("--" +:+ k)) by (repeat (apply elem_of_cons in Hk as [Hk|Hk]; [by subst|]); by apply elem_of_nil in Hk).
  split; [|by apply r_newline].
  assert (E : (("--" +:+ k +:+ "=" +:+ String c v) +:+ r = ("--" +:+ k) +:+ (("=" +:+ String c v) +:+ r))%string) by (by rewrite !append_assoc). rewrite E.
  apply (no_pair_pad "" (("--" +:+ k) +:+ (("=" +:+ String c v) +:+ r))); [done|done|]. eapply r_rul; [reflexivity|].
  apply (r_seq2 sg true _ _ ("--" +:+ k) [Pair Rattr_key ("--" +:+ k) []] (("=" +:+ String c v) +:+ r)); [by apply t_attr_key|].
  apply (r_seq2 sg true _ _ "" [] (("=" +:+ String c v) +:+ r)); [by apply t_opt0, r_aws|]. rewrite append_assoc. apply (r_seq2 sg true _ _ "=" [] (String c v +:+ r)); [apply t_lit|].
  apply (r_seq2 sg true _ _ "" [] (String c v +:+ r)); [apply t_opt0, r_aws; by apply (char_aws wide)|]. eapply r_rul; [reflexivity|]. apply r_seq1, r_lit1.
  destruct (Ascii.eqb "{" c) eqn:Ec; [apply Ascii.eqb_eq in Ec; subst; by vm_compute in Hv|done].
Qed.
Lemma printable_head c t : printable wide said_ok c -> command_text c = Some t -> exists w d u, t = (w +:+ " " +:+ String d u)%string /\ name_ok w /\ aws_c d = false /\ is_c "=" d = false.
Proof.
  intros H E. assert (Add : forall d u, t = ("ADD" +:+ " " +:+ String d u)%string -> aws_c d = false -> is_c "=" d = false ->
    exists w d u, t = (w +:+ " " +:+ String d u)%string /\ name_ok w /\ aws_c d = false /\ is_c "=" d = false) by (intros d u -> ? ?; by exists "ADD", d, u).
  assert (Rem : forall d u, t = ("REMOVE" +:+ " " +:+ String d u)%string -> aws_c d = false -> is_c "=" d = false ->
    exists w d u, t = (w +:+ " " +:+ String d u)%string /\ name_ok w /\ aws_c d = false /\ is_c "=" d = false) by (intros d u -> ? ?; by exists "REMOVE", d, u).
  destruct H as [l H|v H|ver l ps ats Hl Hn Hps Ha|k ver l ats Hk Hl Ht|k ver ats ps Hk Ht Hps|ver ats ps Ht Hps|ver l ats Hl Ht|ver s ats Hs Hok Ht|l Hn H|v].
  - unfold command_text in E. cbn [cmd_kind cmd_obj cc_attrs cc_props] in E. destruct (types_text l) as [s|]; [|done]. cbn [option_map] in E. injection E as <-. by eapply Add.
  - injection E as <-. by eapply Add.
  - apply (f_equal (unwrap_or "")) in E. cbn [unwrap_or] in E. symmetry in E. by eapply Add; [exact E| |].
  - apply (f_equal (unwrap_or "")) in E. cbn [unwrap_or] in E. symmetry in E. by destruct Hk as [-> | ->]; (eapply Add; [exact E| |]).
  - apply (f_equal (unwrap_or "")) in E. cbn [unwrap_or] in E. symmetry in E. by destruct Hk as [-> |[-> |[-> |[-> |[-> | ->]]]]]; (eapply Add; [exact E| |]).
  - apply (f_equal (unwrap_or "")) in E. cbn [unwrap_or] in E. symmetry in E. by eapply Add; [exact E| |].
  - apply (f_equal (unwrap_or "")) in E. cbn [unwrap_or] in E. symmetry in E. by eapply Add; [exact E| |].
  - apply (f_equal (unwrap_or "")) in E. cbn [unwrap_or] in E. symmetry in E. by eapply Add; [exact E| |].
  - apply (f_equal (unwrap_or "")) in E. cbn [unwrap_or] in E. symmetry in E. by eapply Rem; [exact E| |].
  - apply (f_equal (unwrap_or "")) in E. cbn [unwrap_or] in E. symmetry in E. by eapply Rem; [exact E| |].
Qed.
Lemma char_plain c : char_c wide c = true -> aws_c c = false /\ is_c "=" c = false.
Proof. intros H. split; [by apply (char_aws wide)|]. destruct (is_c "=" c) eqn:E; [apply Ascii.eqb_eq in E; subst; by vm_compute in H|done]. Qed.
Lemma follows_line g t r : gline_ok wide said_ok g -> is_gline g t -> g <> FOne (FBlank "") -> follows (t +:+ NL +:+ r).
Proof.
  intros Hg Ht Hb. destruct g as [f|c].
  - destruct f as [pad s|pad|k v|s|n|c]; cbn [gline_ok fline_ok is_gline is_line] in Hg, Ht.
    + subst t. destruct Hg as [Hp Hs]. split.
      * rewrite !append_assoc. apply no_pair_pad; [done|done|]. by apply no_key.
      * destruct pad as [|c pad]; [by apply r_newline|]. apply r_newline; cbn [all_chars] in Hp; apply andb_prop in Hp as [Hp _]; revert Hp; destruct c as [[] [] [] [] [] [] [] []]; vm_compute; done.
    + subst t. destruct pad as [|c pad]; [done|]. split.
      * apply no_pair_pad; [done|done|]. by apply no_key.
      * apply r_newline; cbn [all_chars] in Hg; apply andb_prop in Hg as [Hp _]; revert Hp; clear; destruct c as [[] [] [] [] [] [] [] []]; vm_compute; done.
    + subst t. destruct Hg as [Hk Hv]. by apply follows_meta.
    + change (t = ("FROM " +:+ s)%string) in Ht. subst t. destruct Hg as [[Hn Hw] _]. destruct s as [|c s]; [done|]. cbn [all_chars] in Hw. apply andb_prop in Hw as [Hw _].
      destruct (char_plain c Hw). by apply (follows_word "FROM" c (s +:+ NL +:+ r)).
    + change (t = ("ADD FLAGGED_ATTRIBUTES " +:+ n)%string) in Ht. subst t. by apply (follows_word "ADD" "F").
    + destruct (printable_head c t Hg Ht) as (w & d & u & -> & Hw & Hd & He). rewrite !append_assoc. by apply (follows_word w d (u +:+ NL +:+ r)).
  - cbn in Hg, Ht. destruct (line_framing c Hg) as (t' & tok & o & E & _ & _ & _ & _ & _ & (u & ->)). rewrite Ht in E. injection E as ->. by apply (follows_word "ADD" "A").
Qed.

(** ** Lines *)
(** Proof helper: the pair of a line (ocafile.pest 1-13, 73-80). *)
Inductive gline_tok : gline -> string -> spair -> Prop :=
| gt_line f t tok : line_tok said_ok f t tok -> gline_tok (FOne f) t tok
| gt_frame c t tok : p_text tok = (t +:+ NL)%string -> instruction said_ok tok = Ok (framing_read c) -> p_rule tok = Radd -> gline_tok (FFraming c) t tok.
Lemma t_gline g t : gline_ok wide said_ok g -> is_gline g t -> exists tok, gline_tok g t tok /\ forall r, (forall c, g = FFraming c -> follows r) -> takes false (g_line) (t +:+ NL) [tok] r.
Proof.
  intros Hg Ht. destruct g as [f|c]; cbn in Hg, Ht.
  - destruct (t_line wide said_ok f t Hg Ht) as (tok & Hl & Htk). exists tok. split; [by constructor|]. intros r _. apply Htk.
  - destruct (line_framing c Hg) as (t' & tok & o & E & Eo & Htk & Htx & Hi & Hr & _). rewrite Ht in E. injection E as <-. exists tok. split; [by constructor|].
    intros r Hf. destruct (Hf c eq_refl) as [H1 H2]. rewrite Eo in *.
    apply t_alt2; [by apply (r_empty wide "")|]. apply t_alt2; [by apply (r_meta wide "")|]. apply t_alt2; [by apply (r_comment wide "")|].
    eapply t_conv; [apply (t_seq sg false _ _ ("ADD " +:+ o) "" [tok] [])|by rewrite append_nil_r|done]; [by apply Htk|]. by apply t_opt0.
Qed.
Lemma t_glines gs ts : Forall (gline_ok wide said_ok) gs -> Forall2 is_gline gs ts -> no_blank_after gs ->
  exists toks, Forall2 (fun gt tok => gline_tok gt.1 gt.2 tok) (zip gs ts) toks /\ takes false (PStar g_line) (file_of ts) toks "".
Proof.
  intros H H2. induction H2 as [|g t gs ts Hgt Hgs IH]; intros Hn; [exists []; split; [constructor|apply t_star0, r_line_end]|].
  inversion H as [|? ? Hg Hr]; subst. assert (Hn' : no_blank_after gs). { destruct g as [f|c]; [exact Hn|]. destruct gs as [|[[]|] gs']; try exact Hn. cbn in Hn. by destruct pad. }
  destruct (IH Hr Hn') as (toks & Ht & Htk). destruct (t_gline g t Hg Hgt) as (tok & Hl & Htl).
  exists (tok :: toks). split; [by constructor|]. unfold file_of. rewrite cat_cons. apply (t_star sg false _ (t +:+ NL) _ [tok] toks); [|done]. apply Htl.
  intros c ->. rewrite append_nil_r. destruct Hgs as [|g' t' gs' ts' Hg' Hgs']; [apply follows_end|]. rewrite cat_cons, append_assoc. inversion Hr as [|? ? Hgo _]; subst. apply follows_line with g'; [done|done|].
  intros ->. exact Hn.
Qed.
Lemma gfile_parse gs ts : Forall (gline_ok wide said_ok) gs -> Forall2 is_gline gs ts -> no_blank_after gs ->
  exists toks, Forall2 (fun gt tok => gline_tok gt.1 gt.2 tok) (zip gs ts) toks /\
    sparse wide Rfile (file_of ts) = PDone (file_of ts) [Pair Rfile (file_of ts) (toks ++ [Pair REOI "" []])] "".
Proof.
  intros H H2 Hn. destruct (t_glines gs ts H H2 Hn) as (toks & Ht & Htk). exists toks. split; [done|].
  assert (T : takes false (PRul Rfile) (file_of ts) [Pair Rfile (file_of ts) (toks ++ [Pair REOI "" []])] "").
  { eapply t_conv; [eapply t_rul; [reflexivity|]| |].
    - eapply (t_seq sg false _ _ (file_of ts) "" toks [Pair REOI "" []]); [exact Htk|]. apply (t_run wide 5). reflexivity.
    - apply append_nil_r.
    - cbn [rshown negb]. by rewrite append_nil_r. }
  unfold Takes.takes in T. rewrite append_nil_r in T. exact (sparse_is wide Rfile _ _ T).
Qed.
Lemma read_glayout gts toks : Forall2 (fun gt tok => gline_tok gt.1 gt.2 tok) gts toks -> Forall (fun gt => gline_ok wide said_ok gt.1) gts -> forall n a,
  read_lines said_ok n (toks ++ [Pair REOI "" []]) a = (let! b := push_all a (gline_commands n gts) in Ok (set_meta (gline_meta (map fst gts) (ast_meta a)) b)).
Proof.
  induction 1 as [|[g t] tok gts toks Hl Hr IH]; intros Hf n a; [by destruct a|]. inversion Hf as [|? ? Hf1 Hf2]; subst. cbn [fst snd] in *.
  inversion Hl as [f t' tok' Hlt E1 E2 E3|c t' tok' Htx Hi Hru E1 E2 E3]; subst.
  - cbn [app read_lines]. inversion Hlt as [pad s t' E1|pad t' E1|k v t' E1|f' c t' tok' E1 E2 E3 E4]; subst; cbn [p_rule].
    + rewrite IH by done. reflexivity.
    + rewrite IH by done. reflexivity.
    + cbn [gline_ok fline_ok] in Hf1. destruct Hf1 as [Hk [Hv _]].
      assert (K : String.eqb k "" = false) by (repeat (apply elem_of_cons in Hk as [Hk|Hk]; [by subst|]); by apply elem_of_nil in Hk).
      assert (V : String.eqb v "" = false) by (by destruct v). cbn [meta_tok p_rule]. unfold meta_line. cbn [p_inner meta_items obind fst snd meta_tok]. rewrite K, V. cbn [obind].
      change (Ast (ast_version a) (ast_commands a) (ast_cmeta a) (<[(k, v).1:=(k, v).2]> (ast_meta a))) with (set_meta (<[k:=v]> (ast_meta a)) a).
      rewrite IH, push_all_meta by done. change (gline_commands n ((FOne (FMeta k v), t) :: gts)) with (gline_commands (S n) gts).
      change (gline_meta (map fst ((FOne (FMeta k v), t) :: gts)) (ast_meta a)) with (gline_meta (map fst gts) (<[k:=v]> (ast_meta a))).
      destruct (push_all a (gline_commands (S n) gts)); reflexivity.
    + assert (F : gline_meta (map fst ((FOne f, p_text tok) :: gts)) (ast_meta a) = gline_meta (map fst gts) (ast_meta a)) by (destruct f; done). rewrite F.
      cbn [gline_commands]. rewrite E1. cbn [push_all].
      assert (R : p_rule tok = Radd \/ p_rule tok = Rremove \/ p_rule tok = Rfrom)
        by (apply elem_of_cons in E4 as [E4|E4]; [tauto|]; apply elem_of_cons in E4 as [E4|E4]; [tauto|]; apply elem_of_list_singleton in E4; tauto).
      destruct R as [R|[R|R]]; rewrite R; rewrite E3; cbn [obind]; (destruct (ast_validate a c); cbn [obind]; [|done|done]); rewrite IH by done; reflexivity.
  - change (gline_meta (map fst ((FFraming c, t) :: gts)) (ast_meta a)) with (gline_meta (map fst gts) (ast_meta a)). cbn [app read_lines gline_commands push_all]. rewrite Hru, Hi. cbn [obind].
    destruct (ast_validate a (framing_read c)); cbn [obind]; [|done|done]. rewrite IH, Htx by done. reflexivity.
Qed.
Theorem glayout gs ts : Forall (gline_ok wide said_ok) gs -> Forall2 is_gline gs ts -> no_blank_after gs ->
  parse_ocafile wide said_ok (file_of ts) = (let! a := push_all ast_new (gline_commands 0 (zip gs ts)) in Ok (with_gline_meta gs a)).
Proof.
  intros H H2 Hn. destruct (gfile_parse gs ts H H2 Hn) as (toks & Ht & E). unfold parse_ocafile. rewrite E. cbn [p_inner].
  rewrite (read_glayout (zip gs ts)); [|done|].
  - rewrite zip_fst by (by eapply Forall2_length). destruct (push_all ast_new (gline_commands 0 (zip gs ts))) as [a| |] eqn:Ep; [|done|done]. cbn [obind].
    unfold with_gline_meta, set_meta. by rewrite (push_all_meta_of _ _ _ Ep).
  - clear -H H2. induction H2 as [|f t fs ts Hft Hfs IH]; [constructor|]. inversion H; subst. constructor; [done|]. by apply IH.
Qed.
End FramingLines.

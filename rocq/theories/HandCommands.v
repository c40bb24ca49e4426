(** Whole commands written by hand, and files of them. *)
From Coq Require Import Lia.
From Verif Require Export HandLines.
From Verif Require Import Condition_proofs Bundle_proofs.

Section HandCommands.
Variable wide : ascii -> bool.
Variable said_ok : string -> bool.
Local Notation sg := (sgrammar wide).
Local Notation takes := (takes sg).
Local Notation rejects := (rejects sg).
Local Notation hand := (hand wide said_ok).

Lemma open_lower d : open_c (lower d) = true -> open_c d = true.
Proof. destruct d as [[] [] [] [] [] [] [] []]; vm_compute; done. Qed.
Lemma spelled_opens t c w : spelled t (String c w) -> open_c c = true -> opens t.
Proof. intros H Hc. destruct (spelled_first t c w H) as (d & u & -> & <- & _). exists d, u. split; [done|by apply open_lower]. Qed.
Lemma blanks_stops tr r : blanks tr -> ends r -> stops (char_c wide) (tr +:+ r).
Proof.
  intros H Hr. unfold blanks in H. destruct tr as [|c tr]; [by apply ends_char|]. cbn [all_chars] in H. apply andb_prop in H as [H _].
  destruct (ws_two c H) as [-> | ->]; done.
Qed.
Lemma lang_opens l : lang_text_ok l -> opens l.
Proof.
  assert (A : forall c, alpha_c c = true -> open_c c = true) by (intros c; destruct c as [[] [] [] [] [] [] [] []]; vm_compute; done).
  intros (a & b & Ha & Hb & [->|(c & d & _ & _ & ->)]); eexists _, _; (split; [reflexivity|by apply A]).
Qed.
Lemma sep_dash s r : sep s -> stops (is_c "-") (s +:+ r).
Proof. intros H. destruct (sep_front s H) as (c & u & -> & [-> |[-> | ->]]); done. Qed.

(** ** Tables *)
(** proof helper *)
Definition table_taken (rs : srule) (m : imap nvalue) (t tr : string) : Prop :=
  exists txt toks, Forall2 (fun tok kv => extract_kv tok = Ok kv) toks m /\
    (forall r, ends r -> takes false (PSeq g_arg_ws (PRul rs)) (t +:+ tr) [Pair rs txt toks] r) /\ forall x, behind (t +:+ x).
Lemma hand_table (apart around : string -> Prop) (value : nvalue -> string -> Prop) (rp rs : srule) (follow : string -> Prop) (m : imap nvalue) (t tr : string) :
  sg rs = (Compound, g_spaced (PRul rp)) -> (forall s, apart s -> sep s /\ forall x, follow (s +:+ x)%string) ->
  (forall k e e' v w, name_ok k -> around e -> around e' -> value v w -> exists tok, says_kv k v tok /\
    forall r, follow r -> takes false (PRul rp) (k +:+ e +:+ "=" +:+ e' +:+ w) [tok] r) ->
  (forall r, ends r -> rejects false (PRul rp) r) -> m <> [] -> w_pairs apart around value m t -> blanks tr -> (forall r, ends r -> follow (tr +:+ r)%string) ->
  table_taken rs m t tr.
Proof.
  intros Hrs Ha Hv Hr Hm H Htr Hf. destruct (pairs_items wide apart around value (PRul rp) follow says_kv Ha Hv m t H) as (l & -> & H2 & Hn & Hs).
  destruct l as [|i l]; [inversion H2; by subst|]. inversion Hn as [|? ? (Hi1 & Hi2 & Hi3) Hl]; subst. inversion Hs as [|? ? Hsi _]; subst.
  exists (it_text i +:+ items_text l +:+ tr)%string, (map it_tok (i :: l)). split; [by apply read_items|]. split.
  - intros r He. apply (t_htable wide (PRul rp) follow); auto.
  - intros x. rewrite items_cons, append_assoc. by apply sep_behind.
Qed.
Lemma table_read rs m t tr : table_taken rs m t tr -> NoDup (map fst m) -> exists txt toks, insert_kvs toks [] = Ok m /\
  (forall r, ends r -> takes false (PSeq g_arg_ws (PRul rs)) (t +:+ tr) [Pair rs txt toks] r) /\ forall x, behind (t +:+ x).
Proof. intros (txt & toks & H & Ht & Hb) Hn. exists txt, toks. split; [|done]. by rewrite (insert_kvs_fresh toks m []). Qed.
Lemma table_plain rs m t tr : sg rs = (Compound, g_spaced (PRul Rkey_pair)) -> m <> [] -> w_pairs sep gap (w_value wide) m t -> blanks tr -> table_taken rs m t tr.
Proof.
  intros Hrs Hm H Htr. eapply (hand_table sep gap (w_value wide) Rkey_pair rs (stops (char_c wide))); [done| |by apply t_hplain| |done|done|done|].
  - intros s Hs. split; [done|]. intros x. by apply sep_stops.
  - intros r Hr. apply r_end_pair; [|done]. eexists. left. reflexivity.
  - intros r Hr. by apply blanks_stops.
Qed.
Lemma table_unit m t tr : m <> [] -> w_pairs space_first gap w_unit m t -> line_rest KUnit tr -> table_taken Runit_attr_key_pairs m t tr.
Proof.
  intros Hm H [Htr Hu]. eapply (hand_table space_first gap w_unit Runit_key_pair Runit_attr_key_pairs unit_follow); [done| |by apply t_hunit| |done|done|done|].
  - intros s (s' & -> & Hs). split; [split; [by apply gap_blank|done]|]. intros x. right. by exists (s' +:+ x)%string.
  - intros r Hr. apply r_end_pair; [|done]. eexists. left. reflexivity.
  - intros r Hr. destruct (Hu eq_refl) as [-> |[s' ->]]; [by left|right; eexists; reflexivity].
Qed.
Lemma table_code m t tr : m <> [] -> w_pairs sep tight (w_code wide) m t -> blanks tr -> table_taken Rattr_entry_code_key_pairs m t tr.
Proof.
  intros Hm H Htr. eapply (hand_table sep tight (w_code wide) Rentry_code_key_pair Rattr_entry_code_key_pairs (stops (char_c wide))); [done| |by apply t_hcode| |done|done|done|].
  - intros s Hs. split; [done|]. intros x. by apply sep_stops.
  - intros r Hr. apply r_end_pair; [|done]. eexists. right. reflexivity.
  - intros r Hr. by apply blanks_stops.
Qed.
Lemma table_entry m t tr : m <> [] -> w_pairs sep tight (w_entry wide) m t -> blanks tr -> table_taken Rattr_entry_key_pairs m t tr.
Proof.
  intros Hm H Htr. eapply (hand_table sep tight (w_entry wide) Rentry_key_pair Rattr_entry_key_pairs (stops (char_c wide))); [done| |by apply t_hentries| |done|done|done|].
  - intros s Hs. split; [done|]. intros x. by apply sep_stops.
  - intros r Hr. apply r_end_pair; [|done]. eexists. right. reflexivity.
  - intros r Hr. by apply blanks_stops.
Qed.

(** ** Commands *)
Lemma t_hkeyed p kw rs txt toks t tr r : spelled p kw -> (forall r, ends r -> takes false (PSeq g_arg_ws (PRul rs)) (t +:+ tr) [Pair rs txt toks] r) -> ends r ->
  takes false (PSeq (PSeq (PLitI kw) g_arg_ws) (PRul rs)) (p +:+ t +:+ tr) [Pair rs txt toks] r.
Proof. intros Hp Ht Hr. apply t_assoc. apply (t_seq sg false _ _ p _ [] _); [by apply t_spelled|by apply Ht]. Qed.
Lemma t_hoverlay n w s p c kw rs txt toks t tr r : spelled n w -> sep s -> spelled p (String c kw) -> open_c c = true ->
  (forall r, ends r -> takes false (PSeq g_arg_ws (PRul rs)) (t +:+ tr) [Pair rs txt toks] r) -> ends r ->
  takes false (g_overlay w (PSeq (PLitI (String c kw)) g_arg_ws) (PRul rs)) (n +:+ s +:+ p +:+ t +:+ tr) [Pair rs txt toks] r.
Proof.
  intros Hn Hs Hp Hc Ht Hr. apply (t_seq sg false _ _ n _ [] _); [by apply t_spelled|]. apply (t_seq sg false _ _ s _ [] _).
  - apply t_gap; [done|]. rewrite append_assoc. apply opens_app. by eapply spelled_opens.
  - by apply t_hkeyed.
Qed.
Lemma t_hlang n w s l s' p c kw rs txt toks t tr r : spelled n w -> sep s -> lang_text_ok l -> sep s' -> spelled p (String c kw) -> open_c c = true ->
  (forall r, ends r -> takes false (PSeq g_arg_ws (PRul rs)) (t +:+ tr) [Pair rs txt toks] r) -> ends r ->
  takes false (g_lang_overlay w (PSeq (PLitI (String c kw)) g_arg_ws) (PRul rs)) (n +:+ s +:+ l +:+ s' +:+ p +:+ t +:+ tr) [Pair Rlang l []; Pair rs txt toks] r.
Proof.
  intros Hn Hs Hl Hs' Hp Hc Ht Hr. apply (t_seq sg false _ _ n _ [] _); [by apply t_spelled|]. apply (t_seq sg false _ _ s _ [] _).
  { apply t_gap; [done|]. rewrite append_assoc. apply opens_app. by apply lang_opens. }
  apply (t_seq sg false _ _ l _ [_] _); [apply t_lang; [done|]; rewrite append_assoc; by apply sep_dash|].
  apply (t_seq sg false _ _ s' _ [] _).
  - apply t_gap; [done|]. rewrite append_assoc. apply opens_app. by eapply spelled_opens.
  - by apply t_hkeyed.
Qed.

(** proof helper *)
Definition hand_line (c : command) (t : string) : Prop := exists tok, (forall r, ends r -> takes false g_cmd t [tok] r) /\ p_text tok = t /\
  instruction said_ok tok = Ok c /\ (p_rule tok = Radd \/ p_rule tok = Rremove \/ p_rule tok = Rfrom) /\ exists d u, t = String d u /\ (lower d = "a" \/ lower d = "r" \/ lower d = "f")%char.
Lemma hand_add c a s o ts : spelled a "add" -> sep s -> opens o -> (forall r, ends r -> takes false g_oca_object o ts r) -> add_instruction said_ok (Pair Radd (a +:+ s +:+ o) ts) = Ok c ->
  hand_line c (a +:+ s +:+ o).
Proof.
  intros Ha Hs Ho Ht Hi. exists (Pair Radd (a +:+ s +:+ o) ts). split; [|split; [done|split; [done|split; [by left|]]]].
  - intros r Hr. apply t_alt2.
    + eapply r_rul; [reflexivity|]. apply r_seq1. rewrite !append_assoc. eapply r_name; [exact Ha|by apply sep_behind|reflexivity..].
    + apply t_alt1. eapply t_conv; [eapply t_rul; [reflexivity|]|reflexivity|reflexivity].
      apply (t_seq sg false _ _ a _ [] _); [by apply t_spelled|]. apply (t_seq sg false _ _ s o [] _); [|by apply Ht]. apply t_gaps; [done|by apply opens_app].
  - destruct (spelled_first _ _ _ Ha) as (d & u & -> & Hd & _). exists d, (u +:+ s +:+ o)%string. split; [done|by left].
Qed.
Lemma hand_remove c a s o ts : spelled a "remove" -> sep s -> opens o -> (forall r, ends r -> takes false g_remove_oca_object o ts r) -> remove_instruction (Pair Rremove (a +:+ s +:+ o) ts) = Ok c ->
  hand_line c (a +:+ s +:+ o).
Proof.
  intros Ha Hs Ho Ht Hi. exists (Pair Rremove (a +:+ s +:+ o) ts). split; [|split; [done|split; [done|split; [by right; left|]]]].
  - intros r Hr. do 3 (apply t_alt2; [eapply r_rul; [reflexivity|]; apply r_seq1; rewrite !append_assoc; eapply r_name; [exact Ha|by apply sep_behind|reflexivity..]|]).
    eapply t_conv; [eapply t_rul; [reflexivity|]|reflexivity|reflexivity].
    apply (t_seq sg false _ _ a _ [] _); [by apply t_spelled|]. apply (t_seq sg false _ _ s o [] _); [|by apply Ht]. apply t_gaps; [done|by apply opens_app].
  - destruct (spelled_first _ _ _ Ha) as (d & u & -> & Hd & _). exists d, (u +:+ s +:+ o)%string. split; [done|by right; left].
Qed.
(** Going past the alternatives of other key words. *)
Tactic Notation "past" hyp(Hn) integer(k) := do k (apply t_alt2; [eapply r_rul; [reflexivity|]; apply r_seq1; rewrite ?append_assoc; eapply r_name; [exact Hn|solve [by apply sep_behind|auto]|reflexivity..]|]).
Ltac rule := eapply t_conv; [eapply t_rul; [reflexivity|]|reflexivity|reflexivity].
Ltac key_open := rewrite ?append_assoc; repeat apply opens_app; eapply spelled_opens; [eassumption|reflexivity].

Lemma h_attrs a s n l t : spelled a "add" -> sep s -> spelled n "attribute" -> table_fine l -> w_pairs sep gap (w_type wide said_ok) l t ->
  hand_line (Command CAdd (OCaptureBase (CapContent (Some l) None None))) (a +:+ s +:+ n +:+ t).
Proof.
  intros Ha Hs Hn [Hl Hnd] H.
  destruct (pairs_items wide sep gap (w_type wide said_ok) (PRul Rattr_pair) (stops (char_c wide)) (says_attr said_ok)
    ltac:(intros s0 Hs0; split; [done|intros x; by apply sep_stops]) (t_hattr wide said_ok) l t H) as (is & -> & H2 & Hx & Hsp).
  assert (Hb : forall x, behind (items_text is +:+ x)).
  { intros x. destruct is as [|i is]; [inversion H2; by subst|]. inversion Hsp; subst. rewrite items_cons, append_assoc. by apply sep_behind. }
  assert (St : forall is r, Forall (hnext wide (PRul Rattr_pair) (stops (char_c wide))) is -> Forall (fun i => sep (it_sep i)) is -> ends r ->
    takes false (PStar (PSeq g_arg_ws (PRul Rattr_pair))) (items_text is) (map it_tok is) r).
  { clear. intros is r H Hs Hr. induction is as [|i is IH]; [apply t_star0, r_seq1, r_aws; by apply ends_aws|].
    inversion H as [|? ? (H1 & [H2 H3] & H4) H5]; subst. inversion Hs as [|? ? Hs1 Hs2]; subst. rewrite items_cons.
    eapply t_conv; [eapply (t_star sg false _ (it_sep i +:+ it_text i) (items_text is) [it_tok i] (map it_tok is)); [|by apply IH]|by rewrite append_assoc|done].
    apply (t_seq sg false _ _ (it_sep i) _ [] _); [apply t_gap; [done|by apply opens_app]|]. apply H3.
    destruct is as [|j is]; [by apply ends_char|]. inversion Hs2; subst. rewrite items_cons, append_assoc. by apply sep_stops. }
  assert (Hne : items_text is <> "").
  { intros E. destruct is as [|i is]; [inversion H2; by subst|]. inversion Hsp as [|? ? [_ Hi] _]; subst. rewrite items_cons in E. by destruct (it_sep i). }
  eapply (hand_add _ a s _ [Pair Rattribute _ [Pair Rattr_pairs (items_text is) (map it_tok is)]]); [done|done|key_open| |].
  - intros r Hr. unfold g_oca_object. cbn [PAlts]. past Hn 2. apply t_alt1. rule.
    apply (t_seq sg false _ _ n _ [] _); [by apply t_spelled|]. apply t_plus; [|done].
    eapply t_conv; [eapply (t_star sg false _ (items_text is) "" [_] []); [|apply t_star0]| |reflexivity].
    + rule. apply t_plus; [|done]. by apply St.
    + eapply r_rul; [reflexivity|]. apply r_seq1, r_seq1, r_aws. by apply ends_aws.
    + by rewrite append_nil_r.
  - unfold add_instruction. cbn [p_inner add_objects attribute_pairs]. rewrite (insert_attrs_fresh said_ok _ l []); [reflexivity| |done].
    apply Forall2_fmap_l. eapply Forall2_impl; [exact H2|]. intros i [k v]. done.
Qed.
Lemma h_class a s n s' v t : spelled a "add" -> sep s -> spelled n "classification" -> sep s' -> w_word wide v t ->
  hand_line (Command CAdd (OCaptureBase (CapContent None (Some [("classification", VVal t)]) None))) (a +:+ s +:+ n +:+ s' +:+ t).
Proof.
  intros Ha Hs Hn Hs' H.
  destruct (t_word wide Rclassification_value v t ltac:(exists Normal; split; [reflexivity|by right]) H false ltac:(by left)) as (q & qs & _ & Ht).
  eapply (hand_add _ a s _ [Pair Rclassification _ [Pair Rclassification_value t (q :: qs)]]); [done|done|key_open| |reflexivity].
  intros r Hr. unfold g_oca_object. cbn [PAlts]. past Hn 3. apply t_alt1. rule.
  apply (t_seq sg false _ _ n _ [] _); [by apply t_spelled|]. apply (t_seq sg false _ _ s' _ [] _); [apply t_gap; [done|apply opens_app; by eapply wword_opens]|].
  apply Ht. by apply ends_char.
Qed.
Lemma h_flagged a s n s' w : spelled a "add" -> sep s -> spelled n "flagged_attributes" -> sep s' -> word_ok wide w ->
  hand_line (Command CAdd (OCaptureBase (CapContent None None (Some [w])))) (a +:+ s +:+ n +:+ s' +:+ w).
Proof.
  intros Ha Hs Hn Hs' Hw. pose proof (word_opens wide w Hw) as Ho.
  destruct (t_word wide Rkey_value w w ltac:(exists Compound; split; [reflexivity|by left]) (wt_bare wide w Hw) false ltac:(by left)) as (q & qs & _ & Ht).
  eapply (hand_add _ a s _ [Pair Rflagged_attrs _ [Pair Rlist_value w [Pair Rkey_value w (q :: qs)]]]); [done|done|key_open| |reflexivity].
  intros r Hr. unfold g_oca_object. cbn [PAlts]. past Hn 16. rule.
  apply (t_seq sg false _ _ n _ [] _); [by apply t_spelled|]. apply (t_seq sg false _ _ s' _ [] _); [apply t_gap; [done|by apply opens_app]|].
  rule. apply t_plus; [|by destruct Hw]. eapply t_conv; [eapply (t_star sg false _ w "" [_] [])|by rewrite append_nil_r|reflexivity].
  + apply (t_seq0 sg false _ _ _ [] _); [apply t_opt0, r_aws, opens_aws; by apply opens_app|].
    eapply t_conv; [apply (t_seq sg false _ _ w "" [Pair Rkey_value w (q :: qs)] []); [apply Ht; by apply ends_char|apply t_opt0, r_aws; by apply ends_aws]|by rewrite append_nil_r|done].
  + apply t_star0. apply (r_seq2 sg false _ _ "" [] r); [apply t_opt0, r_aws; by apply ends_aws|]. apply r_seq1. destruct Hr as [-> |(x & u & -> & [-> | ->])]; by apply (r_run sg 30).
Qed.
Lemma h_plain k w a s n s' p m t r : (k, w) ∈ plain_words -> spelled a "add" -> sep s -> spelled n w -> sep s' -> spelled p "attrs" ->
  table_fine m -> w_table wide k m t -> line_rest k r ->
  hand_line (Command CAdd (OOverlay (OType k "1.1") (Content (Some m) (Some [])))) (a +:+ s +:+ n +:+ s' +:+ p +:+ t +:+ r).
Proof.
  intros Hk Ha Hs Hn Hs' Hp [Hm Hnd] Ht Hr. pose proof Hr as [Hb _].
  unfold plain_words in Hk. repeat (apply elem_of_cons in Hk as [Hk|Hk]; [injection Hk as -> ->|]); [..|by apply elem_of_nil in Hk]; cbn [w_table] in Ht.
  - destruct (table_read _ _ _ _ (table_plain Rattr_key_pairs m t r eq_refl Hm Ht Hb) Hnd) as (txt & toks & Hx & Htk & Hbh).
    eapply (hand_add _ a s _ [Pair Rcharacter_encoding _ [Pair Rattr_key_pairs txt toks]]); [done|done|key_open| |].
    + intros x Hx'. unfold g_oca_object. cbn [PAlts]. past Hn 6. apply t_alt1. rule. by eapply t_hoverlay.
    + unfold add_instruction. cbn [p_inner add_objects overlay_rule]. unfold extract_content. cbn [p_inner content_props content_attrs]. by rewrite Hx.
  - destruct (table_read _ _ _ _ (table_plain Rattr_key_pairs m t r eq_refl Hm Ht Hb) Hnd) as (txt & toks & Hx & Htk & Hbh).
    eapply (hand_add _ a s _ [Pair Rformat _ [Pair Rattr_key_pairs txt toks]]); [done|done|key_open| |].
    + intros x Hx'. unfold g_oca_object. cbn [PAlts]. past Hn 8. apply t_alt1. rule. by eapply t_hoverlay.
    + unfold add_instruction. cbn [p_inner add_objects overlay_rule]. unfold extract_content. cbn [p_inner content_props content_attrs]. by rewrite Hx.
  - destruct (table_read _ _ _ _ (table_plain Rattr_key_pairs m t r eq_refl Hm Ht Hb) Hnd) as (txt & toks & Hx & Htk & Hbh).
    eapply (hand_add _ a s _ [Pair Rconformance _ [Pair Rattr_key_pairs txt toks]]); [done|done|key_open| |].
    + intros x Hx'. unfold g_oca_object. cbn [PAlts]. past Hn 9. apply t_alt1. rule. by eapply t_hoverlay.
    + unfold add_instruction. cbn [p_inner add_objects overlay_rule]. unfold extract_content. cbn [p_inner content_props content_attrs]. by rewrite Hx.
  - destruct (table_read _ _ _ _ (table_plain Rattr_key_pairs m t r eq_refl Hm Ht Hb) Hnd) as (txt & toks & Hx & Htk & Hbh).
    eapply (hand_add _ a s _ [Pair Rconditional _ [Pair Rattr_key_pairs txt toks]]); [done|done|key_open| |].
    + intros x Hx'. unfold g_oca_object. cbn [PAlts]. past Hn 10. apply t_alt1. rule. by eapply t_hoverlay.
    + unfold add_instruction. cbn [p_inner add_objects overlay_rule]. unfold extract_content. cbn [p_inner content_props content_attrs]. by rewrite Hx.
  - destruct (table_read _ _ _ _ (table_plain Rattr_key_pairs m t r eq_refl Hm Ht Hb) Hnd) as (txt & toks & Hx & Htk & Hbh).
    eapply (hand_add _ a s _ [Pair Rcardinality _ [Pair Rattr_key_pairs txt toks]]); [done|done|key_open| |].
    + intros x Hx'. unfold g_oca_object. cbn [PAlts]. past Hn 11. apply t_alt1. rule. by eapply t_hoverlay.
    + unfold add_instruction. cbn [p_inner add_objects overlay_rule]. unfold extract_content. cbn [p_inner content_props content_attrs]. by rewrite Hx.
  - destruct (table_read _ _ _ _ (table_unit m t r Hm Ht Hr) Hnd) as (txt & toks & Hx & Htk & Hbh).
    eapply (hand_add _ a s _ [Pair Runit _ [Pair Runit_attr_key_pairs txt toks]]); [done|done|key_open| |].
    + intros x Hx'. unfold g_oca_object. cbn [PAlts]. past Hn 5. apply t_alt1. rule. by eapply t_hoverlay.
    + unfold add_instruction. cbn [p_inner add_objects overlay_rule]. unfold extract_content. cbn [p_inner content_props content_attrs]. by rewrite Hx.
  - destruct (table_read _ _ _ _ (table_code m t r Hm Ht Hb) Hnd) as (txt & toks & Hx & Htk & Hbh).
    eapply (hand_add _ a s _ [Pair Rentry_code _ [Pair Rattr_entry_code_key_pairs txt toks]]); [done|done|key_open| |].
    + intros x Hx'. unfold g_oca_object. cbn [PAlts]. past Hn 12. apply t_alt1. rule. by eapply t_hoverlay.
    + unfold add_instruction. cbn [p_inner add_objects overlay_rule]. unfold extract_content. cbn [p_inner content_props content_attrs]. by rewrite Hx.
Qed.
Lemma h_encoding a s n s' p m t r : spelled a "add" -> sep s -> spelled n "character_encoding" -> sep s' -> spelled p "props" ->
  table_fine m -> w_pairs sep gap (w_value wide) m t -> blanks r ->
  hand_line (Command CAdd (OOverlay (OType KCharacterEncoding "1.1") (Content (Some []) (Some m)))) (a +:+ s +:+ n +:+ s' +:+ p +:+ t +:+ r).
Proof.
  intros Ha Hs Hn Hs' Hp [Hm Hnd] Ht Hb.
  destruct (table_read _ _ _ _ (table_plain Rprop_key_pairs m t r eq_refl Hm Ht Hb) Hnd) as (txt & toks & Hx & Htk & Hbh).
  eapply (hand_add _ a s _ [Pair Rcharacter_encoding_props _ [Pair Rprop_key_pairs txt toks]]); [done|done|key_open| |].
  - intros x Hx'. unfold g_oca_object. cbn [PAlts]. past Hn 6. apply t_alt2.
    + eapply r_rul; [reflexivity|]. rewrite append_assoc. apply (r_seq2 sg false _ _ n [] _); [by apply t_spelled|].
      rewrite append_assoc. apply (r_seq2 sg false _ _ s' [] _); [apply t_gap; [done|key_open]|].
      rewrite append_assoc. apply r_seq1, r_seq1. rewrite append_assoc. eapply r_name; [exact Hp|apply Hbh|reflexivity..].
    + apply t_alt1. rule. by eapply t_hoverlay.
  - unfold add_instruction. cbn [p_inner add_objects overlay_rule]. unfold extract_content. cbn [p_inner content_props content_attrs]. by rewrite Hx.
Qed.
Lemma h_lang k w a s n s' l s'' p m t r : (k, w) ∈ lang_words -> spelled a "add" -> sep s -> spelled n w -> sep s' -> lang_text_ok l -> sep s'' ->
  spelled p "attrs" -> table_fine m -> w_table wide k m t -> blanks r ->
  hand_line (Command CAdd (OOverlay (OType k "1.1") (Content (Some m) (Some [("lang", VVal l)])))) (a +:+ s +:+ n +:+ s' +:+ l +:+ s'' +:+ p +:+ t +:+ r).
Proof.
  intros Hk Ha Hs Hn Hs' Hl Hs'' Hp [Hm Hnd] Ht Hb.
  unfold lang_words in Hk. repeat (apply elem_of_cons in Hk as [Hk|Hk]; [injection Hk as -> ->|]); [..|by apply elem_of_nil in Hk]; cbn [w_table] in Ht.
  - destruct (table_read _ _ _ _ (table_plain Rattr_key_pairs m t r eq_refl Hm Ht Hb) Hnd) as (txt & toks & Hx & Htk & Hbh).
    eapply (hand_add _ a s _ [Pair Rlabel _ [Pair Rlang l []; Pair Rattr_key_pairs txt toks]]); [done|done|key_open| |].
    + intros x Hx'. unfold g_oca_object. cbn [PAlts]. past Hn 1. apply t_alt1. rule. by eapply t_hlang.
    + unfold add_instruction. cbn [p_inner add_objects overlay_rule]. unfold extract_content. cbn [p_inner content_props content_attrs]. by rewrite Hx.
  - destruct (table_read _ _ _ _ (table_plain Rattr_key_pairs m t r eq_refl Hm Ht Hb) Hnd) as (txt & toks & Hx & Htk & Hbh).
    eapply (hand_add _ a s _ [Pair Rinformation _ [Pair Rlang l []; Pair Rattr_key_pairs txt toks]]); [done|done|key_open| |].
    + intros x Hx'. unfold g_oca_object. cbn [PAlts]. past Hn 4. apply t_alt1. rule. by eapply t_hlang.
    + unfold add_instruction. cbn [p_inner add_objects overlay_rule]. unfold extract_content. cbn [p_inner content_props content_attrs]. by rewrite Hx.
  - destruct (table_read _ _ _ _ (table_entry m t r Hm Ht Hb) Hnd) as (txt & toks & Hx & Htk & Hbh).
    eapply (hand_add _ a s _ [Pair Rentry _ [Pair Rlang l []; Pair Rattr_entry_key_pairs txt toks]]); [done|done|key_open| |].
    + intros x Hx'. unfold g_oca_object. cbn [PAlts]. past Hn 13. apply t_alt1. rule. by eapply t_hlang.
    + unfold add_instruction. cbn [p_inner add_objects overlay_rule]. unfold extract_content. cbn [p_inner content_props content_attrs]. by rewrite Hx.
Qed.
Lemma h_meta a s n s' l s'' p m t r : spelled a "add" -> sep s -> spelled n "meta" -> sep s' -> lang_text_ok l -> sep s'' -> spelled p "props" ->
  table_fine (("lang", VVal l) :: m) -> m <> [] -> w_pairs sep gap (w_value wide) m t -> blanks r ->
  hand_line (Command CAdd (OOverlay (OType KMeta "1.1") (Content (Some []) (Some (("lang", VVal l) :: m))))) (a +:+ s +:+ n +:+ s' +:+ l +:+ s'' +:+ p +:+ t +:+ r).
Proof.
  intros Ha Hs Hn Hs' Hl Hs'' Hp [_ Hnd] Hm Ht Hb.
  destruct (table_plain Rprop_key_pairs m t r eq_refl Hm Ht Hb) as (txt & toks & H2 & Htk & Hbh).
  eapply (hand_add _ a s _ [Pair Rmeta _ [Pair Rlang l []; Pair Rprop_key_pairs txt toks]]); [done|done|key_open| |].
  - intros x Hx'. unfold g_oca_object. cbn [PAlts]. apply t_alt1. rule. by eapply t_hlang.
  - unfold add_instruction. cbn [p_inner add_objects overlay_rule]. unfold extract_content. cbn [p_inner content_props content_attrs]. cbn [imap_insert].
    rewrite (insert_kvs_fresh toks m [("lang", VVal l)]) by done. reflexivity.
Qed.
Lemma h_link a s n s' o u s'' p m t r : spelled a "add" -> sep s -> spelled n "link" -> sep s' -> w_target wide said_ok o u -> sep s'' ->
  spelled p "attrs" -> table_fine m -> w_pairs sep gap (w_value wide) m t -> blanks r ->
  hand_line (Command CAdd (OOverlay (OType KLink "1.1") (Content (Some m) (Some [("target", VRef o)])))) (a +:+ s +:+ n +:+ s' +:+ u +:+ s'' +:+ p +:+ t +:+ r).
Proof.
  intros Ha Hs Hn Hs' Ho Hs'' Hp [Hm Hnd] Ht Hb.
  destruct (table_read _ _ _ _ (table_plain Rattr_key_pairs m t r eq_refl Hm Ht Hb) Hnd) as (txt & toks & Hx & Htk & Hbh).
  assert (T : exists tok, opens u /\ (forall r, takes false g_reference_type u [tok] (s'' +:+ r)) /\
    extract_content said_ok (Pair Rlink (n +:+ s' +:+ u +:+ s'' +:+ p +:+ t +:+ r) [tok; Pair Rattr_key_pairs txt toks]) = Ok (Content (Some m) (Some [("target", VRef o)]))).
  { destruct Ho as [x y H Hy Hok|x y H Hy].
    - exists (Pair Rsaid y []). split; [by apply opens_app; eapply spelled_opens|]. split.
      + intros z. apply t_alt1. apply (t_seq sg false _ _ x y [] _); [by apply t_spelled|]. eapply t_conv; [eapply t_rul; [reflexivity|apply t_chars; [done|by apply sep_stops]]|reflexivity|reflexivity].
      + unfold extract_content. cbn [p_inner content_props content_attrs]. rewrite Hok, Hx. reflexivity.
    - exists (Pair Ralias y []). split; [by apply opens_app; eapply spelled_opens|]. split.
      + intros z. apply t_alt2; [rewrite append_assoc; apply r_seq1; by eapply r_spelled|]. apply (t_seq sg false _ _ x y [] _); [by apply t_spelled|].
        eapply t_conv; [eapply t_rul; [reflexivity|apply t_chars; [done|by apply sep_stops]]|reflexivity|reflexivity].
      + unfold extract_content. cbn [p_inner content_props content_attrs]. rewrite Hx. reflexivity. }
  destruct T as (tok & Hou & Htok & Hc).
  eapply (hand_add _ a s _ [Pair Rlink _ [tok; Pair Rattr_key_pairs txt toks]]); [done|done|key_open| |].
  - intros x Hx'. unfold g_oca_object. cbn [PAlts]. past Hn 14. apply t_alt1. rule.
    apply (t_seq sg false _ _ n _ [] _); [by apply t_spelled|]. apply (t_seq sg false _ _ s' _ [] _); [apply t_gap; [done|rewrite append_assoc; by apply opens_app]|].
    apply (t_seq sg false _ _ u _ [tok] _); [rewrite append_assoc; apply Htok|].
    apply (t_seq sg false _ _ s'' _ [] _); [apply t_gap; [done|key_open]|]. by apply t_hkeyed.
  - unfold add_instruction. cbn [p_inner add_objects overlay_rule]. rewrite Hc. reflexivity.
Qed.
Lemma h_remove a s n l t : spelled a "remove" -> sep s -> spelled n "attribute" -> NoDup l -> w_names l t ->
  hand_line (Command CRemove (OCaptureBase (CapContent (Some (map (fun k => (k, NNull)) l)) None None))) (a +:+ s +:+ n +:+ t).
Proof.
  intros Ha Hs Hn Hl H. assert (Hb : forall r, ends r -> behind (t +:+ r)).
  { intros r Hr. destruct H; [by apply ends_behind|rewrite append_assoc; by apply sep_behind]. }
  eapply (hand_remove _ a s _ [Pair Rremove_attribute _ (map key_tok1 l)]); [done|done|key_open| |].
  - intros r Hr. unfold g_remove_oca_object. cbn [PAlts]. past Hn 2. apply t_alt1. rule.
    apply (t_seq sg false _ _ n _ [] _); [by apply t_spelled|]. clear Hb Hl. induction H as [|s0 k l t H1 H2 H3 IH].
    + apply t_star0. apply r_seq1, r_aws. by apply ends_aws.
    + eapply t_conv; [eapply (t_star sg false _ (s0 +:+ k) t [key_tok1 k] _); [|exact IH]|by rewrite append_assoc|done].
      apply (t_seq sg false _ _ s0 k [] [_]); [apply t_gap; [done|by apply opens_app, name_opens]|]. apply t_attr_key; [done|].
      apply key_stops. left. destruct H3; [by apply ends_behind|rewrite append_assoc; by apply sep_behind].
  - unfold remove_instruction. cbn [p_inner remove_objects]. rewrite fold_names by done. reflexivity.
Qed.
Lemma h_unclass a s n : spelled a "remove" -> sep s -> spelled n "classification" ->
  hand_line (Command CRemove (OCaptureBase (CapContent None (Some [("classification", VVal "")]) None))) (a +:+ s +:+ n).
Proof.
  intros Ha Hs Hn. eapply (hand_remove _ a s _ [Pair Rremove_classification _ []]); [done|done|key_open| |reflexivity].
  intros r Hr. unfold g_remove_oca_object. cbn [PAlts]. pose proof (ends_behind r Hr) as Hb. past Hn 3. apply t_alt1. rule. by apply t_spelled.
Qed.
Lemma h_from a s w : spelled a "from" -> blanks s -> word_ok wide w -> said_ok w = true -> hand_line (Command CFrom (OBundle (BundleContent (RSaid w)))) (a +:+ s +:+ w).
Proof.
  intros Ha Hs Hw Hok. assert (Hws : forall x, stops ws_c (w +:+ x)).
  { intros x. destruct (word_opens wide w Hw) as (c & u & -> & H). by apply open_parts in H as (H & _). }
  exists (Pair Rfrom (a +:+ s +:+ w) [Pair Rfrom_said w (char_toks false w)]). split; [|split; [done|split; [|split; [by right; right|]]]].
  - intros r Hr. apply t_alt1. rule. apply (t_seq sg false _ _ a _ [] _); [by apply t_spelled|]. apply (t_seq sg false _ _ s w [] _); [by apply t_star_cls|].
    rule. apply (t_seq0 sg false _ _ _ [] _); [by apply (t_star_cls sg false _ "")|]. apply t_chars; [done|by apply ends_char].
  - unfold instruction. cbn [p_rule]. unfold from_instruction. cbn [p_inner from_field obind]. by rewrite Hok.
  - destruct (spelled_first _ _ _ Ha) as (d & u & -> & Hd & _). exists d, (u +:+ s +:+ w)%string. split; [done|by right; right].
Qed.
Theorem hand_reads c t : hand c t -> hand_line c t.
Proof.
  intros H. destruct H; [by apply h_attrs|by eapply h_class|by apply h_flagged|by eapply h_plain|by apply h_encoding|by eapply h_lang|by apply h_meta|by apply h_link|by apply h_remove|by apply h_unclass|by apply h_from].
Qed.
End HandCommands.
